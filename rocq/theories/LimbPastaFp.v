(** * GENERATED by tools/gen_limbs.py from
    crypto/core/curves/native/pasta/fp/pasta_fp.go - do not edit by hand.
    One [let] per Go statement; results are returned instead of written through
    the out pointer (which the Go code writes only after its last read). *)
From Coq Require Import ZArith List.
From Verif Require Import LimbBase.
Import ListNotations.
Open Scope Z_scope.

(** pasta/fp/pasta_fp.go:87-92 [cmovznz]. *)
Definition pastafp_cmovznz (arg1 arg2 arg3 : Z) : Z :=
  let x1 := arg1 in
  let x2 := (wand (wsub 0 x1) 18446744073709551615) in
  let x3 := (wor (wand x2 arg3) (wand (wnot x2) arg2)) in
  x3.

(** pasta/fp/pasta_fp.go:105-388 [fiat_pasta_fp_mul]. *)
Definition pastafp_mul (arg1 arg2 : limbs4) : limbs4 :=
  let '(L4 arg1_0 arg1_1 arg1_2 arg1_3) := arg1 in
  let '(L4 arg2_0 arg2_1 arg2_2 arg2_3) := arg2 in
  let x1 := arg1_1 in
  let x2 := arg1_2 in
  let x3 := arg1_3 in
  let x4 := arg1_0 in
  let '(x6, x5) := mul64 x4 arg2_3 in
  let '(x8, x7) := mul64 x4 arg2_2 in
  let '(x10, x9) := mul64 x4 arg2_1 in
  let '(x12, x11) := mul64 x4 arg2_0 in
  let '(x13, x14) := add64 x12 x9 0 in
  let '(x15, x16) := add64 x10 x7 x14 in
  let '(x17, x18) := add64 x8 x5 x16 in
  let x19 := (wadd x18 x6) in
  let '(_, x20) := mul64 x11 11037532056220336127 in
  let '(x23, x22) := mul64 x20 4611686018427387904 in
  let '(x25, x24) := mul64 x20 2469829653914515739 in
  let '(x27, x26) := mul64 x20 11037532056220336129 in
  let '(x28, x29) := add64 x27 x24 0 in
  let x30 := (wadd x29 x25) in
  let '(_, x32) := add64 x11 x26 0 in
  let '(x33, x34) := add64 x13 x28 x32 in
  let '(x35, x36) := add64 x15 x30 x34 in
  let '(x37, x38) := add64 x17 x22 x36 in
  let '(x39, x40) := add64 x19 x23 x38 in
  let '(x42, x41) := mul64 x1 arg2_3 in
  let '(x44, x43) := mul64 x1 arg2_2 in
  let '(x46, x45) := mul64 x1 arg2_1 in
  let '(x48, x47) := mul64 x1 arg2_0 in
  let '(x49, x50) := add64 x48 x45 0 in
  let '(x51, x52) := add64 x46 x43 x50 in
  let '(x53, x54) := add64 x44 x41 x52 in
  let x55 := (wadd x54 x42) in
  let '(x56, x57) := add64 x33 x47 0 in
  let '(x58, x59) := add64 x35 x49 x57 in
  let '(x60, x61) := add64 x37 x51 x59 in
  let '(x62, x63) := add64 x39 x53 x61 in
  let '(x64, x65) := add64 x40 x55 x63 in
  let '(_, x66) := mul64 x56 11037532056220336127 in
  let '(x69, x68) := mul64 x66 4611686018427387904 in
  let '(x71, x70) := mul64 x66 2469829653914515739 in
  let '(x73, x72) := mul64 x66 11037532056220336129 in
  let '(x74, x75) := add64 x73 x70 0 in
  let x76 := (wadd x75 x71) in
  let '(_, x78) := add64 x56 x72 0 in
  let '(x79, x80) := add64 x58 x74 x78 in
  let '(x81, x82) := add64 x60 x76 x80 in
  let '(x83, x84) := add64 x62 x68 x82 in
  let '(x85, x86) := add64 x64 x69 x84 in
  let x87 := (wadd x86 x65) in
  let '(x89, x88) := mul64 x2 arg2_3 in
  let '(x91, x90) := mul64 x2 arg2_2 in
  let '(x93, x92) := mul64 x2 arg2_1 in
  let '(x95, x94) := mul64 x2 arg2_0 in
  let '(x96, x97) := add64 x95 x92 0 in
  let '(x98, x99) := add64 x93 x90 x97 in
  let '(x100, x101) := add64 x91 x88 x99 in
  let x102 := (wadd x101 x89) in
  let '(x103, x104) := add64 x79 x94 0 in
  let '(x105, x106) := add64 x81 x96 x104 in
  let '(x107, x108) := add64 x83 x98 x106 in
  let '(x109, x110) := add64 x85 x100 x108 in
  let '(x111, x112) := add64 x87 x102 x110 in
  let '(_, x113) := mul64 x103 11037532056220336127 in
  let '(x116, x115) := mul64 x113 4611686018427387904 in
  let '(x118, x117) := mul64 x113 2469829653914515739 in
  let '(x120, x119) := mul64 x113 11037532056220336129 in
  let '(x121, x122) := add64 x120 x117 0 in
  let x123 := (wadd x122 x118) in
  let '(_, x125) := add64 x103 x119 0 in
  let '(x126, x127) := add64 x105 x121 x125 in
  let '(x128, x129) := add64 x107 x123 x127 in
  let '(x130, x131) := add64 x109 x115 x129 in
  let '(x132, x133) := add64 x111 x116 x131 in
  let x134 := (wadd x133 x112) in
  let '(x136, x135) := mul64 x3 arg2_3 in
  let '(x138, x137) := mul64 x3 arg2_2 in
  let '(x140, x139) := mul64 x3 arg2_1 in
  let '(x142, x141) := mul64 x3 arg2_0 in
  let '(x143, x144) := add64 x142 x139 0 in
  let '(x145, x146) := add64 x140 x137 x144 in
  let '(x147, x148) := add64 x138 x135 x146 in
  let x149 := (wadd x148 x136) in
  let '(x150, x151) := add64 x126 x141 0 in
  let '(x152, x153) := add64 x128 x143 x151 in
  let '(x154, x155) := add64 x130 x145 x153 in
  let '(x156, x157) := add64 x132 x147 x155 in
  let '(x158, x159) := add64 x134 x149 x157 in
  let '(_, x160) := mul64 x150 11037532056220336127 in
  let '(x163, x162) := mul64 x160 4611686018427387904 in
  let '(x165, x164) := mul64 x160 2469829653914515739 in
  let '(x167, x166) := mul64 x160 11037532056220336129 in
  let '(x168, x169) := add64 x167 x164 0 in
  let x170 := (wadd x169 x165) in
  let '(_, x172) := add64 x150 x166 0 in
  let '(x173, x174) := add64 x152 x168 x172 in
  let '(x175, x176) := add64 x154 x170 x174 in
  let '(x177, x178) := add64 x156 x162 x176 in
  let '(x179, x180) := add64 x158 x163 x178 in
  let x181 := (wadd x180 x159) in
  let '(x182, x183) := sub64 x173 11037532056220336129 0 in
  let '(x184, x185) := sub64 x175 2469829653914515739 x183 in
  let '(x186, x187) := sub64 x177 0 x185 in
  let '(x188, x189) := sub64 x179 4611686018427387904 x187 in
  let '(_, x191) := sub64 x181 0 x189 in
  let x192 := pastafp_cmovznz x191 x182 x173 in
  let x193 := pastafp_cmovznz x191 x184 x175 in
  let x194 := pastafp_cmovznz x191 x186 x177 in
  let x195 := pastafp_cmovznz x191 x188 x179 in
  L4 x192 x193 x194 x195.

(** pasta/fp/pasta_fp.go:400-683 [fiat_pasta_fp_square]. *)
Definition pastafp_square (arg1 : limbs4) : limbs4 :=
  let '(L4 arg1_0 arg1_1 arg1_2 arg1_3) := arg1 in
  let x1 := arg1_1 in
  let x2 := arg1_2 in
  let x3 := arg1_3 in
  let x4 := arg1_0 in
  let '(x6, x5) := mul64 x4 arg1_3 in
  let '(x8, x7) := mul64 x4 arg1_2 in
  let '(x10, x9) := mul64 x4 arg1_1 in
  let '(x12, x11) := mul64 x4 arg1_0 in
  let '(x13, x14) := add64 x12 x9 0 in
  let '(x15, x16) := add64 x10 x7 x14 in
  let '(x17, x18) := add64 x8 x5 x16 in
  let x19 := (wadd x18 x6) in
  let '(_, x20) := mul64 x11 11037532056220336127 in
  let '(x23, x22) := mul64 x20 4611686018427387904 in
  let '(x25, x24) := mul64 x20 2469829653914515739 in
  let '(x27, x26) := mul64 x20 11037532056220336129 in
  let '(x28, x29) := add64 x27 x24 0 in
  let x30 := (wadd x29 x25) in
  let '(_, x32) := add64 x11 x26 0 in
  let '(x33, x34) := add64 x13 x28 x32 in
  let '(x35, x36) := add64 x15 x30 x34 in
  let '(x37, x38) := add64 x17 x22 x36 in
  let '(x39, x40) := add64 x19 x23 x38 in
  let '(x42, x41) := mul64 x1 arg1_3 in
  let '(x44, x43) := mul64 x1 arg1_2 in
  let '(x46, x45) := mul64 x1 arg1_1 in
  let '(x48, x47) := mul64 x1 arg1_0 in
  let '(x49, x50) := add64 x48 x45 0 in
  let '(x51, x52) := add64 x46 x43 x50 in
  let '(x53, x54) := add64 x44 x41 x52 in
  let x55 := (wadd x54 x42) in
  let '(x56, x57) := add64 x33 x47 0 in
  let '(x58, x59) := add64 x35 x49 x57 in
  let '(x60, x61) := add64 x37 x51 x59 in
  let '(x62, x63) := add64 x39 x53 x61 in
  let '(x64, x65) := add64 x40 x55 x63 in
  let '(_, x66) := mul64 x56 11037532056220336127 in
  let '(x69, x68) := mul64 x66 4611686018427387904 in
  let '(x71, x70) := mul64 x66 2469829653914515739 in
  let '(x73, x72) := mul64 x66 11037532056220336129 in
  let '(x74, x75) := add64 x73 x70 0 in
  let x76 := (wadd x75 x71) in
  let '(_, x78) := add64 x56 x72 0 in
  let '(x79, x80) := add64 x58 x74 x78 in
  let '(x81, x82) := add64 x60 x76 x80 in
  let '(x83, x84) := add64 x62 x68 x82 in
  let '(x85, x86) := add64 x64 x69 x84 in
  let x87 := (wadd x86 x65) in
  let '(x89, x88) := mul64 x2 arg1_3 in
  let '(x91, x90) := mul64 x2 arg1_2 in
  let '(x93, x92) := mul64 x2 arg1_1 in
  let '(x95, x94) := mul64 x2 arg1_0 in
  let '(x96, x97) := add64 x95 x92 0 in
  let '(x98, x99) := add64 x93 x90 x97 in
  let '(x100, x101) := add64 x91 x88 x99 in
  let x102 := (wadd x101 x89) in
  let '(x103, x104) := add64 x79 x94 0 in
  let '(x105, x106) := add64 x81 x96 x104 in
  let '(x107, x108) := add64 x83 x98 x106 in
  let '(x109, x110) := add64 x85 x100 x108 in
  let '(x111, x112) := add64 x87 x102 x110 in
  let '(_, x113) := mul64 x103 11037532056220336127 in
  let '(x116, x115) := mul64 x113 4611686018427387904 in
  let '(x118, x117) := mul64 x113 2469829653914515739 in
  let '(x120, x119) := mul64 x113 11037532056220336129 in
  let '(x121, x122) := add64 x120 x117 0 in
  let x123 := (wadd x122 x118) in
  let '(_, x125) := add64 x103 x119 0 in
  let '(x126, x127) := add64 x105 x121 x125 in
  let '(x128, x129) := add64 x107 x123 x127 in
  let '(x130, x131) := add64 x109 x115 x129 in
  let '(x132, x133) := add64 x111 x116 x131 in
  let x134 := (wadd x133 x112) in
  let '(x136, x135) := mul64 x3 arg1_3 in
  let '(x138, x137) := mul64 x3 arg1_2 in
  let '(x140, x139) := mul64 x3 arg1_1 in
  let '(x142, x141) := mul64 x3 arg1_0 in
  let '(x143, x144) := add64 x142 x139 0 in
  let '(x145, x146) := add64 x140 x137 x144 in
  let '(x147, x148) := add64 x138 x135 x146 in
  let x149 := (wadd x148 x136) in
  let '(x150, x151) := add64 x126 x141 0 in
  let '(x152, x153) := add64 x128 x143 x151 in
  let '(x154, x155) := add64 x130 x145 x153 in
  let '(x156, x157) := add64 x132 x147 x155 in
  let '(x158, x159) := add64 x134 x149 x157 in
  let '(_, x160) := mul64 x150 11037532056220336127 in
  let '(x163, x162) := mul64 x160 4611686018427387904 in
  let '(x165, x164) := mul64 x160 2469829653914515739 in
  let '(x167, x166) := mul64 x160 11037532056220336129 in
  let '(x168, x169) := add64 x167 x164 0 in
  let x170 := (wadd x169 x165) in
  let '(_, x172) := add64 x150 x166 0 in
  let '(x173, x174) := add64 x152 x168 x172 in
  let '(x175, x176) := add64 x154 x170 x174 in
  let '(x177, x178) := add64 x156 x162 x176 in
  let '(x179, x180) := add64 x158 x163 x178 in
  let x181 := (wadd x180 x159) in
  let '(x182, x183) := sub64 x173 11037532056220336129 0 in
  let '(x184, x185) := sub64 x175 2469829653914515739 x183 in
  let '(x186, x187) := sub64 x177 0 x185 in
  let '(x188, x189) := sub64 x179 4611686018427387904 x187 in
  let '(_, x191) := sub64 x181 0 x189 in
  let x192 := pastafp_cmovznz x191 x182 x173 in
  let x193 := pastafp_cmovznz x191 x184 x175 in
  let x194 := pastafp_cmovznz x191 x186 x177 in
  let x195 := pastafp_cmovznz x191 x188 x179 in
  L4 x192 x193 x194 x195.

(** pasta/fp/pasta_fp.go:696-735 [fiat_pasta_fp_add]. *)
Definition pastafp_add (arg1 arg2 : limbs4) : limbs4 :=
  let '(L4 arg1_0 arg1_1 arg1_2 arg1_3) := arg1 in
  let '(L4 arg2_0 arg2_1 arg2_2 arg2_3) := arg2 in
  let '(x1, x2) := add64 arg1_0 arg2_0 0 in
  let '(x3, x4) := add64 arg1_1 arg2_1 x2 in
  let '(x5, x6) := add64 arg1_2 arg2_2 x4 in
  let '(x7, x8) := add64 arg1_3 arg2_3 x6 in
  let '(x9, x10) := sub64 x1 11037532056220336129 0 in
  let '(x11, x12) := sub64 x3 2469829653914515739 x10 in
  let '(x13, x14) := sub64 x5 0 x12 in
  let '(x15, x16) := sub64 x7 4611686018427387904 x14 in
  let '(_, x18) := sub64 x8 0 x16 in
  let x19 := pastafp_cmovznz x18 x9 x1 in
  let x20 := pastafp_cmovznz x18 x11 x3 in
  let x21 := pastafp_cmovznz x18 x13 x5 in
  let x22 := pastafp_cmovznz x18 x15 x7 in
  L4 x19 x20 x21 x22.

(** pasta/fp/pasta_fp.go:748-778 [fiat_pasta_fp_sub]. *)
Definition pastafp_sub (arg1 arg2 : limbs4) : limbs4 :=
  let '(L4 arg1_0 arg1_1 arg1_2 arg1_3) := arg1 in
  let '(L4 arg2_0 arg2_1 arg2_2 arg2_3) := arg2 in
  let '(x1, x2) := sub64 arg1_0 arg2_0 0 in
  let '(x3, x4) := sub64 arg1_1 arg2_1 x2 in
  let '(x5, x6) := sub64 arg1_2 arg2_2 x4 in
  let '(x7, x8) := sub64 arg1_3 arg2_3 x6 in
  let x9 := pastafp_cmovznz x8 0 18446744073709551615 in
  let '(x10, x11) := add64 x1 (wand x9 11037532056220336129) 0 in
  let '(x12, x13) := add64 x3 (wand x9 2469829653914515739) x11 in
  let '(x14, x15) := add64 x5 0 x13 in
  let '(x16, _) := add64 x7 (wand x9 4611686018427387904) x15 in
  L4 x10 x12 x14 x16.

(** pasta/fp/pasta_fp.go:790-820 [fiat_pasta_fp_opp]. *)
Definition pastafp_opp (arg1 : limbs4) : limbs4 :=
  let '(L4 arg1_0 arg1_1 arg1_2 arg1_3) := arg1 in
  let '(x1, x2) := sub64 0 arg1_0 0 in
  let '(x3, x4) := sub64 0 arg1_1 x2 in
  let '(x5, x6) := sub64 0 arg1_2 x4 in
  let '(x7, x8) := sub64 0 arg1_3 x6 in
  let x9 := pastafp_cmovznz x8 0 18446744073709551615 in
  let '(x10, x11) := add64 x1 (wand x9 11037532056220336129) 0 in
  let '(x12, x13) := add64 x3 (wand x9 2469829653914515739) x11 in
  let '(x14, x15) := add64 x5 0 x13 in
  let '(x16, _) := add64 x7 (wand x9 4611686018427387904) x15 in
  L4 x10 x12 x14 x16.

(** pasta/fp/pasta_fp.go:832-976 [fiat_pasta_fp_from_montgomery]. *)
Definition pastafp_from_montgomery (arg1 : limbs4) : limbs4 :=
  let '(L4 arg1_0 arg1_1 arg1_2 arg1_3) := arg1 in
  let x1 := arg1_0 in
  let '(_, x2) := mul64 x1 11037532056220336127 in
  let '(x5, x4) := mul64 x2 4611686018427387904 in
  let '(x7, x6) := mul64 x2 2469829653914515739 in
  let '(x9, x8) := mul64 x2 11037532056220336129 in
  let '(x10, x11) := add64 x9 x6 0 in
  let '(_, x13) := add64 x1 x8 0 in
  let '(x14, x15) := add64 0 x10 x13 in
  let '(x16, x17) := add64 x14 arg1_1 0 in
  let '(_, x18) := mul64 x16 11037532056220336127 in
  let '(x21, x20) := mul64 x18 4611686018427387904 in
  let '(x23, x22) := mul64 x18 2469829653914515739 in
  let '(x25, x24) := mul64 x18 11037532056220336129 in
  let '(x26, x27) := add64 x25 x22 0 in
  let '(_, x29) := add64 x16 x24 0 in
  let '(x30, x31) := add64 (wadd x17 (wadd x15 (wadd x11 x7))) x26 x29 in
  let '(x32, x33) := add64 x4 (wadd x27 x23) x31 in
  let '(x34, x35) := add64 x5 x20 x33 in
  let '(x36, x37) := add64 x30 arg1_2 0 in
  let '(x38, x39) := add64 x32 0 x37 in
  let '(x40, x41) := add64 x34 0 x39 in
  let '(_, x42) := mul64 x36 11037532056220336127 in
  let '(x45, x44) := mul64 x42 4611686018427387904 in
  let '(x47, x46) := mul64 x42 2469829653914515739 in
  let '(x49, x48) := mul64 x42 11037532056220336129 in
  let '(x50, x51) := add64 x49 x46 0 in
  let '(_, x53) := add64 x36 x48 0 in
  let '(x54, x55) := add64 x38 x50 x53 in
  let '(x56, x57) := add64 x40 (wadd x51 x47) x55 in
  let '(x58, x59) := add64 (wadd x41 (wadd x35 x21)) x44 x57 in
  let '(x60, x61) := add64 x54 arg1_3 0 in
  let '(x62, x63) := add64 x56 0 x61 in
  let '(x64, x65) := add64 x58 0 x63 in
  let '(_, x66) := mul64 x60 11037532056220336127 in
  let '(x69, x68) := mul64 x66 4611686018427387904 in
  let '(x71, x70) := mul64 x66 2469829653914515739 in
  let '(x73, x72) := mul64 x66 11037532056220336129 in
  let '(x74, x75) := add64 x73 x70 0 in
  let '(_, x77) := add64 x60 x72 0 in
  let '(x78, x79) := add64 x62 x74 x77 in
  let '(x80, x81) := add64 x64 (wadd x75 x71) x79 in
  let '(x82, x83) := add64 (wadd x65 (wadd x59 x45)) x68 x81 in
  let x84 := (wadd x83 x69) in
  let '(x85, x86) := sub64 x78 11037532056220336129 0 in
  let '(x87, x88) := sub64 x80 2469829653914515739 x86 in
  let '(x89, x90) := sub64 x82 0 x88 in
  let '(x91, x92) := sub64 x84 4611686018427387904 x90 in
  let '(_, x94) := sub64 0 0 x92 in
  let x95 := pastafp_cmovznz x94 x85 x78 in
  let x96 := pastafp_cmovznz x94 x87 x80 in
  let x97 := pastafp_cmovznz x94 x89 x82 in
  let x98 := pastafp_cmovznz x94 x91 x84 in
  L4 x95 x96 x97 x98.

(** pasta/fp/pasta_fp.go:988-1240 [fiat_pasta_fp_to_montgomery]. *)
Definition pastafp_to_montgomery (arg1 : limbs4) : limbs4 :=
  let '(L4 arg1_0 arg1_1 arg1_2 arg1_3) := arg1 in
  let x1 := arg1_1 in
  let x2 := arg1_2 in
  let x3 := arg1_3 in
  let x4 := arg1_0 in
  let '(x6, x5) := mul64 x4 679271340751763220 in
  let '(x8, x7) := mul64 x4 8617542898466512152 in
  let '(x10, x9) := mul64 x4 15551789045973377255 in
  let '(x12, x11) := mul64 x4 10122100416058490895 in
  let '(x13, x14) := add64 x12 x9 0 in
  let '(x15, x16) := add64 x10 x7 x14 in
  let '(x17, x18) := add64 x8 x5 x16 in
  let '(_, x19) := mul64 x11 11037532056220336127 in
  let '(x22, x21) := mul64 x19 4611686018427387904 in
  let '(x24, x23) := mul64 x19 2469829653914515739 in
  let '(x26, x25) := mul64 x19 11037532056220336129 in
  let '(x27, x28) := add64 x26 x23 0 in
  let '(_, x30) := add64 x11 x25 0 in
  let '(x31, x32) := add64 x13 x27 x30 in
  let '(x33, x34) := add64 x15 (wadd x28 x24) x32 in
  let '(x35, x36) := add64 x17 x21 x34 in
  let '(x38, x37) := mul64 x1 679271340751763220 in
  let '(x40, x39) := mul64 x1 8617542898466512152 in
  let '(x42, x41) := mul64 x1 15551789045973377255 in
  let '(x44, x43) := mul64 x1 10122100416058490895 in
  let '(x45, x46) := add64 x44 x41 0 in
  let '(x47, x48) := add64 x42 x39 x46 in
  let '(x49, x50) := add64 x40 x37 x48 in
  let '(x51, x52) := add64 x31 x43 0 in
  let '(x53, x54) := add64 x33 x45 x52 in
  let '(x55, x56) := add64 x35 x47 x54 in
  let '(x57, x58) := add64 (wadd (wadd x36 (wadd x18 x6)) x22) x49 x56 in
  let '(_, x59) := mul64 x51 11037532056220336127 in
  let '(x62, x61) := mul64 x59 4611686018427387904 in
  let '(x64, x63) := mul64 x59 2469829653914515739 in
  let '(x66, x65) := mul64 x59 11037532056220336129 in
  let '(x67, x68) := add64 x66 x63 0 in
  let '(_, x70) := add64 x51 x65 0 in
  let '(x71, x72) := add64 x53 x67 x70 in
  let '(x73, x74) := add64 x55 (wadd x68 x64) x72 in
  let '(x75, x76) := add64 x57 x61 x74 in
  let '(x78, x77) := mul64 x2 679271340751763220 in
  let '(x80, x79) := mul64 x2 8617542898466512152 in
  let '(x82, x81) := mul64 x2 15551789045973377255 in
  let '(x84, x83) := mul64 x2 10122100416058490895 in
  let '(x85, x86) := add64 x84 x81 0 in
  let '(x87, x88) := add64 x82 x79 x86 in
  let '(x89, x90) := add64 x80 x77 x88 in
  let '(x91, x92) := add64 x71 x83 0 in
  let '(x93, x94) := add64 x73 x85 x92 in
  let '(x95, x96) := add64 x75 x87 x94 in
  let '(x97, x98) := add64 (wadd (wadd x76 (wadd x58 (wadd x50 x38))) x62) x89 x96 in
  let '(_, x99) := mul64 x91 11037532056220336127 in
  let '(x102, x101) := mul64 x99 4611686018427387904 in
  let '(x104, x103) := mul64 x99 2469829653914515739 in
  let '(x106, x105) := mul64 x99 11037532056220336129 in
  let '(x107, x108) := add64 x106 x103 0 in
  let '(_, x110) := add64 x91 x105 0 in
  let '(x111, x112) := add64 x93 x107 x110 in
  let '(x113, x114) := add64 x95 (wadd x108 x104) x112 in
  let '(x115, x116) := add64 x97 x101 x114 in
  let '(x118, x117) := mul64 x3 679271340751763220 in
  let '(x120, x119) := mul64 x3 8617542898466512152 in
  let '(x122, x121) := mul64 x3 15551789045973377255 in
  let '(x124, x123) := mul64 x3 10122100416058490895 in
  let '(x125, x126) := add64 x124 x121 0 in
  let '(x127, x128) := add64 x122 x119 x126 in
  let '(x129, x130) := add64 x120 x117 x128 in
  let '(x131, x132) := add64 x111 x123 0 in
  let '(x133, x134) := add64 x113 x125 x132 in
  let '(x135, x136) := add64 x115 x127 x134 in
  let '(x137, x138) := add64 (wadd (wadd x116 (wadd x98 (wadd x90 x78))) x102) x129 x136 in
  let '(_, x139) := mul64 x131 11037532056220336127 in
  let '(x142, x141) := mul64 x139 4611686018427387904 in
  let '(x144, x143) := mul64 x139 2469829653914515739 in
  let '(x146, x145) := mul64 x139 11037532056220336129 in
  let '(x147, x148) := add64 x146 x143 0 in
  let '(_, x150) := add64 x131 x145 0 in
  let '(x151, x152) := add64 x133 x147 x150 in
  let '(x153, x154) := add64 x135 (wadd x148 x144) x152 in
  let '(x155, x156) := add64 x137 x141 x154 in
  let x157 := (wadd (wadd x156 (wadd x138 (wadd x130 x118))) x142) in
  let '(x158, x159) := sub64 x151 11037532056220336129 0 in
  let '(x160, x161) := sub64 x153 2469829653914515739 x159 in
  let '(x162, x163) := sub64 x155 0 x161 in
  let '(x164, x165) := sub64 x157 4611686018427387904 x163 in
  let '(_, x167) := sub64 0 0 x165 in
  let x168 := pastafp_cmovznz x167 x158 x151 in
  let x169 := pastafp_cmovznz x167 x160 x153 in
  let x170 := pastafp_cmovznz x167 x162 x155 in
  let x171 := pastafp_cmovznz x167 x164 x157 in
  L4 x168 x169 x170 x171.

(** pasta/fp/pasta_fp.go:1257-1270 [fiat_pasta_fp_selectznz]. *)
Definition pastafp_selectznz (arg1 : Z) (arg2 arg3 : limbs4) : limbs4 :=
  let '(L4 arg2_0 arg2_1 arg2_2 arg2_3) := arg2 in
  let '(L4 arg3_0 arg3_1 arg3_2 arg3_3) := arg3 in
  let x1 := pastafp_cmovznz arg1 arg2_0 arg3_0 in
  let x2 := pastafp_cmovznz arg1 arg2_1 arg3_1 in
  let x3 := pastafp_cmovznz arg1 arg2_2 arg3_2 in
  let x4 := pastafp_cmovznz arg1 arg2_3 arg3_3 in
  L4 x1 x2 x3 x4.

(** pasta/fp/pasta_fp.go:1289-1382 [fiat_pasta_fp_to_bytes]. *)
Definition pastafp_to_bytes (arg1 : limbs4) : list Z :=
  let '(L4 arg1_0 arg1_1 arg1_2 arg1_3) := arg1 in
  let x1 := arg1_3 in
  let x2 := arg1_2 in
  let x3 := arg1_1 in
  let x4 := arg1_0 in
  let x5 := (wand (wbyte x4) 255) in
  let x6 := (wshr x4 8) in
  let x7 := (wand (wbyte x6) 255) in
  let x8 := (wshr x6 8) in
  let x9 := (wand (wbyte x8) 255) in
  let x10 := (wshr x8 8) in
  let x11 := (wand (wbyte x10) 255) in
  let x12 := (wshr x10 8) in
  let x13 := (wand (wbyte x12) 255) in
  let x14 := (wshr x12 8) in
  let x15 := (wand (wbyte x14) 255) in
  let x16 := (wshr x14 8) in
  let x17 := (wand (wbyte x16) 255) in
  let x18 := (wbyte (wshr x16 8)) in
  let x19 := (wand (wbyte x3) 255) in
  let x20 := (wshr x3 8) in
  let x21 := (wand (wbyte x20) 255) in
  let x22 := (wshr x20 8) in
  let x23 := (wand (wbyte x22) 255) in
  let x24 := (wshr x22 8) in
  let x25 := (wand (wbyte x24) 255) in
  let x26 := (wshr x24 8) in
  let x27 := (wand (wbyte x26) 255) in
  let x28 := (wshr x26 8) in
  let x29 := (wand (wbyte x28) 255) in
  let x30 := (wshr x28 8) in
  let x31 := (wand (wbyte x30) 255) in
  let x32 := (wbyte (wshr x30 8)) in
  let x33 := (wand (wbyte x2) 255) in
  let x34 := (wshr x2 8) in
  let x35 := (wand (wbyte x34) 255) in
  let x36 := (wshr x34 8) in
  let x37 := (wand (wbyte x36) 255) in
  let x38 := (wshr x36 8) in
  let x39 := (wand (wbyte x38) 255) in
  let x40 := (wshr x38 8) in
  let x41 := (wand (wbyte x40) 255) in
  let x42 := (wshr x40 8) in
  let x43 := (wand (wbyte x42) 255) in
  let x44 := (wshr x42 8) in
  let x45 := (wand (wbyte x44) 255) in
  let x46 := (wbyte (wshr x44 8)) in
  let x47 := (wand (wbyte x1) 255) in
  let x48 := (wshr x1 8) in
  let x49 := (wand (wbyte x48) 255) in
  let x50 := (wshr x48 8) in
  let x51 := (wand (wbyte x50) 255) in
  let x52 := (wshr x50 8) in
  let x53 := (wand (wbyte x52) 255) in
  let x54 := (wshr x52 8) in
  let x55 := (wand (wbyte x54) 255) in
  let x56 := (wshr x54 8) in
  let x57 := (wand (wbyte x56) 255) in
  let x58 := (wshr x56 8) in
  let x59 := (wand (wbyte x58) 255) in
  let x60 := (wbyte (wshr x58 8)) in
  [x5; x7; x9; x11; x13; x15; x17; x18; x19; x21; x23; x25; x27; x29; x31; x32; x33; x35; x37; x39; x41; x43; x45; x46; x47; x49; x51; x53; x55; x57; x59; x60].

(** pasta/fp/pasta_fp.go:1402-1467 [fiat_pasta_fp_from_bytes]. *)
Definition pastafp_from_bytes (arg1 : list Z) : limbs4 :=
  let x1 := (wshl (nth 31 arg1 0) 56) in
  let x2 := (wshl (nth 30 arg1 0) 48) in
  let x3 := (wshl (nth 29 arg1 0) 40) in
  let x4 := (wshl (nth 28 arg1 0) 32) in
  let x5 := (wshl (nth 27 arg1 0) 24) in
  let x6 := (wshl (nth 26 arg1 0) 16) in
  let x7 := (wshl (nth 25 arg1 0) 8) in
  let x8 := (nth 24 arg1 0) in
  let x9 := (wshl (nth 23 arg1 0) 56) in
  let x10 := (wshl (nth 22 arg1 0) 48) in
  let x11 := (wshl (nth 21 arg1 0) 40) in
  let x12 := (wshl (nth 20 arg1 0) 32) in
  let x13 := (wshl (nth 19 arg1 0) 24) in
  let x14 := (wshl (nth 18 arg1 0) 16) in
  let x15 := (wshl (nth 17 arg1 0) 8) in
  let x16 := (nth 16 arg1 0) in
  let x17 := (wshl (nth 15 arg1 0) 56) in
  let x18 := (wshl (nth 14 arg1 0) 48) in
  let x19 := (wshl (nth 13 arg1 0) 40) in
  let x20 := (wshl (nth 12 arg1 0) 32) in
  let x21 := (wshl (nth 11 arg1 0) 24) in
  let x22 := (wshl (nth 10 arg1 0) 16) in
  let x23 := (wshl (nth 9 arg1 0) 8) in
  let x24 := (nth 8 arg1 0) in
  let x25 := (wshl (nth 7 arg1 0) 56) in
  let x26 := (wshl (nth 6 arg1 0) 48) in
  let x27 := (wshl (nth 5 arg1 0) 40) in
  let x28 := (wshl (nth 4 arg1 0) 32) in
  let x29 := (wshl (nth 3 arg1 0) 24) in
  let x30 := (wshl (nth 2 arg1 0) 16) in
  let x31 := (wshl (nth 1 arg1 0) 8) in
  let x32 := (nth 0 arg1 0) in
  let x33 := (wadd x31 x32) in
  let x34 := (wadd x30 x33) in
  let x35 := (wadd x29 x34) in
  let x36 := (wadd x28 x35) in
  let x37 := (wadd x27 x36) in
  let x38 := (wadd x26 x37) in
  let x39 := (wadd x25 x38) in
  let x40 := (wadd x23 x24) in
  let x41 := (wadd x22 x40) in
  let x42 := (wadd x21 x41) in
  let x43 := (wadd x20 x42) in
  let x44 := (wadd x19 x43) in
  let x45 := (wadd x18 x44) in
  let x46 := (wadd x17 x45) in
  let x47 := (wadd x15 x16) in
  let x48 := (wadd x14 x47) in
  let x49 := (wadd x13 x48) in
  let x50 := (wadd x12 x49) in
  let x51 := (wadd x11 x50) in
  let x52 := (wadd x10 x51) in
  let x53 := (wadd x9 x52) in
  let x54 := (wadd x7 x8) in
  let x55 := (wadd x6 x54) in
  let x56 := (wadd x5 x55) in
  let x57 := (wadd x4 x56) in
  let x58 := (wadd x3 x57) in
  let x59 := (wadd x2 x58) in
  let x60 := (wadd x1 x59) in
  L4 x39 x46 x53 x60.

