(** * GENERATED by tools/gen_limbs.py from
    crypto/core/curves/native/p256/fp/p256_fp.go - do not edit by hand.
    One [let] per Go statement; results are returned instead of written through
    the out pointer (which the Go code writes only after its last read). *)
From Coq Require Import ZArith List.
From Verif Require Import LimbBase.
Import ListNotations.
Open Scope Z_scope.

(** p256/fp/p256_fp.go:70-74 [cmovznz]. *)
Definition p256fp_cmovznz (arg1 arg2 arg3 : Z) : Z :=
  let x1 := (wmul arg1 18446744073709551615) in
  let x2 := (wor (wand x1 arg3) (wand (wnot x1) arg2)) in
  x2.

(** p256/fp/p256_fp.go:87-362 [Mul]. *)
Definition p256fp_mul (arg1 arg2 : limbs4) : limbs4 :=
  let '(L4 arg1_0 arg1_1 arg1_2 arg1_3) := arg1 in
  let '(L4 arg2_0 arg2_1 arg2_2 arg2_3) := arg2 in
  let x1 := arg1_1 in
  let x2 := arg1_2 in
  let x3 := arg1_3 in
  let x4 := arg1_0 in
  let '(x6, x5) := mul64 x4 arg2_3 in
  let '(x8, x7) := mul64 x4 arg2_2 in
  let '(x10, x9) := mul64 x4 arg2_1 in
  let '(x12, x11) := mul64 x4 arg2_0 in
  let '(x13, x14) := add64 x12 x9 0 in
  let '(x15, x16) := add64 x10 x7 x14 in
  let '(x17, x18) := add64 x8 x5 x16 in
  let x19 := (wadd x18 x6) in
  let '(x21, x20) := mul64 x11 18446744069414584321 in
  let '(x23, x22) := mul64 x11 4294967295 in
  let '(x25, x24) := mul64 x11 18446744073709551615 in
  let '(x26, x27) := add64 x25 x22 0 in
  let x28 := (wadd x27 x23) in
  let '(_, x30) := add64 x11 x24 0 in
  let '(x31, x32) := add64 x13 x26 x30 in
  let '(x33, x34) := add64 x15 x28 x32 in
  let '(x35, x36) := add64 x17 x20 x34 in
  let '(x37, x38) := add64 x19 x21 x36 in
  let '(x40, x39) := mul64 x1 arg2_3 in
  let '(x42, x41) := mul64 x1 arg2_2 in
  let '(x44, x43) := mul64 x1 arg2_1 in
  let '(x46, x45) := mul64 x1 arg2_0 in
  let '(x47, x48) := add64 x46 x43 0 in
  let '(x49, x50) := add64 x44 x41 x48 in
  let '(x51, x52) := add64 x42 x39 x50 in
  let x53 := (wadd x52 x40) in
  let '(x54, x55) := add64 x31 x45 0 in
  let '(x56, x57) := add64 x33 x47 x55 in
  let '(x58, x59) := add64 x35 x49 x57 in
  let '(x60, x61) := add64 x37 x51 x59 in
  let '(x62, x63) := add64 x38 x53 x61 in
  let '(x65, x64) := mul64 x54 18446744069414584321 in
  let '(x67, x66) := mul64 x54 4294967295 in
  let '(x69, x68) := mul64 x54 18446744073709551615 in
  let '(x70, x71) := add64 x69 x66 0 in
  let x72 := (wadd x71 x67) in
  let '(_, x74) := add64 x54 x68 0 in
  let '(x75, x76) := add64 x56 x70 x74 in
  let '(x77, x78) := add64 x58 x72 x76 in
  let '(x79, x80) := add64 x60 x64 x78 in
  let '(x81, x82) := add64 x62 x65 x80 in
  let x83 := (wadd x82 x63) in
  let '(x85, x84) := mul64 x2 arg2_3 in
  let '(x87, x86) := mul64 x2 arg2_2 in
  let '(x89, x88) := mul64 x2 arg2_1 in
  let '(x91, x90) := mul64 x2 arg2_0 in
  let '(x92, x93) := add64 x91 x88 0 in
  let '(x94, x95) := add64 x89 x86 x93 in
  let '(x96, x97) := add64 x87 x84 x95 in
  let x98 := (wadd x97 x85) in
  let '(x99, x100) := add64 x75 x90 0 in
  let '(x101, x102) := add64 x77 x92 x100 in
  let '(x103, x104) := add64 x79 x94 x102 in
  let '(x105, x106) := add64 x81 x96 x104 in
  let '(x107, x108) := add64 x83 x98 x106 in
  let '(x110, x109) := mul64 x99 18446744069414584321 in
  let '(x112, x111) := mul64 x99 4294967295 in
  let '(x114, x113) := mul64 x99 18446744073709551615 in
  let '(x115, x116) := add64 x114 x111 0 in
  let x117 := (wadd x116 x112) in
  let '(_, x119) := add64 x99 x113 0 in
  let '(x120, x121) := add64 x101 x115 x119 in
  let '(x122, x123) := add64 x103 x117 x121 in
  let '(x124, x125) := add64 x105 x109 x123 in
  let '(x126, x127) := add64 x107 x110 x125 in
  let x128 := (wadd x127 x108) in
  let '(x130, x129) := mul64 x3 arg2_3 in
  let '(x132, x131) := mul64 x3 arg2_2 in
  let '(x134, x133) := mul64 x3 arg2_1 in
  let '(x136, x135) := mul64 x3 arg2_0 in
  let '(x137, x138) := add64 x136 x133 0 in
  let '(x139, x140) := add64 x134 x131 x138 in
  let '(x141, x142) := add64 x132 x129 x140 in
  let x143 := (wadd x142 x130) in
  let '(x144, x145) := add64 x120 x135 0 in
  let '(x146, x147) := add64 x122 x137 x145 in
  let '(x148, x149) := add64 x124 x139 x147 in
  let '(x150, x151) := add64 x126 x141 x149 in
  let '(x152, x153) := add64 x128 x143 x151 in
  let '(x155, x154) := mul64 x144 18446744069414584321 in
  let '(x157, x156) := mul64 x144 4294967295 in
  let '(x159, x158) := mul64 x144 18446744073709551615 in
  let '(x160, x161) := add64 x159 x156 0 in
  let x162 := (wadd x161 x157) in
  let '(_, x164) := add64 x144 x158 0 in
  let '(x165, x166) := add64 x146 x160 x164 in
  let '(x167, x168) := add64 x148 x162 x166 in
  let '(x169, x170) := add64 x150 x154 x168 in
  let '(x171, x172) := add64 x152 x155 x170 in
  let x173 := (wadd x172 x153) in
  let '(x174, x175) := sub64 x165 18446744073709551615 0 in
  let '(x176, x177) := sub64 x167 4294967295 x175 in
  let '(x178, x179) := sub64 x169 0 x177 in
  let '(x180, x181) := sub64 x171 18446744069414584321 x179 in
  let '(_, x183) := sub64 x173 0 x181 in
  let x184 := p256fp_cmovznz x183 x174 x165 in
  let x185 := p256fp_cmovznz x183 x176 x167 in
  let x186 := p256fp_cmovznz x183 x178 x169 in
  let x187 := p256fp_cmovznz x183 x180 x171 in
  L4 x184 x185 x186 x187.

(** p256/fp/p256_fp.go:374-649 [Square]. *)
Definition p256fp_square (arg1 : limbs4) : limbs4 :=
  let '(L4 arg1_0 arg1_1 arg1_2 arg1_3) := arg1 in
  let x1 := arg1_1 in
  let x2 := arg1_2 in
  let x3 := arg1_3 in
  let x4 := arg1_0 in
  let '(x6, x5) := mul64 x4 arg1_3 in
  let '(x8, x7) := mul64 x4 arg1_2 in
  let '(x10, x9) := mul64 x4 arg1_1 in
  let '(x12, x11) := mul64 x4 arg1_0 in
  let '(x13, x14) := add64 x12 x9 0 in
  let '(x15, x16) := add64 x10 x7 x14 in
  let '(x17, x18) := add64 x8 x5 x16 in
  let x19 := (wadd x18 x6) in
  let '(x21, x20) := mul64 x11 18446744069414584321 in
  let '(x23, x22) := mul64 x11 4294967295 in
  let '(x25, x24) := mul64 x11 18446744073709551615 in
  let '(x26, x27) := add64 x25 x22 0 in
  let x28 := (wadd x27 x23) in
  let '(_, x30) := add64 x11 x24 0 in
  let '(x31, x32) := add64 x13 x26 x30 in
  let '(x33, x34) := add64 x15 x28 x32 in
  let '(x35, x36) := add64 x17 x20 x34 in
  let '(x37, x38) := add64 x19 x21 x36 in
  let '(x40, x39) := mul64 x1 arg1_3 in
  let '(x42, x41) := mul64 x1 arg1_2 in
  let '(x44, x43) := mul64 x1 arg1_1 in
  let '(x46, x45) := mul64 x1 arg1_0 in
  let '(x47, x48) := add64 x46 x43 0 in
  let '(x49, x50) := add64 x44 x41 x48 in
  let '(x51, x52) := add64 x42 x39 x50 in
  let x53 := (wadd x52 x40) in
  let '(x54, x55) := add64 x31 x45 0 in
  let '(x56, x57) := add64 x33 x47 x55 in
  let '(x58, x59) := add64 x35 x49 x57 in
  let '(x60, x61) := add64 x37 x51 x59 in
  let '(x62, x63) := add64 x38 x53 x61 in
  let '(x65, x64) := mul64 x54 18446744069414584321 in
  let '(x67, x66) := mul64 x54 4294967295 in
  let '(x69, x68) := mul64 x54 18446744073709551615 in
  let '(x70, x71) := add64 x69 x66 0 in
  let x72 := (wadd x71 x67) in
  let '(_, x74) := add64 x54 x68 0 in
  let '(x75, x76) := add64 x56 x70 x74 in
  let '(x77, x78) := add64 x58 x72 x76 in
  let '(x79, x80) := add64 x60 x64 x78 in
  let '(x81, x82) := add64 x62 x65 x80 in
  let x83 := (wadd x82 x63) in
  let '(x85, x84) := mul64 x2 arg1_3 in
  let '(x87, x86) := mul64 x2 arg1_2 in
  let '(x89, x88) := mul64 x2 arg1_1 in
  let '(x91, x90) := mul64 x2 arg1_0 in
  let '(x92, x93) := add64 x91 x88 0 in
  let '(x94, x95) := add64 x89 x86 x93 in
  let '(x96, x97) := add64 x87 x84 x95 in
  let x98 := (wadd x97 x85) in
  let '(x99, x100) := add64 x75 x90 0 in
  let '(x101, x102) := add64 x77 x92 x100 in
  let '(x103, x104) := add64 x79 x94 x102 in
  let '(x105, x106) := add64 x81 x96 x104 in
  let '(x107, x108) := add64 x83 x98 x106 in
  let '(x110, x109) := mul64 x99 18446744069414584321 in
  let '(x112, x111) := mul64 x99 4294967295 in
  let '(x114, x113) := mul64 x99 18446744073709551615 in
  let '(x115, x116) := add64 x114 x111 0 in
  let x117 := (wadd x116 x112) in
  let '(_, x119) := add64 x99 x113 0 in
  let '(x120, x121) := add64 x101 x115 x119 in
  let '(x122, x123) := add64 x103 x117 x121 in
  let '(x124, x125) := add64 x105 x109 x123 in
  let '(x126, x127) := add64 x107 x110 x125 in
  let x128 := (wadd x127 x108) in
  let '(x130, x129) := mul64 x3 arg1_3 in
  let '(x132, x131) := mul64 x3 arg1_2 in
  let '(x134, x133) := mul64 x3 arg1_1 in
  let '(x136, x135) := mul64 x3 arg1_0 in
  let '(x137, x138) := add64 x136 x133 0 in
  let '(x139, x140) := add64 x134 x131 x138 in
  let '(x141, x142) := add64 x132 x129 x140 in
  let x143 := (wadd x142 x130) in
  let '(x144, x145) := add64 x120 x135 0 in
  let '(x146, x147) := add64 x122 x137 x145 in
  let '(x148, x149) := add64 x124 x139 x147 in
  let '(x150, x151) := add64 x126 x141 x149 in
  let '(x152, x153) := add64 x128 x143 x151 in
  let '(x155, x154) := mul64 x144 18446744069414584321 in
  let '(x157, x156) := mul64 x144 4294967295 in
  let '(x159, x158) := mul64 x144 18446744073709551615 in
  let '(x160, x161) := add64 x159 x156 0 in
  let x162 := (wadd x161 x157) in
  let '(_, x164) := add64 x144 x158 0 in
  let '(x165, x166) := add64 x146 x160 x164 in
  let '(x167, x168) := add64 x148 x162 x166 in
  let '(x169, x170) := add64 x150 x154 x168 in
  let '(x171, x172) := add64 x152 x155 x170 in
  let x173 := (wadd x172 x153) in
  let '(x174, x175) := sub64 x165 18446744073709551615 0 in
  let '(x176, x177) := sub64 x167 4294967295 x175 in
  let '(x178, x179) := sub64 x169 0 x177 in
  let '(x180, x181) := sub64 x171 18446744069414584321 x179 in
  let '(_, x183) := sub64 x173 0 x181 in
  let x184 := p256fp_cmovznz x183 x174 x165 in
  let x185 := p256fp_cmovznz x183 x176 x167 in
  let x186 := p256fp_cmovznz x183 x178 x169 in
  let x187 := p256fp_cmovznz x183 x180 x171 in
  L4 x184 x185 x186 x187.

(** p256/fp/p256_fp.go:662-701 [Add]. *)
Definition p256fp_add (arg1 arg2 : limbs4) : limbs4 :=
  let '(L4 arg1_0 arg1_1 arg1_2 arg1_3) := arg1 in
  let '(L4 arg2_0 arg2_1 arg2_2 arg2_3) := arg2 in
  let '(x1, x2) := add64 arg1_0 arg2_0 0 in
  let '(x3, x4) := add64 arg1_1 arg2_1 x2 in
  let '(x5, x6) := add64 arg1_2 arg2_2 x4 in
  let '(x7, x8) := add64 arg1_3 arg2_3 x6 in
  let '(x9, x10) := sub64 x1 18446744073709551615 0 in
  let '(x11, x12) := sub64 x3 4294967295 x10 in
  let '(x13, x14) := sub64 x5 0 x12 in
  let '(x15, x16) := sub64 x7 18446744069414584321 x14 in
  let '(_, x18) := sub64 x8 0 x16 in
  let x19 := p256fp_cmovznz x18 x9 x1 in
  let x20 := p256fp_cmovznz x18 x11 x3 in
  let x21 := p256fp_cmovznz x18 x13 x5 in
  let x22 := p256fp_cmovznz x18 x15 x7 in
  L4 x19 x20 x21 x22.

(** p256/fp/p256_fp.go:714-744 [Sub]. *)
Definition p256fp_sub (arg1 arg2 : limbs4) : limbs4 :=
  let '(L4 arg1_0 arg1_1 arg1_2 arg1_3) := arg1 in
  let '(L4 arg2_0 arg2_1 arg2_2 arg2_3) := arg2 in
  let '(x1, x2) := sub64 arg1_0 arg2_0 0 in
  let '(x3, x4) := sub64 arg1_1 arg2_1 x2 in
  let '(x5, x6) := sub64 arg1_2 arg2_2 x4 in
  let '(x7, x8) := sub64 arg1_3 arg2_3 x6 in
  let x9 := p256fp_cmovznz x8 0 18446744073709551615 in
  let '(x10, x11) := add64 x1 x9 0 in
  let '(x12, x13) := add64 x3 (wand x9 4294967295) x11 in
  let '(x14, x15) := add64 x5 0 x13 in
  let '(x16, _) := add64 x7 (wand x9 18446744069414584321) x15 in
  L4 x10 x12 x14 x16.

(** p256/fp/p256_fp.go:756-786 [Opp]. *)
Definition p256fp_opp (arg1 : limbs4) : limbs4 :=
  let '(L4 arg1_0 arg1_1 arg1_2 arg1_3) := arg1 in
  let '(x1, x2) := sub64 0 arg1_0 0 in
  let '(x3, x4) := sub64 0 arg1_1 x2 in
  let '(x5, x6) := sub64 0 arg1_2 x4 in
  let '(x7, x8) := sub64 0 arg1_3 x6 in
  let x9 := p256fp_cmovznz x8 0 18446744073709551615 in
  let '(x10, x11) := add64 x1 x9 0 in
  let '(x12, x13) := add64 x3 (wand x9 4294967295) x11 in
  let '(x14, x15) := add64 x5 0 x13 in
  let '(x16, _) := add64 x7 (wand x9 18446744069414584321) x15 in
  L4 x10 x12 x14 x16.

(** p256/fp/p256_fp.go:798-934 [FromMontgomery]. *)
Definition p256fp_from_montgomery (arg1 : limbs4) : limbs4 :=
  let '(L4 arg1_0 arg1_1 arg1_2 arg1_3) := arg1 in
  let x1 := arg1_0 in
  let '(x3, x2) := mul64 x1 18446744069414584321 in
  let '(x5, x4) := mul64 x1 4294967295 in
  let '(x7, x6) := mul64 x1 18446744073709551615 in
  let '(x8, x9) := add64 x7 x4 0 in
  let '(_, x11) := add64 x1 x6 0 in
  let '(x12, x13) := add64 0 x8 x11 in
  let '(x14, x15) := add64 x12 arg1_1 0 in
  let '(x17, x16) := mul64 x14 18446744069414584321 in
  let '(x19, x18) := mul64 x14 4294967295 in
  let '(x21, x20) := mul64 x14 18446744073709551615 in
  let '(x22, x23) := add64 x21 x18 0 in
  let '(_, x25) := add64 x14 x20 0 in
  let '(x26, x27) := add64 (wadd x15 (wadd x13 (wadd x9 x5))) x22 x25 in
  let '(x28, x29) := add64 x2 (wadd x23 x19) x27 in
  let '(x30, x31) := add64 x3 x16 x29 in
  let '(x32, x33) := add64 x26 arg1_2 0 in
  let '(x34, x35) := add64 x28 0 x33 in
  let '(x36, x37) := add64 x30 0 x35 in
  let '(x39, x38) := mul64 x32 18446744069414584321 in
  let '(x41, x40) := mul64 x32 4294967295 in
  let '(x43, x42) := mul64 x32 18446744073709551615 in
  let '(x44, x45) := add64 x43 x40 0 in
  let '(_, x47) := add64 x32 x42 0 in
  let '(x48, x49) := add64 x34 x44 x47 in
  let '(x50, x51) := add64 x36 (wadd x45 x41) x49 in
  let '(x52, x53) := add64 (wadd x37 (wadd x31 x17)) x38 x51 in
  let '(x54, x55) := add64 x48 arg1_3 0 in
  let '(x56, x57) := add64 x50 0 x55 in
  let '(x58, x59) := add64 x52 0 x57 in
  let '(x61, x60) := mul64 x54 18446744069414584321 in
  let '(x63, x62) := mul64 x54 4294967295 in
  let '(x65, x64) := mul64 x54 18446744073709551615 in
  let '(x66, x67) := add64 x65 x62 0 in
  let '(_, x69) := add64 x54 x64 0 in
  let '(x70, x71) := add64 x56 x66 x69 in
  let '(x72, x73) := add64 x58 (wadd x67 x63) x71 in
  let '(x74, x75) := add64 (wadd x59 (wadd x53 x39)) x60 x73 in
  let x76 := (wadd x75 x61) in
  let '(x77, x78) := sub64 x70 18446744073709551615 0 in
  let '(x79, x80) := sub64 x72 4294967295 x78 in
  let '(x81, x82) := sub64 x74 0 x80 in
  let '(x83, x84) := sub64 x76 18446744069414584321 x82 in
  let '(_, x86) := sub64 0 0 x84 in
  let x87 := p256fp_cmovznz x86 x77 x70 in
  let x88 := p256fp_cmovznz x86 x79 x72 in
  let x89 := p256fp_cmovznz x86 x81 x74 in
  let x90 := p256fp_cmovznz x86 x83 x76 in
  L4 x87 x88 x89 x90.

(** p256/fp/p256_fp.go:946-1201 [ToMontgomery]. *)
Definition p256fp_to_montgomery (arg1 : limbs4) : limbs4 :=
  let '(L4 arg1_0 arg1_1 arg1_2 arg1_3) := arg1 in
  let x1 := arg1_1 in
  let x2 := arg1_2 in
  let x3 := arg1_3 in
  let x4 := arg1_0 in
  let '(x6, x5) := mul64 x4 21474836477 in
  let '(x8, x7) := mul64 x4 18446744073709551614 in
  let '(x10, x9) := mul64 x4 18446744056529682431 in
  let '(x12, x11) := mul64 x4 3 in
  let '(x13, x14) := add64 x12 x9 0 in
  let '(x15, x16) := add64 x10 x7 x14 in
  let '(x17, x18) := add64 x8 x5 x16 in
  let '(x20, x19) := mul64 x11 18446744069414584321 in
  let '(x22, x21) := mul64 x11 4294967295 in
  let '(x24, x23) := mul64 x11 18446744073709551615 in
  let '(x25, x26) := add64 x24 x21 0 in
  let '(_, x28) := add64 x11 x23 0 in
  let '(x29, x30) := add64 x13 x25 x28 in
  let '(x31, x32) := add64 x15 (wadd x26 x22) x30 in
  let '(x33, x34) := add64 x17 x19 x32 in
  let '(x35, x36) := add64 (wadd x18 x6) x20 x34 in
  let '(x38, x37) := mul64 x1 21474836477 in
  let '(x40, x39) := mul64 x1 18446744073709551614 in
  let '(x42, x41) := mul64 x1 18446744056529682431 in
  let '(x44, x43) := mul64 x1 3 in
  let '(x45, x46) := add64 x44 x41 0 in
  let '(x47, x48) := add64 x42 x39 x46 in
  let '(x49, x50) := add64 x40 x37 x48 in
  let '(x51, x52) := add64 x29 x43 0 in
  let '(x53, x54) := add64 x31 x45 x52 in
  let '(x55, x56) := add64 x33 x47 x54 in
  let '(x57, x58) := add64 x35 x49 x56 in
  let '(x60, x59) := mul64 x51 18446744069414584321 in
  let '(x62, x61) := mul64 x51 4294967295 in
  let '(x64, x63) := mul64 x51 18446744073709551615 in
  let '(x65, x66) := add64 x64 x61 0 in
  let '(_, x68) := add64 x51 x63 0 in
  let '(x69, x70) := add64 x53 x65 x68 in
  let '(x71, x72) := add64 x55 (wadd x66 x62) x70 in
  let '(x73, x74) := add64 x57 x59 x72 in
  let '(x75, x76) := add64 (wadd (wadd x58 x36) (wadd x50 x38)) x60 x74 in
  let '(x78, x77) := mul64 x2 21474836477 in
  let '(x80, x79) := mul64 x2 18446744073709551614 in
  let '(x82, x81) := mul64 x2 18446744056529682431 in
  let '(x84, x83) := mul64 x2 3 in
  let '(x85, x86) := add64 x84 x81 0 in
  let '(x87, x88) := add64 x82 x79 x86 in
  let '(x89, x90) := add64 x80 x77 x88 in
  let '(x91, x92) := add64 x69 x83 0 in
  let '(x93, x94) := add64 x71 x85 x92 in
  let '(x95, x96) := add64 x73 x87 x94 in
  let '(x97, x98) := add64 x75 x89 x96 in
  let '(x100, x99) := mul64 x91 18446744069414584321 in
  let '(x102, x101) := mul64 x91 4294967295 in
  let '(x104, x103) := mul64 x91 18446744073709551615 in
  let '(x105, x106) := add64 x104 x101 0 in
  let '(_, x108) := add64 x91 x103 0 in
  let '(x109, x110) := add64 x93 x105 x108 in
  let '(x111, x112) := add64 x95 (wadd x106 x102) x110 in
  let '(x113, x114) := add64 x97 x99 x112 in
  let '(x115, x116) := add64 (wadd (wadd x98 x76) (wadd x90 x78)) x100 x114 in
  let '(x118, x117) := mul64 x3 21474836477 in
  let '(x120, x119) := mul64 x3 18446744073709551614 in
  let '(x122, x121) := mul64 x3 18446744056529682431 in
  let '(x124, x123) := mul64 x3 3 in
  let '(x125, x126) := add64 x124 x121 0 in
  let '(x127, x128) := add64 x122 x119 x126 in
  let '(x129, x130) := add64 x120 x117 x128 in
  let '(x131, x132) := add64 x109 x123 0 in
  let '(x133, x134) := add64 x111 x125 x132 in
  let '(x135, x136) := add64 x113 x127 x134 in
  let '(x137, x138) := add64 x115 x129 x136 in
  let '(x140, x139) := mul64 x131 18446744069414584321 in
  let '(x142, x141) := mul64 x131 4294967295 in
  let '(x144, x143) := mul64 x131 18446744073709551615 in
  let '(x145, x146) := add64 x144 x141 0 in
  let '(_, x148) := add64 x131 x143 0 in
  let '(x149, x150) := add64 x133 x145 x148 in
  let '(x151, x152) := add64 x135 (wadd x146 x142) x150 in
  let '(x153, x154) := add64 x137 x139 x152 in
  let '(x155, x156) := add64 (wadd (wadd x138 x116) (wadd x130 x118)) x140 x154 in
  let '(x157, x158) := sub64 x149 18446744073709551615 0 in
  let '(x159, x160) := sub64 x151 4294967295 x158 in
  let '(x161, x162) := sub64 x153 0 x160 in
  let '(x163, x164) := sub64 x155 18446744069414584321 x162 in
  let '(_, x166) := sub64 x156 0 x164 in
  let x167 := p256fp_cmovznz x166 x157 x149 in
  let x168 := p256fp_cmovznz x166 x159 x151 in
  let x169 := p256fp_cmovznz x166 x161 x153 in
  let x170 := p256fp_cmovznz x166 x163 x155 in
  L4 x167 x168 x169 x170.

(** p256/fp/p256_fp.go:1240-1253 [Selectznz]. *)
Definition p256fp_selectznz (arg1 : Z) (arg2 arg3 : limbs4) : limbs4 :=
  let '(L4 arg2_0 arg2_1 arg2_2 arg2_3) := arg2 in
  let '(L4 arg3_0 arg3_1 arg3_2 arg3_3) := arg3 in
  let x1 := p256fp_cmovznz arg1 arg2_0 arg3_0 in
  let x2 := p256fp_cmovznz arg1 arg2_1 arg3_1 in
  let x3 := p256fp_cmovznz arg1 arg2_2 arg3_2 in
  let x4 := p256fp_cmovznz arg1 arg2_3 arg3_3 in
  L4 x1 x2 x3 x4.

(** p256/fp/p256_fp.go:1272-1365 [ToBytes]. *)
Definition p256fp_to_bytes (arg1 : limbs4) : list Z :=
  let '(L4 arg1_0 arg1_1 arg1_2 arg1_3) := arg1 in
  let x1 := arg1_3 in
  let x2 := arg1_2 in
  let x3 := arg1_1 in
  let x4 := arg1_0 in
  let x5 := (wand (wbyte x4) 255) in
  let x6 := (wshr x4 8) in
  let x7 := (wand (wbyte x6) 255) in
  let x8 := (wshr x6 8) in
  let x9 := (wand (wbyte x8) 255) in
  let x10 := (wshr x8 8) in
  let x11 := (wand (wbyte x10) 255) in
  let x12 := (wshr x10 8) in
  let x13 := (wand (wbyte x12) 255) in
  let x14 := (wshr x12 8) in
  let x15 := (wand (wbyte x14) 255) in
  let x16 := (wshr x14 8) in
  let x17 := (wand (wbyte x16) 255) in
  let x18 := (wbyte (wshr x16 8)) in
  let x19 := (wand (wbyte x3) 255) in
  let x20 := (wshr x3 8) in
  let x21 := (wand (wbyte x20) 255) in
  let x22 := (wshr x20 8) in
  let x23 := (wand (wbyte x22) 255) in
  let x24 := (wshr x22 8) in
  let x25 := (wand (wbyte x24) 255) in
  let x26 := (wshr x24 8) in
  let x27 := (wand (wbyte x26) 255) in
  let x28 := (wshr x26 8) in
  let x29 := (wand (wbyte x28) 255) in
  let x30 := (wshr x28 8) in
  let x31 := (wand (wbyte x30) 255) in
  let x32 := (wbyte (wshr x30 8)) in
  let x33 := (wand (wbyte x2) 255) in
  let x34 := (wshr x2 8) in
  let x35 := (wand (wbyte x34) 255) in
  let x36 := (wshr x34 8) in
  let x37 := (wand (wbyte x36) 255) in
  let x38 := (wshr x36 8) in
  let x39 := (wand (wbyte x38) 255) in
  let x40 := (wshr x38 8) in
  let x41 := (wand (wbyte x40) 255) in
  let x42 := (wshr x40 8) in
  let x43 := (wand (wbyte x42) 255) in
  let x44 := (wshr x42 8) in
  let x45 := (wand (wbyte x44) 255) in
  let x46 := (wbyte (wshr x44 8)) in
  let x47 := (wand (wbyte x1) 255) in
  let x48 := (wshr x1 8) in
  let x49 := (wand (wbyte x48) 255) in
  let x50 := (wshr x48 8) in
  let x51 := (wand (wbyte x50) 255) in
  let x52 := (wshr x50 8) in
  let x53 := (wand (wbyte x52) 255) in
  let x54 := (wshr x52 8) in
  let x55 := (wand (wbyte x54) 255) in
  let x56 := (wshr x54 8) in
  let x57 := (wand (wbyte x56) 255) in
  let x58 := (wshr x56 8) in
  let x59 := (wand (wbyte x58) 255) in
  let x60 := (wbyte (wshr x58 8)) in
  [x5; x7; x9; x11; x13; x15; x17; x18; x19; x21; x23; x25; x27; x29; x31; x32; x33; x35; x37; x39; x41; x43; x45; x46; x47; x49; x51; x53; x55; x57; x59; x60].

(** p256/fp/p256_fp.go:1385-1450 [FromBytes]. *)
Definition p256fp_from_bytes (arg1 : list Z) : limbs4 :=
  let x1 := (wshl (nth 31 arg1 0) 56) in
  let x2 := (wshl (nth 30 arg1 0) 48) in
  let x3 := (wshl (nth 29 arg1 0) 40) in
  let x4 := (wshl (nth 28 arg1 0) 32) in
  let x5 := (wshl (nth 27 arg1 0) 24) in
  let x6 := (wshl (nth 26 arg1 0) 16) in
  let x7 := (wshl (nth 25 arg1 0) 8) in
  let x8 := (nth 24 arg1 0) in
  let x9 := (wshl (nth 23 arg1 0) 56) in
  let x10 := (wshl (nth 22 arg1 0) 48) in
  let x11 := (wshl (nth 21 arg1 0) 40) in
  let x12 := (wshl (nth 20 arg1 0) 32) in
  let x13 := (wshl (nth 19 arg1 0) 24) in
  let x14 := (wshl (nth 18 arg1 0) 16) in
  let x15 := (wshl (nth 17 arg1 0) 8) in
  let x16 := (nth 16 arg1 0) in
  let x17 := (wshl (nth 15 arg1 0) 56) in
  let x18 := (wshl (nth 14 arg1 0) 48) in
  let x19 := (wshl (nth 13 arg1 0) 40) in
  let x20 := (wshl (nth 12 arg1 0) 32) in
  let x21 := (wshl (nth 11 arg1 0) 24) in
  let x22 := (wshl (nth 10 arg1 0) 16) in
  let x23 := (wshl (nth 9 arg1 0) 8) in
  let x24 := (nth 8 arg1 0) in
  let x25 := (wshl (nth 7 arg1 0) 56) in
  let x26 := (wshl (nth 6 arg1 0) 48) in
  let x27 := (wshl (nth 5 arg1 0) 40) in
  let x28 := (wshl (nth 4 arg1 0) 32) in
  let x29 := (wshl (nth 3 arg1 0) 24) in
  let x30 := (wshl (nth 2 arg1 0) 16) in
  let x31 := (wshl (nth 1 arg1 0) 8) in
  let x32 := (nth 0 arg1 0) in
  let x33 := (wadd x31 x32) in
  let x34 := (wadd x30 x33) in
  let x35 := (wadd x29 x34) in
  let x36 := (wadd x28 x35) in
  let x37 := (wadd x27 x36) in
  let x38 := (wadd x26 x37) in
  let x39 := (wadd x25 x38) in
  let x40 := (wadd x23 x24) in
  let x41 := (wadd x22 x40) in
  let x42 := (wadd x21 x41) in
  let x43 := (wadd x20 x42) in
  let x44 := (wadd x19 x43) in
  let x45 := (wadd x18 x44) in
  let x46 := (wadd x17 x45) in
  let x47 := (wadd x15 x16) in
  let x48 := (wadd x14 x47) in
  let x49 := (wadd x13 x48) in
  let x50 := (wadd x12 x49) in
  let x51 := (wadd x11 x50) in
  let x52 := (wadd x10 x51) in
  let x53 := (wadd x9 x52) in
  let x54 := (wadd x7 x8) in
  let x55 := (wadd x6 x54) in
  let x56 := (wadd x5 x55) in
  let x57 := (wadd x4 x56) in
  let x58 := (wadd x3 x57) in
  let x59 := (wadd x2 x58) in
  let x60 := (wadd x1 x59) in
  L4 x39 x46 x53 x60.

