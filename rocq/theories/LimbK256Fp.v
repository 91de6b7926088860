(** * GENERATED by tools/gen_limbs.py from
    crypto/core/curves/native/k256/fp/secp256k1_fp.go - do not edit by hand.
    One [let] per Go statement; results are returned instead of written through
    the out pointer (which the Go code writes only after its last read). *)
From Coq Require Import ZArith List.
From Verif Require Import LimbBase.
Import ListNotations.
Open Scope Z_scope.

(** k256/fp/secp256k1_fp.go:68-72 [cmovznz]. *)
Definition k256fp_cmovznz (arg1 arg2 arg3 : Z) : Z :=
  let x1 := (wmul arg1 18446744073709551615) in
  let x2 := (wor (wand x1 arg3) (wand (wnot x1) arg2)) in
  x2.

(** k256/fp/secp256k1_fp.go:85-404 [Mul]. *)
Definition k256fp_mul (arg1 arg2 : limbs4) : limbs4 :=
  let '(L4 arg1_0 arg1_1 arg1_2 arg1_3) := arg1 in
  let '(L4 arg2_0 arg2_1 arg2_2 arg2_3) := arg2 in
  let x1 := arg1_1 in
  let x2 := arg1_2 in
  let x3 := arg1_3 in
  let x4 := arg1_0 in
  let '(x6, x5) := mul64 x4 arg2_3 in
  let '(x8, x7) := mul64 x4 arg2_2 in
  let '(x10, x9) := mul64 x4 arg2_1 in
  let '(x12, x11) := mul64 x4 arg2_0 in
  let '(x13, x14) := add64 x12 x9 0 in
  let '(x15, x16) := add64 x10 x7 x14 in
  let '(x17, x18) := add64 x8 x5 x16 in
  let x19 := (wadd x18 x6) in
  let '(_, x20) := mul64 x11 15580212934572586289 in
  let '(x23, x22) := mul64 x20 18446744073709551615 in
  let '(x25, x24) := mul64 x20 18446744073709551615 in
  let '(x27, x26) := mul64 x20 18446744073709551615 in
  let '(x29, x28) := mul64 x20 18446744069414583343 in
  let '(x30, x31) := add64 x29 x26 0 in
  let '(x32, x33) := add64 x27 x24 x31 in
  let '(x34, x35) := add64 x25 x22 x33 in
  let x36 := (wadd x35 x23) in
  let '(_, x38) := add64 x11 x28 0 in
  let '(x39, x40) := add64 x13 x30 x38 in
  let '(x41, x42) := add64 x15 x32 x40 in
  let '(x43, x44) := add64 x17 x34 x42 in
  let '(x45, x46) := add64 x19 x36 x44 in
  let '(x48, x47) := mul64 x1 arg2_3 in
  let '(x50, x49) := mul64 x1 arg2_2 in
  let '(x52, x51) := mul64 x1 arg2_1 in
  let '(x54, x53) := mul64 x1 arg2_0 in
  let '(x55, x56) := add64 x54 x51 0 in
  let '(x57, x58) := add64 x52 x49 x56 in
  let '(x59, x60) := add64 x50 x47 x58 in
  let x61 := (wadd x60 x48) in
  let '(x62, x63) := add64 x39 x53 0 in
  let '(x64, x65) := add64 x41 x55 x63 in
  let '(x66, x67) := add64 x43 x57 x65 in
  let '(x68, x69) := add64 x45 x59 x67 in
  let '(x70, x71) := add64 x46 x61 x69 in
  let '(_, x72) := mul64 x62 15580212934572586289 in
  let '(x75, x74) := mul64 x72 18446744073709551615 in
  let '(x77, x76) := mul64 x72 18446744073709551615 in
  let '(x79, x78) := mul64 x72 18446744073709551615 in
  let '(x81, x80) := mul64 x72 18446744069414583343 in
  let '(x82, x83) := add64 x81 x78 0 in
  let '(x84, x85) := add64 x79 x76 x83 in
  let '(x86, x87) := add64 x77 x74 x85 in
  let x88 := (wadd x87 x75) in
  let '(_, x90) := add64 x62 x80 0 in
  let '(x91, x92) := add64 x64 x82 x90 in
  let '(x93, x94) := add64 x66 x84 x92 in
  let '(x95, x96) := add64 x68 x86 x94 in
  let '(x97, x98) := add64 x70 x88 x96 in
  let x99 := (wadd x98 x71) in
  let '(x101, x100) := mul64 x2 arg2_3 in
  let '(x103, x102) := mul64 x2 arg2_2 in
  let '(x105, x104) := mul64 x2 arg2_1 in
  let '(x107, x106) := mul64 x2 arg2_0 in
  let '(x108, x109) := add64 x107 x104 0 in
  let '(x110, x111) := add64 x105 x102 x109 in
  let '(x112, x113) := add64 x103 x100 x111 in
  let x114 := (wadd x113 x101) in
  let '(x115, x116) := add64 x91 x106 0 in
  let '(x117, x118) := add64 x93 x108 x116 in
  let '(x119, x120) := add64 x95 x110 x118 in
  let '(x121, x122) := add64 x97 x112 x120 in
  let '(x123, x124) := add64 x99 x114 x122 in
  let '(_, x125) := mul64 x115 15580212934572586289 in
  let '(x128, x127) := mul64 x125 18446744073709551615 in
  let '(x130, x129) := mul64 x125 18446744073709551615 in
  let '(x132, x131) := mul64 x125 18446744073709551615 in
  let '(x134, x133) := mul64 x125 18446744069414583343 in
  let '(x135, x136) := add64 x134 x131 0 in
  let '(x137, x138) := add64 x132 x129 x136 in
  let '(x139, x140) := add64 x130 x127 x138 in
  let x141 := (wadd x140 x128) in
  let '(_, x143) := add64 x115 x133 0 in
  let '(x144, x145) := add64 x117 x135 x143 in
  let '(x146, x147) := add64 x119 x137 x145 in
  let '(x148, x149) := add64 x121 x139 x147 in
  let '(x150, x151) := add64 x123 x141 x149 in
  let x152 := (wadd x151 x124) in
  let '(x154, x153) := mul64 x3 arg2_3 in
  let '(x156, x155) := mul64 x3 arg2_2 in
  let '(x158, x157) := mul64 x3 arg2_1 in
  let '(x160, x159) := mul64 x3 arg2_0 in
  let '(x161, x162) := add64 x160 x157 0 in
  let '(x163, x164) := add64 x158 x155 x162 in
  let '(x165, x166) := add64 x156 x153 x164 in
  let x167 := (wadd x166 x154) in
  let '(x168, x169) := add64 x144 x159 0 in
  let '(x170, x171) := add64 x146 x161 x169 in
  let '(x172, x173) := add64 x148 x163 x171 in
  let '(x174, x175) := add64 x150 x165 x173 in
  let '(x176, x177) := add64 x152 x167 x175 in
  let '(_, x178) := mul64 x168 15580212934572586289 in
  let '(x181, x180) := mul64 x178 18446744073709551615 in
  let '(x183, x182) := mul64 x178 18446744073709551615 in
  let '(x185, x184) := mul64 x178 18446744073709551615 in
  let '(x187, x186) := mul64 x178 18446744069414583343 in
  let '(x188, x189) := add64 x187 x184 0 in
  let '(x190, x191) := add64 x185 x182 x189 in
  let '(x192, x193) := add64 x183 x180 x191 in
  let x194 := (wadd x193 x181) in
  let '(_, x196) := add64 x168 x186 0 in
  let '(x197, x198) := add64 x170 x188 x196 in
  let '(x199, x200) := add64 x172 x190 x198 in
  let '(x201, x202) := add64 x174 x192 x200 in
  let '(x203, x204) := add64 x176 x194 x202 in
  let x205 := (wadd x204 x177) in
  let '(x206, x207) := sub64 x197 18446744069414583343 0 in
  let '(x208, x209) := sub64 x199 18446744073709551615 x207 in
  let '(x210, x211) := sub64 x201 18446744073709551615 x209 in
  let '(x212, x213) := sub64 x203 18446744073709551615 x211 in
  let '(_, x215) := sub64 x205 0 x213 in
  let x216 := k256fp_cmovznz x215 x206 x197 in
  let x217 := k256fp_cmovznz x215 x208 x199 in
  let x218 := k256fp_cmovznz x215 x210 x201 in
  let x219 := k256fp_cmovznz x215 x212 x203 in
  L4 x216 x217 x218 x219.

(** k256/fp/secp256k1_fp.go:416-735 [Square]. *)
Definition k256fp_square (arg1 : limbs4) : limbs4 :=
  let '(L4 arg1_0 arg1_1 arg1_2 arg1_3) := arg1 in
  let x1 := arg1_1 in
  let x2 := arg1_2 in
  let x3 := arg1_3 in
  let x4 := arg1_0 in
  let '(x6, x5) := mul64 x4 arg1_3 in
  let '(x8, x7) := mul64 x4 arg1_2 in
  let '(x10, x9) := mul64 x4 arg1_1 in
  let '(x12, x11) := mul64 x4 arg1_0 in
  let '(x13, x14) := add64 x12 x9 0 in
  let '(x15, x16) := add64 x10 x7 x14 in
  let '(x17, x18) := add64 x8 x5 x16 in
  let x19 := (wadd x18 x6) in
  let '(_, x20) := mul64 x11 15580212934572586289 in
  let '(x23, x22) := mul64 x20 18446744073709551615 in
  let '(x25, x24) := mul64 x20 18446744073709551615 in
  let '(x27, x26) := mul64 x20 18446744073709551615 in
  let '(x29, x28) := mul64 x20 18446744069414583343 in
  let '(x30, x31) := add64 x29 x26 0 in
  let '(x32, x33) := add64 x27 x24 x31 in
  let '(x34, x35) := add64 x25 x22 x33 in
  let x36 := (wadd x35 x23) in
  let '(_, x38) := add64 x11 x28 0 in
  let '(x39, x40) := add64 x13 x30 x38 in
  let '(x41, x42) := add64 x15 x32 x40 in
  let '(x43, x44) := add64 x17 x34 x42 in
  let '(x45, x46) := add64 x19 x36 x44 in
  let '(x48, x47) := mul64 x1 arg1_3 in
  let '(x50, x49) := mul64 x1 arg1_2 in
  let '(x52, x51) := mul64 x1 arg1_1 in
  let '(x54, x53) := mul64 x1 arg1_0 in
  let '(x55, x56) := add64 x54 x51 0 in
  let '(x57, x58) := add64 x52 x49 x56 in
  let '(x59, x60) := add64 x50 x47 x58 in
  let x61 := (wadd x60 x48) in
  let '(x62, x63) := add64 x39 x53 0 in
  let '(x64, x65) := add64 x41 x55 x63 in
  let '(x66, x67) := add64 x43 x57 x65 in
  let '(x68, x69) := add64 x45 x59 x67 in
  let '(x70, x71) := add64 x46 x61 x69 in
  let '(_, x72) := mul64 x62 15580212934572586289 in
  let '(x75, x74) := mul64 x72 18446744073709551615 in
  let '(x77, x76) := mul64 x72 18446744073709551615 in
  let '(x79, x78) := mul64 x72 18446744073709551615 in
  let '(x81, x80) := mul64 x72 18446744069414583343 in
  let '(x82, x83) := add64 x81 x78 0 in
  let '(x84, x85) := add64 x79 x76 x83 in
  let '(x86, x87) := add64 x77 x74 x85 in
  let x88 := (wadd x87 x75) in
  let '(_, x90) := add64 x62 x80 0 in
  let '(x91, x92) := add64 x64 x82 x90 in
  let '(x93, x94) := add64 x66 x84 x92 in
  let '(x95, x96) := add64 x68 x86 x94 in
  let '(x97, x98) := add64 x70 x88 x96 in
  let x99 := (wadd x98 x71) in
  let '(x101, x100) := mul64 x2 arg1_3 in
  let '(x103, x102) := mul64 x2 arg1_2 in
  let '(x105, x104) := mul64 x2 arg1_1 in
  let '(x107, x106) := mul64 x2 arg1_0 in
  let '(x108, x109) := add64 x107 x104 0 in
  let '(x110, x111) := add64 x105 x102 x109 in
  let '(x112, x113) := add64 x103 x100 x111 in
  let x114 := (wadd x113 x101) in
  let '(x115, x116) := add64 x91 x106 0 in
  let '(x117, x118) := add64 x93 x108 x116 in
  let '(x119, x120) := add64 x95 x110 x118 in
  let '(x121, x122) := add64 x97 x112 x120 in
  let '(x123, x124) := add64 x99 x114 x122 in
  let '(_, x125) := mul64 x115 15580212934572586289 in
  let '(x128, x127) := mul64 x125 18446744073709551615 in
  let '(x130, x129) := mul64 x125 18446744073709551615 in
  let '(x132, x131) := mul64 x125 18446744073709551615 in
  let '(x134, x133) := mul64 x125 18446744069414583343 in
  let '(x135, x136) := add64 x134 x131 0 in
  let '(x137, x138) := add64 x132 x129 x136 in
  let '(x139, x140) := add64 x130 x127 x138 in
  let x141 := (wadd x140 x128) in
  let '(_, x143) := add64 x115 x133 0 in
  let '(x144, x145) := add64 x117 x135 x143 in
  let '(x146, x147) := add64 x119 x137 x145 in
  let '(x148, x149) := add64 x121 x139 x147 in
  let '(x150, x151) := add64 x123 x141 x149 in
  let x152 := (wadd x151 x124) in
  let '(x154, x153) := mul64 x3 arg1_3 in
  let '(x156, x155) := mul64 x3 arg1_2 in
  let '(x158, x157) := mul64 x3 arg1_1 in
  let '(x160, x159) := mul64 x3 arg1_0 in
  let '(x161, x162) := add64 x160 x157 0 in
  let '(x163, x164) := add64 x158 x155 x162 in
  let '(x165, x166) := add64 x156 x153 x164 in
  let x167 := (wadd x166 x154) in
  let '(x168, x169) := add64 x144 x159 0 in
  let '(x170, x171) := add64 x146 x161 x169 in
  let '(x172, x173) := add64 x148 x163 x171 in
  let '(x174, x175) := add64 x150 x165 x173 in
  let '(x176, x177) := add64 x152 x167 x175 in
  let '(_, x178) := mul64 x168 15580212934572586289 in
  let '(x181, x180) := mul64 x178 18446744073709551615 in
  let '(x183, x182) := mul64 x178 18446744073709551615 in
  let '(x185, x184) := mul64 x178 18446744073709551615 in
  let '(x187, x186) := mul64 x178 18446744069414583343 in
  let '(x188, x189) := add64 x187 x184 0 in
  let '(x190, x191) := add64 x185 x182 x189 in
  let '(x192, x193) := add64 x183 x180 x191 in
  let x194 := (wadd x193 x181) in
  let '(_, x196) := add64 x168 x186 0 in
  let '(x197, x198) := add64 x170 x188 x196 in
  let '(x199, x200) := add64 x172 x190 x198 in
  let '(x201, x202) := add64 x174 x192 x200 in
  let '(x203, x204) := add64 x176 x194 x202 in
  let x205 := (wadd x204 x177) in
  let '(x206, x207) := sub64 x197 18446744069414583343 0 in
  let '(x208, x209) := sub64 x199 18446744073709551615 x207 in
  let '(x210, x211) := sub64 x201 18446744073709551615 x209 in
  let '(x212, x213) := sub64 x203 18446744073709551615 x211 in
  let '(_, x215) := sub64 x205 0 x213 in
  let x216 := k256fp_cmovznz x215 x206 x197 in
  let x217 := k256fp_cmovznz x215 x208 x199 in
  let x218 := k256fp_cmovznz x215 x210 x201 in
  let x219 := k256fp_cmovznz x215 x212 x203 in
  L4 x216 x217 x218 x219.

(** k256/fp/secp256k1_fp.go:748-787 [Add]. *)
Definition k256fp_add (arg1 arg2 : limbs4) : limbs4 :=
  let '(L4 arg1_0 arg1_1 arg1_2 arg1_3) := arg1 in
  let '(L4 arg2_0 arg2_1 arg2_2 arg2_3) := arg2 in
  let '(x1, x2) := add64 arg1_0 arg2_0 0 in
  let '(x3, x4) := add64 arg1_1 arg2_1 x2 in
  let '(x5, x6) := add64 arg1_2 arg2_2 x4 in
  let '(x7, x8) := add64 arg1_3 arg2_3 x6 in
  let '(x9, x10) := sub64 x1 18446744069414583343 0 in
  let '(x11, x12) := sub64 x3 18446744073709551615 x10 in
  let '(x13, x14) := sub64 x5 18446744073709551615 x12 in
  let '(x15, x16) := sub64 x7 18446744073709551615 x14 in
  let '(_, x18) := sub64 x8 0 x16 in
  let x19 := k256fp_cmovznz x18 x9 x1 in
  let x20 := k256fp_cmovznz x18 x11 x3 in
  let x21 := k256fp_cmovznz x18 x13 x5 in
  let x22 := k256fp_cmovznz x18 x15 x7 in
  L4 x19 x20 x21 x22.

(** k256/fp/secp256k1_fp.go:800-830 [Sub]. *)
Definition k256fp_sub (arg1 arg2 : limbs4) : limbs4 :=
  let '(L4 arg1_0 arg1_1 arg1_2 arg1_3) := arg1 in
  let '(L4 arg2_0 arg2_1 arg2_2 arg2_3) := arg2 in
  let '(x1, x2) := sub64 arg1_0 arg2_0 0 in
  let '(x3, x4) := sub64 arg1_1 arg2_1 x2 in
  let '(x5, x6) := sub64 arg1_2 arg2_2 x4 in
  let '(x7, x8) := sub64 arg1_3 arg2_3 x6 in
  let x9 := k256fp_cmovznz x8 0 18446744073709551615 in
  let '(x10, x11) := add64 x1 (wand x9 18446744069414583343) 0 in
  let '(x12, x13) := add64 x3 x9 x11 in
  let '(x14, x15) := add64 x5 x9 x13 in
  let '(x16, _) := add64 x7 x9 x15 in
  L4 x10 x12 x14 x16.

(** k256/fp/secp256k1_fp.go:842-872 [Opp]. *)
Definition k256fp_opp (arg1 : limbs4) : limbs4 :=
  let '(L4 arg1_0 arg1_1 arg1_2 arg1_3) := arg1 in
  let '(x1, x2) := sub64 0 arg1_0 0 in
  let '(x3, x4) := sub64 0 arg1_1 x2 in
  let '(x5, x6) := sub64 0 arg1_2 x4 in
  let '(x7, x8) := sub64 0 arg1_3 x6 in
  let x9 := k256fp_cmovznz x8 0 18446744073709551615 in
  let '(x10, x11) := add64 x1 (wand x9 18446744069414583343) 0 in
  let '(x12, x13) := add64 x3 x9 x11 in
  let '(x14, x15) := add64 x5 x9 x13 in
  let '(x16, _) := add64 x7 x9 x15 in
  L4 x10 x12 x14 x16.

(** k256/fp/secp256k1_fp.go:884-1096 [FromMontgomery]. *)
Definition k256fp_from_montgomery (arg1 : limbs4) : limbs4 :=
  let '(L4 arg1_0 arg1_1 arg1_2 arg1_3) := arg1 in
  let x1 := arg1_0 in
  let '(_, x2) := mul64 x1 15580212934572586289 in
  let '(x5, x4) := mul64 x2 18446744073709551615 in
  let '(x7, x6) := mul64 x2 18446744073709551615 in
  let '(x9, x8) := mul64 x2 18446744073709551615 in
  let '(x11, x10) := mul64 x2 18446744069414583343 in
  let '(x12, x13) := add64 x11 x8 0 in
  let '(x14, x15) := add64 x9 x6 x13 in
  let '(x16, x17) := add64 x7 x4 x15 in
  let '(_, x19) := add64 x1 x10 0 in
  let '(x20, x21) := add64 0 x12 x19 in
  let '(x22, x23) := add64 0 x14 x21 in
  let '(x24, x25) := add64 0 x16 x23 in
  let '(x26, x27) := add64 0 (wadd x17 x5) x25 in
  let '(x28, x29) := add64 x20 arg1_1 0 in
  let '(x30, x31) := add64 x22 0 x29 in
  let '(x32, x33) := add64 x24 0 x31 in
  let '(x34, x35) := add64 x26 0 x33 in
  let '(_, x36) := mul64 x28 15580212934572586289 in
  let '(x39, x38) := mul64 x36 18446744073709551615 in
  let '(x41, x40) := mul64 x36 18446744073709551615 in
  let '(x43, x42) := mul64 x36 18446744073709551615 in
  let '(x45, x44) := mul64 x36 18446744069414583343 in
  let '(x46, x47) := add64 x45 x42 0 in
  let '(x48, x49) := add64 x43 x40 x47 in
  let '(x50, x51) := add64 x41 x38 x49 in
  let '(_, x53) := add64 x28 x44 0 in
  let '(x54, x55) := add64 x30 x46 x53 in
  let '(x56, x57) := add64 x32 x48 x55 in
  let '(x58, x59) := add64 x34 x50 x57 in
  let '(x60, x61) := add64 (wadd x35 x27) (wadd x51 x39) x59 in
  let '(x62, x63) := add64 x54 arg1_2 0 in
  let '(x64, x65) := add64 x56 0 x63 in
  let '(x66, x67) := add64 x58 0 x65 in
  let '(x68, x69) := add64 x60 0 x67 in
  let '(_, x70) := mul64 x62 15580212934572586289 in
  let '(x73, x72) := mul64 x70 18446744073709551615 in
  let '(x75, x74) := mul64 x70 18446744073709551615 in
  let '(x77, x76) := mul64 x70 18446744073709551615 in
  let '(x79, x78) := mul64 x70 18446744069414583343 in
  let '(x80, x81) := add64 x79 x76 0 in
  let '(x82, x83) := add64 x77 x74 x81 in
  let '(x84, x85) := add64 x75 x72 x83 in
  let '(_, x87) := add64 x62 x78 0 in
  let '(x88, x89) := add64 x64 x80 x87 in
  let '(x90, x91) := add64 x66 x82 x89 in
  let '(x92, x93) := add64 x68 x84 x91 in
  let '(x94, x95) := add64 (wadd x69 x61) (wadd x85 x73) x93 in
  let '(x96, x97) := add64 x88 arg1_3 0 in
  let '(x98, x99) := add64 x90 0 x97 in
  let '(x100, x101) := add64 x92 0 x99 in
  let '(x102, x103) := add64 x94 0 x101 in
  let '(_, x104) := mul64 x96 15580212934572586289 in
  let '(x107, x106) := mul64 x104 18446744073709551615 in
  let '(x109, x108) := mul64 x104 18446744073709551615 in
  let '(x111, x110) := mul64 x104 18446744073709551615 in
  let '(x113, x112) := mul64 x104 18446744069414583343 in
  let '(x114, x115) := add64 x113 x110 0 in
  let '(x116, x117) := add64 x111 x108 x115 in
  let '(x118, x119) := add64 x109 x106 x117 in
  let '(_, x121) := add64 x96 x112 0 in
  let '(x122, x123) := add64 x98 x114 x121 in
  let '(x124, x125) := add64 x100 x116 x123 in
  let '(x126, x127) := add64 x102 x118 x125 in
  let '(x128, x129) := add64 (wadd x103 x95) (wadd x119 x107) x127 in
  let '(x130, x131) := sub64 x122 18446744069414583343 0 in
  let '(x132, x133) := sub64 x124 18446744073709551615 x131 in
  let '(x134, x135) := sub64 x126 18446744073709551615 x133 in
  let '(x136, x137) := sub64 x128 18446744073709551615 x135 in
  let '(_, x139) := sub64 x129 0 x137 in
  let x140 := k256fp_cmovznz x139 x130 x122 in
  let x141 := k256fp_cmovznz x139 x132 x124 in
  let x142 := k256fp_cmovznz x139 x134 x126 in
  let x143 := k256fp_cmovznz x139 x136 x128 in
  L4 x140 x141 x142 x143.

(** k256/fp/secp256k1_fp.go:1108-1347 [ToMontgomery]. *)
Definition k256fp_to_montgomery (arg1 : limbs4) : limbs4 :=
  let '(L4 arg1_0 arg1_1 arg1_2 arg1_3) := arg1 in
  let x1 := arg1_1 in
  let x2 := arg1_2 in
  let x3 := arg1_3 in
  let x4 := arg1_0 in
  let '(x6, x5) := mul64 x4 8392367050913 in
  let '(x7, x8) := add64 x6 x4 0 in
  let '(_, x9) := mul64 x5 15580212934572586289 in
  let '(x12, x11) := mul64 x9 18446744073709551615 in
  let '(x14, x13) := mul64 x9 18446744073709551615 in
  let '(x16, x15) := mul64 x9 18446744073709551615 in
  let '(x18, x17) := mul64 x9 18446744069414583343 in
  let '(x19, x20) := add64 x18 x15 0 in
  let '(x21, x22) := add64 x16 x13 x20 in
  let '(x23, x24) := add64 x14 x11 x22 in
  let '(_, x26) := add64 x5 x17 0 in
  let '(x27, x28) := add64 x7 x19 x26 in
  let '(x29, x30) := add64 x8 x21 x28 in
  let '(x31, x32) := add64 0 x23 x30 in
  let '(x33, x34) := add64 0 (wadd x24 x12) x32 in
  let '(x36, x35) := mul64 x1 8392367050913 in
  let '(x37, x38) := add64 x36 x1 0 in
  let '(x39, x40) := add64 x27 x35 0 in
  let '(x41, x42) := add64 x29 x37 x40 in
  let '(x43, x44) := add64 x31 x38 x42 in
  let '(x45, x46) := add64 x33 0 x44 in
  let '(_, x47) := mul64 x39 15580212934572586289 in
  let '(x50, x49) := mul64 x47 18446744073709551615 in
  let '(x52, x51) := mul64 x47 18446744073709551615 in
  let '(x54, x53) := mul64 x47 18446744073709551615 in
  let '(x56, x55) := mul64 x47 18446744069414583343 in
  let '(x57, x58) := add64 x56 x53 0 in
  let '(x59, x60) := add64 x54 x51 x58 in
  let '(x61, x62) := add64 x52 x49 x60 in
  let '(_, x64) := add64 x39 x55 0 in
  let '(x65, x66) := add64 x41 x57 x64 in
  let '(x67, x68) := add64 x43 x59 x66 in
  let '(x69, x70) := add64 x45 x61 x68 in
  let '(x71, x72) := add64 (wadd x46 x34) (wadd x62 x50) x70 in
  let '(x74, x73) := mul64 x2 8392367050913 in
  let '(x75, x76) := add64 x74 x2 0 in
  let '(x77, x78) := add64 x65 x73 0 in
  let '(x79, x80) := add64 x67 x75 x78 in
  let '(x81, x82) := add64 x69 x76 x80 in
  let '(x83, x84) := add64 x71 0 x82 in
  let '(_, x85) := mul64 x77 15580212934572586289 in
  let '(x88, x87) := mul64 x85 18446744073709551615 in
  let '(x90, x89) := mul64 x85 18446744073709551615 in
  let '(x92, x91) := mul64 x85 18446744073709551615 in
  let '(x94, x93) := mul64 x85 18446744069414583343 in
  let '(x95, x96) := add64 x94 x91 0 in
  let '(x97, x98) := add64 x92 x89 x96 in
  let '(x99, x100) := add64 x90 x87 x98 in
  let '(_, x102) := add64 x77 x93 0 in
  let '(x103, x104) := add64 x79 x95 x102 in
  let '(x105, x106) := add64 x81 x97 x104 in
  let '(x107, x108) := add64 x83 x99 x106 in
  let '(x109, x110) := add64 (wadd x84 x72) (wadd x100 x88) x108 in
  let '(x112, x111) := mul64 x3 8392367050913 in
  let '(x113, x114) := add64 x112 x3 0 in
  let '(x115, x116) := add64 x103 x111 0 in
  let '(x117, x118) := add64 x105 x113 x116 in
  let '(x119, x120) := add64 x107 x114 x118 in
  let '(x121, x122) := add64 x109 0 x120 in
  let '(_, x123) := mul64 x115 15580212934572586289 in
  let '(x126, x125) := mul64 x123 18446744073709551615 in
  let '(x128, x127) := mul64 x123 18446744073709551615 in
  let '(x130, x129) := mul64 x123 18446744073709551615 in
  let '(x132, x131) := mul64 x123 18446744069414583343 in
  let '(x133, x134) := add64 x132 x129 0 in
  let '(x135, x136) := add64 x130 x127 x134 in
  let '(x137, x138) := add64 x128 x125 x136 in
  let '(_, x140) := add64 x115 x131 0 in
  let '(x141, x142) := add64 x117 x133 x140 in
  let '(x143, x144) := add64 x119 x135 x142 in
  let '(x145, x146) := add64 x121 x137 x144 in
  let '(x147, x148) := add64 (wadd x122 x110) (wadd x138 x126) x146 in
  let '(x149, x150) := sub64 x141 18446744069414583343 0 in
  let '(x151, x152) := sub64 x143 18446744073709551615 x150 in
  let '(x153, x154) := sub64 x145 18446744073709551615 x152 in
  let '(x155, x156) := sub64 x147 18446744073709551615 x154 in
  let '(_, x158) := sub64 x148 0 x156 in
  let x159 := k256fp_cmovznz x158 x149 x141 in
  let x160 := k256fp_cmovznz x158 x151 x143 in
  let x161 := k256fp_cmovznz x158 x153 x145 in
  let x162 := k256fp_cmovznz x158 x155 x147 in
  L4 x159 x160 x161 x162.

(** k256/fp/secp256k1_fp.go:1386-1399 [Selectznz]. *)
Definition k256fp_selectznz (arg1 : Z) (arg2 arg3 : limbs4) : limbs4 :=
  let '(L4 arg2_0 arg2_1 arg2_2 arg2_3) := arg2 in
  let '(L4 arg3_0 arg3_1 arg3_2 arg3_3) := arg3 in
  let x1 := k256fp_cmovznz arg1 arg2_0 arg3_0 in
  let x2 := k256fp_cmovznz arg1 arg2_1 arg3_1 in
  let x3 := k256fp_cmovznz arg1 arg2_2 arg3_2 in
  let x4 := k256fp_cmovznz arg1 arg2_3 arg3_3 in
  L4 x1 x2 x3 x4.

(** k256/fp/secp256k1_fp.go:1418-1511 [ToBytes]. *)
Definition k256fp_to_bytes (arg1 : limbs4) : list Z :=
  let '(L4 arg1_0 arg1_1 arg1_2 arg1_3) := arg1 in
  let x1 := arg1_3 in
  let x2 := arg1_2 in
  let x3 := arg1_1 in
  let x4 := arg1_0 in
  let x5 := (wand (wbyte x4) 255) in
  let x6 := (wshr x4 8) in
  let x7 := (wand (wbyte x6) 255) in
  let x8 := (wshr x6 8) in
  let x9 := (wand (wbyte x8) 255) in
  let x10 := (wshr x8 8) in
  let x11 := (wand (wbyte x10) 255) in
  let x12 := (wshr x10 8) in
  let x13 := (wand (wbyte x12) 255) in
  let x14 := (wshr x12 8) in
  let x15 := (wand (wbyte x14) 255) in
  let x16 := (wshr x14 8) in
  let x17 := (wand (wbyte x16) 255) in
  let x18 := (wbyte (wshr x16 8)) in
  let x19 := (wand (wbyte x3) 255) in
  let x20 := (wshr x3 8) in
  let x21 := (wand (wbyte x20) 255) in
  let x22 := (wshr x20 8) in
  let x23 := (wand (wbyte x22) 255) in
  let x24 := (wshr x22 8) in
  let x25 := (wand (wbyte x24) 255) in
  let x26 := (wshr x24 8) in
  let x27 := (wand (wbyte x26) 255) in
  let x28 := (wshr x26 8) in
  let x29 := (wand (wbyte x28) 255) in
  let x30 := (wshr x28 8) in
  let x31 := (wand (wbyte x30) 255) in
  let x32 := (wbyte (wshr x30 8)) in
  let x33 := (wand (wbyte x2) 255) in
  let x34 := (wshr x2 8) in
  let x35 := (wand (wbyte x34) 255) in
  let x36 := (wshr x34 8) in
  let x37 := (wand (wbyte x36) 255) in
  let x38 := (wshr x36 8) in
  let x39 := (wand (wbyte x38) 255) in
  let x40 := (wshr x38 8) in
  let x41 := (wand (wbyte x40) 255) in
  let x42 := (wshr x40 8) in
  let x43 := (wand (wbyte x42) 255) in
  let x44 := (wshr x42 8) in
  let x45 := (wand (wbyte x44) 255) in
  let x46 := (wbyte (wshr x44 8)) in
  let x47 := (wand (wbyte x1) 255) in
  let x48 := (wshr x1 8) in
  let x49 := (wand (wbyte x48) 255) in
  let x50 := (wshr x48 8) in
  let x51 := (wand (wbyte x50) 255) in
  let x52 := (wshr x50 8) in
  let x53 := (wand (wbyte x52) 255) in
  let x54 := (wshr x52 8) in
  let x55 := (wand (wbyte x54) 255) in
  let x56 := (wshr x54 8) in
  let x57 := (wand (wbyte x56) 255) in
  let x58 := (wshr x56 8) in
  let x59 := (wand (wbyte x58) 255) in
  let x60 := (wbyte (wshr x58 8)) in
  [x5; x7; x9; x11; x13; x15; x17; x18; x19; x21; x23; x25; x27; x29; x31; x32; x33; x35; x37; x39; x41; x43; x45; x46; x47; x49; x51; x53; x55; x57; x59; x60].

(** k256/fp/secp256k1_fp.go:1531-1596 [FromBytes]. *)
Definition k256fp_from_bytes (arg1 : list Z) : limbs4 :=
  let x1 := (wshl (nth 31 arg1 0) 56) in
  let x2 := (wshl (nth 30 arg1 0) 48) in
  let x3 := (wshl (nth 29 arg1 0) 40) in
  let x4 := (wshl (nth 28 arg1 0) 32) in
  let x5 := (wshl (nth 27 arg1 0) 24) in
  let x6 := (wshl (nth 26 arg1 0) 16) in
  let x7 := (wshl (nth 25 arg1 0) 8) in
  let x8 := (nth 24 arg1 0) in
  let x9 := (wshl (nth 23 arg1 0) 56) in
  let x10 := (wshl (nth 22 arg1 0) 48) in
  let x11 := (wshl (nth 21 arg1 0) 40) in
  let x12 := (wshl (nth 20 arg1 0) 32) in
  let x13 := (wshl (nth 19 arg1 0) 24) in
  let x14 := (wshl (nth 18 arg1 0) 16) in
  let x15 := (wshl (nth 17 arg1 0) 8) in
  let x16 := (nth 16 arg1 0) in
  let x17 := (wshl (nth 15 arg1 0) 56) in
  let x18 := (wshl (nth 14 arg1 0) 48) in
  let x19 := (wshl (nth 13 arg1 0) 40) in
  let x20 := (wshl (nth 12 arg1 0) 32) in
  let x21 := (wshl (nth 11 arg1 0) 24) in
  let x22 := (wshl (nth 10 arg1 0) 16) in
  let x23 := (wshl (nth 9 arg1 0) 8) in
  let x24 := (nth 8 arg1 0) in
  let x25 := (wshl (nth 7 arg1 0) 56) in
  let x26 := (wshl (nth 6 arg1 0) 48) in
  let x27 := (wshl (nth 5 arg1 0) 40) in
  let x28 := (wshl (nth 4 arg1 0) 32) in
  let x29 := (wshl (nth 3 arg1 0) 24) in
  let x30 := (wshl (nth 2 arg1 0) 16) in
  let x31 := (wshl (nth 1 arg1 0) 8) in
  let x32 := (nth 0 arg1 0) in
  let x33 := (wadd x31 x32) in
  let x34 := (wadd x30 x33) in
  let x35 := (wadd x29 x34) in
  let x36 := (wadd x28 x35) in
  let x37 := (wadd x27 x36) in
  let x38 := (wadd x26 x37) in
  let x39 := (wadd x25 x38) in
  let x40 := (wadd x23 x24) in
  let x41 := (wadd x22 x40) in
  let x42 := (wadd x21 x41) in
  let x43 := (wadd x20 x42) in
  let x44 := (wadd x19 x43) in
  let x45 := (wadd x18 x44) in
  let x46 := (wadd x17 x45) in
  let x47 := (wadd x15 x16) in
  let x48 := (wadd x14 x47) in
  let x49 := (wadd x13 x48) in
  let x50 := (wadd x12 x49) in
  let x51 := (wadd x11 x50) in
  let x52 := (wadd x10 x51) in
  let x53 := (wadd x9 x52) in
  let x54 := (wadd x7 x8) in
  let x55 := (wadd x6 x54) in
  let x56 := (wadd x5 x55) in
  let x57 := (wadd x4 x56) in
  let x58 := (wadd x3 x57) in
  let x59 := (wadd x2 x58) in
  let x60 := (wadd x1 x59) in
  L4 x39 x46 x53 x60.

