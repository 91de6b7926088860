(** * GENERATED by tools/gen_limbs.py from
    crypto/core/curves/native/p256/fq/p256_fq.go - do not edit by hand.
    One [let] per Go statement; results are returned instead of written through
    the out pointer (which the Go code writes only after its last read). *)
From Coq Require Import ZArith List.
From Verif Require Import LimbBase.
Import ListNotations.
Open Scope Z_scope.

(** p256/fq/p256_fq.go:70-74 [cmovznz]. *)
Definition p256fq_cmovznz (arg1 arg2 arg3 : Z) : Z :=
  let x1 := (wmul arg1 18446744073709551615) in
  let x2 := (wor (wand x1 arg3) (wand (wnot x1) arg2)) in
  x2.

(** p256/fq/p256_fq.go:87-406 [Mul]. *)
Definition p256fq_mul (arg1 arg2 : limbs4) : limbs4 :=
  let '(L4 arg1_0 arg1_1 arg1_2 arg1_3) := arg1 in
  let '(L4 arg2_0 arg2_1 arg2_2 arg2_3) := arg2 in
  let x1 := arg1_1 in
  let x2 := arg1_2 in
  let x3 := arg1_3 in
  let x4 := arg1_0 in
  let '(x6, x5) := mul64 x4 arg2_3 in
  let '(x8, x7) := mul64 x4 arg2_2 in
  let '(x10, x9) := mul64 x4 arg2_1 in
  let '(x12, x11) := mul64 x4 arg2_0 in
  let '(x13, x14) := add64 x12 x9 0 in
  let '(x15, x16) := add64 x10 x7 x14 in
  let '(x17, x18) := add64 x8 x5 x16 in
  let x19 := (wadd x18 x6) in
  let '(_, x20) := mul64 x11 14758798090332847183 in
  let '(x23, x22) := mul64 x20 18446744069414584320 in
  let '(x25, x24) := mul64 x20 18446744073709551615 in
  let '(x27, x26) := mul64 x20 13611842547513532036 in
  let '(x29, x28) := mul64 x20 17562291160714782033 in
  let '(x30, x31) := add64 x29 x26 0 in
  let '(x32, x33) := add64 x27 x24 x31 in
  let '(x34, x35) := add64 x25 x22 x33 in
  let x36 := (wadd x35 x23) in
  let '(_, x38) := add64 x11 x28 0 in
  let '(x39, x40) := add64 x13 x30 x38 in
  let '(x41, x42) := add64 x15 x32 x40 in
  let '(x43, x44) := add64 x17 x34 x42 in
  let '(x45, x46) := add64 x19 x36 x44 in
  let '(x48, x47) := mul64 x1 arg2_3 in
  let '(x50, x49) := mul64 x1 arg2_2 in
  let '(x52, x51) := mul64 x1 arg2_1 in
  let '(x54, x53) := mul64 x1 arg2_0 in
  let '(x55, x56) := add64 x54 x51 0 in
  let '(x57, x58) := add64 x52 x49 x56 in
  let '(x59, x60) := add64 x50 x47 x58 in
  let x61 := (wadd x60 x48) in
  let '(x62, x63) := add64 x39 x53 0 in
  let '(x64, x65) := add64 x41 x55 x63 in
  let '(x66, x67) := add64 x43 x57 x65 in
  let '(x68, x69) := add64 x45 x59 x67 in
  let '(x70, x71) := add64 x46 x61 x69 in
  let '(_, x72) := mul64 x62 14758798090332847183 in
  let '(x75, x74) := mul64 x72 18446744069414584320 in
  let '(x77, x76) := mul64 x72 18446744073709551615 in
  let '(x79, x78) := mul64 x72 13611842547513532036 in
  let '(x81, x80) := mul64 x72 17562291160714782033 in
  let '(x82, x83) := add64 x81 x78 0 in
  let '(x84, x85) := add64 x79 x76 x83 in
  let '(x86, x87) := add64 x77 x74 x85 in
  let x88 := (wadd x87 x75) in
  let '(_, x90) := add64 x62 x80 0 in
  let '(x91, x92) := add64 x64 x82 x90 in
  let '(x93, x94) := add64 x66 x84 x92 in
  let '(x95, x96) := add64 x68 x86 x94 in
  let '(x97, x98) := add64 x70 x88 x96 in
  let x99 := (wadd x98 x71) in
  let '(x101, x100) := mul64 x2 arg2_3 in
  let '(x103, x102) := mul64 x2 arg2_2 in
  let '(x105, x104) := mul64 x2 arg2_1 in
  let '(x107, x106) := mul64 x2 arg2_0 in
  let '(x108, x109) := add64 x107 x104 0 in
  let '(x110, x111) := add64 x105 x102 x109 in
  let '(x112, x113) := add64 x103 x100 x111 in
  let x114 := (wadd x113 x101) in
  let '(x115, x116) := add64 x91 x106 0 in
  let '(x117, x118) := add64 x93 x108 x116 in
  let '(x119, x120) := add64 x95 x110 x118 in
  let '(x121, x122) := add64 x97 x112 x120 in
  let '(x123, x124) := add64 x99 x114 x122 in
  let '(_, x125) := mul64 x115 14758798090332847183 in
  let '(x128, x127) := mul64 x125 18446744069414584320 in
  let '(x130, x129) := mul64 x125 18446744073709551615 in
  let '(x132, x131) := mul64 x125 13611842547513532036 in
  let '(x134, x133) := mul64 x125 17562291160714782033 in
  let '(x135, x136) := add64 x134 x131 0 in
  let '(x137, x138) := add64 x132 x129 x136 in
  let '(x139, x140) := add64 x130 x127 x138 in
  let x141 := (wadd x140 x128) in
  let '(_, x143) := add64 x115 x133 0 in
  let '(x144, x145) := add64 x117 x135 x143 in
  let '(x146, x147) := add64 x119 x137 x145 in
  let '(x148, x149) := add64 x121 x139 x147 in
  let '(x150, x151) := add64 x123 x141 x149 in
  let x152 := (wadd x151 x124) in
  let '(x154, x153) := mul64 x3 arg2_3 in
  let '(x156, x155) := mul64 x3 arg2_2 in
  let '(x158, x157) := mul64 x3 arg2_1 in
  let '(x160, x159) := mul64 x3 arg2_0 in
  let '(x161, x162) := add64 x160 x157 0 in
  let '(x163, x164) := add64 x158 x155 x162 in
  let '(x165, x166) := add64 x156 x153 x164 in
  let x167 := (wadd x166 x154) in
  let '(x168, x169) := add64 x144 x159 0 in
  let '(x170, x171) := add64 x146 x161 x169 in
  let '(x172, x173) := add64 x148 x163 x171 in
  let '(x174, x175) := add64 x150 x165 x173 in
  let '(x176, x177) := add64 x152 x167 x175 in
  let '(_, x178) := mul64 x168 14758798090332847183 in
  let '(x181, x180) := mul64 x178 18446744069414584320 in
  let '(x183, x182) := mul64 x178 18446744073709551615 in
  let '(x185, x184) := mul64 x178 13611842547513532036 in
  let '(x187, x186) := mul64 x178 17562291160714782033 in
  let '(x188, x189) := add64 x187 x184 0 in
  let '(x190, x191) := add64 x185 x182 x189 in
  let '(x192, x193) := add64 x183 x180 x191 in
  let x194 := (wadd x193 x181) in
  let '(_, x196) := add64 x168 x186 0 in
  let '(x197, x198) := add64 x170 x188 x196 in
  let '(x199, x200) := add64 x172 x190 x198 in
  let '(x201, x202) := add64 x174 x192 x200 in
  let '(x203, x204) := add64 x176 x194 x202 in
  let x205 := (wadd x204 x177) in
  let '(x206, x207) := sub64 x197 17562291160714782033 0 in
  let '(x208, x209) := sub64 x199 13611842547513532036 x207 in
  let '(x210, x211) := sub64 x201 18446744073709551615 x209 in
  let '(x212, x213) := sub64 x203 18446744069414584320 x211 in
  let '(_, x215) := sub64 x205 0 x213 in
  let x216 := p256fq_cmovznz x215 x206 x197 in
  let x217 := p256fq_cmovznz x215 x208 x199 in
  let x218 := p256fq_cmovznz x215 x210 x201 in
  let x219 := p256fq_cmovznz x215 x212 x203 in
  L4 x216 x217 x218 x219.

(** p256/fq/p256_fq.go:418-737 [Square]. *)
Definition p256fq_square (arg1 : limbs4) : limbs4 :=
  let '(L4 arg1_0 arg1_1 arg1_2 arg1_3) := arg1 in
  let x1 := arg1_1 in
  let x2 := arg1_2 in
  let x3 := arg1_3 in
  let x4 := arg1_0 in
  let '(x6, x5) := mul64 x4 arg1_3 in
  let '(x8, x7) := mul64 x4 arg1_2 in
  let '(x10, x9) := mul64 x4 arg1_1 in
  let '(x12, x11) := mul64 x4 arg1_0 in
  let '(x13, x14) := add64 x12 x9 0 in
  let '(x15, x16) := add64 x10 x7 x14 in
  let '(x17, x18) := add64 x8 x5 x16 in
  let x19 := (wadd x18 x6) in
  let '(_, x20) := mul64 x11 14758798090332847183 in
  let '(x23, x22) := mul64 x20 18446744069414584320 in
  let '(x25, x24) := mul64 x20 18446744073709551615 in
  let '(x27, x26) := mul64 x20 13611842547513532036 in
  let '(x29, x28) := mul64 x20 17562291160714782033 in
  let '(x30, x31) := add64 x29 x26 0 in
  let '(x32, x33) := add64 x27 x24 x31 in
  let '(x34, x35) := add64 x25 x22 x33 in
  let x36 := (wadd x35 x23) in
  let '(_, x38) := add64 x11 x28 0 in
  let '(x39, x40) := add64 x13 x30 x38 in
  let '(x41, x42) := add64 x15 x32 x40 in
  let '(x43, x44) := add64 x17 x34 x42 in
  let '(x45, x46) := add64 x19 x36 x44 in
  let '(x48, x47) := mul64 x1 arg1_3 in
  let '(x50, x49) := mul64 x1 arg1_2 in
  let '(x52, x51) := mul64 x1 arg1_1 in
  let '(x54, x53) := mul64 x1 arg1_0 in
  let '(x55, x56) := add64 x54 x51 0 in
  let '(x57, x58) := add64 x52 x49 x56 in
  let '(x59, x60) := add64 x50 x47 x58 in
  let x61 := (wadd x60 x48) in
  let '(x62, x63) := add64 x39 x53 0 in
  let '(x64, x65) := add64 x41 x55 x63 in
  let '(x66, x67) := add64 x43 x57 x65 in
  let '(x68, x69) := add64 x45 x59 x67 in
  let '(x70, x71) := add64 x46 x61 x69 in
  let '(_, x72) := mul64 x62 14758798090332847183 in
  let '(x75, x74) := mul64 x72 18446744069414584320 in
  let '(x77, x76) := mul64 x72 18446744073709551615 in
  let '(x79, x78) := mul64 x72 13611842547513532036 in
  let '(x81, x80) := mul64 x72 17562291160714782033 in
  let '(x82, x83) := add64 x81 x78 0 in
  let '(x84, x85) := add64 x79 x76 x83 in
  let '(x86, x87) := add64 x77 x74 x85 in
  let x88 := (wadd x87 x75) in
  let '(_, x90) := add64 x62 x80 0 in
  let '(x91, x92) := add64 x64 x82 x90 in
  let '(x93, x94) := add64 x66 x84 x92 in
  let '(x95, x96) := add64 x68 x86 x94 in
  let '(x97, x98) := add64 x70 x88 x96 in
  let x99 := (wadd x98 x71) in
  let '(x101, x100) := mul64 x2 arg1_3 in
  let '(x103, x102) := mul64 x2 arg1_2 in
  let '(x105, x104) := mul64 x2 arg1_1 in
  let '(x107, x106) := mul64 x2 arg1_0 in
  let '(x108, x109) := add64 x107 x104 0 in
  let '(x110, x111) := add64 x105 x102 x109 in
  let '(x112, x113) := add64 x103 x100 x111 in
  let x114 := (wadd x113 x101) in
  let '(x115, x116) := add64 x91 x106 0 in
  let '(x117, x118) := add64 x93 x108 x116 in
  let '(x119, x120) := add64 x95 x110 x118 in
  let '(x121, x122) := add64 x97 x112 x120 in
  let '(x123, x124) := add64 x99 x114 x122 in
  let '(_, x125) := mul64 x115 14758798090332847183 in
  let '(x128, x127) := mul64 x125 18446744069414584320 in
  let '(x130, x129) := mul64 x125 18446744073709551615 in
  let '(x132, x131) := mul64 x125 13611842547513532036 in
  let '(x134, x133) := mul64 x125 17562291160714782033 in
  let '(x135, x136) := add64 x134 x131 0 in
  let '(x137, x138) := add64 x132 x129 x136 in
  let '(x139, x140) := add64 x130 x127 x138 in
  let x141 := (wadd x140 x128) in
  let '(_, x143) := add64 x115 x133 0 in
  let '(x144, x145) := add64 x117 x135 x143 in
  let '(x146, x147) := add64 x119 x137 x145 in
  let '(x148, x149) := add64 x121 x139 x147 in
  let '(x150, x151) := add64 x123 x141 x149 in
  let x152 := (wadd x151 x124) in
  let '(x154, x153) := mul64 x3 arg1_3 in
  let '(x156, x155) := mul64 x3 arg1_2 in
  let '(x158, x157) := mul64 x3 arg1_1 in
  let '(x160, x159) := mul64 x3 arg1_0 in
  let '(x161, x162) := add64 x160 x157 0 in
  let '(x163, x164) := add64 x158 x155 x162 in
  let '(x165, x166) := add64 x156 x153 x164 in
  let x167 := (wadd x166 x154) in
  let '(x168, x169) := add64 x144 x159 0 in
  let '(x170, x171) := add64 x146 x161 x169 in
  let '(x172, x173) := add64 x148 x163 x171 in
  let '(x174, x175) := add64 x150 x165 x173 in
  let '(x176, x177) := add64 x152 x167 x175 in
  let '(_, x178) := mul64 x168 14758798090332847183 in
  let '(x181, x180) := mul64 x178 18446744069414584320 in
  let '(x183, x182) := mul64 x178 18446744073709551615 in
  let '(x185, x184) := mul64 x178 13611842547513532036 in
  let '(x187, x186) := mul64 x178 17562291160714782033 in
  let '(x188, x189) := add64 x187 x184 0 in
  let '(x190, x191) := add64 x185 x182 x189 in
  let '(x192, x193) := add64 x183 x180 x191 in
  let x194 := (wadd x193 x181) in
  let '(_, x196) := add64 x168 x186 0 in
  let '(x197, x198) := add64 x170 x188 x196 in
  let '(x199, x200) := add64 x172 x190 x198 in
  let '(x201, x202) := add64 x174 x192 x200 in
  let '(x203, x204) := add64 x176 x194 x202 in
  let x205 := (wadd x204 x177) in
  let '(x206, x207) := sub64 x197 17562291160714782033 0 in
  let '(x208, x209) := sub64 x199 13611842547513532036 x207 in
  let '(x210, x211) := sub64 x201 18446744073709551615 x209 in
  let '(x212, x213) := sub64 x203 18446744069414584320 x211 in
  let '(_, x215) := sub64 x205 0 x213 in
  let x216 := p256fq_cmovznz x215 x206 x197 in
  let x217 := p256fq_cmovznz x215 x208 x199 in
  let x218 := p256fq_cmovznz x215 x210 x201 in
  let x219 := p256fq_cmovznz x215 x212 x203 in
  L4 x216 x217 x218 x219.

(** p256/fq/p256_fq.go:750-789 [Add]. *)
Definition p256fq_add (arg1 arg2 : limbs4) : limbs4 :=
  let '(L4 arg1_0 arg1_1 arg1_2 arg1_3) := arg1 in
  let '(L4 arg2_0 arg2_1 arg2_2 arg2_3) := arg2 in
  let '(x1, x2) := add64 arg1_0 arg2_0 0 in
  let '(x3, x4) := add64 arg1_1 arg2_1 x2 in
  let '(x5, x6) := add64 arg1_2 arg2_2 x4 in
  let '(x7, x8) := add64 arg1_3 arg2_3 x6 in
  let '(x9, x10) := sub64 x1 17562291160714782033 0 in
  let '(x11, x12) := sub64 x3 13611842547513532036 x10 in
  let '(x13, x14) := sub64 x5 18446744073709551615 x12 in
  let '(x15, x16) := sub64 x7 18446744069414584320 x14 in
  let '(_, x18) := sub64 x8 0 x16 in
  let x19 := p256fq_cmovznz x18 x9 x1 in
  let x20 := p256fq_cmovznz x18 x11 x3 in
  let x21 := p256fq_cmovznz x18 x13 x5 in
  let x22 := p256fq_cmovznz x18 x15 x7 in
  L4 x19 x20 x21 x22.

(** p256/fq/p256_fq.go:802-832 [Sub]. *)
Definition p256fq_sub (arg1 arg2 : limbs4) : limbs4 :=
  let '(L4 arg1_0 arg1_1 arg1_2 arg1_3) := arg1 in
  let '(L4 arg2_0 arg2_1 arg2_2 arg2_3) := arg2 in
  let '(x1, x2) := sub64 arg1_0 arg2_0 0 in
  let '(x3, x4) := sub64 arg1_1 arg2_1 x2 in
  let '(x5, x6) := sub64 arg1_2 arg2_2 x4 in
  let '(x7, x8) := sub64 arg1_3 arg2_3 x6 in
  let x9 := p256fq_cmovznz x8 0 18446744073709551615 in
  let '(x10, x11) := add64 x1 (wand x9 17562291160714782033) 0 in
  let '(x12, x13) := add64 x3 (wand x9 13611842547513532036) x11 in
  let '(x14, x15) := add64 x5 x9 x13 in
  let '(x16, _) := add64 x7 (wand x9 18446744069414584320) x15 in
  L4 x10 x12 x14 x16.

(** p256/fq/p256_fq.go:844-874 [Opp]. *)
Definition p256fq_opp (arg1 : limbs4) : limbs4 :=
  let '(L4 arg1_0 arg1_1 arg1_2 arg1_3) := arg1 in
  let '(x1, x2) := sub64 0 arg1_0 0 in
  let '(x3, x4) := sub64 0 arg1_1 x2 in
  let '(x5, x6) := sub64 0 arg1_2 x4 in
  let '(x7, x8) := sub64 0 arg1_3 x6 in
  let x9 := p256fq_cmovznz x8 0 18446744073709551615 in
  let '(x10, x11) := add64 x1 (wand x9 17562291160714782033) 0 in
  let '(x12, x13) := add64 x3 (wand x9 13611842547513532036) x11 in
  let '(x14, x15) := add64 x5 x9 x13 in
  let '(x16, _) := add64 x7 (wand x9 18446744069414584320) x15 in
  L4 x10 x12 x14 x16.

(** p256/fq/p256_fq.go:886-1078 [FromMontgomery]. *)
Definition p256fq_from_montgomery (arg1 : limbs4) : limbs4 :=
  let '(L4 arg1_0 arg1_1 arg1_2 arg1_3) := arg1 in
  let x1 := arg1_0 in
  let '(_, x2) := mul64 x1 14758798090332847183 in
  let '(x5, x4) := mul64 x2 18446744069414584320 in
  let '(x7, x6) := mul64 x2 18446744073709551615 in
  let '(x9, x8) := mul64 x2 13611842547513532036 in
  let '(x11, x10) := mul64 x2 17562291160714782033 in
  let '(x12, x13) := add64 x11 x8 0 in
  let '(x14, x15) := add64 x9 x6 x13 in
  let '(x16, x17) := add64 x7 x4 x15 in
  let '(_, x19) := add64 x1 x10 0 in
  let '(x20, x21) := add64 0 x12 x19 in
  let '(x22, x23) := add64 0 x14 x21 in
  let '(x24, x25) := add64 0 x16 x23 in
  let '(x26, x27) := add64 x20 arg1_1 0 in
  let '(x28, x29) := add64 x22 0 x27 in
  let '(x30, x31) := add64 x24 0 x29 in
  let '(_, x32) := mul64 x26 14758798090332847183 in
  let '(x35, x34) := mul64 x32 18446744069414584320 in
  let '(x37, x36) := mul64 x32 18446744073709551615 in
  let '(x39, x38) := mul64 x32 13611842547513532036 in
  let '(x41, x40) := mul64 x32 17562291160714782033 in
  let '(x42, x43) := add64 x41 x38 0 in
  let '(x44, x45) := add64 x39 x36 x43 in
  let '(x46, x47) := add64 x37 x34 x45 in
  let '(_, x49) := add64 x26 x40 0 in
  let '(x50, x51) := add64 x28 x42 x49 in
  let '(x52, x53) := add64 x30 x44 x51 in
  let '(x54, x55) := add64 (wadd x31 (wadd x25 (wadd x17 x5))) x46 x53 in
  let '(x56, x57) := add64 x50 arg1_2 0 in
  let '(x58, x59) := add64 x52 0 x57 in
  let '(x60, x61) := add64 x54 0 x59 in
  let '(_, x62) := mul64 x56 14758798090332847183 in
  let '(x65, x64) := mul64 x62 18446744069414584320 in
  let '(x67, x66) := mul64 x62 18446744073709551615 in
  let '(x69, x68) := mul64 x62 13611842547513532036 in
  let '(x71, x70) := mul64 x62 17562291160714782033 in
  let '(x72, x73) := add64 x71 x68 0 in
  let '(x74, x75) := add64 x69 x66 x73 in
  let '(x76, x77) := add64 x67 x64 x75 in
  let '(_, x79) := add64 x56 x70 0 in
  let '(x80, x81) := add64 x58 x72 x79 in
  let '(x82, x83) := add64 x60 x74 x81 in
  let '(x84, x85) := add64 (wadd x61 (wadd x55 (wadd x47 x35))) x76 x83 in
  let '(x86, x87) := add64 x80 arg1_3 0 in
  let '(x88, x89) := add64 x82 0 x87 in
  let '(x90, x91) := add64 x84 0 x89 in
  let '(_, x92) := mul64 x86 14758798090332847183 in
  let '(x95, x94) := mul64 x92 18446744069414584320 in
  let '(x97, x96) := mul64 x92 18446744073709551615 in
  let '(x99, x98) := mul64 x92 13611842547513532036 in
  let '(x101, x100) := mul64 x92 17562291160714782033 in
  let '(x102, x103) := add64 x101 x98 0 in
  let '(x104, x105) := add64 x99 x96 x103 in
  let '(x106, x107) := add64 x97 x94 x105 in
  let '(_, x109) := add64 x86 x100 0 in
  let '(x110, x111) := add64 x88 x102 x109 in
  let '(x112, x113) := add64 x90 x104 x111 in
  let '(x114, x115) := add64 (wadd x91 (wadd x85 (wadd x77 x65))) x106 x113 in
  let x116 := (wadd x115 (wadd x107 x95)) in
  let '(x117, x118) := sub64 x110 17562291160714782033 0 in
  let '(x119, x120) := sub64 x112 13611842547513532036 x118 in
  let '(x121, x122) := sub64 x114 18446744073709551615 x120 in
  let '(x123, x124) := sub64 x116 18446744069414584320 x122 in
  let '(_, x126) := sub64 0 0 x124 in
  let x127 := p256fq_cmovznz x126 x117 x110 in
  let x128 := p256fq_cmovznz x126 x119 x112 in
  let x129 := p256fq_cmovznz x126 x121 x114 in
  let x130 := p256fq_cmovznz x126 x123 x116 in
  L4 x127 x128 x129 x130.

(** p256/fq/p256_fq.go:1090-1389 [ToMontgomery]. *)
Definition p256fq_to_montgomery (arg1 : limbs4) : limbs4 :=
  let '(L4 arg1_0 arg1_1 arg1_2 arg1_3) := arg1 in
  let x1 := arg1_1 in
  let x2 := arg1_2 in
  let x3 := arg1_3 in
  let x4 := arg1_0 in
  let '(x6, x5) := mul64 x4 7413256579398063648 in
  let '(x8, x7) := mul64 x4 2901921493521525849 in
  let '(x10, x9) := mul64 x4 5087230966250696614 in
  let '(x12, x11) := mul64 x4 9449762124159643298 in
  let '(x13, x14) := add64 x12 x9 0 in
  let '(x15, x16) := add64 x10 x7 x14 in
  let '(x17, x18) := add64 x8 x5 x16 in
  let '(_, x19) := mul64 x11 14758798090332847183 in
  let '(x22, x21) := mul64 x19 18446744069414584320 in
  let '(x24, x23) := mul64 x19 18446744073709551615 in
  let '(x26, x25) := mul64 x19 13611842547513532036 in
  let '(x28, x27) := mul64 x19 17562291160714782033 in
  let '(x29, x30) := add64 x28 x25 0 in
  let '(x31, x32) := add64 x26 x23 x30 in
  let '(x33, x34) := add64 x24 x21 x32 in
  let '(_, x36) := add64 x11 x27 0 in
  let '(x37, x38) := add64 x13 x29 x36 in
  let '(x39, x40) := add64 x15 x31 x38 in
  let '(x41, x42) := add64 x17 x33 x40 in
  let '(x43, x44) := add64 (wadd x18 x6) (wadd x34 x22) x42 in
  let '(x46, x45) := mul64 x1 7413256579398063648 in
  let '(x48, x47) := mul64 x1 2901921493521525849 in
  let '(x50, x49) := mul64 x1 5087230966250696614 in
  let '(x52, x51) := mul64 x1 9449762124159643298 in
  let '(x53, x54) := add64 x52 x49 0 in
  let '(x55, x56) := add64 x50 x47 x54 in
  let '(x57, x58) := add64 x48 x45 x56 in
  let '(x59, x60) := add64 x37 x51 0 in
  let '(x61, x62) := add64 x39 x53 x60 in
  let '(x63, x64) := add64 x41 x55 x62 in
  let '(x65, x66) := add64 x43 x57 x64 in
  let '(_, x67) := mul64 x59 14758798090332847183 in
  let '(x70, x69) := mul64 x67 18446744069414584320 in
  let '(x72, x71) := mul64 x67 18446744073709551615 in
  let '(x74, x73) := mul64 x67 13611842547513532036 in
  let '(x76, x75) := mul64 x67 17562291160714782033 in
  let '(x77, x78) := add64 x76 x73 0 in
  let '(x79, x80) := add64 x74 x71 x78 in
  let '(x81, x82) := add64 x72 x69 x80 in
  let '(_, x84) := add64 x59 x75 0 in
  let '(x85, x86) := add64 x61 x77 x84 in
  let '(x87, x88) := add64 x63 x79 x86 in
  let '(x89, x90) := add64 x65 x81 x88 in
  let '(x91, x92) := add64 (wadd (wadd x66 x44) (wadd x58 x46)) (wadd x82 x70) x90 in
  let '(x94, x93) := mul64 x2 7413256579398063648 in
  let '(x96, x95) := mul64 x2 2901921493521525849 in
  let '(x98, x97) := mul64 x2 5087230966250696614 in
  let '(x100, x99) := mul64 x2 9449762124159643298 in
  let '(x101, x102) := add64 x100 x97 0 in
  let '(x103, x104) := add64 x98 x95 x102 in
  let '(x105, x106) := add64 x96 x93 x104 in
  let '(x107, x108) := add64 x85 x99 0 in
  let '(x109, x110) := add64 x87 x101 x108 in
  let '(x111, x112) := add64 x89 x103 x110 in
  let '(x113, x114) := add64 x91 x105 x112 in
  let '(_, x115) := mul64 x107 14758798090332847183 in
  let '(x118, x117) := mul64 x115 18446744069414584320 in
  let '(x120, x119) := mul64 x115 18446744073709551615 in
  let '(x122, x121) := mul64 x115 13611842547513532036 in
  let '(x124, x123) := mul64 x115 17562291160714782033 in
  let '(x125, x126) := add64 x124 x121 0 in
  let '(x127, x128) := add64 x122 x119 x126 in
  let '(x129, x130) := add64 x120 x117 x128 in
  let '(_, x132) := add64 x107 x123 0 in
  let '(x133, x134) := add64 x109 x125 x132 in
  let '(x135, x136) := add64 x111 x127 x134 in
  let '(x137, x138) := add64 x113 x129 x136 in
  let '(x139, x140) := add64 (wadd (wadd x114 x92) (wadd x106 x94)) (wadd x130 x118) x138 in
  let '(x142, x141) := mul64 x3 7413256579398063648 in
  let '(x144, x143) := mul64 x3 2901921493521525849 in
  let '(x146, x145) := mul64 x3 5087230966250696614 in
  let '(x148, x147) := mul64 x3 9449762124159643298 in
  let '(x149, x150) := add64 x148 x145 0 in
  let '(x151, x152) := add64 x146 x143 x150 in
  let '(x153, x154) := add64 x144 x141 x152 in
  let '(x155, x156) := add64 x133 x147 0 in
  let '(x157, x158) := add64 x135 x149 x156 in
  let '(x159, x160) := add64 x137 x151 x158 in
  let '(x161, x162) := add64 x139 x153 x160 in
  let '(_, x163) := mul64 x155 14758798090332847183 in
  let '(x166, x165) := mul64 x163 18446744069414584320 in
  let '(x168, x167) := mul64 x163 18446744073709551615 in
  let '(x170, x169) := mul64 x163 13611842547513532036 in
  let '(x172, x171) := mul64 x163 17562291160714782033 in
  let '(x173, x174) := add64 x172 x169 0 in
  let '(x175, x176) := add64 x170 x167 x174 in
  let '(x177, x178) := add64 x168 x165 x176 in
  let '(_, x180) := add64 x155 x171 0 in
  let '(x181, x182) := add64 x157 x173 x180 in
  let '(x183, x184) := add64 x159 x175 x182 in
  let '(x185, x186) := add64 x161 x177 x184 in
  let '(x187, x188) := add64 (wadd (wadd x162 x140) (wadd x154 x142)) (wadd x178 x166) x186 in
  let '(x189, x190) := sub64 x181 17562291160714782033 0 in
  let '(x191, x192) := sub64 x183 13611842547513532036 x190 in
  let '(x193, x194) := sub64 x185 18446744073709551615 x192 in
  let '(x195, x196) := sub64 x187 18446744069414584320 x194 in
  let '(_, x198) := sub64 x188 0 x196 in
  let x199 := p256fq_cmovznz x198 x189 x181 in
  let x200 := p256fq_cmovznz x198 x191 x183 in
  let x201 := p256fq_cmovznz x198 x193 x185 in
  let x202 := p256fq_cmovznz x198 x195 x187 in
  L4 x199 x200 x201 x202.

(** p256/fq/p256_fq.go:1428-1441 [Selectznz]. *)
Definition p256fq_selectznz (arg1 : Z) (arg2 arg3 : limbs4) : limbs4 :=
  let '(L4 arg2_0 arg2_1 arg2_2 arg2_3) := arg2 in
  let '(L4 arg3_0 arg3_1 arg3_2 arg3_3) := arg3 in
  let x1 := p256fq_cmovznz arg1 arg2_0 arg3_0 in
  let x2 := p256fq_cmovznz arg1 arg2_1 arg3_1 in
  let x3 := p256fq_cmovznz arg1 arg2_2 arg3_2 in
  let x4 := p256fq_cmovznz arg1 arg2_3 arg3_3 in
  L4 x1 x2 x3 x4.

(** p256/fq/p256_fq.go:1460-1553 [ToBytes]. *)
Definition p256fq_to_bytes (arg1 : limbs4) : list Z :=
  let '(L4 arg1_0 arg1_1 arg1_2 arg1_3) := arg1 in
  let x1 := arg1_3 in
  let x2 := arg1_2 in
  let x3 := arg1_1 in
  let x4 := arg1_0 in
  let x5 := (wand (wbyte x4) 255) in
  let x6 := (wshr x4 8) in
  let x7 := (wand (wbyte x6) 255) in
  let x8 := (wshr x6 8) in
  let x9 := (wand (wbyte x8) 255) in
  let x10 := (wshr x8 8) in
  let x11 := (wand (wbyte x10) 255) in
  let x12 := (wshr x10 8) in
  let x13 := (wand (wbyte x12) 255) in
  let x14 := (wshr x12 8) in
  let x15 := (wand (wbyte x14) 255) in
  let x16 := (wshr x14 8) in
  let x17 := (wand (wbyte x16) 255) in
  let x18 := (wbyte (wshr x16 8)) in
  let x19 := (wand (wbyte x3) 255) in
  let x20 := (wshr x3 8) in
  let x21 := (wand (wbyte x20) 255) in
  let x22 := (wshr x20 8) in
  let x23 := (wand (wbyte x22) 255) in
  let x24 := (wshr x22 8) in
  let x25 := (wand (wbyte x24) 255) in
  let x26 := (wshr x24 8) in
  let x27 := (wand (wbyte x26) 255) in
  let x28 := (wshr x26 8) in
  let x29 := (wand (wbyte x28) 255) in
  let x30 := (wshr x28 8) in
  let x31 := (wand (wbyte x30) 255) in
  let x32 := (wbyte (wshr x30 8)) in
  let x33 := (wand (wbyte x2) 255) in
  let x34 := (wshr x2 8) in
  let x35 := (wand (wbyte x34) 255) in
  let x36 := (wshr x34 8) in
  let x37 := (wand (wbyte x36) 255) in
  let x38 := (wshr x36 8) in
  let x39 := (wand (wbyte x38) 255) in
  let x40 := (wshr x38 8) in
  let x41 := (wand (wbyte x40) 255) in
  let x42 := (wshr x40 8) in
  let x43 := (wand (wbyte x42) 255) in
  let x44 := (wshr x42 8) in
  let x45 := (wand (wbyte x44) 255) in
  let x46 := (wbyte (wshr x44 8)) in
  let x47 := (wand (wbyte x1) 255) in
  let x48 := (wshr x1 8) in
  let x49 := (wand (wbyte x48) 255) in
  let x50 := (wshr x48 8) in
  let x51 := (wand (wbyte x50) 255) in
  let x52 := (wshr x50 8) in
  let x53 := (wand (wbyte x52) 255) in
  let x54 := (wshr x52 8) in
  let x55 := (wand (wbyte x54) 255) in
  let x56 := (wshr x54 8) in
  let x57 := (wand (wbyte x56) 255) in
  let x58 := (wshr x56 8) in
  let x59 := (wand (wbyte x58) 255) in
  let x60 := (wbyte (wshr x58 8)) in
  [x5; x7; x9; x11; x13; x15; x17; x18; x19; x21; x23; x25; x27; x29; x31; x32; x33; x35; x37; x39; x41; x43; x45; x46; x47; x49; x51; x53; x55; x57; x59; x60].

(** p256/fq/p256_fq.go:1573-1638 [FromBytes]. *)
Definition p256fq_from_bytes (arg1 : list Z) : limbs4 :=
  let x1 := (wshl (nth 31 arg1 0) 56) in
  let x2 := (wshl (nth 30 arg1 0) 48) in
  let x3 := (wshl (nth 29 arg1 0) 40) in
  let x4 := (wshl (nth 28 arg1 0) 32) in
  let x5 := (wshl (nth 27 arg1 0) 24) in
  let x6 := (wshl (nth 26 arg1 0) 16) in
  let x7 := (wshl (nth 25 arg1 0) 8) in
  let x8 := (nth 24 arg1 0) in
  let x9 := (wshl (nth 23 arg1 0) 56) in
  let x10 := (wshl (nth 22 arg1 0) 48) in
  let x11 := (wshl (nth 21 arg1 0) 40) in
  let x12 := (wshl (nth 20 arg1 0) 32) in
  let x13 := (wshl (nth 19 arg1 0) 24) in
  let x14 := (wshl (nth 18 arg1 0) 16) in
  let x15 := (wshl (nth 17 arg1 0) 8) in
  let x16 := (nth 16 arg1 0) in
  let x17 := (wshl (nth 15 arg1 0) 56) in
  let x18 := (wshl (nth 14 arg1 0) 48) in
  let x19 := (wshl (nth 13 arg1 0) 40) in
  let x20 := (wshl (nth 12 arg1 0) 32) in
  let x21 := (wshl (nth 11 arg1 0) 24) in
  let x22 := (wshl (nth 10 arg1 0) 16) in
  let x23 := (wshl (nth 9 arg1 0) 8) in
  let x24 := (nth 8 arg1 0) in
  let x25 := (wshl (nth 7 arg1 0) 56) in
  let x26 := (wshl (nth 6 arg1 0) 48) in
  let x27 := (wshl (nth 5 arg1 0) 40) in
  let x28 := (wshl (nth 4 arg1 0) 32) in
  let x29 := (wshl (nth 3 arg1 0) 24) in
  let x30 := (wshl (nth 2 arg1 0) 16) in
  let x31 := (wshl (nth 1 arg1 0) 8) in
  let x32 := (nth 0 arg1 0) in
  let x33 := (wadd x31 x32) in
  let x34 := (wadd x30 x33) in
  let x35 := (wadd x29 x34) in
  let x36 := (wadd x28 x35) in
  let x37 := (wadd x27 x36) in
  let x38 := (wadd x26 x37) in
  let x39 := (wadd x25 x38) in
  let x40 := (wadd x23 x24) in
  let x41 := (wadd x22 x40) in
  let x42 := (wadd x21 x41) in
  let x43 := (wadd x20 x42) in
  let x44 := (wadd x19 x43) in
  let x45 := (wadd x18 x44) in
  let x46 := (wadd x17 x45) in
  let x47 := (wadd x15 x16) in
  let x48 := (wadd x14 x47) in
  let x49 := (wadd x13 x48) in
  let x50 := (wadd x12 x49) in
  let x51 := (wadd x11 x50) in
  let x52 := (wadd x10 x51) in
  let x53 := (wadd x9 x52) in
  let x54 := (wadd x7 x8) in
  let x55 := (wadd x6 x54) in
  let x56 := (wadd x5 x55) in
  let x57 := (wadd x4 x56) in
  let x58 := (wadd x3 x57) in
  let x59 := (wadd x2 x58) in
  let x60 := (wadd x1 x59) in
  L4 x39 x46 x53 x60.

