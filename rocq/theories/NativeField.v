(** * crypto/core/curves/native/field.go: the generic 256-bit prime field.

    A [native.Field] is its four limbs; [Params] and [Arithmetic] are the two
    records below (the interface FieldArithmetic becomes a record of
    functions, its Sqrt and Invert the two last fields of [native_field]).
    Methods return the new [Value] of the receiver.  Where a method may leave
    the receiver as it was (Sqrt, Invert, SetBytes, SetBigInt), the old value
    is an argument.  encoding/binary and math/big are outside the repository
    and modelled by contract. *)
From Coq Require Import ZArith List Bool.
From Verif Require Import LimbBase.
Import ListNotations.
Open Scope Z_scope.

(** field.go:32-43 [FieldParams]. *)
Record field_params := FP { fp_R : limbs4; fp_R2 : limbs4; fp_R3 : limbs4; fp_Modulus : limbs4; fp_BiModulus : Z }.

(** field.go:46-72 [FieldArithmetic] without Sqrt and Invert. *)
Record field_arith := FA {
  fa_to_mont : limbs4 -> limbs4;
  fa_from_mont : limbs4 -> limbs4;
  fa_neg : limbs4 -> limbs4;
  fa_square : limbs4 -> limbs4;
  fa_mul : limbs4 -> limbs4 -> limbs4;
  fa_add : limbs4 -> limbs4 -> limbs4;
  fa_sub : limbs4 -> limbs4 -> limbs4;
  fa_from_bytes : list Z -> limbs4;
  fa_to_bytes : limbs4 -> list Z;
  fa_selectznz : limbs4 -> limbs4 -> Z -> limbs4 }.   (* arg1, arg2, choice *)

(** encoding/binary.LittleEndian.Uint64 and PutUint64. *)
Fixpoint get_uint64 (b : list Z) : Z := match b with nil => 0 | x :: r => x + 256 * get_uint64 r end.
Fixpoint put_le (n : nat) (x : Z) : list Z :=
  match n with O => nil | S n => x mod 256 :: put_le n (x / 256) end.
Definition put_uint64 (x : Z) : list Z := put_le 8 x.
(** b[i:j]. *)
Definition slice (i j : nat) (b : list Z) : list Z := firstn (j - i) (skipn i b).
(** big.Int.FillBytes into n bytes (big endian; the callers' values always fit), and big.Int.SetBytes. *)
Definition fill_be (n : nat) (x : Z) : list Z := rev (put_le n x).
Definition big_of_bytes (b : list Z) : Z := fold_left (fun a x => a * 256 + x) b 0.
(** crypto/internal/point.go:21-29 [ReverseScalarBytes]. *)
Definition reverse_scalar_bytes (b : list Z) : list Z := rev b.

(** field.go:85-108 [cmpHelper]: one iteration, then the loop i = 3 .. 0. *)
Definition cmp_limb (s : Z * Z) (lhs rhs : Z) : Z * Z :=
  let '(gt, lt) := s in
  let rhsH := wshr rhs 32 in
  let rhsL := wand rhs 4294967295 in
  let lhsH := wshr lhs 32 in
  let lhsL := wand lhs 4294967295 in
  let gt := wor gt (wandnot (wand (wshr (wsub rhsH lhsH) 32) 1) lt) in
  let lt := wor lt (wandnot (wand (wshr (wsub lhsH rhsH) 32) 1) gt) in
  let gt := wor gt (wandnot (wand (wshr (wsub rhsL lhsL) 32) 1) lt) in
  let lt := wor lt (wandnot (wand (wshr (wsub lhsL rhsL) 32) 1) gt) in
  (gt, lt).
Definition cmp_helper (lhs rhs : limbs4) : Z :=
  let '(L4 l0 l1 l2 l3) := lhs in
  let '(L4 r0 r1 r2 r3) := rhs in
  let s := (0, 0) in
  let s := cmp_limb s l3 r3 in
  let s := cmp_limb s l2 r2 in
  let s := cmp_limb s l1 r1 in
  let s := cmp_limb s l0 r0 in
  to_int64 (fst s) - to_int64 (snd s).

(** field.go:115-121 [equalHelper]; the last line is shared with IsZero. *)
Definition all_zero (t : Z) : Z := Z.shiftr (Z.lor (to_int64 t) (to_int64 (wneg t))) 63 + 1.
Definition equal_helper (lhs rhs : limbs4) : Z :=
  let '(L4 l0 l1 l2 l3) := lhs in
  let '(L4 r0 r1 r2 r3) := rhs in
  let t := wxor l0 r0 in
  let t := wor t (wxor l1 r1) in
  let t := wor t (wxor l2 r2) in
  let t := wor t (wxor l3 r3) in
  all_zero t.

(** field.go:124-130 [IsZero], 133-139 [IsNonZero]. *)
Definition nf_is_zero (f : limbs4) : Z :=
  let '(L4 f0 f1 f2 f3) := f in
  let t := f0 in let t := wor t f1 in let t := wor t f2 in let t := wor t f3 in
  all_zero t.
Definition nf_is_non_zero (f : limbs4) : Z :=
  let '(L4 f0 f1 f2 f3) := f in
  let t := f0 in let t := wor t f1 in let t := wor t f2 in let t := wor t f3 in
  - Z.shiftr (Z.lor (to_int64 t) (to_int64 (wneg t))) 63.

(** field.go:374-389 [Pow2k]: the loop i = 0 .. k-1. *)
Fixpoint square_times (A : field_arith) (k : nat) (t : limbs4) : limbs4 :=
  match k with O => t | S k => square_times A k (fa_square A t) end.
Definition pow2k (A : field_arith) (arg : limbs4) (k : nat) : limbs4 := square_times A k arg.

(** field.go:355-370 [Pow]: for i = 3 .. 0, for j = 63 .. 0. *)
Definition down64 : list Z := map Z.of_nat (rev (seq 0 64)).
Definition pow_bit (A : field_arith) (base : limbs4) (e : Z) (res : limbs4) (j : Z) : limbs4 :=
  let res := fa_square A res in
  let tmp := fa_mul A res base in
  fa_selectznz A res tmp (Z.land (to_int64 (wshr e j)) 1).
Definition pow_limb (A : field_arith) (base : limbs4) (res : limbs4) (e : Z) : limbs4 :=
  fold_left (pow_bit A base e) down64 res.
Definition nf_pow (P : field_params) (A : field_arith) (base exp : limbs4) : limbs4 :=
  let '(L4 e0 e1 e2 e3) := exp in
  fold_left (pow_limb A base) [e3; e2; e1; e0] (fp_R P).

(** A field: Params, Arithmetic, and the two remaining interface methods, each
    (old out, arg) to (flag, new out). *)
Record native_field := NF {
  nf_params : field_params;
  nf_arith : field_arith;
  nf_sqrt_m : limbs4 -> limbs4 -> Z * limbs4;
  nf_invert_m : limbs4 -> limbs4 -> Z * limbs4 }.

Section Methods.
  Variable F : native_field.
  Let P := nf_params F.
  Let A := nf_arith F.

  (** field.go:77-79 [Cmp], 111-113 [Equal], 142-144 [IsOne]. *)
  Definition nf_cmp (f rhs : limbs4) : Z := cmp_helper f rhs.
  Definition nf_equal (f rhs : limbs4) : Z := equal_helper f rhs.
  Definition nf_is_one (f : limbs4) : Z := equal_helper f (fp_R P).

  (** field.go:158-162 [SetUint64], 165-171 [SetOne], 174-180 [SetZero]. *)
  Definition nf_set_uint64 (rhs : Z) : limbs4 := fa_to_mont A (L4 rhs 0 0 0).
  Definition nf_one : limbs4 := fp_R P.
  Definition nf_zero : limbs4 := L4 0 0 0 0.

  (** field.go:197-221 [SetBytesWide]. *)
  Definition nf_set_bytes_wide (input : list Z) : limbs4 :=
    let d0 := L4 (get_uint64 (slice 0 8 input)) (get_uint64 (slice 8 16 input))
                 (get_uint64 (slice 16 24 input)) (get_uint64 (slice 24 32 input)) in
    let d1 := L4 (get_uint64 (slice 32 40 input)) (get_uint64 (slice 40 48 input))
                 (get_uint64 (slice 48 56 input)) (get_uint64 (slice 56 64 input)) in
    let tv1 := fa_mul A d0 (fp_R2 P) in
    let tv2 := fa_mul A d1 (fp_R3 P) in
    fa_add A tv1 tv2.

  (** field.go:259-262 [SetLimbs]. *)
  Definition nf_set_limbs (input : limbs4) : limbs4 := fa_to_mont A input.

  (** field.go:225-233 [SetBytes]. *)
  Definition nf_set_bytes (input : list Z) : option limbs4 :=
    let d0 := fa_from_bytes A input in
    if negb (cmp_helper d0 (fp_Modulus P) =? -1) then None else Some (nf_set_limbs d0).

  (** field.go:237-245 [SetBigInt]; [f] is the old value, kept if SetBytes fails. *)
  Definition nf_set_big_int (f : limbs4) (bi : Z) : limbs4 :=
    let t := bi mod (fp_BiModulus P) in
    let buffer := fill_be 32 t in
    let buffer := reverse_scalar_bytes buffer in
    match nf_set_bytes buffer with Some x => x | None => f end.

  (** field.go:249-255 [SetRaw]. *)
  Definition nf_set_raw (input : limbs4) : limbs4 := input.

  (** field.go:266-272 [Bytes], 275-278 [BigInt], 281-285 [Raw]. *)
  Definition nf_bytes (f : limbs4) : list Z := fa_to_bytes A (fa_from_mont A f).
  Definition nf_big_int (f : limbs4) : Z := big_of_bytes (reverse_scalar_bytes (nf_bytes f)).
  Definition nf_raw (f : limbs4) : limbs4 := fa_from_mont A f.

  (** field.go:288-291 [Double], 294-297 [Square], 316-319 [Mul], 322-325 [Sub], 328-331 [Add], 334-337 [Neg]. *)
  Definition nf_double (a : limbs4) : limbs4 := fa_add A a a.
  Definition nf_square (a : limbs4) : limbs4 := fa_square A a.
  Definition nf_mul (lhs rhs : limbs4) : limbs4 := fa_mul A lhs rhs.
  Definition nf_sub (lhs rhs : limbs4) : limbs4 := fa_sub A lhs rhs.
  Definition nf_add (lhs rhs : limbs4) : limbs4 := fa_add A lhs rhs.
  Definition nf_neg (input : limbs4) : limbs4 := fa_neg A input.

  (** field.go:301-305 [Sqrt], 309-313 [Invert]; [f] is the old receiver value. *)
  Definition nf_sqrt (f a : limbs4) : limbs4 * bool :=
    let '(wasSquare, out) := nf_sqrt_m F f a in (out, wasSquare =? 1).
  Definition nf_invert (f a : limbs4) : limbs4 * bool :=
    let '(wasInverted, out) := nf_invert_m F f a in (out, wasInverted =? 1).

  (** field.go:340-345 [Exp], 348-351 [CMove]. *)
  Definition nf_exp (base exp : limbs4) : limbs4 := nf_pow P A base (fa_from_mont A exp).
  Definition nf_cmove (lhs rhs : limbs4) (choice : Z) : limbs4 := fa_selectznz A lhs rhs choice.
End Methods.
