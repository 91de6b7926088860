(** The byte encodings of BLS12-381 G1 and G2 points (crypto/core/curves/native/bls12381/g1.go:775-917, g2.go:756-913),
    on limb arrays.

    [PointModel.v] has the point operations; [BlsFp.v] the limb-level field functions.  [bls_const] wraps the six words a
    limb function returns into the type of reduced arrays (they always are reduced, see C79; otherwise it gives 0).
    The two curves' functions are the same text over their coordinate types, so they are written once over the coordinate
    functions, given below for G1 and for G2.  Simplifications: an error value is [None]; the receiver is written only on
    success; Go's fixed-size array arguments are lists (their length is a hypothesis of the theorems). *)
From Coq Require Import ZArith NArith List Bool.
From Verif Require Import EcField PointModel LimbBase LimbBls NativeField BlsFp LimbField BlsFpProps TowerModel TowerField TowerBls TowerInst G2Model.
Import ListNotations.
Set Implicit Arguments.
Unset Strict Implicit.
Local Open Scope Z_scope.

(** an assignment b[n] = f(b[n]) *)
Definition update (n : nat) (f : Z -> Z) (bs : list Z) : list Z := firstn n bs ++ f (nth n bs 0) :: skipn (S n) bs.
(** a Go byte *)
Definition to_byte (x : Z) : Z := x mod 256.

(** ** Coordinates in Fp *)
(** internal.ReverseScalarBytes(x.Bytes()) *)
Definition fp_put (x : BlsFp) : list Z := reverse_scalar_bytes (blsfp_bytes (raw x)).
(** g1.go:836-839, 892-902: reverse, mask the flags of the last byte if [mask], SetBytes *)
Definition fp_get (mask : bool) (input : list Z) : option BlsFp :=
  let x := reverse_scalar_bytes input in
  let x := if mask then update 47 (fun b => Z.land b 0x1F) x else x in
  let '(v, valid) := blsfp_set_bytes blsfp_zero x in
  if valid =? 1 then Some (bls_const v) else None.
(** fp.go:420-440 [Sqrt] with the argument as receiver *)
Definition fp_sqrt (x : BlsFp) : BlsFp * bool :=
  let '(r, wasSquare) := blsfp_sqrt (raw x) (raw x) in (bls_const r, wasSquare =? 1).
(** fp.go:604-608 [CNeg] with the argument as receiver *)
Definition fp_cneg (x : BlsFp) (choice : Z) : BlsFp := bls_const (blsfp_cneg (raw x) (raw x) choice).
(** fp.go:141-153 [LexicographicallyLargest] *)
Definition fp_lex (x : BlsFp) : Z := blsfp_lex_largest (raw x).
Definition fp_is_zero_int (x : BlsFp) : Z := blsfp_is_zero (raw x).

(** ** Coordinates in Fp2: B first *)
(** g2.go:783-786, 850-857 *)
Definition fp2_put (x : fp2 BlsFp) : list Z := fp_put (qu_b x) ++ fp_put (qu_a x).
(** g2.go:812-818, 872-902 *)
Definition fp2_get (mask : bool) (input : list Z) : option (fp2 BlsFp) :=
  match fp_get mask (slice 0 48 input), fp_get false (slice 48 96 input) with
  | Some b, Some a => Some (Quad a b)
  | _, _ => None
  end.
Definition fp2_root (x : fp2 BlsFp) : fp2 BlsFp * bool := fp2_sqrt bls_minus_one x x.
Definition fp2_cneg_int (x : fp2 BlsFp) (choice : Z) : fp2 BlsFp := fp2_cneg x x (choice =? 1).
(** fp2.go:73-83 [LexicographicallyLargest] *)
Definition fp2_lex (x : fp2 BlsFp) : Z := Z.lor (fp_lex (qu_b x)) (Z.land (fp_is_zero_int (qu_b x)) (fp_lex (qu_a x))).

Section Codec.
  Variable K : field.
  Variables (width : nat) (b : K) (m3b : K -> K).
  Variables (put : K -> list Z) (get : bool -> list Z -> option K) (sqrt : K -> K * bool) (cneg : K -> Z -> K) (lex : K -> Z).

  (** g1.go:806-820, g2.go:779-795 [ToCompressed] *)
  Definition to_compressed (p : pt K) : list Z :=
    let t := to_affine p in
    let out := put (PointModel.px t) in
    let isInfinity := z01 (is_identity p) in
    let out := update 0 (fun o => Z.lor o (to_byte (Z.shiftl 1 7))) out in
    let out := update 0 (fun o => Z.lor o (Z.land (Z.shiftl 1 6) (to_byte (- isInfinity)))) out in
    let out := update 0 (fun o => Z.lor o (Z.land (to_byte (Z.shiftl (to_byte (lex (py t))) 5)) (to_byte (isInfinity - 1)))) out in
    out.
  (** g1.go:823-865, g2.go:798-843 [FromCompressed] *)
  Definition from_compressed (input : list Z) : option (pt K) :=
    let compressedFlag := Z.land (Z.shiftr (nth 0 input 0) 7) 1 in
    let infinityFlag := Z.land (Z.shiftr (nth 0 input 0) 6) 1 in
    let sortFlag := Z.land (Z.shiftr (nth 0 input 0) 5) 1 in
    if negb (compressedFlag =? 1) then None
    else if infinityFlag =? 1 then Some bls_id
    else
      match get true (firstn width input) with
      | None => None
      | Some x =>
          let y := fmul x x in
          let y := fmul y x in
          let y := fadd y b in
          let '(y, wasSquare) := sqrt y in
          if negb wasSquare then None
          else
            let y := cneg y (Z.lxor (lex y) sortFlag) in
            let p := Pt x y f1 in
            if negb (in_correct_subgroup m3b p) then None else Some p
      end.
  (** g1.go:868-879, g2.go:846-861 [ToUncompressed] *)
  Definition to_uncompressed (p : pt K) : list Z :=
    let t := to_affine p in
    let out := put (PointModel.px t) ++ put (py t) in
    let isInfinity := z01 (is_identity p) in
    update 0 (fun o => Z.lor o (Z.land (Z.shiftl 1 6) (to_byte (- isInfinity)))) out.
  (** g1.go:882-917, g2.go:864-913 [FromUncompressed] *)
  Definition from_uncompressed (input : list Z) : option (pt K) :=
    let infinityFlag := Z.land (Z.shiftr (nth 0 input 0) 6) 1 in
    if infinityFlag =? 1 then Some bls_id
    else
      match get true (firstn width input), get false (skipn width input) with
      | Some x, Some y =>
          let p := Pt x y f1 in
          if negb (bls_on_curve b p) then None
          else if negb (in_correct_subgroup m3b p) then None
          else Some p
      | _, _ => None
      end.
End Codec.

(** ** G1 *)
Definition g1_to_compressed : pt BlsFp -> list Z := to_compressed fp_put fp_lex.
Definition g1_from_compressed : list Z -> option (pt BlsFp) := from_compressed 48 bls_b1 g1_m3b fp_get fp_sqrt fp_cneg fp_lex.
Definition g1_to_uncompressed : pt BlsFp -> list Z := to_uncompressed fp_put.
Definition g1_from_uncompressed : list Z -> option (pt BlsFp) := from_uncompressed 48 bls_b1 g1_m3b fp_get.
(** g1.go:775-781 [BigInt] *)
Definition g1_big_int (p : pt BlsFp) : Z * Z :=
  let t := to_affine p in (blsfp_big_int (raw (PointModel.px t)), blsfp_big_int (raw (py t))).
(** g1.go:785-803 [SetBigInt] *)
Definition g1_set_big_int (x y : Z) : option (pt BlsFp) :=
  g1_set g1_m3b bls_b1 (bls_const (blsfp_set_big_int blsfp_zero x)) (bls_const (blsfp_set_big_int blsfp_zero y)).

(** ** G2; the curve constant is [bls_b2] (the limbs of curveG2B by [bls_b2_const]) *)
Definition g2_to_compressed : pt Bls2 -> list Z := to_compressed (K := Bls2) fp2_put fp2_lex.
Definition g2_from_compressed : list Z -> option (pt Bls2) := from_compressed (K := Bls2) 96 bls_b2 g2_m3b fp2_get fp2_root fp2_cneg_int fp2_lex.
Definition g2_to_uncompressed : pt Bls2 -> list Z := to_uncompressed (K := Bls2) fp2_put.
Definition g2_from_uncompressed : list Z -> option (pt Bls2) := from_uncompressed (K := Bls2) 96 bls_b2 g2_m3b fp2_get.
(** g2.go:756-762 [BigInt]: the receiver is not read, [t] is a zero value *)
Definition g2_big_int (p : pt Bls2) : Z * Z :=
  let t := Pt (F := Bls2) f0 f0 f0 in
  let out := g2_to_uncompressed t in
  (big_of_bytes (slice 0 96 out), big_of_bytes (slice 96 192 out)).
(** g2.go:766-776 [SetBigInt]; the outer [None] is the panic of FillBytes *)
Definition g2_set_big_int (x y : Z) : option (option (pt Bls2)) :=
  if (x =? 0) && (y =? 0) then Some (Some bls_id)
  else if (2 ^ 768 <=? Z.abs x) || (2 ^ 768 <=? Z.abs y) then None
  else Some (g2_from_uncompressed (fill_be 96 (Z.abs x) ++ fill_be 96 (Z.abs y))).
