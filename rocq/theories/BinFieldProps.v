(** C61: the product used by the OT extension's consistency check. *)
From mathcomp Require Import all_ssreflect all_algebra.
From Coq Require Import BinNat.
From Verif Require Import ByteVec BinFieldModel BinFieldProofs.
Delimit Scope nat_scope with N.
Delimit Scope N_scope with num.
Set Implicit Arguments.
Unset Strict Implicit.
Unset Printing Implicit Defensive.
Import GRing.Theory.
Local Open Scope ring_scope.

(** Specification, independent of the code: a 32-byte string read as a polynomial over GF(2), bit 8i+j of the
    string (bit j of byte i) being the coefficient of X^(8i+j); the modulus; bytewise xor. *)
Definition block (v : seq N) : Prop := size v = 32%N /\ all is_byte v.
Definition poly_of_bytes (v : seq N) : {poly 'F_2} :=
  \poly_(i < 8 * size v) (if N.testbit (nth 0%num v (i %/ 8)) (N.of_nat (i %% 8)) then 1 else 0).
Definition modulus : {poly 'F_2} := 'X^256 + 'X^10 + 'X^5 + 'X^2 + 1.
Definition xor32 (v w : seq N) : seq N := [seq N.lxor p.1 p.2 | p <- zip v w].

Lemma poly_of_bytesE v : poly_of_bytes v = vpoly v.
Proof. by []. Qed.
Lemma block_xor v w : block v -> block w -> block (xor32 v w).
Proof.
  move=> [Sv Bv] [Sw Bw]. split; first by rewrite size_map size_zip Sv Sw.
  apply/allP => x /mapP [p Hp ->].
  have Lp := nth_index (0%num, 0%num) Hp. rewrite -Lp nth_zip ?Sv ?Sw //=.
  apply: byte_xor; exact: nth_byte.
Qed.
Lemma poly_xor v w : block v -> block w -> poly_of_bytes (xor32 v w) = poly_of_bytes v + poly_of_bytes w.
Proof.
  move=> [Sv Bv] [Sw Bw]. rewrite !poly_of_bytesE. apply/polyP => i. rewrite coefD !coef_poly.
  rewrite size_map size_zip Sv Sw minnn. case: ltnP => L; last by rewrite addr0.
  rewrite -b2_xor. congr b2. rewrite /vbit.
  rewrite (nth_map (0%num, 0%num)); last by rewrite size_zip Sv Sw minnn ltn_divLR // mulnC.
  by rewrite nth_zip ?Sv ?Sw //= nbit_xor.
Qed.

(** The result is a 32-byte string, and it is the product of the two polynomials reduced modulo the modulus. *)
Theorem C61_result_is_block A B : block (binary_field_mul A B).
Proof. by split; [rewrite size_mkseq|exact: expand_bytes]. Qed.
Theorem C61_product A B : block A -> block B ->
  poly_of_bytes (binary_field_mul A B) = (poly_of_bytes A * poly_of_bytes B) %% modulus.
Proof. move=> [SA BA] [SB BB]. rewrite !poly_of_bytesE. exact: bfm_ok. Qed.
(** Strings and polynomials of degree below 256 correspond one to one, so the above determines the result. *)
Theorem C61_determined v w : block v -> block w -> poly_of_bytes v = poly_of_bytes w -> v = w.
Proof. move=> [Sv Bv] [Sw Bw]. rewrite !poly_of_bytesE. apply: vpoly_inj => //. by rewrite Sv Sw. Qed.

(* consequences, for any function with that specification (keeps the code from being unfolded) *)
Section Abstract.
  Variable f : seq N -> seq N -> seq N.
  Hypothesis fB : forall A B, block (f A B).
  Hypothesis fP : forall A B, block A -> block B -> poly_of_bytes (f A B) = (poly_of_bytes A * poly_of_bytes B) %% modulus.
  Lemma abs_comm A B : block A -> block B -> f A B = f B A.
  Proof. move=> HA HB. apply: C61_determined; try exact: fB. by rewrite !fP // mulrC. Qed.
  Lemma abs_bil A B C : block A -> block B -> block C ->
    f (xor32 A B) C = xor32 (f A C) (f B C) /\ f C (xor32 A B) = xor32 (f C A) (f C B).
  Proof.
    move=> HA HB HC.
    have H U V W : block U -> block V -> block W -> f (xor32 U V) W = xor32 (f U W) (f V W).
    { move=> HU HV HW. have HX := block_xor HU HV. have R1 := fB U W. have R2 := fB V W.
      apply: C61_determined; [exact: fB|exact: block_xor|].
      by rewrite (poly_xor R1 R2) !fP // poly_xor // mulrDl modpD. }
    split; first exact: H. have HX := block_xor HA HB.
    rewrite (abs_comm HC HX) (abs_comm HC HA) (abs_comm HC HB). exact: H.
  Qed.
  Lemma abs_assoc A B C : block A -> block B -> block C -> f (f A B) C = f A (f B C).
  Proof.
    move=> HA HB HC. have R1 := fB A B. have R2 := fB B C.
    apply: C61_determined; try exact: fB. rewrite !fP // [_ %% _ * poly_of_bytes C]mulrC !modp_mul.
    by rewrite mulrCA [poly_of_bytes C * _]mulrC.
  Qed.
End Abstract.

Theorem C61_commutative A B : block A -> block B -> binary_field_mul A B = binary_field_mul B A.
Proof. exact: (abs_comm C61_result_is_block C61_product). Qed.
Theorem C61_bilinear A B C : block A -> block B -> block C ->
  binary_field_mul (xor32 A B) C = xor32 (binary_field_mul A C) (binary_field_mul B C) /\
  binary_field_mul C (xor32 A B) = xor32 (binary_field_mul C A) (binary_field_mul C B).
Proof. exact: (abs_bil C61_result_is_block C61_product). Qed.
Theorem C61_associative A B C : block A -> block B -> block C ->
  binary_field_mul (binary_field_mul A B) C = binary_field_mul A (binary_field_mul B C).
Proof. exact: (abs_assoc C61_result_is_block C61_product). Qed.

(** Non-vacuity: X^255 * X = X^10 + X^5 + X^2 + 1, and a product with reduction in every word. *)
Example C61_example :
  binary_field_mul (rcons (nseq 31 0%num) 128%num) (2%num :: nseq 31 0%num) = 37%num :: 4%num :: nseq 30 0%num.
Proof. by vm_compute. Qed.
Example C61_example_block : block (rcons (nseq 31 0%num) 128%num) /\ block (nseq 32 255%num).
Proof. by split; split. Qed.
