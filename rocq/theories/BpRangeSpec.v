(** Specification for the range proofs: how the scalars of a curve are encoded.
    ed25519 and pallas encode little endian; k256, p256, bls12381 and bls12377 big endian (crypto/core/curves). *)
From mathcomp Require Import all_ssreflect all_algebra.
From Coq Require Import BinNat Nnat Lia.
From Verif Require Import ByteVec BinFieldProps SchnorrModel KosProps ScalarCodec.
Delimit Scope nat_scope with N.
Delimit Scope N_scope with num.
Set Implicit Arguments.
Unset Strict Implicit.
Unset Printing Implicit Defensive.
Import GRing.Theory.
Local Open Scope ring_scope.

(** [val] is the integer between 0 and 2^256 that a scalar stands for; a scalar has 32 bytes; SetBytes reads them back *)
Record int_scalars (F : fieldType) (sbytes : F -> bytes) (setbytes : bytes -> option F) (val : F -> N) : Prop := IntScalars {
  is_roundtrip : forall x, setbytes (sbytes x) = Some x;
  is_size : forall x, size (sbytes x) = 32%N;
  is_bytes : forall x, all is_byte (sbytes x);
  is_natr : forall x, (N.to_nat (val x))%:R = x;
  is_zero : val 0 = 0%num }.
(** the number with the given little-endian digits is [n_of_le] (ScalarCodec) *)
Definition little_endian (F : fieldType) (sbytes : F -> bytes) (val : F -> N) : Prop :=
  forall x, val x = n_of_le (sbytes x).
Definition big_endian (F : fieldType) (sbytes : F -> bytes) (val : F -> N) : Prop :=
  forall x, val x = n_of_le (rev (sbytes x)).

(** instances: prime fields, in either order *)
Definition fp_val (p : nat) (x : 'F_p) : N := N.of_nat (val x).
Definition fp_bytes_le (p : nat) (x : 'F_p) : bytes := n_bytes_le (N.of_nat (val x)).
Definition fp_setbytes_le (p : nat) (b : bytes) : option 'F_p := @fp_setbytes p (rev b).

Lemma fp_int_scalars p : prime p -> N.le (N.of_nat p) (N.pow 2 256) ->
  int_scalars (@fp_bytes p) (@fp_setbytes p) (@fp_val p) /\ big_endian (@fp_bytes p) (@fp_val p).
Proof.
  move=> Pp Lp; have C := fp_codec Pp Lp.
  have VL (x : 'F_p) : N.lt (N.of_nat (val x)) (N.pow 2 256).
    apply: N.lt_le_trans Lp; have K : (val x < p)%N := leq_trans (ltn_ord x) (eq_leq (Fp_cast Pp)).
    by move/ltP: K; move: (val x) => a; simpl; lia.
  split; last by move=> x; rewrite /fp_bytes revK n_le_roundtrip.
  split.
  - exact: sc_roundtrip C.
  - by move=> x; have [] := sc_block C x.
  - by move=> x; have [] := sc_block C x.
  - by move=> x; rewrite Nat2N.id natr_Zp.
  - by [].
Qed.
Lemma fp_int_scalars_le p : prime p -> N.le (N.of_nat p) (N.pow 2 256) ->
  int_scalars (@fp_bytes_le p) (@fp_setbytes_le p) (@fp_val p) /\ little_endian (@fp_bytes_le p) (@fp_val p).
Proof.
  move=> Pp Lp; have [[R S B N Z] E] := fp_int_scalars Pp Lp.
  split; last by move=> x; rewrite E /fp_bytes revK.
  split=> // x.
  by have [] := n_bytes_le_block (N.of_nat (val x)).
Qed.

(** the sum of the low bits of a number *)
Lemma low_bits (F : fieldType) (N0 : N) n :
  \sum_(i < n) (nbit N0 i)%:R * 2%:R ^+ i = (N.to_nat (N.modulo N0 (N.pow 2 (N.of_nat n))))%:R :> F.
Proof.
  rewrite (@natr_bits F _ n); last by apply: N.mod_lt; apply: N.pow_nonzero.
  by rewrite big_mkord; apply: eq_bigr => i _; rewrite nbit_mod ltn_ord.
Qed.
