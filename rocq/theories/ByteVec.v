(** Byte slices as sequences of binary naturals, their bits, and polynomials over GF(2). *)
From mathcomp Require Import all_ssreflect all_algebra.
From Coq Require Import BinNat Nnat Lia.
Delimit Scope nat_scope with N.
Delimit Scope N_scope with num.
Set Implicit Arguments.
Unset Strict Implicit.
Unset Printing Implicit Defensive.
Import GRing.Theory.

Lemma N_eqb_eq (a b : N) : (a == b) = N.eqb a b.
Proof. by apply/eqP/idP => [->|/N.eqb_eq //]; rewrite N.eqb_refl. Qed.

(** bit [i] of a number, indexed by nat *)
Definition nbit (x : N) (i : nat) : bool := N.testbit x (N.of_nat i).
Lemma nbit_inj x y : (forall i, nbit x i = nbit y i) -> x = y.
Proof. move=> E; apply: N.bits_inj => n; move: (E (N.to_nat n)); by rewrite /nbit N2Nat.id. Qed.
Lemma nbit_xor x y i : nbit (N.lxor x y) i = nbit x i (+) nbit y i.
Proof. by rewrite /nbit N.lxor_spec; case: (N.testbit x _); case: (N.testbit y _). Qed.
Lemma nbit_or x y i : nbit (N.lor x y) i = nbit x i || nbit y i.
Proof. exact: N.lor_spec. Qed.
Lemma nbit_and x y i : nbit (N.land x y) i = nbit x i && nbit y i.
Proof. exact: N.land_spec. Qed.
Lemma nbit0 i : nbit 0 i = false.
Proof. exact: N.bits_0. Qed.
Lemma nbit_shr x k i : nbit (N.shiftr x (N.of_nat k)) i = nbit x (i + k).
Proof. rewrite /nbit N.shiftr_spec; last lia. by rewrite -plusE Nat2N.inj_add. Qed.
Lemma nbit_shl x k i : nbit (N.shiftl x (N.of_nat k)) i = (k <= i) && nbit x (i - k).
Proof.
  rewrite /nbit; case: leqP => L.
  - rewrite N.shiftl_spec_high'; last by move/leP: L; lia. by rewrite -minusE Nat2N.inj_sub.
  - rewrite N.shiftl_spec_low //; by move/ltP: L; lia.
Qed.
Lemma nbit_mod x k i : nbit (N.modulo x (N.pow 2 (N.of_nat k))) i = (i < k) && nbit x i.
Proof.
  rewrite /nbit; case: ltnP => L.
  - rewrite N.mod_pow2_bits_low //; by move/ltP: L; lia.
  - rewrite N.mod_pow2_bits_high //; by move/leP: L; lia.
Qed.
(** numbers below 2^k are those without bits from k on *)
Lemma nbit_ltP x k : reflect (forall i, k <= i -> nbit x i = false) (N.ltb x (N.pow 2 (N.of_nat k))).
Proof.
  apply: (iffP idP) => [/N.ltb_lt L i Li|B].
  - have -> : x = N.modulo x (N.pow 2 (N.of_nat k)) by rewrite N.mod_small.
    by rewrite nbit_mod ltnNge Li.
  - have -> : x = N.modulo x (N.pow 2 (N.of_nat k)).
    { apply: nbit_inj => i. rewrite nbit_mod. case: ltnP => // L. exact: B. }
    apply/N.ltb_lt. apply: N.mod_lt. apply: N.pow_nonzero. by [].
Qed.

(** a byte *)
Definition is_byte (b : N) : bool := N.ltb b (N.pow 2 (N.of_nat 8)).
Lemma byte_bits b i : is_byte b -> 8 <= i -> nbit b i = false.
Proof. by move=> /nbit_ltP H L; apply: H. Qed.
Lemma byte_xor a b : is_byte a -> is_byte b -> is_byte (N.lxor a b).
Proof.
  move=> A B. apply/nbit_ltP => i L. by rewrite nbit_xor !byte_bits.
Qed.
(** bit [i] of a byte vector, little-endian in the byte and across bytes *)
Definition vbit (v : seq N) (i : nat) : bool := nbit (nth 0%num v (i %/ 8)) (i %% 8).
Lemma vec_ext v w : size v = size w -> all is_byte v -> all is_byte w ->
  (forall i, i < 8 * size v -> vbit v i = vbit w i) -> v = w.
Proof.
  move=> S A B E. apply: (@eq_from_nth _ 0%num) => // i Li. apply: nbit_inj => k.
  have [Lk|Lk] := ltnP k 8.
  - have := E (i * 8 + k). rewrite /vbit divnMDl // modnMDl divn_small // modn_small // addn0. apply.
    rewrite [8 * _]mulnC. apply: (@leq_trans (i.+1 * 8)); first by rewrite mulSn [8 + _]addnC ltn_add2l.
    by rewrite leq_mul2r Li orbT.
  - rewrite !byte_bits //; [apply: (allP B); apply: mem_nth; by rewrite -S|by apply: (allP A); apply: mem_nth].
Qed.
