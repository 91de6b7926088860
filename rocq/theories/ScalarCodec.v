(** Specification of the byte encoding of scalars (Scalar.Bytes / Scalar.SetBytes in crypto/core/curves, e.g.
    k256_curve.go:292-310): 32 bytes, big endian, only the reduced representative is accepted. An instance for every
    prime field whose order fits 32 bytes shows that the specification can be met. *)
From mathcomp Require Import all_ssreflect all_algebra.
From Coq Require Import BinNat Lia.
From Verif Require Import ByteVec BinFieldProps SchnorrModel KosProps.
Delimit Scope nat_scope with N.
Delimit Scope N_scope with num.
Set Implicit Arguments.
Unset Strict Implicit.
Unset Printing Implicit Defensive.
Import GRing.Theory.
Local Open Scope ring_scope.

(** The scalar with the 256 low bits of a little-endian string. *)
Definition le_value (F : fieldType) (v : bytes) : F := \sum_(0 <= i < 256) (bit_at v i)%:R * 2%:R ^+ i.

Record scalar_codec (F : fieldType) (sbytes : F -> bytes) (setbytes : bytes -> option F) : Prop := ScalarCodec {
  sc_canonical : forall b c, setbytes b = Some c -> sbytes c = b;
  sc_roundtrip : forall x, setbytes (sbytes x) = Some x;
  sc_block : forall x, block (sbytes x);
  sc_value : forall x, le_value F (rev (sbytes x)) = x;
  sc_zero : sbytes 0 = nseq 32 0%num }.

(** Instance: 'F_p. *)
Definition n_bytes_le (n : N) : bytes := mkseq (fun i => N.modulo (N.shiftr n (N.of_nat (8 * i)%N)) (N.pow 2 (N.of_nat 8))) 32.
Definition n_of_le (v : bytes) : N := foldr (fun b acc => N.add b (N.mul 256 acc)) 0%num v.
Definition fp_bytes (p : nat) (x : 'F_p) : bytes := rev (n_bytes_le (N.of_nat (val x))).
Definition fp_setbytes (p : nat) (b : bytes) : option 'F_p :=
  if (size b == 32%N) && all is_byte b && (N.ltb (n_of_le (rev b)) (N.of_nat p))
  then Some ((N.to_nat (n_of_le (rev b)))%:R) else None.

Lemma n_bytes_le_block n : size (n_bytes_le n) = 32%N /\ all is_byte (n_bytes_le n).
Proof.
  split; first by rewrite size_mkseq. apply/allP => x /mapP [i _ ->]. rewrite /is_byte. apply/N.ltb_spec0.
  by apply: N.mod_lt.
Qed.
Lemma n_bytes_le_bit n i : (i < 256)%N -> bit_at (n_bytes_le n) i = nbit n i.
Proof.
  move=> L. have D : (i %/ 8 < 32)%N by rewrite ltn_divLR.
  rewrite -[bit_at _ _]/(vbit _ _) /vbit /n_bytes_le.
  rewrite (@nth_mkseq _ _ (fun i => N.modulo (N.shiftr n (N.of_nat (8 * i)%N)) (N.pow 2 (N.of_nat 8))) 32 _ D).
  rewrite nbit_mod ltn_mod /= nbit_shr. by rewrite addnC mulnC -divn_eq.
Qed.
Lemma nbit_n_of_le v i : all is_byte v -> nbit (n_of_le v) i = vbit v i.
Proof.
  elim: v i => [|b v IH] i; first by rewrite /vbit nth_nil !nbit0.
  move=> /andP [B A]. rewrite /n_of_le /= -/(n_of_le v).
  have -> : N.add b (N.mul 256 (n_of_le v)) = N.lor b (N.shiftl (n_of_le v) (N.of_nat 8)).
  { rewrite N.shiftl_mul_pow2. rewrite -[N.pow 2 _]/256%num N.mul_comm. apply: N.add_nocarry_lxor || idtac.
    rewrite -N.lxor_lor ?N.add_nocarry_lxor //.
    all: apply: nbit_inj => k; rewrite nbit_and nbit0.
    all: rewrite -[(_ * 256)%num]/(N.mul (n_of_le v) (N.pow 2 (N.of_nat 8))) -N.shiftl_mul_pow2 nbit_shl.
    all: case: (leqP 8 k) => K; rewrite /= ?andbF // (byte_bits B K). all: by []. }
  rewrite nbit_or nbit_shl /vbit. case: (leqP 8 i) => K /=.
  - rewrite (byte_bits B K) /= IH // /vbit. have E : i = (i - 8 + 8)%N by rewrite subnK.
    rewrite [in RHS]E divnDr // modnDr divnn addn1. by [].
  - rewrite orbF. by rewrite divn_small // modn_small.
Qed.
Lemma n_le_roundtrip n : N.lt n (N.pow 2 256) -> n_of_le (n_bytes_le n) = n.
Proof.
  move=> L. have [S B] := n_bytes_le_block n. apply: nbit_inj => i. rewrite nbit_n_of_le //.
  case: (ltnP i 256) => K; first exact: n_bytes_le_bit.
  rewrite /vbit nth_default ?nbit0; last by rewrite S leq_divRL.
  have T : N.ltb n (N.pow 2 (N.of_nat 256)) by apply/N.ltb_spec0.
  by rewrite (elimT (nbit_ltP n 256) T).
Qed.

Lemma natr_bits (F : fieldType) (n : N) k : N.lt n (N.pow 2 (N.of_nat k)) ->
  (N.to_nat n)%:R = \sum_(0 <= i < k) (nbit n i)%:R * 2%:R ^+ i :> F.
Proof.
  elim: k n => [|k IH] n L.
  - rewrite big_geq //. have -> : n = 0%num by (have : N.lt n 1 := L; lia). by [].
  - rewrite big_nat_recl // expr0 mulr1.
    have -> : N.to_nat n = ((nbit n 0) + 2 * N.to_nat (N.div2 n))%N.
    { rewrite /nbit -[N.of_nat 0]/0%num N.bit0_odd. have := N.div2_odd n. move=> E. rewrite {1}E Nnat.N2Nat.inj_add Nnat.N2Nat.inj_mul addnC.
      by case: (N.odd n). }
    rewrite natrD natrM IH; last first.
    { move: L. rewrite Nnat.Nat2N.inj_succ N.pow_succ_r'. move: (N.pow 2 _) => q. rewrite N.div2_div.
      move=> L. apply: N.div_lt_upper_bound; by []. }
    congr (_ + _). rewrite big_distrr /=. apply: eq_bigr => i _. rewrite -[GRing.muloid _ _ _]/(_ * _).
    have -> : nbit (N.div2 n) i = nbit n i.+1.
    { rewrite /nbit N.div2_spec N.shiftr_spec'. congr (N.testbit _ _). lia. }
    by rewrite exprS mulrCA.
Qed.

Theorem fp_codec (p : nat) : prime p -> N.le (N.of_nat p) (N.pow 2 256) -> scalar_codec (@fp_bytes p) (@fp_setbytes p).
Proof.
  move=> Pp Lp.
  have VL (x : 'F_p) : N.lt (N.of_nat (val x)) (N.of_nat p).
  { have K : (val x < p)%N := leq_trans (ltn_ord x) (eq_leq (Fp_cast Pp)). move/ltP: K. move: (val x) => a. simpl. lia. }
  have V256 (x : 'F_p) : N.lt (N.of_nat (val x)) (N.pow 2 256) by apply: N.lt_le_trans; [exact: VL|].
  have B x : block (@fp_bytes p x).
  { rewrite /block /fp_bytes size_rev all_rev. exact: n_bytes_le_block. }
  split=> //.
  - move=> b c. rewrite /fp_setbytes. case: ifP => // E [<-]. move/andP: E => [/andP [/eqP S A] /N.ltb_spec0 L].
    rewrite /fp_bytes /= val_Fp_nat //. rewrite modn_small; last by apply/ltP; lia.
    rewrite Nnat.N2Nat.id. apply: (canLR revK). have [S' A'] := n_bytes_le_block (n_of_le (rev b)).
    apply: vec_ext; rewrite ?all_rev ?size_rev ?S //. move=> i.
    rewrite size_mkseq. move=> Li.
    rewrite -[LHS]/(bit_at _ _) n_bytes_le_bit // nbit_n_of_le ?all_rev //.
  - move=> x. have [S A] := B x. rewrite /fp_setbytes S A eqxx. cbn [andb]. rewrite /fp_bytes revK (n_le_roundtrip (V256 x)).
    have -> : N.ltb (N.of_nat (val x)) (N.of_nat p) by apply/N.ltb_spec0; exact: VL.
    rewrite Nnat.Nat2N.id. by rewrite natr_Zp.
  - move=> x. rewrite /le_value /fp_bytes revK.
    transitivity (\sum_(0 <= i < 256) (nbit (N.of_nat (val x)) i)%:R * 2%:R ^+ i : 'F_p).
    { apply: eq_big_nat => i /andP [_ L]. by rewrite n_bytes_le_bit. }
    rewrite -natr_bits; last exact: V256. by rewrite Nnat.Nat2N.id natr_Zp.
Qed.
