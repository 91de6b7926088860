(** Lemmas for C52. *)
From mathcomp Require Import all_ssreflect all_algebra.
From Coq Require Import BinNat.
From Verif Require Import AlgBase ByteVec BinFieldProps SchnorrModel SimplestOtModel KosModel KosProofs KosProps ScalarCodec MultiplyModel.
Delimit Scope nat_scope with N.
Delimit Scope N_scope with num.
Set Implicit Arguments.
Unset Strict Implicit.
Unset Printing Implicit Defensive.
Import GRing.Theory.
Local Open Scope ring_scope.

Section Lemmas.
  Variables (F : fieldType) (sbytes : F -> bytes) (setbytes : bytes -> option F).
  Variables (H : bytes -> bytes) (shake : bytes -> bytes -> nat -> bytes) (ext : transcript -> bytes).
  Variable gshake : nat -> bytes.
  Variables (lb eb : nat).
  Hypothesis codec : scalar_codec sbytes setbytes.
  Hypothesis lb32 : (32 <= lb)%N.

  Lemma lb256 : (256 <= 8 * lb)%N.
  Proof. by rewrite -[256%N]/(8 * 32)%N leq_mul2l. Qed.

  Lemma gadget_pow g j : gadget_vector setbytes gshake lb = Ok g -> (j < 256)%N -> nth 0 g j = 2%:R ^+ j.
  Proof.
    rewrite /gadget_vector. case E: (traverse _ _) => [l|] // [<-] L.
    have [_ A] := proj1 (traverse_ok (0 : F) _ _ _) E. have := A j (leq_trans L lb256).
    rewrite /gadget_entry /kappa L. by case=> <-.
  Qed.
  Lemma gadget_size g : gadget_vector setbytes gshake lb = Ok g -> size g = (8 * lb)%N.
  Proof.
    rewrite /gadget_vector. case E: (traverse _ _) => [l|] // [<-].
    by have [-> _] := proj1 (traverse_ok (0 : F) _ _ _) E.
  Qed.

  Lemma gadget_sumE g t : gadget_sum lb g t = \sum_(0 <= j < 8 * lb) nth 0 g j * (nth (0, 0) t j).1 :> F.
  Proof.
    rewrite /gadget_sum. elim: (8 * lb)%N => [|n IH]; first by rewrite big_geq.
    rewrite -[n.+1]addn1 iotaD cats1 add0n foldl_rcons IH addn1 big_nat_recr //.
  Qed.

  (** the loop of encode *)
  Lemma encode_loop g e beta k n :
    foldl (encode_step sbytes setbytes g e) (Some (sbytes beta)) (iota k n) =
    Some (sbytes (beta - \sum_(k <= j < k + n) (bit_at e j)%:R * nth 0 g j)).
  Proof.
    elim: n => [|n IH]; first by rewrite big_geq ?addn0 // subr0.
    rewrite -[n.+1]addn1 iotaD cats1 foldl_rcons IH addnA addn1 (big_nat_recr (k + n)%N) ?leq_addr //=.
    rewrite (sc_roundtrip codec) extract_bit_cases -[vbit _ _]/(bit_at e (k + n)).
    case: (bit_at e (k + n)).
    - by rewrite mul1r opprD addrA.
    - by rewrite mul0r addr0.
  Qed.

  Lemma bit_at_cat (a b : bytes) j : (8 * size a <= j)%N -> bit_at (a ++ b) j = bit_at b (j - 8 * size a).
  Proof.
    move=> L. rewrite /bit_at nth_cat.
    have -> : (j %/ 8 < size a)%N = false by apply: negbTE; rewrite -leqNgt leq_divRL // mulnC.
    have E : j = (size a * 8 + (j - 8 * size a))%N by rewrite mulnC subnKC.
    move: (j - 8 * size a)%N E => k ->. by rewrite divnMDl // addKn modnMDl.
  Qed.
  Lemma bit_at_catl (a b : bytes) j : (j < 8 * size a)%N -> bit_at (a ++ b) j = bit_at a j.
  Proof. move=> L. by rewrite /bit_at nth_cat ltn_divLR // mulnC L. Qed.

  Lemma encode_ok g beta rnd : gadget_vector setbytes gshake lb = Ok g ->
    exists2 omega, mul_encode sbytes setbytes lb g beta rnd = Ok omega &
      size omega = lb /\ \sum_(0 <= j < 8 * lb) (bit_at omega j)%:R * nth 0 g j = beta.
  Proof.
    move=> GV. rewrite /mul_encode. set gamma := mkseq _ _. rewrite encode_loop. cbn [of_option rbind].
    set e := nseq _ _ ++ gamma. set x := beta - _.
    eexists; first by reflexivity.
    have [Sx _] := sc_block codec x.
    have T : take kappa_bytes (rev (sbytes x)) = rev (sbytes x) by rewrite take_oversize // size_rev Sx.
    rewrite T size_cat size_rev Sx size_mkseq subnKC //. split=> //.
    rewrite (big_cat_nat _ _ _ (leq0n 256) lb256). cbn [GRing.add_monoid Monoid.operator].
    rewrite -[Monoid.operator _ _ _]/(_ + _).
    have -> : \sum_(0 <= j < 256) (bit_at (rev (sbytes x) ++ gamma) j)%:R * nth 0 g j = x.
    { rewrite -[RHS](sc_value codec) /le_value. apply: eq_big_nat => j /andP [_ L].
      by rewrite bit_at_catl ?size_rev ?Sx // (gadget_pow GV L). }
    rewrite /x subnKC ?lb256 // -addrA [- _ + _]addrC -[RHS]addr0. congr (_ + _).
    apply/eqP; rewrite subr_eq0; apply/eqP. apply: eq_big_nat => j /andP [L _].
    rewrite /e (@bit_at_cat (nseq kappa_bytes 0%num)); last by rewrite size_nseq.
    rewrite (@bit_at_cat (rev _)); last by rewrite size_rev (proj1 (sc_block codec _)).
    by rewrite size_nseq size_rev (proj1 (sc_block codec _)).
  Qed.
End Lemmas.
