(** Lemmas about the threshold Ed25519 model. *)
From mathcomp Require Import all_ssreflect all_algebra.
From Verif Require Import AlgBase Lagrange ShamirModel ShamirSpec ShamirProofs ShamirProofs2
  SharingV1Model SharingV1Spec SharingV1Proofs SharingV1Props Ted25519Model.
Set Implicit Arguments.
Unset Strict Implicit.
Unset Printing Implicit Defensive.
Import GRing.Theory.
Local Open Scope ring_scope.
Local Arguments poly_init : simpl never.
Local Arguments fit32 : simpl never.
Local Arguments getb : simpl never.
Local Arguments setb : simpl never.
Local Arguments be4 : simpl never.

Lemma size_fit32 bs : size (fit32 bs) = 32%N.
Proof. by rewrite /fit32 size_takel // size_cat size_nseq leq_addl. Qed.

Lemma fit32_exact bs : size bs = 32%N -> fit32 bs = bs.
Proof. by move=> E; rewrite /fit32 take_cat E ltnn subnn take0 cats0. Qed.

Lemma fit32_short bs : (size bs <= 32)%N -> fit32 bs = bs ++ nseq (32 - size bs) 0%N.
Proof.
  by move=> E; rewrite /fit32 take_cat take_nseq ?leq_subr // ltnNge E.
Qed.

Lemma setb_cat a b : setb (a ++ b) = (setb a * 256 ^ size b + setb b)%N.
Proof.
  elim/last_ind: b => [|b x IH]; first by rewrite cats0 muln1 addn0.
  by rewrite -rcons_cat !setb_rcons IH size_rcons expnSr mulnDl addnA mulnA.
Qed.

Lemma setb_nseq0 n : setb (nseq n 0%N) = 0%N.
Proof.
  by elim: n => // n IH; rewrite -[nseq n.+1 0%N]/([:: 0%N] ++ nseq n 0%N) setb_cat IH.
Qed.

Lemma setb_pad0 n bs : setb (nseq n 0%N ++ bs) = setb bs.
Proof. by rewrite setb_cat setb_nseq0. Qed.

Lemma rev_nseq0 n : rev (nseq n 0%N) = nseq n 0%N.
Proof.
  apply: (@eq_from_nth _ 0%N); rewrite size_rev size_nseq // => i Hi.
  by rewrite nth_rev size_nseq // !nth_nseq; case: ifP; case: ifP.
Qed.

(** the value read from a number's bytes reversed and padded *)
Lemma le_pad bs : (size bs <= 32)%N -> setb (rev (fit32 (rev bs))) = setb bs.
Proof.
  by move=> Hs; rewrite fit32_short ?size_rev // rev_cat revK rev_nseq0 setb_pad0.
Qed.

Lemma getb0 : getb 0 = [::]. Proof. by []. Qed.

Lemma size_getb k n : (n < 256 ^ k)%N -> (size (getb n) <= k)%N.
Proof.
  elim: k n => [|k IH] n; first by rewrite expn0 ltnS leqn0 => /eqP ->.
  case: (posnP n) => [->|Hn]; first by rewrite getb0.
  by rewrite getb_rcons // size_rcons ltnS expnSr -ltn_divLR // => /IH.
Qed.

Lemma getb_bytes n : is_bytes (getb n).
Proof.
  elim/ltn_ind: n => n IH; case: (posnP n) => [->|Hn]; first by rewrite getb0.
  rewrite getb_rcons // => b; rewrite mem_rcons inE => /orP [/eqP ->|]; first by rewrite ltn_mod.
  by apply: IH; rewrite ltn_Pdiv.
Qed.

Lemma getb_nil n : (size (getb n) == 0%N) = (n == 0%N).
Proof.
  case: (posnP n) => [->|Hn]; first by rewrite getb0.
  by rewrite getb_rcons // size_rcons; case: (n) Hn.
Qed.

Lemma setb_lt bs : is_bytes bs -> (setb bs < 256 ^ size bs)%N.
Proof.
  elim/last_ind: bs => [|bs b IH] // Hb; rewrite setb_rcons size_rcons expnSr.
  have Hb1 : (b < 256)%N by apply: Hb; rewrite mem_rcons mem_head.
  have /IH H1 : is_bytes bs by move=> c Hc; apply: Hb; rewrite mem_rcons inE Hc orbT.
  apply: (@leq_trans ((setb bs).+1 * 256)); last by rewrite leq_mul2r H1 orbT.
  by rewrite mulSn addnC ltn_add2r.
Qed.

Lemma digits4 b n : (0 < b)%N -> (n < b ^ 4)%N ->
  ((((0 * b + (n %/ b %/ b %/ b) %% b) * b + (n %/ b %/ b) %% b) * b + (n %/ b) %% b) * b + n %% b)%N
  = n.
Proof.
  move=> Hb; rewrite !expnSr expn0 mul1n => Hn.
  have D : forall m, (m %/ b * b + m %% b = m)%N by move=> m; rewrite -divn_eq.
  have Hlt : (n %/ b %/ b %/ b < b)%N by rewrite !ltn_divLR.
  by rewrite (modn_small Hlt) mul0n add0n !D.
Qed.

Lemma setb_be4 n : (n < 256 ^ 4)%N -> setb (be4 n) = n.
Proof. exact: digits4. Qed.

Lemma nth31 bs : (size bs <= 32)%N -> (nth 0 (fit32 (rev bs)) 31 * 256 ^ 31 <= setb bs)%N.
Proof.
  move=> Hs; rewrite fit32_short ?size_rev // nth_cat size_rev.
  case: ltnP => H1; last by rewrite nth_nseq; case: ifP => _; rewrite mul0n.
  have E : size bs = 31.+1 by apply/eqP; rewrite eqn_leq Hs H1.
  rewrite nth_rev // E subnn; case: bs E {Hs H1} => // b bs [E].
  by rewrite -cat1s setb_cat E nth0 leq_addr.
Qed.

Lemma le_one b : setb (rev (fit32 [:: b])) = b.
Proof. by rewrite -[[:: b]]/(rev [:: b]) le_pad. Qed.

Lemma getb_small n : (0 < n < 256)%N -> getb n = [:: n].
Proof.
  case/andP=> H0 H1; rewrite getb_rcons // divn_small // modn_small //.
Qed.

Section Ted.
  Variable p : nat.
  Hypothesis Hp : prime p.
  Hypothesis Hq : (p <= 32 * 256 ^ 31)%N.
  Local Notation F := ('F_p).
  Local Notation share1 := (share1 p).
  Variables (V : lmodType F) (G : V) (enc : V -> seq nat) (decp : seq nat -> option V).
  Variable H : seq nat -> F.
  Hypothesis enc_size : forall v, size (enc v) = 32%N.
  Hypothesis decK : forall v, decp (enc v) = Some v.

  Lemma lt_pow32 n : (n < p)%N -> (n < 256 ^ 32)%N.
  Proof.
    move=> Hn; rewrite expnS; apply: leq_trans (leq_trans Hn Hq) _.
    by rewrite leq_mul2r orbC.
  Qed.

  Lemma size_val (x : F) : (size (getb (nat_of_ord x)) <= 32)%N.
  Proof. by apply: size_getb; apply: lt_pow32; apply: elem_val. Qed.

  Lemma natr_ord (x : F) : (nat_of_ord x)%:R = x.
  Proof. by have := elem_back Hp x; rewrite setb_getb elem_ok ?elem_val // => -[]. Qed.

  (** a scalar written as reversed minimal bytes is read back *)
  Lemma scalar_leK (x : F) : scalar_le p (fit32 (rev (getb (nat_of_ord x)))) = Ok x.
  Proof.
    by rewrite /scalar_le size_fit32 eqxx /= le_pad ?size_val // setb_getb elem_val // natr_ord.
  Qed.

  Lemma commit_coeffsE (cs : seq F) : commit_coeffs G cs = Ok [seq c *: G | c <- cs].
  Proof. by elim: cs => [|c cs IH] //=; rewrite scalar_leK /= IH. Qed.

  Lemma split_inv secret t n (rnd : seq F) r : size rnd = t.-1 ->
    split G secret t n rnd = Ok r ->
    exists c : seq F, [/\ [/\ (2 <= t)%N, (t <= n)%N & (n < p)%N], size c = t,
      c = (setb secret)%:R :: rnd /\ (setb secret < p)%N, r.1 = [seq x *: G | x <- c] &
      r.2 = [seq (i.+1, peval c (i.+1)%:R) | i <- iota 0 n]].
  Proof.
    rewrite /split => Hr; case E: (new_shamir1 t n) => [s||] //=.
    have [-> Ht Hn] := new_shamir1_inv E.
    case E2: (get_shares1 _ _ _) => [q||] //=; rewrite commit_coeffsE /= => -[<-].
    have [_ Hlt Hlim Eq2 Eq1] := get_shares1_ok E2; exists q.2; rewrite /= in Hlim Eq2 Eq1 *.
    have Ht0 : (0 < t)%N by apply: leq_trans Ht.
    have Hsz : size q.2 = t by rewrite Eq2 (poly_init_full _ Hr) /= Hr prednK.
    split=> //; first by split=> //; apply: Hlim; apply: leq_trans Ht0 Hn.
    by rewrite Eq2 (poly_init_full _ Hr).
  Qed.

  Lemma threshold_signE (x r : F) pub msg R : x != 0 -> r != 0 -> size R = 32%N ->
    threshold_sign H (rev (getb (nat_of_ord x))) pub msg (rev (getb (nat_of_ord r))) R
    = Ok (R ++ scalar_bytes (H (R ++ pub ++ msg) * x + r)).
  Proof.
    move=> Hx Hr HR; rewrite /threshold_sign !size_rev !getb_nil -!val_eqE /= in Hx Hr *.
    rewrite (negbTE Hx) (negbTE Hr) /= !ltnNge !size_val /= !scalar_leK /=.
    by rewrite fit32_exact.
  Qed.
End Ted.
