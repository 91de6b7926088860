(** C40: the Schnorr proof of knowledge of a discrete logarithm. *)
From mathcomp Require Import all_ssreflect all_algebra.
From Verif Require Import AlgBase SchnorrModel.
Set Implicit Arguments.
Unset Strict Implicit.
Unset Printing Implicit Defensive.
Import GRing.Theory.
Local Open Scope ring_scope.

(** two different inputs with one hash value *)
Definition collision (H : bytes -> bytes) : Prop := exists a b : bytes, a <> b /\ H a = H b.

Section Props.
  Variables (F : fieldType) (V : lmodType F) (G : V).
  Variables (enc : V -> bytes) (sbytes : F -> bytes) (setbytes : bytes -> option F) (H : bytes -> bytes).
  (** SetBytes accepts only the canonical encoding (k256, p256, ed25519: 32 bytes below the order) *)
  Hypothesis canonical : forall b c, setbytes b = Some c -> sbytes c = b.

  Local Notation prove := (sch_prove G enc setbytes H).
  Local Notation verify := (sch_verify G enc sbytes H).
  Local Notation decommit := (decommit_verify G enc sbytes H).
  Local Notation commit := (prove_commit G enc sbytes setbytes H).
  (** the generator of the statement: the one given, or the curve's when none is given *)
  Definition generator (b : option V) : V := match b with Some x => x | None => G end.
  Local Notation B := generator.

  (** every proof Prove returns is for x*B and is accepted *)
  Theorem C40_complete b sid x k pf : prove b sid x k = Ok pf ->
    pr_X pf = x *: B b /\ verify pf b sid = Ok tt.
  Proof.
    rewrite /sch_prove; case E: (setbytes _) => [c|] // [<-] /=; split=> //.
    rewrite /sch_verify /=.
    have -> : (c * x + k) *: B b + (- c) *: (x *: B b) = k *: B b.
      by rewrite scalerDl scalerA mulNr scaleNr addrAC addrN add0r.
    by rewrite (canonical E) eqxx.
  Qed.

  (** Prove fails only when the digest is not the encoding of a scalar *)
  Theorem C40_prove_fails_iff b sid x k e : prove b sid x k = Err e <->
    e = SchSetBytes /\ setbytes (H (sid ++ enc (B b) ++ enc (x *: B b) ++ enc (k *: B b))) = None.
  Proof. by rewrite /sch_prove; case: (setbytes _) => [c|]; split=> // -[] // ->. Qed.

  (** what Verify checks: the challenge is the digest of the transcript with the commitment S B - C X *)
  Theorem C40_verify_iff pf b sid : verify pf b sid = Ok tt <->
    sbytes (pr_C pf) = H (sid ++ enc (B b) ++ enc (pr_X pf) ++ enc (pr_S pf *: B b - pr_C pf *: pr_X pf)).
  Proof. by rewrite /sch_verify scaleNr; case: eqP. Qed.

  (** special soundness: two accepting transcripts with one commitment and two challenges give the
      discrete logarithm *)
  Theorem C40_special_soundness (b : option V) (X : V) (c s c' s' : F) : c <> c' ->
    s *: B b - c *: X = s' *: B b - c' *: X ->
    X = ((s - s') / (c - c')) *: B b.
  Proof.
    move=> /eqP N E; have Nc : c - c' != 0 by rewrite subr_eq0.
    have D : (c - c') *: X = (s - s') *: B b.
      rewrite !scalerBl; apply/eqP; rewrite eq_sym -subr_eq0 opprB [_ *: X - _]addrC addrACA E.
      by rewrite [- _ + _]addrC -[X in _ + X]opprB addrN.
    by rewrite mulrC -scalerA -D scalerA mulVf // scale1r.
  Qed.

  Section Sizes.
    (** encodings are injective and of constant length *)
    Variables (np ns : nat).
    Hypothesis enc_inj : injective enc.
    Hypothesis enc_size : forall v, size (enc v) = np.
    Hypothesis sb_inj : injective sbytes.
    Hypothesis sb_size : forall s, size (sbytes s) = ns.

    Lemma cat_inj_r (T : eqType) (a b c d : seq T) : size b = size d -> a ++ b = c ++ d -> a = c /\ b = d.
    Proof.
      move=> Hs E; have /eqP Hs' : size (a ++ b) == size (c ++ d) by rewrite E.
      move: Hs'; rewrite !size_cat Hs => /addIn Ha; move/eqP: E.
      by rewrite eqseq_cat // => /andP [/eqP -> /eqP ->].
    Qed.

    (** a proof is bound to its session, base point, statement and response: two accepted proofs with
        one challenge have the same of each, up to a collision of the hash *)
    Theorem C40_binding pf pf' b b' sid sid' : pr_C pf = pr_C pf' ->
      verify pf b sid = Ok tt -> verify pf' b' sid' = Ok tt ->
      [/\ sid = sid', B b = B b', pr_X pf = pr_X pf' & B b <> 0 -> pr_S pf = pr_S pf'] \/ collision H.
    Proof.
      move=> EC; rewrite !C40_verify_iff -EC => -> E.
      set m := sid ++ _ in E; set m' := sid' ++ _ in E.
      have [Em|N] := eqVneq m m'; last by right; exists m, m'; split=> //; apply/eqP.
      left; have [|E1 E2] := cat_inj_r _ Em; first by rewrite !size_cat !enc_size.
      have [|/enc_inj E3 E4] := cat_inj_r _ E2; first by rewrite !size_cat !enc_size.
      have [|/enc_inj E5 /enc_inj E6] := cat_inj_r _ E4; first by rewrite !enc_size.
      split=> // NB; move: E6; rewrite -E3 -E5 EC => /addIr /eqP.
      by rewrite -subr_eq0 -scalerBl scaler_eq0 subr_eq0; case: eqP => //= _ /eqP.
    Qed.

    (** commit then open: the committed proof opens *)
    Theorem C40_commit_opens b sid x k pf com : commit b sid x k = Ok (pf, com) ->
      decommit pf com b sid = Ok tt.
    Proof.
      rewrite /prove_commit; case E: (sch_prove _ _ _ _ _ _ _ _) => [q||] //= [<- <-].
      by rewrite /decommit_verify eqxx /=; have [_ ->] := C40_complete E.
    Qed.

    (** and nothing else does, up to a collision of the hash *)
    Theorem C40_commit_binds b sid x k pf com pf' : commit b sid x k = Ok (pf, com) ->
      decommit pf' com b sid = Ok tt -> pf' = pf \/ collision H.
    Proof.
      rewrite /prove_commit; case E: (sch_prove _ _ _ _ _ _ _ _) => [q||] //= [<- <-].
      have [EX Hv] := C40_complete E.
      rewrite /decommit_verify; case: eqP => //= EH Hv'.
      set m := sbytes (pr_C pf') ++ _ in EH; set m' := sbytes (pr_C q) ++ _ in EH.
      have [Em|N] := eqVneq m m'; last by right; exists m, m'; split=> //; apply/eqP.
      have [|/sb_inj E1 /sb_inj E2] := cat_inj_r _ Em; first by rewrite !sb_size.
      have [[_ _ E3 _]|] := C40_binding E1 Hv' Hv; last by right.
      by left; case: (pf') (q) E1 E2 E3 => [? ? ?] [? ? ?] /= -> -> ->.
    Qed.

    (** a proof that does not match the commitment is refused *)
    Theorem C40_wrong_commitment_refused pf com b sid :
      H (sbytes (pr_C pf) ++ sbytes (pr_S pf)) <> com -> decommit pf com b sid = Err SchDecommit.
    Proof. by rewrite /decommit_verify; case: eqP. Qed.
  End Sizes.
End Props.

(** the hypotheses are met, and a wrong response is refused: F = V = rationals as a stand-in group, digest
    constant 1 *)
Example C40_nonvacuous :
  let enc (v : rat) : bytes := [::] in
  let sb (s : rat) : bytes := if s == 1 then [:: BinNums.Npos BinNums.xH] else [:: BinNums.N0] in
  let st (b : bytes) : option rat := if b == [:: BinNums.Npos BinNums.xH] then Some 1 else None in
  let H (b : bytes) : bytes := [:: BinNums.Npos BinNums.xH] in
  (forall b c, st b = Some c -> sb c = b) /\
  exists pf, sch_prove (1 : [the lmodType rat of rat^o]) enc st H None [::] 3%:R 5%:R = Ok pf
             /\ pr_S pf = 8%:R.
Proof.
  split; first by move=> b c; case: eqP => // -> [<-].
  by eexists; split; first reflexivity.
Qed.
