(** Lemmas for C50. *)
From mathcomp Require Import all_ssreflect all_algebra.
From Coq Require Import BinNat String.
From Verif Require Import AlgBase ByteVec SchnorrModel SchnorrProps SimplestOtModel.
Delimit Scope nat_scope with N.
Delimit Scope N_scope with num.
Set Implicit Arguments.
Unset Strict Implicit.
Unset Printing Implicit Defensive.
Import GRing.Theory.
Local Open Scope ring_scope.

Lemma for_upto_ok (E : Type) n (f : nat -> res E unit) :
  for_upto n f = Ok tt <-> (forall i, (i < n)%N -> f i = Ok tt).
Proof.
  elim: n => [|n IH] /=; first by split.
  case R: (for_upto n f) => [[]||] /=; split.
  - move=> Ef i. rewrite ltnS leq_eqVlt => /orP [/eqP -> //|L]. by apply: (proj1 IH).
  - by apply; rewrite ltnSn.
  - by [].
  - move=> A. have: for_upto n f = Ok tt by apply/IH => i L; apply: A; exact: ltnW. by rewrite R.
  - by [].
  - move=> A. have: for_upto n f = Ok tt by apply/IH => i L; apply: A; exact: ltnW. by rewrite R.
Qed.

Definition digest (v : seq N) : Prop := size v = 32%N.
Lemma xor_self v : digest v -> xor_bytes v (xor_bytes v v) = v.
Proof.
  move=> S. apply: (@eq_from_nth _ 0%num); rewrite size_mkseq ?S // => i L.
  by rewrite !nth_mkseq // N.lxor_nilpotent N.lxor_0_r.
Qed.
Lemma xor_bytesC v w : xor_bytes v w = xor_bytes w v.
Proof. apply: eq_mkseq => i. exact: N.lxor_comm. Qed.
Lemma xor_bytesK v w : digest w -> xor_bytes (xor_bytes v w) v = w.
Proof.
  move=> S. apply: (@eq_from_nth _ 0%num); rewrite size_mkseq ?S // => i L.
  by rewrite !nth_mkseq // [N.lxor (nth _ v i) _]N.lxor_comm N.lxor_assoc N.lxor_nilpotent N.lxor_0_r.
Qed.
Lemma xor_bytesKr v w : digest v -> xor_bytes (xor_bytes v w) w = v.
Proof. by move=> S; rewrite [xor_bytes v w]xor_bytesC xor_bytesK. Qed.
Lemma size_xor_bytes v w : digest (xor_bytes v w).
Proof. exact: size_mkseq. Qed.

Ltac ots := cbn [rbind lift_err r_tr r_out ro_bits ro_packed r_batch s_tr s_sk s_pk s_batch s_out r_challenge ro_keys r_spk].
Section Proofs.
  Variables (F : fieldType) (V : lmodType F) (G : V).
  Variables (enc : V -> bytes) (dec : bytes -> option V) (sbytes : F -> bytes) (setbytes : bytes -> option F).
  Variables (H : bytes -> bytes) (ext : transcript -> bytes).
  Hypothesis canonical : forall b c, setbytes b = Some c -> sbytes c = b.
  Hypothesis dec_sound : forall P Q, dec (enc P) = Some Q -> Q = P.
  Hypothesis H_size : forall m, digest (H m).

  Lemma dec_all_map (As : seq V) : (forall P, P \in As -> dec (enc P) <> None) -> dec_all dec (map enc As) = Some As.
  Proof.
    elim: As => [//|P As IH] D /=.
    case E: (dec (enc P)) => [Q|]; last by case: (D P (mem_head _ _)).
    rewrite IH; last by move=> Q' HQ; apply: D; rewrite inE HQ orbT.
    by rewrite (dec_sound E).
  Qed.
  Lemma dec_all_some (As Bs : seq V) : dec_all dec (map enc As) = Some Bs ->
    Bs = As /\ forall P, P \in As -> dec (enc P) <> None.
  Proof.
    elim: As Bs => [|P As IH] Bs /=; first by case=> <-.
    case E: (dec (enc P)) => [Q|] //. case E2: (dec_all _ _) => [Cs|] // [<-].
    have [-> D] := IH _ E2. rewrite (dec_sound E). split=> // P'. rewrite inE => /orP [/eqP ->|]; last exact: D.
    by rewrite E.
  Qed.
  Lemma size_dec_all l As : dec_all dec l = Some As -> size As = size l.
  Proof.
    elim: l As => [|x l IH] As /=; first by case=> <-.
    case: (dec x) => // P. case E: (dec_all _ _) => [Bs|] // [<-] /=. by rewrite (IH _ E).
  Qed.

  (** the shared seeds and the states after an honest run *)
  Definition salt_of (t : transcript) : transcript :=
    rcons (rcons t (TExtract "sender schnorr proof"%string 32)) (TExtract "random oracle salts"%string 32).
  Definition run_key (t : transcript) (i : nat) (P : V) : bytes := ot_key enc H (ext (salt_of t)) i P.
  Definition chal_digest (t : transcript) (b k : F) : bytes :=
    H (ext (rcons t (TExtract "sender schnorr proof"%string 32)) ++ enc G ++ enc (b *: G) ++ enc (k *: G)).

  Lemma masked_keys (b a : F) (w : bool) :
    b *: (masked_choice G w a (b *: G)) = a *: (b *: G) + (if w then b *: (b *: G) else 0) /\
    b *: (masked_choice G w a (b *: G) + - (b *: G)) = a *: (b *: G) - (if w then 0 else b *: (b *: G)).
  Proof.
    rewrite /masked_choice; case: w.
    - rewrite addrK subr0 !scalerDr !scalerA [a * b]mulrC. by split.
    - rewrite addr0 !scalerDr !scalerA [a * b]mulrC scalerN !scalerA. by split.
  Qed.

  Lemma ot_rounds_run (s0 : sender V) (r0 : receiver V) (b k : F) (a : nat -> F) :
    s_batch s0 = r_batch r0 -> s_tr s0 = r_tr r0 ->
    let n := r_batch r0 in let t := r_tr r0 in
    let w i := nth false (ro_bits (r_out r0)) i in
    let A i := masked_choice G (w i) (a i) (b *: G) in
    let keys := mkseq (fun i => (run_key t i (b *: A i), run_key t i (b *: (A i + - (b *: G))))) n in
    let dkeys := mkseq (fun i => run_key t i (a i *: (b *: G))) n in
    let chal := [seq xor_bytes (H (H x.1)) (H (H x.2)) | x <- keys] in
    ot_rounds G enc dec sbytes setbytes H ext s0 r0 b k a =
      match setbytes (chal_digest t b k) with
      | None => Err (OtSchnorr SchSetBytes)
      | Some c =>
          if all (fun i => dec (enc (A i)) != None) (iota 0 n) then
            Ok (Sender n (salt_of t) b (b *: G) keys,
                Receiver n (salt_of t) (ROut (ro_packed (r_out r0)) (ro_bits (r_out r0)) dkeys) (b *: G) chal)
          else Err OtPoint
      end.
  Proof.
    case: s0 => n0 t0 sk0 pk0 o0; case: r0 => n t [packed bits dk0] spk0 ch0.
    ots. move=> -> -> {n0 t0}. cbv zeta. ots.
    set A := fun i => masked_choice G (nth false bits i) (a i) (b *: G).
    set keys := mkseq _ n. set dkeys := mkseq _ n. set chal := map _ _.
    rewrite /ot_rounds /ot_round1 /extract. ots.
    set t1 := rcons t _.
    rewrite /chal_digest -/t1.
    case EP: (sch_prove G enc setbytes H None (ext t1) b k) => [pf|e|]; last first.
    - by move: EP; rewrite /sch_prove; case: (setbytes _).
    - move: EP; rewrite /sch_prove /base; case: (setbytes _) => // -[<-]. by [].
    - have [EX EV] := C40_complete canonical EP. rewrite [generator _ _]/= in EX.
      move: EP; rewrite /sch_prove [base _ _]/=; case: (setbytes _) => // c _.
      ots. rewrite /ot_round2 /extract. ots. rewrite -/t1 EV. ots. rewrite EX -[rcons t1 _]/(salt_of t) /ot_round3.
      have -> : mkseq (fun i => enc (masked_choice G (nth false bits i) (a i) (b *: G))) n
                = map enc (mkseq A n) by rewrite -map_comp.
      have HD : (all (fun i => dec (enc (A i)) != None) (iota 0 n)) =
                (if dec_all dec (map enc (mkseq A n)) is Some _ then true else false).
      { apply/idP/idP => [/allP D|].
        - rewrite dec_all_map // => P /mapP [i Hi ->]. by apply/eqP; exact: D.
        - case E: (dec_all _ _) => [Bs|] // _. have [_ D] := dec_all_some E.
          apply/allP => i Hi. apply/eqP. apply: D. by apply/mapP; exists i. }
      rewrite HD. case E: (dec_all _ _) => [Bs|]; last by [].
      have [-> _] := dec_all_some E. rewrite /extract. ots. rewrite -[rcons t1 _]/(salt_of t) size_mkseq ltnn.
      have -> : mkseq (fun i => let A0 := nth 0 (mkseq A n) i in
                 (ot_key enc H (ext (salt_of t)) i (b *: A0),
                  ot_key enc H (ext (salt_of t)) i (b *: (A0 + - (b *: G))))) n = keys.
      { apply/eq_in_map => i. rewrite mem_iota add0n => /andP [_ L]. by rewrite nth_mkseq. }
      rewrite -/chal -/dkeys. ots. rewrite /ot_round4. ots.
      have SC : size chal = n by rewrite size_map size_mkseq.
      rewrite SC ltnn. ots.
      have KD i : (i < n)%N -> nth [::] dkeys i = let x := nth ([::], [::]) keys i in
                                  if nth false bits i then x.2 else x.1.
      { move=> L. rewrite !nth_mkseq //=. have [E1 E2] := masked_keys b (a i) (nth false bits i).
        rewrite E1 E2. case: (nth false bits i); by rewrite ?addr0 ?subr0. }
      have CH i : (i < n)%N -> nth [::] chal i = let x := nth ([::], [::]) keys i in xor_bytes (H (H x.1)) (H (H x.2)).
      { move=> L. rewrite (nth_map ([::], [::])) ?size_mkseq //. }
      have -> : mkseq (fun i => let h := H (H (nth [::] dkeys i)) in
           if nth false bits i then xor_bytes (nth [::] chal i) h else h) n
           = mkseq (fun i => H (H (nth ([::], [::]) keys i).1)) n.
      { apply/eq_in_map => i. rewrite mem_iota add0n => /andP [_ L]. cbv zeta. rewrite KD // CH //. cbv zeta.
        by case: (nth false bits i); rewrite ?xor_bytesKr. }
      have R5 : for_upto n (fun i => if (i < size (mkseq (fun i => H (H (nth ([::], [::]) keys i).1)) n))%N then
           if H (H (nth ([::], [::]) keys i).1) == nth [::] (mkseq (fun i => H (H (nth ([::], [::]) keys i).1)) n) i
           then Ok tt else Err OtResponse else Panic) = Ok tt.
      { apply/for_upto_ok => i L. rewrite size_mkseq L.
        by rewrite (@nth_mkseq _ _ (fun i => H (H (nth ([::], [::]) keys i).1))) // eqxx. }
      rewrite /ot_round5. ots. rewrite R5. ots.
      have -> : ot_round6 H {| r_batch := n; r_tr := salt_of t;
            r_out := {| ro_packed := packed; ro_bits := bits; ro_keys := dkeys |};
            r_spk := b *: G; r_challenge := chal |}
         (mkseq (fun i => (H (nth ([::], [::]) keys i).1, H (nth ([::], [::]) keys i).2)) n) = Ok tt.
      { apply/for_upto_ok => i L. cbn [r_batch] in L. ots. rewrite size_mkseq L.
        rewrite (@nth_mkseq _ _ (fun i => (H (nth ([::], [::]) keys i).1, H (nth ([::], [::]) keys i).2))) // KD // CH //.
        cbv zeta.
        rewrite eqxx. by case: (nth false bits i); rewrite eqxx. }
      by [].
  Qed.
End Proofs.
