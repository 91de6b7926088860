From Coq Require Import List String Bool Arith ZArith Lia.
From Verif Require Import StepperModel StepperSpec.
Import ListNotations.
Open Scope list_scope.

Section Stepper.
  Variables St M : Type.
  Implicit Types p : stepper St M.

  Lemma next_finished p i : sp_idx p >= List.length (sp_steps p) -> next p i = (p, NFinished).
  Proof. intros H. unfold next, complete. destruct (Nat.leb_spec (List.length (sp_steps p)) (sp_idx p)); [reflexivity|lia]. Qed.

  Lemma next_step p i f : nth_error (sp_steps p) (sp_idx p) = Some f ->
    next p i = match f (sp_st p) i with
               | (st, SOut o) => (Stepper (sp_steps p) (S (sp_idx p)) st, NOut o)
               | (st, SErr) => (Stepper (sp_steps p) (sp_idx p) st, NErr)
               | (st, SPanic) => (Stepper (sp_steps p) (sp_idx p) st, NPanic)
               end.
  Proof.
    intros H. unfold next, complete.
    assert (sp_idx p < List.length (sp_steps p)) by (apply nth_error_Some; congruence).
    destruct (Nat.leb_spec (List.length (sp_steps p)) (sp_idx p)); [lia|].
    rewrite H. destruct (f (sp_st p) i) as [st []]; reflexivity.
  Qed.

  Lemma next_spec p i :
    (sp_idx p >= List.length (sp_steps p) /\ next p i = (p, NFinished)) \/
    (exists f st r, nth_error (sp_steps p) (sp_idx p) = Some f /\ f (sp_st p) i = (st, r) /\
       next p i = match r with
                  | SOut o => (Stepper (sp_steps p) (S (sp_idx p)) st, NOut o)
                  | SErr => (Stepper (sp_steps p) (sp_idx p) st, NErr)
                  | SPanic => (Stepper (sp_steps p) (sp_idx p) st, NPanic)
                  end).
  Proof.
    destruct (nth_error (sp_steps p) (sp_idx p)) as [f|] eqn:E.
    - right. destruct (f (sp_st p) i) as [st r] eqn:F. exists f, st, r. repeat split; auto.
      rewrite (next_step p i f E), F. now destruct r.
    - left. apply nth_error_None in E. split; [exact E|now apply next_finished].
  Qed.

  Lemma nexts_idx ins : forall p,
    sp_idx (fst (nexts p ins)) = sp_idx p + count (snd (nexts p ins)) /\
    sp_steps (fst (nexts p ins)) = sp_steps p.
  Proof.
    induction ins as [|i ins IH]; intros p; cbn; [unfold count; cbn; split; [lia|reflexivity]|].
    destruct (next_spec p i) as [[_ E]|(f & st & r & _ & _ & E)].
    - rewrite E. specialize (IH p). destruct (nexts p ins) as [p2 rs]. cbn in *. exact IH.
    - rewrite E. destruct r as [o| |].
      + specialize (IH (Stepper (sp_steps p) (S (sp_idx p)) st)).
        destruct (nexts _ ins) as [p2 rs]. cbn in *. unfold count in *. cbn. split; [lia|tauto].
      + specialize (IH (Stepper (sp_steps p) (sp_idx p) st)).
        destruct (nexts _ ins) as [p2 rs]. cbn in *. exact IH.
      + specialize (IH (Stepper (sp_steps p) (sp_idx p) st)).
        destruct (nexts _ ins) as [p2 rs]. cbn in *. exact IH.
  Qed.

  Lemma nexts_bound ins : forall p, sp_idx p <= List.length (sp_steps p) ->
    sp_idx (fst (nexts p ins)) <= List.length (sp_steps p).
  Proof.
    induction ins as [|i ins IH]; intros p H; cbn; [exact H|].
    destruct (next_spec p i) as [[_ E]|(f & st & r & Hf & _ & E)]; rewrite E.
    - specialize (IH p H). destruct (nexts p ins). exact IH.
    - assert (sp_idx p < List.length (sp_steps p)) by (apply nth_error_Some; congruence).
      destruct r;
      [specialize (IH (Stepper (sp_steps p) (S (sp_idx p)) st))
      |specialize (IH (Stepper (sp_steps p) (sp_idx p) st))
      |specialize (IH (Stepper (sp_steps p) (sp_idx p) st))];
      destruct (nexts _ ins); apply IH; cbn; lia.
  Qed.

  (** After a history with k successes (fresh stepper), Next runs step k on the input given;
      with k = number of steps it reports finished and changes nothing. *)
  Lemma next_after_history (steps : list (stepfn St M)) st ins input :
    let '(p, rs) := nexts (Stepper steps 0 st) ins in
    (count rs < List.length steps ->
       exists f, nth_error steps (count rs) = Some f /\
         next p input = match f (sp_st p) input with
               | (st', SOut o) => (Stepper steps (S (count rs)) st', NOut o)
               | (st', SErr) => (Stepper steps (count rs) st', NErr)
               | (st', SPanic) => (Stepper steps (count rs) st', NPanic)
               end) /\
    (count rs = List.length steps -> next p input = (p, NFinished)) /\
    count rs <= List.length steps.
  Proof.
    pose proof (nexts_idx ins (Stepper steps 0 st)) as [H1 H2].
    pose proof (nexts_bound ins (Stepper steps 0 st)) as H3.
    destruct (nexts (Stepper steps 0 st) ins) as [p rs]. cbn in *.
    specialize (H3 (Nat.le_0_l _)). repeat split.
    - intros L. destruct (nth_error steps (count rs)) as [f|] eqn:E.
      + exists f. split; [reflexivity|]. rewrite (next_step p input f); [|rewrite H2, H1; exact E].
        rewrite H1, H2. reflexivity.
      + apply nth_error_None in E. lia.
    - intros L. apply next_finished. rewrite H1, H2. unfold count in *. lia.
    - unfold count in *. lia.
  Qed.

  (** no panic and no skipping once all succeed: feeding inputs to steps that succeed *)
  Lemma result_before_end enc (steps : list (stepfn St M)) st ins :
    let '(p, rs) := nexts (Stepper steps 0 st) ins in
    (count rs < List.length steps -> result enc p = Ok None) /\
    (count rs = List.length steps ->
       result enc p = match enc (sp_st p) with Ok m => Ok (Some m) | Err => Err | Panic => Panic end).
  Proof.
    pose proof (nexts_idx ins (Stepper steps 0 st)) as [H1 H2].
    destruct (nexts (Stepper steps 0 st) ins) as [p rs]. cbn in *.
    unfold result, complete. rewrite H1, H2. fold (count rs). split; intros L.
    - destruct (Nat.leb_spec (List.length steps) (count rs)); [lia|reflexivity].
    - destruct (Nat.leb_spec (List.length steps) (count rs)); [reflexivity|lia].
  Qed.

  (** finished is absorbing *)
  Lemma nexts_finished ins : forall p, sp_idx p >= List.length (sp_steps p) ->
    nexts p ins = (p, map (fun _ => NFinished) ins).
  Proof.
    induction ins as [|i ins IH]; intros p H; cbn; [reflexivity|].
    rewrite next_finished by exact H. now rewrite (IH p H).
  Qed.
End Stepper.

Section Run.
  Variables S1 S2 M : Type.
  Implicit Types (p : stepper S1 M) (q : stepper S2 M).

  Definition rest1 p := skipn (sp_idx p) (sp_steps p).
  Definition rest2 q := skipn (sp_idx q) (sp_steps q).

  Lemma skipn_cons {A} n (l : list A) x r : skipn n l = x :: r -> nth_error l n = Some x /\ skipn (S n) l = r.
  Proof.
    revert l. induction n as [|n IH]; intros [|y l] H; cbn in H; try discriminate.
    - injection H as -> ->. split; reflexivity.
    - apply IH in H. exact H.
  Qed.
  Lemma skipn_nil {A} n (l : list A) : skipn n l = [] -> n >= List.length l.
  Proof.
    revert l. induction n as [|n IH]; intros [|y l] H; cbn in *; try lia; try discriminate.
    apply IH in H. lia.
  Qed.

  (** RunProtocol refines the alternating exchange whenever the first party has as many
      remaining steps as the second, or one more. *)
  Lemma run_refines fuel : forall p q m b a,
    (List.length (rest1 p) = List.length (rest2 q) \/ List.length (rest1 p) = S (List.length (rest2 q))) ->
    (is_finished a && is_finished b = false) ->
    (List.length (rest1 p) < fuel) ->
    let '(p', q', r) := run_protocol fuel p q m b a in
    (sp_st p', sp_st q', r) = exchange (rest1 p) (rest2 q) (sp_st p) (sp_st q) m /\
    (r = RDone -> sp_idx p' >= List.length (sp_steps p) /\ sp_idx q' >= List.length (sp_steps q)) /\
    sp_steps p' = sp_steps p /\ sp_steps q' = sp_steps q.
  Proof.
    induction fuel as [|fuel IH]; intros p q m b a L F Hf; [lia|].
    cbn [run_protocol]. rewrite F.
    destruct (rest1 p) as [|f ps] eqn:E1.
    - (* first finished: so is the second *)
      assert (E2 : rest2 q = []) by (destruct L as [L|L]; destruct (rest2 q); cbn in L; try lia; reflexivity).
      unfold rest1 in E1. unfold rest2 in E2.
      pose proof (skipn_nil _ _ E1). pose proof (skipn_nil _ _ E2).
      rewrite (next_finished _ _ p m) by lia. cbn [out_of].
      rewrite (next_finished _ _ q None) by lia.
      destruct fuel; cbn; auto.
    - unfold rest1 in E1. destruct (skipn_cons _ _ _ _ E1) as [N1 R1].
      rewrite (next_step _ _ p m f N1). cbn [exchange].
      destruct (f (sp_st p) m) as [s' [o| |]]; cbn [out_of].
      2:{ cbn. split; [reflexivity|]. split; [discriminate|auto]. }
      2:{ cbn. split; [reflexivity|]. split; [discriminate|auto]. }
      destruct (rest2 q) as [|g qs] eqn:E2.
      + assert (Eps : ps = []) by (cbn in L; destruct ps; cbn in *; [reflexivity|lia]). rewrite Eps in *. clear Eps.
        unfold rest2 in E2. pose proof (skipn_nil _ _ E2) as Hq.
        rewrite (next_finished _ _ q o) by lia. cbn [out_of].
        specialize (IH (Stepper (sp_steps p) (S (sp_idx p)) s') q None (Some (NOut o)) (Some NFinished)).
        unfold rest1, rest2 in IH. cbn [sp_steps sp_idx sp_st] in IH. rewrite R1, E2 in IH.
        cbn in IH, Hf. specialize (IH (or_introl eq_refl) eq_refl ltac:(lia)).
        destruct (run_protocol fuel _ q None _ _) as [[p' q'] r]. exact IH.
      + unfold rest2 in E2. destruct (skipn_cons _ _ _ _ E2) as [N2 R2].
        rewrite (next_step _ _ q o g N2).
        destruct (g (sp_st q) o) as [t' [o2| |]]; cbn [out_of].
        2:{ cbn. split; [reflexivity|]. split; [discriminate|auto]. }
        2:{ cbn. split; [reflexivity|]. split; [discriminate|auto]. }
        specialize (IH (Stepper (sp_steps p) (S (sp_idx p)) s') (Stepper (sp_steps q) (S (sp_idx q)) t')
                      o2 (Some (NOut o)) (Some (NOut o2))).
        unfold rest1, rest2 in IH. cbn [sp_steps sp_idx sp_st] in IH. rewrite R1, R2 in IH.
        cbn in Hf, L. specialize (IH ltac:(lia) eq_refl ltac:(lia)).
        destruct (run_protocol fuel _ _ o2 _ _) as [[p' q'] r]. exact IH.
  Qed.

  Lemma run_protocol_exchange (steps1 : list (stepfn S1 M)) (steps2 : list (stepfn S2 M)) s t fuel :
    (List.length steps1 = List.length steps2 \/ List.length steps1 = S (List.length steps2)) ->
    List.length steps1 < fuel ->
    let '(p', q', r) := run_protocol fuel (Stepper steps1 0 s) (Stepper steps2 0 t) None None None in
    (sp_st p', sp_st q', r) = exchange steps1 steps2 s t None /\
    (r = RDone -> complete p' = true /\ complete q' = true).
  Proof.
    intros L Hf.
    pose proof (run_refines fuel (Stepper steps1 0 s) (Stepper steps2 0 t) None None None L eq_refl Hf) as H.
    destruct (run_protocol fuel _ _ None None None) as [[p' q'] r].
    destruct H as (H1 & H2 & H3 & H4). split; [exact H1|]. intros E. destruct (H2 E) as [A B].
    unfold complete. rewrite H3, H4. cbn in *. split; apply Nat.leb_le; lia.
  Qed.

  (** The loop always ends, whatever the parties do: one iteration per remaining step of the
      longer party and one more. *)
  Lemma run_terminates fuel : forall p q m b a,
    Nat.max (List.length (rest1 p)) (List.length (rest2 q)) < fuel ->
    snd (run_protocol fuel p q m b a) <> RFuel.
  Proof.
    induction fuel as [|fuel IH]; intros p q m b a H; [lia|].
    cbn [run_protocol]. destruct (is_finished a && is_finished b); [cbn; discriminate|].
    unfold rest1, rest2 in *.
    destruct (next_spec _ _ p m) as [[Hp Ep]|(f & st & r & Hf & _ & Ep)]; rewrite Ep.
    - assert (Lp : List.length (skipn (sp_idx p) (sp_steps p)) = 0) by (rewrite skipn_length; lia).
      cbn [out_of].
      destruct (next_spec _ _ q None) as [[Hq Eq]|(g & st2 & r2 & Hg & _ & Eq)]; rewrite Eq.
      + destruct fuel; cbn; discriminate.
      + assert (sp_idx q < List.length (sp_steps q)) by (apply nth_error_Some; congruence).
        rewrite (skipn_length _ (sp_steps q)) in H.
        destruct r2; cbn [out_of]; [|cbn; discriminate|cbn; discriminate].
        apply IH. cbn [sp_steps sp_idx]. rewrite Lp, !skipn_length. lia.
    - assert (sp_idx p < List.length (sp_steps p)) by (apply nth_error_Some; congruence).
      rewrite (skipn_length _ (sp_steps p)) in H.
      destruct r as [o| |]; [|cbn; discriminate|cbn; discriminate].
      cbn [out_of].
      destruct (next_spec _ _ q o) as [[Hq Eq]|(g & st2 & r2 & Hg & _ & Eq)]; rewrite Eq.
      + cbn [out_of]. apply IH. cbn [sp_steps sp_idx]. rewrite !skipn_length in *. lia.
      + assert (sp_idx q < List.length (sp_steps q)) by (apply nth_error_Some; congruence).
        rewrite (skipn_length _ (sp_steps q)) in H.
        destruct r2; cbn [out_of]; [|cbn; discriminate|cbn; discriminate].
        apply IH. cbn [sp_steps sp_idx]. rewrite !skipn_length. lia.
  Qed.
End Run.

Section Envelope.
  Variable A : Type.
  Variable gob_enc : A -> option (list Z).
  Variable gob_dec : list Z -> option A.

  Lemma strict_roundtrip proto round a v m :
    (forall x b, gob_enc x = Some b -> gob_dec b = Some x) ->
    encode_strict gob_enc proto round a v = Ok m -> decode_strict gob_dec (Some m) = Ok a.
  Proof.
    intros G. unfold encode_strict, decode_strict. destruct (Z.eqb_spec v version1) as [->|]; cbn; [|discriminate].
    destruct (gob_enc a) as [b|] eqn:E; [|discriminate]. intros H; injection H as <-. cbn.
    now rewrite (G _ _ E).
  Qed.
  Lemma strict_encode_version proto round a v : v <> 200%Z -> encode_strict gob_enc proto round a v = Err.
  Proof. intros H. unfold encode_strict, version1. destruct (Z.eqb_spec v 200); [contradiction|reflexivity]. Qed.
  Lemma strict_decode_version m : m_version m <> 200%Z -> decode_strict gob_dec (Some m) = Err.
  Proof. intros H. unfold decode_strict, version1. destruct (Z.eqb_spec (m_version m) 200); [contradiction|reflexivity]. Qed.
  Lemma refresh_roundtrip round a v m :
    (forall x b, gob_enc x = Some b -> gob_dec b = Some x) ->
    encode_refresh gob_enc round a v = Ok m -> decode_refresh gob_dec (Some m) = Ok a.
  Proof.
    intros G. unfold encode_refresh, decode_refresh. destruct (version_supported v) eqn:V; cbn; [|discriminate].
    destruct (gob_enc a) as [b|] eqn:E; [|discriminate]. intros H; injection H as <-. cbn. rewrite V. cbn.
    now rewrite (G _ _ E).
  Qed.
  Lemma refresh_decode_below m : (m_version m < 200)%Z -> decode_refresh gob_dec (Some m) = Err.
  Proof.
    intros H. unfold decode_refresh, version_supported, version1.
    destruct (Z.ltb_spec (m_version m) 200); [reflexivity|lia].
  Qed.
End Envelope.

Lemma refresh_version_refuted :
  exists (gob_dec : list Z -> option Z) m,
    m_version m <> 200%Z /\ decode_refresh gob_dec (Some m) = Ok 5%Z.
Proof.
  exists (fun _ => Some 5%Z), (Message "DKLs18-Refresh" 201 [] []). split; [cbn; lia|reflexivity].
Qed.

(** Neither protocol name nor round label is looked at *)
Lemma labels_ignored {A} (gob_dec : list Z -> option A) p p' v pl md md' :
  decode_strict gob_dec (Some (Message p v pl md)) = decode_strict gob_dec (Some (Message p' v pl md')).
Proof. reflexivity. Qed.
