From Coq Require Import List String Bool ZArith Lia.
From Verif Require Import CredentialModel CredentialSpec.
Import ListNotations.
Open Scope list_scope.

Lemma bytes_eqb_spec a : forall b, reflect (a = b) (bytes_eqb a b).
Proof.
  induction a as [|x a IH]; intros [|y b]; cbn; try (constructor; congruence).
  destruct (Z.eqb_spec x y) as [->|n]; cbn.
  - destruct (IH b) as [->|]; constructor; congruence.
  - constructor; congruence.
Qed.

Definition hit (id : list Z) (c : cred) : bool := bytes_eqb (cr_id c) id.
Definition others (id : list Z) (l : list cred) := filter (fun c => negb (hit id c)) l.

Lemma append_contents s c : wf s -> contents (go_append s c) = contents s ++ [c] /\ wf (go_append s c).
Proof.
  unfold wf, contents, go_append. intros H.
  destruct (Nat.ltb_spec (sl_len s) (List.length (sl_arr s))) as [L|L]; cbn [sl_arr sl_len].
  - split.
    + rewrite firstn_app, firstn_firstn, firstn_length.
      replace (S (sl_len s) - Nat.min (sl_len s) (List.length (sl_arr s))) with 1 by lia.
      rewrite Nat.min_r by lia. reflexivity.
    + rewrite app_length, firstn_length. cbn [List.length]. rewrite skipn_length. lia.
  - split.
    + rewrite firstn_app, firstn_firstn, firstn_length.
      replace (S (sl_len s) - Nat.min (sl_len s) (List.length (sl_arr s))) with 1 by lia.
      rewrite Nat.min_r by lia. reflexivity.
    + rewrite app_length, firstn_length. cbn. lia.
Qed.

(** The loop while nothing matches: the slice is left alone. *)
Lemma loop_nohit id : forall fuel i s,
  i + fuel <= List.length (sl_arr s) ->
  (forall j c, i <= j < i + fuel -> nth_error (sl_arr s) j = Some c -> hit id c = false) ->
  unlink_loop id fuel i s = Some s.
Proof.
  induction fuel as [|n IH]; intros i s Hl Hh; cbn; [reflexivity|].
  destruct (nth_error (sl_arr s) i) as [c|] eqn:E.
  - assert (Hc := Hh i c ltac:(lia) E). unfold hit in Hc. rewrite Hc.
    apply IH; [lia|]. intros j d Hj. apply Hh. lia.
  - apply nth_error_None in E. lia.
Qed.


Lemma loop_skip id : forall A c X n s fuel i,
  sl_arr s = A ++ c :: X -> i + n = List.length A ->
  (forall a, In a A -> hit id a = false) ->
  unlink_loop id (n + fuel) i s = unlink_loop id fuel (List.length A) s.
Proof.
  intros A c X n. induction n as [|n IH]; intros s fuel i E H HA; cbn [Nat.add unlink_loop].
  - now replace i with (List.length A) by lia.
  - destruct (nth_error (sl_arr s) i) as [d|] eqn:En.
    + assert (In d A).
      { rewrite E, nth_error_app1 in En by lia. eapply nth_error_In; exact En. }
      assert (Hd := HA d H0). unfold hit in Hd. rewrite Hd. apply IH; auto. lia.
    + apply nth_error_None in En. rewrite E, app_length in En. lia.
Qed.

Lemma loop_onehit id s A c B :
  wf s -> contents s = A ++ c :: B -> hit id c = true ->
  (forall a, In a A -> hit id a = false) -> (forall a, In a B -> hit id a = false) ->
  exists s', unlink_loop id (sl_len s) 0 s = Some s' /\ wf s' /\ contents s' = A ++ B.
Proof.
  intros W E Hc HA HB. unfold contents, wf in *.
  set (R := skipn (sl_len s) (sl_arr s)).
  assert (Earr : sl_arr s = A ++ c :: B ++ R).
  { rewrite <- (firstn_skipn (sl_len s) (sl_arr s)), E. fold R. rewrite <- app_assoc. reflexivity. }
  assert (Elen : sl_len s = List.length A + S (List.length B)).
  { apply (f_equal (@List.length cred)) in E. rewrite firstn_length, app_length in E. cbn in E. lia. }
  rewrite Elen, (loop_skip id A c (B ++ R) (List.length A)) by auto.
  cbn [unlink_loop].
  assert (En : nth_error (sl_arr s) (List.length A) = Some c).
  { rewrite Earr, nth_error_app2, Nat.sub_diag by lia. reflexivity. }
  rewrite En. unfold hit in Hc. rewrite Hc.
  unfold go_delete. destruct (Nat.leb_spec (S (List.length A)) (sl_len s)); [|lia].
  set (L := skipn (sl_len s - 1) (sl_arr s)).
  assert (F1 : firstn (List.length A) (sl_arr s) = A).
  { rewrite Earr, firstn_app, Nat.sub_diag, firstn_all. cbn. apply app_nil_r. }
  assert (F2 : firstn (sl_len s - S (List.length A)) (skipn (S (List.length A)) (sl_arr s)) = B).
  { rewrite Earr, skipn_app. replace (S (List.length A) - List.length A) with 1 by lia.
    rewrite (skipn_all2 A) by lia. cbn. rewrite Elen.
    replace (List.length A + S (List.length B) - S (List.length A)) with (List.length B) by lia.
    rewrite firstn_app, Nat.sub_diag, firstn_all. cbn. apply app_nil_r. }
  rewrite F1, F2.
  assert (HL : exists z L', L = z :: L' /\ (B = [] \/ In z B)).
  { unfold L. rewrite Earr, Elen, skipn_app.
    replace (List.length A + S (List.length B) - 1) with (List.length A + List.length B) by lia.
    replace (List.length A + List.length B - List.length A) with (List.length B) by lia.
    rewrite (skipn_all2 A) by lia. cbn [app].
    destruct B as [|b B0] using rev_ind.
    - cbn. exists c, R. auto.
    - exists b, R. split; [|right; apply in_or_app; cbn; auto].
      replace (c :: (B0 ++ [b]) ++ R) with ((c :: B0) ++ b :: R) by (cbn; now rewrite <- app_assoc).
      rewrite skipn_app.
      rewrite app_length. cbn [List.length]. replace (List.length B0 + 1) with (List.length (c :: B0)) by (cbn; lia).
      rewrite Nat.sub_diag, (skipn_all (c :: B0)). reflexivity. }
  destruct HL as (z & L' & -> & Hz).
  rewrite loop_nohit.
  - eexists. split; [reflexivity|]. cbn [sl_arr sl_len].
    replace (sl_len s - 1) with (List.length (A ++ B)) by (rewrite app_length; lia).
    rewrite app_assoc. split.
    + rewrite (app_length (A ++ B)). lia.
    + rewrite firstn_app, Nat.sub_diag, firstn_all. cbn. now rewrite app_nil_r.
  - cbn [sl_arr]. rewrite !app_length. cbn. lia.
  - cbn [sl_arr]. intros j d Hj Hd.
    rewrite nth_error_app2 in Hd by lia.
    destruct (Nat.lt_ge_cases (j - List.length A) (List.length B)) as [Hlt|Hge].
    + rewrite nth_error_app1 in Hd by lia. apply HB. eapply nth_error_In; exact Hd.
    + rewrite nth_error_app2 in Hd by lia.
      replace (j - List.length A - List.length B) with 0 in Hd by lia.
      injection Hd as <-. destruct Hz as [->|Hz]; [cbn in Hj; lia|]. auto.
Qed.

Lemma others_noop id l : (forall a, In a l -> hit id a = false) -> others id l = l.
Proof.
  induction l as [|x l IH]; cbn; intros H; [reflexivity|].
  unfold others. cbn. rewrite (H x) by auto. cbn. f_equal. apply IH. auto.
Qed.

Lemma others_app id l1 l2 : others id (l1 ++ l2) = others id l1 ++ others id l2.
Proof. unfold others. apply filter_app. Qed.

Lemma unlink_loop_unique id s :
  wf s -> NoDup (map cr_id (contents s)) ->
  exists s', unlink_loop id (sl_len s) 0 s = Some s' /\ wf s' /\ contents s' = others id (contents s).
Proof.
  intros W ND.
  destruct (existsb (hit id) (contents s)) eqn:E.
  - apply existsb_exists in E as (c & Hin & Hc).
    apply in_split in Hin as (A & B & E). 
    assert (Hn : forall a, In a (A ++ B) -> hit id a = false).
    { intros a Ha. destruct (hit id a) eqn:Ea; [|reflexivity]. exfalso.
      unfold hit in *. destruct (bytes_eqb_spec (cr_id a) id); [|discriminate].
      destruct (bytes_eqb_spec (cr_id c) id); [|discriminate].
      rewrite E, map_app in ND. cbn in ND. apply NoDup_remove_2 in ND. apply ND.
      rewrite <- map_app. rewrite e0, <- e. now apply in_map. }
    destruct (loop_onehit id s A c B W E Hc) as (s' & H1 & H2 & H3).
    + intros; apply Hn, in_or_app; auto.
    + intros; apply Hn, in_or_app; auto.
    + exists s'. repeat split; auto. rewrite H3, E, others_app.
      unfold others at 2. cbn. rewrite Hc. cbn.
      change (filter (fun c => negb (hit id c)) B) with (others id B).
      rewrite !others_noop; auto; intros; apply Hn, in_or_app; auto.
  - assert (Hn : forall a, In a (contents s) -> hit id a = false).
    { intros a Ha. destruct (hit id a) eqn:Ea; [|reflexivity].
      assert (existsb (hit id) (contents s) = true) by (apply existsb_exists; eauto). congruence. }
    exists s. split; [|split; [exact W|]].
    + apply loop_nohit; [exact W|]. intros j c Hj Hc. apply Hn.
      unfold contents. rewrite <- (firstn_skipn (sl_len s) (sl_arr s)), nth_error_app1 in Hc.
      * eapply nth_error_In; exact Hc.
      * rewrite firstn_length. unfold wf in W. lia.
    + symmetry. now apply others_noop.
Qed.

(** ** The map *)

Lemma lookup_update_same m o s : lookup (update m o s) o = Some s.
Proof.
  induction m as [|[k x] m IH]; cbn.
  - now rewrite String.eqb_refl.
  - destruct (String.eqb_spec k o) as [e|e]; cbn.
    + subst. now rewrite String.eqb_refl.
    + destruct (String.eqb_spec k o); [contradiction|exact IH].
Qed.
Lemma lookup_update_other m o o' s : o <> o' -> lookup (update m o s) o' = lookup m o'.
Proof.
  intros N. induction m as [|[k x] m IH]; cbn.
  - destruct (String.eqb_spec o o'); [contradiction|reflexivity].
  - destruct (String.eqb_spec k o) as [e|e]; cbn.
    + subst. destruct (String.eqb_spec o o'); [contradiction|reflexivity].
    + destruct (String.eqb_spec k o'); [reflexivity|exact IH].
Qed.


Lemma link_ok m o c : wf_map m -> o <> ""%string ->
  exists m', link m o c = Some m' /\ wf_map m' /\
    get_credentials m' o = Some (match get_credentials m o with Some l => l | None => [] end ++ [c]) /\
    (forall o', o' <> o -> get_credentials m' o' = get_credentials m o').
Proof.
  intros W Ho. unfold link. destruct (String.eqb_spec o ""); [contradiction|].
  unfold get_credentials.
  destruct (lookup m o) as [s|] eqn:E.
  - rewrite E. eexists. split; [reflexivity|].
    destruct (append_contents s c (W _ _ E)) as [C1 C2]. repeat split.
    + intros o' s' H. destruct (String.eqb_spec o' o) as [e|e].
      * subst. rewrite lookup_update_same in H. injection H as <-. exact C2.
      * rewrite lookup_update_other in H by congruence. eapply W; eauto.
    + rewrite lookup_update_same. now rewrite C1.
    + intros o' H. now rewrite lookup_update_other by congruence.
  - rewrite lookup_update_same. eexists. split; [reflexivity|].
    assert (W0 : wf (Slice [] 0)) by (unfold wf; cbn; lia).
    destruct (append_contents (Slice [] 0) c W0) as [C1 C2]. repeat split.
    + intros o' s' H. destruct (String.eqb_spec o' o) as [e|e].
      * subst. rewrite lookup_update_same in H. injection H as <-. exact C2.
      * rewrite !lookup_update_other in H by congruence. eapply W; eauto.
    + rewrite lookup_update_same. now rewrite C1.
    + intros o' H. now rewrite !lookup_update_other by congruence.
Qed.

Lemma unlink_ok m o id : wf_map m ->
  (forall l, get_credentials m o = Some l -> NoDup (map cr_id l)) ->
  exists m', unlink m o id = Some m' /\ wf_map m' /\
    get_credentials m' o = option_map (others id) (get_credentials m o) /\
    (forall o', o' <> o -> get_credentials m' o' = get_credentials m o').
Proof.
  intros W ND. unfold unlink, get_credentials in *. destruct (lookup m o) as [s|] eqn:E.
  - destruct (unlink_loop_unique id s (W _ _ E) (ND _ eq_refl)) as (s' & H1 & H2 & H3).
    rewrite H1. eexists. split; [reflexivity|]. repeat split.
    + intros o' x H. destruct (String.eqb_spec o' o) as [e|e].
      * subst. rewrite lookup_update_same in H. injection H as <-. exact H2.
      * rewrite lookup_update_other in H by congruence. eapply W; eauto.
    + rewrite lookup_update_same. cbn. now rewrite H3.
    + intros o' H. now rewrite lookup_update_other by congruence.
  - exists m. repeat split; auto. now rewrite E.
Qed.

(** ** Histories with fresh links refine an ordered set per origin *)

Definition sim (m : creds) (a : astate) : Prop :=
  wf_map m /\ (forall o, get_credentials m o = a o) /\ (forall o, NoDup (map cr_id (aget a o))).

Lemma nodup_filter_map f (l : list cred) : NoDup (map cr_id l) -> NoDup (map cr_id (filter f l)).
Proof.
  induction l as [|x l IH]; cbn; intros H; [constructor|]. inversion H; subst.
  destruct (f x); cbn; auto. constructor; auto. intros Hin. apply H2.
  apply in_map_iff in Hin as (y & E & Hy). apply filter_In in Hy as [Hy _].
  rewrite <- E. now apply in_map.
Qed.

Lemma cstep_sim m a x : sim m a -> fresh a x -> exists m', cstep m x = Some m' /\ sim m' (astep a x).
Proof.
  intros (W & G & N) F. destruct x as [o c|o id]; cbn in *.
  - destruct F as [Fo Fi]. destruct (link_ok m o c W Fo) as (m' & E & W' & G1 & G2).
    exists m'. split; [exact E|]. repeat split; auto.
    + intros o'. destruct (String.eqb_spec o' o) as [->|n].
      * rewrite G1, G. reflexivity.
      * now rewrite G2, G.
    + intros o'. unfold aget. destruct (String.eqb_spec o' o) as [->|n]; [|apply N].
      rewrite map_app. cbn. fold (aget a o). specialize (N o). revert N Fi.
      generalize (map cr_id (aget a o)) as L. clear. intros L N F.
      induction L as [|y L IH]; cbn; [repeat constructor; auto|].
      inversion N; subst. constructor.
      * intros H. apply in_app_or in H as [H|[H|[]]]; [contradiction|]. subst. cbn in F. tauto.
      * apply IH; auto. cbn in F. tauto.
  - destruct (unlink_ok m o id W) as (m' & E & W' & G1 & G2).
    { intros l Hl. rewrite G in Hl. specialize (N o). unfold aget in N. now rewrite Hl in N. }
    exists m'. split; [exact E|]. repeat split; auto.
    + intros o'. destruct (String.eqb_spec o' o) as [->|n].
      * rewrite G1, G. reflexivity.
      * now rewrite G2, G.
    + intros o'. unfold aget. destruct (String.eqb_spec o' o) as [->|n]; [|apply N].
      specialize (N o). unfold aget in N. destruct (a o); cbn; [|constructor].
      now apply nodup_filter_map.
Qed.

Lemma crun_sim h : forall m a, sim m a -> all_fresh a h ->
  exists m', crun m h = Some m' /\ sim m' (fold_left astep h a).
Proof.
  induction h as [|x h IH]; cbn; intros m a S F; [exists m; auto|].
  destruct F as [F1 F2]. destruct (cstep_sim m a x S F1) as (m' & -> & S'). apply IH; auto.
Qed.

Lemma crun_refines h :
  all_fresh (fun _ => None) h ->
  exists m', crun [] h = Some m' /\
    (forall o, get_credentials m' o = fold_left astep h (fun _ => None) o) /\
    (forall o l, get_credentials m' o = Some l -> NoDup (map cr_id l)).
Proof.
  intros F. destruct (crun_sim h [] (fun _ => None)) as (m' & E & W & G & N).
  - split; [|split]; [intros o s H; discriminate H|intros o; reflexivity|intros o; constructor].
  - exact F.
  - exists m'. repeat split; auto. intros o l Hl. specialize (N o). unfold aget in N.
    rewrite <- G, Hl in N. exact N.
Qed.

(** ** Refutations *)
Lemma duplicate_link_refuted :
  exists m, crun [] [CLink "o" dup; CLink "o" dup] = Some m /\
            get_credentials m "o" = Some [dup; dup].
Proof. eexists. split; reflexivity. Qed.

Lemma unlink_panics_refuted :
  exists m, crun [] [CLink "o" dup; CLink "o" dup] = Some m /\ unlink m "o" (cr_id dup) = None.
Proof. eexists. split; reflexivity. Qed.

Lemma unlink_leaves_refuted :
  exists m m', crun [] [CLink "o" dup; CLink "o" dup; CLink "o" othr] = Some m /\
    unlink m "o" (cr_id dup) = Some m' /\ get_credentials m' "o" = Some [dup; othr].
Proof. eexists. eexists. repeat split; reflexivity. Qed.

(** ** Counter *)
Lemma update_counter_cases a c : (0 <= sign_count a)%Z -> (0 <= c)%Z ->
  sign_count (update_counter a c) = Z.max (sign_count a) c /\
  clone_warning (update_counter a c) =
    clone_warning a || ((c <=? sign_count a) && negb ((c =? 0) && (sign_count a =? 0)))%Z.
Proof.
  intros H1 H2. unfold update_counter.
  destruct (Z.leb_spec c (sign_count a)), (Z.eqb_spec c 0), (Z.eqb_spec (sign_count a) 0); cbn;
    rewrite ?orb_false_r, ?orb_true_r; split; try reflexivity; lia.
Qed.

Lemma run_counter_value cs : forall a, (0 <= sign_count a)%Z -> Forall (fun c => (0 <= c)%Z) cs ->
  sign_count (run_counter a cs) = fold_left Z.max cs (sign_count a).
Proof.
  induction cs as [|c cs IH]; intros a H F; [reflexivity|]. inversion F; subst.
  destruct (update_counter_cases a c H) as [E _]; auto. cbn.
  unfold run_counter in IH. rewrite IH; auto; rewrite E; [reflexivity|lia].
Qed.

Lemma run_counter_warning cs : forall a, (0 <= sign_count a)%Z -> Forall (fun c => (0 <= c)%Z) cs ->
  (clone_warning (run_counter a cs) = true <->
   clone_warning a = true \/
   exists pre c post, cs = pre ++ c :: post /\
     (c <= fold_left Z.max pre (sign_count a))%Z /\
     ~ (c = 0%Z /\ fold_left Z.max pre (sign_count a) = 0%Z)).
Proof.
  induction cs as [|c cs IH]; intros a H F.
  - cbn. split; [auto|]. intros [?|(pre & c & post & E & _)]; [auto|]. destruct pre; discriminate.
  - inversion F; subst. destruct (update_counter_cases a c H) as [E1 E2]; auto. cbn.
    unfold run_counter in IH. rewrite IH; [|rewrite E1; lia|assumption].
    rewrite E2, orb_true_iff, andb_true_iff, Z.leb_le, negb_true_iff, andb_false_iff, !Z.eqb_neq, E1.
    split.
    + intros [[Hw|[Hc Hz]]|(pre & d & post & -> & Hd & Hn)].
      * auto.
      * right. exists [], c, cs. cbn. repeat split; auto. lia.
      * right. exists (c :: pre), d, post. cbn. auto.
    + intros [Hw|(pre & d & post & E & Hd & Hn)]; [auto|].
      destruct pre as [|x pre]; cbn in E; injection E as -> ->.
      * cbn in *. left. right. split; [lia|]. lia.
      * right. exists pre, d, post. cbn in *. auto.
Qed.

Lemma fold_max_ge cs : forall n, (n <= fold_left Z.max cs n)%Z.
Proof. induction cs as [|c cs IH]; intros n; cbn; [lia|]. specialize (IH (Z.max n c)). lia. Qed.

Lemma counter_never_decreases a cs : (0 <= sign_count a)%Z -> Forall (fun c => (0 <= c)%Z) cs ->
  (sign_count a <= sign_count (run_counter a cs))%Z.
Proof. intros. rewrite run_counter_value by auto. apply fold_max_ge. Qed.
