From Coq Require Import List String Bool ZArith QArith.
From Verif Require Import DidModel DidSpec.
Import ListNotations.
Open Scope list_scope.

Lemma insert_all_ext t l t' ok : insert_all t l = (t', ok) ->
  forall k r, table_get t k = Some r -> table_get t' k = Some r.
Proof.
  revert t. induction l as [|x l IH]; cbn; intros t H k r Hk.
  - injection H as <- <-. exact Hk.
  - unfold table_insert in H. destruct (table_get t (row_id x)) eqn:E.
    + injection H as <- <-. exact Hk.
    + eapply IH; [exact H|]. cbn. destruct (String.eqb_spec (row_id x) k) as [e|].
      * congruence.
      * exact Hk.
Qed.

Lemma insert_all_only t l t' ok : insert_all t l = (t', ok) ->
  forall k, ~ In k (map row_id l) -> table_get t' k = table_get t k.
Proof.
  revert t. induction l as [|x l IH]; cbn; intros t H k Hk.
  - injection H as <- <-. reflexivity.
  - unfold table_insert in H. destruct (table_get t (row_id x)) eqn:E.
    + injection H as <- <-. reflexivity.
    + rewrite (IH _ H k) by tauto. cbn.
      destruct (String.eqb_spec (row_id x) k) as [e|]; [tauto|reflexivity].
Qed.

Lemma insert_all_ok t l t' : insert_all t l = (t', true) ->
  (forall r, In r l -> table_get t' (row_id r) = Some r) /\ NoDup (map row_id l)
  /\ (forall r, In r l -> table_get t (row_id r) = None).
Proof.
  revert t. induction l as [|x l IH]; cbn; intros t H.
  - split; [tauto|split; [constructor|tauto]].
  - unfold table_insert in H. destruct (table_get t (row_id x)) eqn:E; [discriminate|].
    destruct (IH _ H) as (I1 & I2 & I3).
    assert (Hx : table_get t' (row_id x) = Some x).
    { eapply insert_all_ext; [exact H|]. cbn. now rewrite String.eqb_refl. }
    assert (Hn : forall r, In r l -> row_id r <> row_id x).
    { intros r Hr Heq. specialize (I3 r Hr). cbn in I3.
      rewrite Heq, String.eqb_refl in I3. discriminate. }
    repeat split.
    + intros r [->|Hr]; auto.
    + constructor; [|exact I2]. intro Hin. apply in_map_iff in Hin as (r & Hr & Hin).
      now apply (Hn r).
    + intros r [->|Hr]; [exact E|]. specialize (I3 r Hr). cbn in I3.
      destruct (String.eqb_spec (row_id x) (row_id r)) as [e|]; [|exact I3].
      now destruct (Hn r Hr).
Qed.

Lemma init_params s m : st_params (fst (initialize_controller s m)) = st_params s.
Proof.
  unfold initialize_controller.
  destruct (init_block (st_auth s) _ _) as [a []]; cbn; [|reflexivity].
  destruct (init_block (st_keyshare s) _ _) as [b []]; cbn; [|reflexivity].
  destruct (init_block (st_proof s) _ _) as [c []]; reflexivity.
Qed.

Lemma step_in_force k s o :
  st_params (fst (step k s o)) = in_force (kp_authority k) (st_params s) [o].
Proof.
  destruct o; cbn.
  - unfold update_params. rewrite String.eqb_sym. now destruct (String.eqb _ _).
  - pose proof (init_params s m) as H. now destruct (initialize_controller s m).
  - reflexivity.
  - reflexivity.
Qed.

Lemma in_force_app a c h1 h2 : in_force a c (h1 ++ h2) = in_force a (in_force a c h1) h2.
Proof. revert c; induction h1 as [|[]]; cbn; intros; auto. Qed.

Lemma run_in_force k s h : st_params (fst (run k s h)) = in_force (kp_authority k) (st_params s) h.
Proof.
  revert s. induction h as [|o h IH]; intros s; [reflexivity|].
  change (o :: h) with ([o] ++ h). rewrite in_force_app, <- step_in_force. cbn.
  destruct (step k s o) as [s1 r] eqn:E. specialize (IH s1).
  destruct (run k s1 h) as [s2 rs]. cbn in *. exact IH.
Qed.

(** every output of a run, in position order *)
Lemma run_nth k s h1 o h2 :
  nth_error (snd (run k s (h1 ++ o :: h2))) (List.length h1)
  = Some (snd (step k (fst (run k s h1)) o)).
Proof.
  revert s. induction h1 as [|x h1 IH]; intros s; cbn.
  - destruct (step k s o) as [s1 r]. destruct (run k s1 h2). reflexivity.
  - destruct (step k s x) as [s1 r]. specialize (IH s1).
    destruct (run k s1 (h1 ++ o :: h2)) as [s2 rs]. destruct (run k s1 h1) as [s3 rs3].
    cbn in *. exact IH.
Qed.

Lemma query_after k s h1 h2 :
  nth_error (snd (run k s (h1 ++ OpQuery :: h2))) (List.length h1) =
  Some (OutQuery (match in_force (kp_authority k) (st_params s) h1 with
                  | Some p => Ok p | None => Err end)).
Proof. rewrite run_nth. cbn. unfold query_params. now rewrite run_in_force. Qed.

Lemma update_rejected k s a p : a <> kp_authority k -> update_params k s a p = (s, Err).
Proof.
  intros H. unfold update_params. destruct (String.eqb_spec (kp_authority k) a); [congruence|reflexivity].
Qed.

Lemma update_accepted k s p :
  snd (update_params k s (kp_authority k) p) = Ok tt /\
  (let s' := fst (update_params k s (kp_authority k) p) in
   st_params s' = Some p /\ st_auth s' = st_auth s /\ st_keyshare s' = st_keyshare s
   /\ st_proof s' = st_proof s).
Proof. unfold update_params. rewrite String.eqb_refl. cbn. auto. Qed.

Lemma init_block_ext t l e t' ok : init_block t l e = (t', ok) ->
  forall k r, table_get t k = Some r -> table_get t' k = Some r.
Proof.
  unfold init_block. destruct e; [apply insert_all_ext|]. intros H; injection H as <- <-. auto.
Qed.
Lemma init_block_only t l e t' ok : init_block t l e = (t', ok) ->
  forall k, ~ In k (map row_id l) -> table_get t' k = table_get t k.
Proof.
  unfold init_block. destruct e; [apply insert_all_only|]. intros H; injection H as <- <-. auto.
Qed.

Lemma init_no_overwrite s m k r :
  let s' := fst (initialize_controller s m) in
  (table_get (st_auth s) k = Some r -> table_get (st_auth s') k = Some r) /\
  (table_get (st_keyshare s) k = Some r -> table_get (st_keyshare s') k = Some r) /\
  (table_get (st_proof s) k = Some r -> table_get (st_proof s') k = Some r).
Proof.
  unfold initialize_controller.
  destruct (init_block (st_auth s) _ _) as [a o1] eqn:E1.
  pose proof (init_block_ext _ _ _ _ _ E1) as H1.
  destruct o1; cbn; [|auto].
  destruct (init_block (st_keyshare s) _ _) as [b o2] eqn:E2.
  pose proof (init_block_ext _ _ _ _ _ E2) as H2.
  destruct o2; cbn; [|auto].
  destruct (init_block (st_proof s) _ _) as [c o3] eqn:E3.
  pose proof (init_block_ext _ _ _ _ _ E3) as H3.
  destruct o3; cbn; auto.
Qed.

Lemma init_frame s m k :
  let s' := fst (initialize_controller s m) in
  st_params s' = st_params s /\
  (~ In k (map row_id (im_assertions m)) -> table_get (st_auth s') k = table_get (st_auth s) k) /\
  (~ In k (map row_id (im_keyshares m)) -> table_get (st_keyshare s') k = table_get (st_keyshare s) k) /\
  (~ In k (map row_id (im_verifications m)) -> table_get (st_proof s') k = table_get (st_proof s) k).
Proof.
  split; [apply init_params|].
  unfold initialize_controller.
  destruct (init_block (st_auth s) _ _) as [a o1] eqn:E1.
  pose proof (init_block_only _ _ _ _ _ E1) as H1.
  destruct o1; cbn; [|auto].
  destruct (init_block (st_keyshare s) _ _) as [b o2] eqn:E2.
  pose proof (init_block_only _ _ _ _ _ E2) as H2.
  destruct o2; cbn; [|auto].
  destruct (init_block (st_proof s) _ _) as [c o3] eqn:E3.
  pose proof (init_block_only _ _ _ _ _ E3) as H3.
  destruct o3; cbn; auto.
Qed.

(** What the code does for well-formed lists: nothing. *)
Lemma init_wellformed_noop s m :
  im_assertions_err m = false -> im_keyshares_err m = false -> im_verifications_err m = false ->
  initialize_controller s m = (s, Ok tt).
Proof.
  intros H1 H2 H3. unfold initialize_controller, init_block. rewrite H1, H2, H3. cbn.
  now destruct s.
Qed.

(** When decoding reports an error for all three lists, success means all rows were stored. *)
Lemma init_malformed_stores s m s' :
  im_assertions_err m = true -> im_keyshares_err m = true -> im_verifications_err m = true ->
  initialize_controller s m = (s', Ok tt) ->
  (forall r, In r (im_assertions m) -> table_get (st_auth s') (row_id r) = Some r) /\
  (forall r, In r (im_keyshares m) -> table_get (st_keyshare s') (row_id r) = Some r) /\
  (forall r, In r (im_verifications m) -> table_get (st_proof s') (row_id r) = Some r).
Proof.
  intros H1 H2 H3. unfold initialize_controller, init_block. rewrite H1, H2, H3.
  destruct (insert_all (st_auth s) _) as [a []] eqn:E1; cbn; [|discriminate].
  destruct (insert_all (st_keyshare s) _) as [b []] eqn:E2; cbn; [|discriminate].
  destruct (insert_all (st_proof s) _) as [c []] eqn:E3; cbn; [|discriminate].
  intros H; injection H as <-. cbn.
  pose proof (insert_all_ok _ _ _ E1). pose proof (insert_all_ok _ _ _ E2).
  pose proof (insert_all_ok _ _ _ E3). tauto.
Qed.

Lemma deliver_error_frame k s o :
  match snd (deliver k s o) with
  | OutMsg (Ok _) => True | _ => fst (deliver k s o) = s end.
Proof.
  unfold deliver. destruct o; cbn.
  - destruct (update_params k s authority p) as [s' []]; cbn; auto.
  - destruct (initialize_controller s m) as [s' []]; cbn; auto.
  - reflexivity.
  - reflexivity.
Qed.

(** Keys are never lost: across any history a stored row stays. *)
Lemma run_rows_persist k h : forall s key r,
  let s' := fst (run k s h) in
  (table_get (st_auth s) key = Some r -> table_get (st_auth s') key = Some r) /\
  (table_get (st_keyshare s) key = Some r -> table_get (st_keyshare s') key = Some r) /\
  (table_get (st_proof s) key = Some r -> table_get (st_proof s') key = Some r).
Proof.
  induction h as [|o h IH]; intros s key r; [cbn; auto|]. cbn.
  destruct (step k s o) as [s1 x] eqn:E. specialize (IH s1 key r). cbn in IH.
  destruct (run k s1 h) as [s2 rs]. cbn in *.
  assert (S1 : (table_get (st_auth s) key = Some r -> table_get (st_auth s1) key = Some r) /\
   (table_get (st_keyshare s) key = Some r -> table_get (st_keyshare s1) key = Some r) /\
   (table_get (st_proof s) key = Some r -> table_get (st_proof s1) key = Some r)).
  { destruct o; cbn in E.
    - unfold update_params in E. destruct (negb _); injection E as <- <-; cbn; auto.
    - pose proof (init_no_overwrite s m key r) as H.
      destruct (initialize_controller s m); injection E as <- <-. exact H.
    - injection E as <- <-; auto.
    - injection E as <- <-; auto. }
  tauto.
Qed.

Lemma keeper_genesis_roundtrip s p :
  let '(s', r) := keeper_init_genesis s p in
  r = Ok tt /\ export_genesis s' = Ok p /\
  (forall s2, export_genesis (fst (keeper_init_genesis s2 p)) = export_genesis s').
Proof. cbn. auto. Qed.

Lemma export_panics_iff s : export_genesis s = Panic <-> st_params s = None.
Proof. unfold export_genesis. destruct (st_params s); split; congruence. Qed.

(** export . import through the keeper is the identity on params of any reachable chain *)
Lemma keeper_restart k s h p fresh :
  export_genesis (fst (run k s h)) = Ok p ->
  query_params (fst (keeper_init_genesis fresh p)) = query_params (fst (run k s h)).
Proof.
  unfold export_genesis, query_params. destruct (st_params (fst (run k s h))); [|discriminate].
  intros H; injection H as ->. reflexivity.
Qed.

Lemma module_restart_iff s p fresh :
  export_genesis s = Ok p ->
  (query_params (module_init_genesis fresh p) = query_params s <-> p = default_params).
Proof.
  unfold export_genesis, query_params. destruct (st_params s) as [q|]; [|discriminate].
  intros H; injection H as ->. cbn. split; congruence.
Qed.

Lemma module_restart_refuted :
  exists k h p,
    let s := fst (run k (module_init_genesis empty_store default_params) h) in
    export_genesis s = Ok p /\
    query_params (module_init_genesis empty_store p) <> query_params s.
Proof.
  exists (Keeper "gov"),
    [OpUpdate "gov" (Params [] [] [] (0 # 1) (0 # 1))],
    (Params [] [] [] (0 # 1) (0 # 1)).
  cbn. split; [reflexivity|]. unfold query_params. cbn. discriminate.
Qed.

Lemma init_stores_refuted :
  exists s m r,
    im_assertions_err m = false /\ im_keyshares_err m = false /\ im_verifications_err m = false /\
    snd (initialize_controller s m) = Ok tt /\ In r (im_assertions m) /\
    table_get (st_auth (fst (initialize_controller s m))) (row_id r) = None.
Proof.
  exists empty_store, (InitMsg [Row "a" "x"] false [] false [] false), (Row "a" "x").
  cbn. repeat split; auto.
Qed.

(** coins.go: Equal is an equivalence that ignores names; FormatAddress outcomes *)
Lemma coin_equal_equiv :
  (forall a, coin_equal a a = true) /\ (forall a b, coin_equal a b = coin_equal b a) /\
  (forall a b c, coin_equal a b = true -> coin_equal b c = true -> coin_equal a c = true).
Proof.
  unfold coin_equal. repeat split.
  - intros. now rewrite !Z.eqb_refl.
  - intros. now rewrite (Z.eqb_sym (coin_index a)), (Z.eqb_sym (coin_path a)).
  - intros a b c H1 H2. apply andb_true_iff in H1 as [A1 B1]. apply andb_true_iff in H2 as [A2 B2].
    apply Z.eqb_eq in A1, B1, A2, B2. rewrite A1, B1, A2, B2. now rewrite !Z.eqb_refl.
Qed.

Lemma new_keeper_authority_nonempty gov a : gov <> ""%string -> kp_authority (new_keeper gov a) <> ""%string.
Proof. intros H. unfold new_keeper; cbn. destruct (String.eqb_spec a ""); auto. Qed.
