(** Property theorems C01-C04 (x/did). *)
From Coq Require Import List String Bool ZArith QArith.
From Verif Require Import DidModel DidSpec DidProofs.
Import ListNotations.
Open Scope list_scope.

(** C01: whatever happened before and after, a query at any position of any history answers
    with the params in force, i.e. those of the last update carrying the authority. *)
Theorem C01_query_returns_last_accepted : forall k s before after,
  nth_error (snd (run k s (before ++ OpQuery :: after))) (List.length before) =
  Some (OutQuery (match in_force (kp_authority k) (st_params s) before with
                  | Some p => Ok p | None => Err end)).
Proof. exact query_after. Qed.
Print Assumptions C01_query_returns_last_accepted.

Theorem C01_foreign_authority_rejected : forall k s a p,
  a <> kp_authority k -> update_params k s a p = (s, Err).
Proof. exact update_rejected. Qed.
Print Assumptions C01_foreign_authority_rejected.

Theorem C01_authority_accepted : forall k s p,
  snd (update_params k s (kp_authority k) p) = Ok tt /\
  (let s' := fst (update_params k s (kp_authority k) p) in
   st_params s' = Some p /\ st_auth s' = st_auth s /\ st_keyshare s' = st_keyshare s
   /\ st_proof s' = st_proof s).
Proof. exact update_accepted. Qed.
Print Assumptions C01_authority_accepted.

Theorem C01_keeper_never_without_authority : forall gov a,
  gov <> ""%string -> kp_authority (new_keeper gov a) <> ""%string.
Proof. exact new_keeper_authority_nonempty. Qed.
Print Assumptions C01_keeper_never_without_authority.

Example C01_example :
  let p1 := Params [coin_eth] [] [] (1#2) (1#3) in
  let p2 := Params [] [] [] (1#2) (1#3) in
  snd (run (new_keeper "gov" "") (module_init_genesis empty_store p2)
         [OpUpdate "gov" p1; OpUpdate "eve" p2; OpQuery]) =
  [OutMsg (Ok tt); OutMsg Err; OutQuery (Ok p1)].
Proof. reflexivity. Qed.

(** C02 *)
Theorem C02_keeper_genesis_roundtrip : forall s p,
  let '(s', r) := keeper_init_genesis s p in
  r = Ok tt /\ export_genesis s' = Ok p /\
  (forall s2, export_genesis (fst (keeper_init_genesis s2 p)) = export_genesis s').
Proof. exact keeper_genesis_roundtrip. Qed.
Print Assumptions C02_keeper_genesis_roundtrip.

(** any chain reached by any history, exported and imported into any store through the
    keeper, answers the params query alike *)
Theorem C02_keeper_restart : forall k s h p fresh,
  export_genesis (fst (run k s h)) = Ok p ->
  query_params (fst (keeper_init_genesis fresh p)) = query_params (fst (run k s h)).
Proof. exact keeper_restart. Qed.
Print Assumptions C02_keeper_restart.

Theorem C02_export_panics_iff_unset : forall s,
  export_genesis s = Panic <-> st_params s = None.
Proof. exact export_panics_iff. Qed.
Print Assumptions C02_export_panics_iff_unset.

Example C02_example :
  export_genesis (fst (keeper_init_genesis empty_store default_params)) = Ok default_params.
Proof. reflexivity. Qed.

(** C03 is false of the code: the module ignores the genesis it is given.  The round trip
    holds exactly when the exported params are the defaults. *)
Theorem C03_module_restart_refuted :
  exists k h p,
    let s := fst (run k (module_init_genesis empty_store default_params) h) in
    export_genesis s = Ok p /\
    query_params (module_init_genesis empty_store p) <> query_params s.
Proof. exact module_restart_refuted. Qed.
Print Assumptions C03_module_restart_refuted.

Theorem C03_module_restart_partial : forall s p fresh,
  export_genesis s = Ok p ->
  (query_params (module_init_genesis fresh p) = query_params s <-> p = default_params).
Proof. exact module_restart_iff. Qed.
Print Assumptions C03_module_restart_partial.

(** C04: stored rows are never overwritten or lost, by this message or any history ... *)
Theorem C04_never_overwrites : forall s m k r,
  let s' := fst (initialize_controller s m) in
  (table_get (st_auth s) k = Some r -> table_get (st_auth s') k = Some r) /\
  (table_get (st_keyshare s) k = Some r -> table_get (st_keyshare s') k = Some r) /\
  (table_get (st_proof s) k = Some r -> table_get (st_proof s') k = Some r).
Proof. exact init_no_overwrite. Qed.
Print Assumptions C04_never_overwrites.

Theorem C04_rows_persist : forall k h s key r,
  let s' := fst (run k s h) in
  (table_get (st_auth s) key = Some r -> table_get (st_auth s') key = Some r) /\
  (table_get (st_keyshare s) key = Some r -> table_get (st_keyshare s') key = Some r) /\
  (table_get (st_proof s) key = Some r -> table_get (st_proof s') key = Some r).
Proof. exact run_rows_persist. Qed.
Print Assumptions C04_rows_persist.

(** ... only keys named by the message change, and params never ... *)
Theorem C04_frame : forall s m k,
  let s' := fst (initialize_controller s m) in
  st_params s' = st_params s /\
  (~ In k (map row_id (im_assertions m)) -> table_get (st_auth s') k = table_get (st_auth s) k) /\
  (~ In k (map row_id (im_keyshares m)) -> table_get (st_keyshare s') k = table_get (st_keyshare s) k) /\
  (~ In k (map row_id (im_verifications m)) -> table_get (st_proof s') k = table_get (st_proof s) k).
Proof. exact init_frame. Qed.
Print Assumptions C04_frame.

(** ... a message that fails on a delivered transaction leaves the store as it was ... *)
Theorem C04_deliver_error_changes_nothing : forall k s o,
  match snd (deliver k s o) with
  | OutMsg (Ok _) => True | _ => fst (deliver k s o) = s end.
Proof. exact deliver_error_frame. Qed.
Print Assumptions C04_deliver_error_changes_nothing.

(** ... but "success stores what the message carried" is false: a well-formed message stores
    nothing, and only malformed ones do (the error tests are inverted). *)
Theorem C04_success_stores_refuted :
  exists s m r,
    im_assertions_err m = false /\ im_keyshares_err m = false /\ im_verifications_err m = false /\
    snd (initialize_controller s m) = Ok tt /\ In r (im_assertions m) /\
    table_get (st_auth (fst (initialize_controller s m))) (row_id r) = None.
Proof. exact init_stores_refuted. Qed.
Print Assumptions C04_success_stores_refuted.

Theorem C04_wellformed_message_is_a_noop : forall s m,
  im_assertions_err m = false -> im_keyshares_err m = false -> im_verifications_err m = false ->
  initialize_controller s m = (s, Ok tt).
Proof. exact init_wellformed_noop. Qed.
Print Assumptions C04_wellformed_message_is_a_noop.

Theorem C04_success_stores_partial : forall s m s',
  im_assertions_err m = true -> im_keyshares_err m = true -> im_verifications_err m = true ->
  initialize_controller s m = (s', Ok tt) ->
  (forall r, In r (im_assertions m) -> table_get (st_auth s') (row_id r) = Some r) /\
  (forall r, In r (im_keyshares m) -> table_get (st_keyshare s') (row_id r) = Some r) /\
  (forall r, In r (im_verifications m) -> table_get (st_proof s') (row_id r) = Some r).
Proof. exact init_malformed_stores. Qed.
Print Assumptions C04_success_stores_partial.

Example C04_example :
  let m := InitMsg [Row "a" "x"; Row "b" "y"] true [Row "k" "z"] true [] true in
  let s := fst (initialize_controller empty_store m) in
  snd (initialize_controller empty_store m) = Ok tt /\
  table_get (st_auth s) "b" = Some (Row "b" "y") /\
  snd (initialize_controller s m) = Err.
Proof. repeat split. Qed.
