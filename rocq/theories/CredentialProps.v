(** Property theorems C07 (credential map) and C08 (authenticator counter). *)
From Coq Require Import List String Bool ZArith.
From Verif Require Import CredentialModel CredentialSpec CredentialProofs.
Import ListNotations.
Open Scope list_scope.

(** C07 holds for histories in which every linked credential has an ID not already present
    under its origin: no panic, the lists are the abstract ordered sets, IDs are unique.
    Missing: histories that link one ID twice (see the refutations: Link does not check). *)
Theorem C07_refines_ordered_set_partial : forall h,
  all_fresh (fun _ => None) h ->
  exists m, crun [] h = Some m /\
    (forall o, get_credentials m o = fold_left astep h (fun _ => None) o) /\
    (forall o l, get_credentials m o = Some l -> NoDup (map cr_id l)).
Proof. exact crun_refines. Qed.
Print Assumptions C07_refines_ordered_set_partial.

Example C07_example :
  all_fresh (fun _ => None)
    [CLink "a" dup; CLink "a" othr; CLink "b" dup; CUnlink "a" [1%Z]; CLink "a" dup] /\
  exists m, crun [] [CLink "a" dup; CLink "a" othr; CLink "b" dup; CUnlink "a" [1%Z]; CLink "a" dup] = Some m
    /\ get_credentials m "a" = Some [othr; dup] /\ get_credentials m "b" = Some [dup].
Proof.
  split; [cbn; repeat split; try discriminate; intuition discriminate|].
  eexists; repeat split; reflexivity.
Qed.

Theorem C07_link_appends : forall m o c, wf_map m -> o <> ""%string ->
  exists m', link m o c = Some m' /\ wf_map m' /\
    get_credentials m' o = Some (match get_credentials m o with Some l => l | None => [] end ++ [c]) /\
    (forall o', o' <> o -> get_credentials m' o' = get_credentials m o').
Proof. exact link_ok. Qed.
Print Assumptions C07_link_appends.

Theorem C07_unique_ids_refuted :
  exists m, crun [] [CLink "o" dup; CLink "o" dup] = Some m /\
            get_credentials m "o" = Some [dup; dup].
Proof. exact duplicate_link_refuted. Qed.
Print Assumptions C07_unique_ids_refuted.

Theorem C07_unlink_never_panics_refuted :
  exists m, crun [] [CLink "o" dup; CLink "o" dup] = Some m /\ unlink m "o" (cr_id dup) = None.
Proof. exact unlink_panics_refuted. Qed.
Print Assumptions C07_unlink_never_panics_refuted.

Theorem C07_unlink_removes_all_refuted :
  exists m m', crun [] [CLink "o" dup; CLink "o" dup; CLink "o" othr] = Some m /\
    unlink m "o" (cr_id dup) = Some m' /\ get_credentials m' "o" = Some [dup; othr].
Proof. exact unlink_leaves_refuted. Qed.
Print Assumptions C07_unlink_removes_all_refuted.

(** C08: the stored counter is the maximum ever received, so it never decreases ... *)
Theorem C08_counter_is_running_max : forall cs a,
  (0 <= sign_count a)%Z -> Forall (fun c => (0 <= c)%Z) cs ->
  sign_count (run_counter a cs) = fold_left Z.max cs (sign_count a).
Proof. exact run_counter_value. Qed.
Print Assumptions C08_counter_is_running_max.

Theorem C08_counter_never_decreases : forall a cs,
  (0 <= sign_count a)%Z -> Forall (fun c => (0 <= c)%Z) cs ->
  (sign_count a <= sign_count (run_counter a cs))%Z.
Proof. exact counter_never_decreases. Qed.
Print Assumptions C08_counter_never_decreases.

(** ... and the clone warning is set exactly when some received counter did not exceed the
    stored one (both zero excepted), and then stays set. *)
Theorem C08_warning_iff_replay : forall cs a,
  (0 <= sign_count a)%Z -> Forall (fun c => (0 <= c)%Z) cs ->
  (clone_warning (run_counter a cs) = true <->
   clone_warning a = true \/
   exists pre c post, cs = pre ++ c :: post /\
     (c <= fold_left Z.max pre (sign_count a))%Z /\
     ~ (c = 0%Z /\ fold_left Z.max pre (sign_count a) = 0%Z)).
Proof. exact run_counter_warning. Qed.
Print Assumptions C08_warning_iff_replay.

Example C08_example :
  run_counter (Authr 0 false) [0; 3; 7]%Z = Authr 7 false /\
  run_counter (Authr 0 false) [3; 7; 5; 9]%Z = Authr 9 true.
Proof. split; reflexivity. Qed.
