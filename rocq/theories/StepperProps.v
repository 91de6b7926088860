(** Property theorems C10 (protocol iterators), C11 (RunProtocol), C12 (message envelopes). *)
From Coq Require Import List String Bool Arith ZArith Lia.
From Verif Require Import StepperModel StepperSpec StepperProofs.
Import ListNotations.
Open Scope list_scope.

(** C10: after any history of calls, with k successes so far, the next call runs exactly step
    k on the given input (again and again until it succeeds); after all steps it reports
    finished and leaves the object unchanged. *)
Theorem C10_next_after_history : forall (St M : Type) (steps : list (stepfn St M)) st ins input,
  let '(p, rs) := nexts (Stepper steps 0 st) ins in
  (count rs < List.length steps ->
     exists f, nth_error steps (count rs) = Some f /\
       next p input = match f (sp_st p) input with
             | (st', SOut o) => (Stepper steps (S (count rs)) st', NOut o)
             | (st', SErr) => (Stepper steps (count rs) st', NErr)
             | (st', SPanic) => (Stepper steps (count rs) st', NPanic)
             end) /\
  (count rs = List.length steps -> next p input = (p, NFinished)) /\
  count rs <= List.length steps.
Proof. exact next_after_history. Qed.
Print Assumptions C10_next_after_history.

Theorem C10_finished_is_absorbing : forall (St M : Type) ins (p : stepper St M),
  sp_idx p >= List.length (sp_steps p) -> nexts p ins = (p, map (fun _ => NFinished) ins).
Proof. exact nexts_finished. Qed.
Print Assumptions C10_finished_is_absorbing.

Theorem C10_result_only_when_complete :
  forall (St M : Type) enc (steps : list (stepfn St M)) st ins,
  let '(p, rs) := nexts (Stepper steps 0 st) ins in
  (count rs < List.length steps -> result enc p = Ok None) /\
  (count rs = List.length steps ->
     result enc p = match enc (sp_st p) with Ok m => Ok (Some m) | Err => Err | Panic => Panic end).
Proof. exact result_before_end. Qed.
Print Assumptions C10_result_only_when_complete.

(** Alice's signing session has no result at any point of any history *)
Theorem C10_alice_sign_no_result : forall (St M : Type) (steps : list (stepfn St M)) st ins,
  result_alice_sign St M (fst (nexts (Stepper steps 0 st) ins)) = Err.
Proof. reflexivity. Qed.
Print Assumptions C10_alice_sign_no_result.

Example C10_example :
  let f : stepfn nat nat := fun s i => match i with Some x => (s + x, SOut (Some s)) | None => (s, SErr) end in
  snd (nexts (Stepper [f; f] 0 10) [None; Some 1; None; Some 2; Some 3]) =
  [NErr; NOut (Some 10); NErr; NOut (Some 11); NFinished].
Proof. reflexivity. Qed.

(** C11: RunProtocol is the alternating exchange, for any parties whose step counts match the
    protocols of the code (equal, or the starting party has one more), whatever the steps do;
    success means both parties completed. *)
Theorem C11_run_protocol_is_exchange :
  forall (S1 S2 M : Type) (steps1 : list (stepfn S1 M)) (steps2 : list (stepfn S2 M)) s t fuel,
  (List.length steps1 = List.length steps2 \/ List.length steps1 = S (List.length steps2)) ->
  List.length steps1 < fuel ->
  let '(p', q', r) := run_protocol fuel (Stepper steps1 0 s) (Stepper steps2 0 t) None None None in
  (sp_st p', sp_st q', r) = exchange steps1 steps2 s t None /\
  (r = RDone -> complete p' = true /\ complete q' = true).
Proof. exact run_protocol_exchange. Qed.
Print Assumptions C11_run_protocol_is_exchange.

(** and the loop ends for all parties of any lengths *)
Theorem C11_run_protocol_terminates :
  forall (S1 S2 M : Type) fuel (p : stepper S1 M) (q : stepper S2 M) m b a,
  Nat.max (List.length (skipn (sp_idx p) (sp_steps p))) (List.length (skipn (sp_idx q) (sp_steps q))) < fuel ->
  snd (run_protocol fuel p q m b a) <> RFuel.
Proof. exact run_terminates. Qed.
Print Assumptions C11_run_protocol_terminates.

(** the refresh shape: 4 steps against 3, every message delivered once, in order *)
Example C11_example :
  let f : stepfn (list (option nat)) nat := fun s i => (s ++ [i], SOut (Some (10 + List.length s))) in
  let g : stepfn (list (option nat)) nat := fun s i => (s ++ [i], SOut (Some (20 + List.length s))) in
  let '(p, q, r) := run_protocol 5 (Stepper [f; f; f; f] 0 []) (Stepper [g; g; g] 0 []) None None None in
  r = RDone /\ sp_st p = [None; Some 20; Some 21; Some 22] /\ sp_st q = [Some 10; Some 11; Some 12].
Proof. repeat split. Qed.

(** C12: DKG and sign envelopes *)
Theorem C12_strict_roundtrip :
  forall (A : Type) (gob_enc : A -> option (list Z)) (gob_dec : list Z -> option A) proto round a v m,
  (forall x b, gob_enc x = Some b -> gob_dec b = Some x) ->
  encode_strict gob_enc proto round a v = Ok m -> decode_strict gob_dec (Some m) = Ok a.
Proof. exact strict_roundtrip. Qed.
Print Assumptions C12_strict_roundtrip.

Theorem C12_strict_encode_other_version :
  forall (A : Type) (gob_enc : A -> option (list Z)) proto round a v,
  v <> 200%Z -> encode_strict gob_enc proto round a v = Err.
Proof. exact strict_encode_version. Qed.
Print Assumptions C12_strict_encode_other_version.

Theorem C12_strict_decode_other_version :
  forall (A : Type) (gob_dec : list Z -> option A) m,
  m_version m <> 200%Z -> decode_strict gob_dec (Some m) = Err.
Proof. exact strict_decode_version. Qed.
Print Assumptions C12_strict_decode_other_version.

(** refresh envelopes refuse only older versions; version 201 passes (refutation) *)
Theorem C12_refresh_roundtrip :
  forall (A : Type) (gob_enc : A -> option (list Z)) (gob_dec : list Z -> option A) round a v m,
  (forall x b, gob_enc x = Some b -> gob_dec b = Some x) ->
  encode_refresh gob_enc round a v = Ok m -> decode_refresh gob_dec (Some m) = Ok a.
Proof. exact refresh_roundtrip. Qed.
Print Assumptions C12_refresh_roundtrip.

Theorem C12_refresh_decode_other_version_partial :
  forall (A : Type) (gob_dec : list Z -> option A) m,
  (m_version m < 200)%Z -> decode_refresh gob_dec (Some m) = Err.
Proof. exact refresh_decode_below. Qed.
Print Assumptions C12_refresh_decode_other_version_partial.

Theorem C12_refresh_other_version_refuted :
  exists (gob_dec : list Z -> option Z) m,
    m_version m <> 200%Z /\ decode_refresh gob_dec (Some m) = Ok 5%Z.
Proof. exact refresh_version_refuted. Qed.
Print Assumptions C12_refresh_other_version_refuted.

(** the protocol name and round label of a message are never checked *)
Theorem C12_labels_ignored : forall (A : Type) (gob_dec : list Z -> option A) p p' v pl md md',
  decode_strict gob_dec (Some (Message p v pl md)) = decode_strict gob_dec (Some (Message p' v pl md')).
Proof. exact @labels_ignored. Qed.
Print Assumptions C12_labels_ignored.

Example C12_example :
  encode_strict (fun x : Z => Some [x]) "DKLs18-DKG" "3" 7%Z 200%Z =
    Ok (Message "DKLs18-DKG" 200 [("direct"%string, [7%Z])] [("round"%string, "3"%string)]).
Proof. reflexivity. Qed.
