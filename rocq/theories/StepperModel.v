(** Model of the two-party protocol plumbing:
    /repo/crypto/tecdsa/dklsv1/protocol.go (protoStepper),
    /repo/crypto/tecdsa/dklsv1/boilerplate.go (Result),
    /repo/crypto/mpc/mpc.go (RunProtocol),
    /repo/crypto/tecdsa/dklsv1/*serializers.go (message envelopes). *)
From Coq Require Import List String Bool Arith ZArith.
Import ListNotations.
Open Scope string_scope.
Open Scope list_scope.

(** ** Messages *)

(** crypto/core/protocol/protocol.go:45-59 Message.  Payloads and Metadata are Go maps, here
    association lists; version is a Go uint. *)
Record message := Message {
  m_protocol : string; m_version : Z;
  m_payloads : list (string * list Z); m_metadata : list (string * string) }.

(** Go map lookup m.Payloads[key]: nil (empty) when absent *)
Fixpoint payload (l : list (string * list Z)) (k : string) : list Z :=
  match l with [] => [] | (k', v) :: l' => if String.eqb k' k then v else payload l' k end.

(** crypto/core/protocol/protocol.go:31-34 *)
Definition version0 : Z := 100.
Definition version1 : Z := 200.

Inductive res (A : Type) := Ok (a : A) | Err | Panic.
Arguments Ok {A} a. Arguments Err {A}. Arguments Panic {A}.

Section Envelope.
  (** One encode/decode pair over a Go type A; gob is an arbitrary partial codec. *)
  Variable A : Type.
  Variable gob_enc : A -> option (list Z).
  Variable gob_dec : list Z -> option A.

  (** dkgserializers.go:18-25 newDkgProtocolMessage, signserializers.go:14-21,
      refreshserializers.go:16-23: [proto] is the protocol name. *)
  Definition new_message (proto : string) (pl : list Z) (round : string) (version : Z) : message :=
    Message proto version [("direct", pl)] [("round", round)].

  (** dkgserializers.go:34-45 (and every other DKG and sign encoder, e.g. 60-70, 85-95,
      261-273, signserializers.go:23-33, 98-109) *)
  Definition encode_strict (proto round : string) (a : A) (version : Z) : res message :=
    if negb (Z.eqb version version1) then Err
    else match gob_enc a with None => Err | Some b => Ok (new_message proto b round version) end.

  (** dkgserializers.go:47-58 (and every other DKG and sign decoder).  A nil message is
      dereferenced: run-time panic. *)
  Definition decode_strict (m : option message) : res A :=
    match m with
    | None => Panic
    | Some m => if negb (Z.eqb (m_version m) version1) then Err
                else match gob_dec (payload (m_payloads m) "direct") with
                     | None => Err | Some a => Ok a end
    end.

  (** refreshserializers.go:25-30 versionIsSupported: only versions below 200 are refused *)
  Definition version_supported (v : Z) : bool := negb (Z.ltb v version1).

  (** refreshserializers.go:32-43 and the other refresh encoders *)
  Definition encode_refresh (round : string) (a : A) (version : Z) : res message :=
    if negb (version_supported version) then Err
    else match gob_enc a with None => Err | Some b => Ok (new_message "DKLs18-Refresh" b round version) end.

  (** refreshserializers.go:45-56 and the other refresh decoders *)
  Definition decode_refresh (m : option message) : res A :=
    match m with
    | None => Panic
    | Some m => if negb (version_supported (m_version m)) then Err
                else match gob_dec (payload (m_payloads m) "direct") with
                     | None => Err | Some a => Ok a end
    end.
End Envelope.
Arguments encode_strict {A}. Arguments decode_strict {A}.
Arguments encode_refresh {A}. Arguments decode_refresh {A}.

(** ** protoStepper *)

Section Stepper.
  (** St: the participant's state (dkg.Alice, sign.Bob, ...).  M: protocol messages.  A step
      takes the (possibly nil) input and returns the new participant state and either an
      output message (possibly nil) or an error; a step may also panic. *)
  Variables St M : Type.
  Inductive sres := SOut (m : option M) | SErr | SPanic.
  Definition stepfn := St -> option M -> St * sres.

  (** protocol.go:10-13 protoStepper (step list and index) next to the participant it drives *)
  Record stepper := Stepper { sp_steps : list stepfn; sp_idx : nat; sp_st : St }.

  (** protocol.go:33 complete *)
  Definition complete (p : stepper) : bool := Nat.leb (List.length (sp_steps p)) (sp_idx p).

  (** What Next returns: a message, ErrProtocolFinished, the step's error, or a panic *)
  Inductive nres := NOut (m : option M) | NFinished | NErr | NPanic.

  (** protocol.go:16-30 Next *)
  Definition next (p : stepper) (input : option M) : stepper * nres :=
    if complete p then (p, NFinished)
    else match nth_error (sp_steps p) (sp_idx p) with
         | None => (p, NPanic)  (* index out of range: excluded by complete *)
         | Some f => let '(st, r) := f (sp_st p) input in
                     match r with
                     | SErr => (Stepper (sp_steps p) (sp_idx p) st, NErr)
                     | SPanic => (Stepper (sp_steps p) (sp_idx p) st, NPanic)
                     | SOut o => (Stepper (sp_steps p) (S (sp_idx p)) st, NOut o)
                     end
         end.

  (** boilerplate.go:124-135 (AliceDkg), 197-208, 283-294, 345-356, 405-416 Result: (nil, nil)
      until complete.  [enc] is the encoding of the participant's output.  The nil check of
      the embedded participant never fires on objects made by the constructors. *)
  Definition result (enc : St -> res M) (p : stepper) : res (option M) :=
    if negb (complete p) then Ok None
    else match enc (sp_st p) with Ok m => Ok (Some m) | Err => Err | Panic => Panic end.

  (** boilerplate.go:278-280 AliceSign.Result *)
  Definition result_alice_sign (p : stepper) : res (option M) := Err.

  (** A history of Next calls. *)
  Fixpoint nexts (p : stepper) (ins : list (option M)) : stepper * list nres :=
    match ins with
    | [] => (p, [])
    | i :: ins' => let '(p1, r) := next p i in
                   let '(p2, rs) := nexts p1 ins' in (p2, r :: rs)
    end.
End Stepper.
Arguments SOut {M}. Arguments SErr {M}. Arguments SPanic {M}.
Arguments NOut {M}. Arguments NFinished {M}. Arguments NErr {M}. Arguments NPanic {M}.
Arguments Stepper {St M}. Arguments sp_steps {St M}. Arguments sp_idx {St M}. Arguments sp_st {St M}.
Arguments complete {St M}. Arguments next {St M}. Arguments result {St M}. Arguments nexts {St M}.

(** ** RunProtocol *)

Section Run.
  Variables S1 S2 M : Type.

  Inductive rres := RDone | RErrFirst | RErrSecond | RPanic | RFuel.

  Definition is_finished (r : option (nres M)) : bool :=
    match r with Some NFinished => true | _ => false end.
  (** the message variable after a Next call: nil on any error *)
  Definition out_of (r : nres M) : option M := match r with NOut m => m | _ => None end.

  (** crypto/mpc/mpc.go:34-63 RunProtocol: the for loop, one unit of fuel per iteration.
      [a], [b] are the error variables aErr (second party) and bErr (first party); before the
      first iteration both are nil.  The code after the loop (52-62) can only return nil. *)
  Fixpoint run_protocol (fuel : nat) (p : stepper S1 M) (q : stepper S2 M)
    (msg : option M) (b a : option (nres M)) : stepper S1 M * stepper S2 M * rres :=
    if is_finished a && is_finished b then (p, q, RDone)
    else match fuel with
         | O => (p, q, RFuel)
         | S fuel' =>
             let '(p1, rb) := next p msg in
             match rb with
             | NErr => (p1, q, RErrFirst)
             | NPanic => (p1, q, RPanic)
             | _ =>
                 let '(q1, ra) := next q (out_of rb) in
                 match ra with
                 | NErr => (p1, q1, RErrSecond)
                 | NPanic => (p1, q1, RPanic)
                 | _ => run_protocol fuel' p1 q1 (out_of ra) (Some rb) (Some ra)
                 end
             end
         end.
End Run.
Arguments run_protocol {S1 S2 M}. Arguments is_finished {M}. Arguments out_of {M}.
