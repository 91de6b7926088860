(** crypto/ot/base/simplest/ot.go and util.go: the verified simplest OT that seeds the OT extension.
    Scalars are a field F and points a vector space V over it with generator G. Parameters: [enc] is
    ToAffineCompressed, [dec] FromAffineCompressed, [sbytes]/[setbytes] Scalar.Bytes/SetBytes, [H] SHA3-256 and
    [ext] the output of the Merlin transcript (strobe) as a function of all operations made on it, the
    extraction included. Randomness is an argument. Not represented: calling rounds out of order on nil fields
    (panic), negative batch sizes. *)
From mathcomp Require Import all_ssreflect all_algebra.
From Coq Require Import BinNat String.
From Verif Require Import AlgBase ByteVec SchnorrModel.
Delimit Scope nat_scope with N.
Delimit Scope N_scope with num.
Set Implicit Arguments.
Unset Strict Implicit.
Unset Printing Implicit Defensive.
Import GRing.Theory.
Local Open Scope ring_scope.

(** merlin.Transcript: the operations made on it, oldest first. AppendMessage(label, data);
    ExtractBytes(label, n) also changes the state. *)
Inductive top := TNew of string | TAppend of string & bytes | TExtract of string & nat.
Definition transcript := seq top.

Inductive ot_err := OtBatch | OtSchnorr of sch_err | OtPoint | OtResponse | OtOpening | OtDecommit | OtCount.

(** for i := 0; i < n; i++ with a body that may fail *)
Fixpoint for_upto (E : Type) (n : nat) (f : nat -> res E unit) : res E unit :=
  match n with
  | O => Ok tt
  | m.+1 => rbind (for_upto m f) (fun _ => f m)
  end.
Definition lift_err (E E' A : Type) (g : E -> E') (r : res E A) : res E' A :=
  match r with Ok a => Ok a | Err e => Err (g e) | Panic => Panic end.

(** util.go:8-13 xorBytes on 32-byte digests *)
Definition xor_bytes (a b : bytes) : bytes := mkseq (fun i => N.lxor (nth 0%num a i) (nth 0%num b i)) 32.
(** util.go:26-29 ExtractBitFromByteVector (index in range) *)
Definition extract_bit (v : bytes) (i : nat) : N :=
  N.land (N.shiftr (nth 0%num v (i %/ 8)%N) (N.of_nat (i %% 8)%N)) 1.

(** ot.go:62-68 SenderOutput, 70-83 ReceiverOutput *)
Definition sender_output := seq (bytes * bytes).
Record receiver_output := ROut { ro_packed : bytes; ro_bits : seq bool; ro_keys : seq bytes }.

Section Ot.
  Variables (F : fieldType) (V : lmodType F) (G : V).
  Variables (enc : V -> bytes) (dec : bytes -> option V) (sbytes : F -> bytes) (setbytes : bytes -> option F).
  Variables (H : bytes -> bytes) (ext : transcript -> bytes).

  (** ot.go:86-103 Sender, 106-123 Receiver (curve omitted) *)
  Record sender := Sender { s_batch : nat; s_tr : transcript; s_sk : F; s_pk : V; s_out : sender_output }.
  Record receiver := Receiver { r_batch : nat; r_tr : transcript; r_out : receiver_output; r_spk : V;
                                r_challenge : seq bytes }.

  (** ot.go:131-132, 149-150 *)
  Definition ot_start (sid : bytes) : transcript :=
    [:: TNew "Coinbase_DKLs_SeedOT"%string; TAppend "session_id"%string sid].
  (** transcript.ExtractBytes(label, 32): new state and output *)
  Definition extract (t : transcript) (l : string) : transcript * bytes :=
    let t' := rcons t (TExtract l 32) in (t', ext t').

  (** ot.go:127-139 NewSender *)
  Definition new_sender (batch : nat) (sid : bytes) : res ot_err sender :=
    if (batch %% 8)%N != 0%N then Err OtBatch else Ok (Sender batch (ot_start sid) 0 0 [::]).
  (** util.go:16-22 initChoice *)
  Definition init_choice (batch : nat) (packed : bytes) : seq bool :=
    mkseq (fun i => extract_bit packed i == 1%num) batch.
  (** ot.go:143-166 NewReceiver; [rnd i] is the i-th random byte *)
  Definition new_receiver (batch : nat) (sid : bytes) (rnd : nat -> N) : res ot_err receiver :=
    if (batch %% 8)%N != 0%N then Err OtBatch
    else let packed := mkseq rnd (batch %/ 8)%N in
         Ok (Receiver batch (ot_start sid) (ROut packed (init_choice batch packed) [::]) 0 [::]).

  (** ot.go:171-186 Round1ComputeAndZkpToPublicKey; [b] is the secret key drawn, [k] the Schnorr nonce *)
  Definition ot_round1 (s : sender) (b k : F) : res ot_err (sender * sproof V) :=
    let '(t, sid) := extract (s_tr s) "sender schnorr proof"%string in
    rbind (lift_err OtSchnorr (sch_prove G enc setbytes H None sid b k)) (fun pf =>
      Ok (Sender (s_batch s) t b (b *: G) (s_out s), pf)).

  (** ot.go:215-225, 260-272: the key of instance i from its group element; byte(i) wraps at 256 *)
  Definition ot_key (salt : bytes) (i : nat) (P : V) : bytes :=
    H (salt ++ [:: N.of_nat (i %% 256)%N] ++ enc P).

  (** ot.go:190-228 Round2VerifySchnorrAndPadTransfer; [a i] is the i-th scalar drawn *)
  Definition masked_choice (w : bool) (a : F) (B : V) : V := if w then a *: G + B else a *: G.
  Definition ot_round2 (r : receiver) (pf : sproof V) (a : nat -> F) : res ot_err (receiver * seq bytes) :=
    let '(t1, sid) := extract (r_tr r) "sender schnorr proof"%string in
    rbind (lift_err OtSchnorr (sch_verify G enc sbytes H pf None sid)) (fun _ =>
      let '(t2, salt) := extract t1 "random oracle salts"%string in
      let B := pr_X pf in
      let w := ro_bits (r_out r) in
      let msgs := mkseq (fun i => enc (masked_choice (nth false w i) (a i) B)) (r_batch r) in
      let keys := mkseq (fun i => ot_key salt i (a i *: B)) (r_batch r) in
      Ok (Receiver (r_batch r) t2 (ROut (ro_packed (r_out r)) w keys) B (r_challenge r), msgs)).

  (** ot.go:239-243: decode all points sent, stop at the first that does not decode *)
  Fixpoint dec_all (l : seq bytes) : option (seq V) :=
    if l is x :: l' then
      match dec x with
      | Some P => match dec_all l' with Some ps => Some (P :: ps) | None => None end
      | None => None
      end
    else Some [::].
  (** ot.go:232-282 Round3PadTransfer *)
  Definition ot_round3 (s : sender) (msgs : seq bytes) : res ot_err (sender * seq bytes) :=
    match dec_all msgs with
    | None => Err OtPoint
    | Some As =>
        let '(t, salt) := extract (s_tr s) "random oracle salts"%string in
        if (size As < s_batch s)%N then Panic
        else
          let keys := mkseq (fun i =>
             let A := nth 0 As i in
             (ot_key salt i (s_sk s *: A), ot_key salt i (s_sk s *: (A + - s_pk s)))) (s_batch s) in
          let chal := [seq xor_bytes (H (H k.1)) (H (H k.2)) | k <- keys] in
          Ok (Sender (s_batch s) t (s_sk s) (s_pk s) keys, chal)
    end.

  (** ot.go:286-300 Round4RespondToChallenge *)
  Definition ot_round4 (r : receiver) (chal : seq bytes) : res ot_err (receiver * seq bytes) :=
    if (size chal < r_batch r)%N then Panic
    else
      let out := r_out r in
      let resp := mkseq (fun i =>
        let h := H (H (nth [::] (ro_keys out) i)) in
        if nth false (ro_bits out) i then xor_bytes (nth [::] chal i) h else h) (r_batch r) in
      Ok (Receiver (r_batch r) (r_tr r) out (r_spk r) chal, resp).

  (** ot.go:306-320 Round5Verify *)
  Definition ot_round5 (s : sender) (resp : seq bytes) : res ot_err (seq (bytes * bytes)) :=
    let opening i := let k := nth ([::], [::]) (s_out s) i in (H k.1, H k.2) in
    rbind (for_upto (s_batch s) (fun i =>
             if (i < size resp)%N then
               if H (opening i).1 == nth [::] resp i then Ok tt else Err OtResponse
             else Panic))
      (fun _ => Ok (mkseq opening (s_batch s))).

  (** ot.go:332-347 Round6Verify *)
  Definition ot_round6 (r : receiver) (openings : seq (bytes * bytes)) : res ot_err unit :=
    for_upto (r_batch r) (fun i =>
      if (i < size openings)%N then
        let o := nth ([::], [::]) openings i in
        let w := nth false (ro_bits (r_out r)) i in
        if H (nth [::] (ro_keys (r_out r)) i) != (if w then o.2 else o.1) then Err OtOpening
        else if xor_bytes (H o.1) (H o.2) != nth [::] (r_challenge r) i then Err OtDecommit
        else Ok tt
      else Panic).

  (** ot.go:363-376 Encrypt *)
  Definition ot_encrypt (s : sender_output) (m : seq (bytes * bytes)) : res ot_err (seq (bytes * bytes)) :=
    if size m != size s then Err OtCount
    else Ok [seq (xor_bytes p.1.1 p.2.1, xor_bytes p.1.2 p.2.2) | p <- zip s m].
  (** ot.go:380-392 Decrypt *)
  Definition ot_decrypt (r : receiver_output) (c : seq (bytes * bytes)) : res ot_err (seq bytes) :=
    if size c != size (ro_keys r) then Err OtCount
    else Ok (mkseq (fun i =>
           let x := nth ([::], [::]) c i in
           xor_bytes (nth [::] (ro_keys r) i) (if nth false (ro_bits r) i then x.2 else x.1)) (size c)).

  (** the six rounds between two honest parties over a faithful channel; not a function of the code but how
      its rounds are called (ot/ottest/util.go:24-51, dkg.go:214-252) *)
  Definition ot_rounds (s0 : sender) (r0 : receiver) (b k : F) (a : nat -> F) : res ot_err (sender * receiver) :=
    rbind (ot_round1 s0 b k) (fun '(s1, pf) =>
    rbind (ot_round2 r0 pf a) (fun '(r1, msgs) =>
    rbind (ot_round3 s1 msgs) (fun '(s2, chal) =>
    rbind (ot_round4 r1 chal) (fun '(r2, resp) =>
    rbind (ot_round5 s2 resp) (fun opn =>
    rbind (ot_round6 r2 opn) (fun _ => Ok (s2, r2))))))).

  (** ot/ottest/util.go:16-54 RunSimplestOT *)
  Definition run_simplest_ot (batch : nat) (sid : bytes) (rnd : nat -> N) (b k : F) (a : nat -> F)
    : res ot_err (sender_output * receiver_output) :=
    rbind (new_receiver batch sid rnd) (fun r0 =>
    rbind (new_sender batch sid) (fun s0 =>
    rbind (ot_rounds s0 r0 b k a) (fun '(s, r) => Ok (s_out s, r_out r)))).
End Ot.
