(** Property theorems C05 (message filter) and C06 (oracle IBC middleware). *)
From Coq Require Import List String Bool ZArith.
From Verif Require Import FilterModel FilterSpec FilterProofs.
Import ListNotations.
Open Scope list_scope.

Theorem C05_filter_blocks_exactly : forall blocked msgs,
  has_disallowed blocked msgs = true <->
  exists m, occurs m msgs /\ (In (message_name m) blocked \/ m = Exec None).
Proof. exact has_disallowed_iff. Qed.
Print Assumptions C05_filter_blocks_exactly.

(** the decorator: blocked transactions never reach the next handler and leave the context
    alone; all others get exactly the next handler's context and result *)
Theorem C05_ante_handle : forall (Ctx R : Type) blocked (next : Ctx -> list msg -> Ctx * R) ctx msgs,
  ((exists m, occurs m msgs /\ (In (message_name m) blocked \/ m = Exec None)) ->
     ante_handle blocked next ctx msgs = (ctx, inl tt)) /\
  ((forall m, occurs m msgs -> ~ In (message_name m) blocked /\ m <> Exec None) ->
     ante_handle blocked next ctx msgs = (fst (next ctx msgs), inr (snd (next ctx msgs)))).
Proof. exact @ante_spec. Qed.
Print Assumptions C05_ante_handle.

Example C05_example_blocked :
  occurs (Plain "bank.MsgSend") [Plain "gov.MsgVote"; Exec (Some [Exec (Some [Plain "bank.MsgSend"])])] /\
  has_disallowed ["bank.MsgSend"%string] [Plain "gov.MsgVote"; Exec (Some [Exec (Some [Plain "bank.MsgSend"])])] = true.
Proof.
  split; [|reflexivity].
  eapply occurs_in; [right; left; reflexivity|].
  eapply occurs_in; [left; reflexivity|]. constructor. left. reflexivity.
Qed.
Example C05_example_passed :
  ante_handle ["bank.MsgSend"%string] (fun c m => (S c, List.length m)) 4
    [Plain "gov.MsgVote"; Exec (Some [Plain "gov.MsgVote"])] = (5, inr 2).
Proof. reflexivity. Qed.

Theorem C06_callbacks_transparent : forall (Ctx : Type) (app : ibc_module Ctx),
  (forall c o h p ch cap cp v, on_open_init (mw_module app) c o h p ch cap cp v = on_open_init app c o h p ch cap cp v) /\
  (forall c o h p ch cap cp v, on_open_try (mw_module app) c o h p ch cap cp v = on_open_try app c o h p ch cap cp v) /\
  (forall c p ch cc v, on_open_ack (mw_module app) c p ch cc v = on_open_ack app c p ch cc v) /\
  (forall c p ch, on_open_confirm (mw_module app) c p ch = on_open_confirm app c p ch) /\
  (forall c p ch, on_close_init (mw_module app) c p ch = on_close_init app c p ch) /\
  (forall c p ch, on_close_confirm (mw_module app) c p ch = on_close_confirm app c p ch) /\
  (forall c pk r, on_recv (mw_module app) c pk r = on_recv app c pk r) /\
  (forall c pk a r, on_ack (mw_module app) c pk a r = on_ack app c pk a r) /\
  (forall c pk r, on_timeout (mw_module app) c pk r = on_timeout app c pk r).
Proof. exact @mw_module_transparent. Qed.
Print Assumptions C06_callbacks_transparent.

(** of the channel calls only those with equal port and channel names go through unchanged
    when sending; full transparency of SendPacket is missing (see the refutation) *)
Theorem C06_channel_calls_transparent_partial : forall (Ctx : Type) (w : ics4 Ctx),
  (forall c cap p a, write_ack (mw_ics4 w) c cap p a = write_ack w c cap p a) /\
  (forall c p ch, app_version (mw_ics4 w) c p ch = app_version w c p ch) /\
  (forall c cap ch th ts d, send_packet (mw_ics4 w) c cap ch ch th ts d = send_packet w c cap ch ch th ts d).
Proof. exact @mw_ics4_transparent. Qed.
Print Assumptions C06_channel_calls_transparent_partial.

Theorem C06_send_packet_transparent_refuted :
  exists (w : ics4 (list string)) c cap p ch th ts d,
    send_packet (mw_ics4 w) c cap p ch th ts d <> send_packet w c cap p ch th ts d.
Proof. exact mw_send_refuted. Qed.
Print Assumptions C06_send_packet_transparent_refuted.

(** what it does instead: the caller's port is dropped and the channel name sent as port *)
Theorem C06_send_packet_ignores_port : forall (Ctx : Type) (w : ics4 Ctx) c cap p p' ch th ts d,
  send_packet (mw_ics4 w) c cap p ch th ts d = send_packet (mw_ics4 w) c cap p' ch th ts d /\
  send_packet (mw_ics4 w) c cap p ch th ts d = send_packet w c cap ch ch th ts d.
Proof. exact @mw_send_port_lost. Qed.
Print Assumptions C06_send_packet_ignores_port.
