(** Model of the message filter ante decorator and of the oracle IBC middleware.
    Go: /repo/app/decorators/msg_filter_template.go, /repo/x/oracle/ibc_middleware.go,
    /repo/x/oracle/keeper/keeper.go *)
From Coq Require Import List String Bool ZArith.
Import ListNotations.
Open Scope string_scope.
Open Scope list_scope.

(** An sdk.Msg as the filter sees it: its proto.MessageName and, for authz.MsgExec, what
    GetMessages returns (None: an error because a packed Any cannot be unpacked). *)
Inductive msg :=
| Plain (name : string)
| Exec (inner : option (list msg)).

(** proto.MessageName of authz.MsgExec *)
Definition exec_name : string := "cosmos.authz.v1beta1.MsgExec".

(** proto.MessageName(msg), used in msg_filter_template.go:52 *)
Definition message_name (m : msg) : string :=
  match m with Plain n => n | Exec _ => exec_name end.

(** msg_filter_template.go:51-55: the inner loop over blockedTypes *)
Definition is_blocked (blocked : list string) (m : msg) : bool :=
  existsb (fun b => String.eqb (message_name m) b) blocked.

(** msg_filter_template.go:37-59 HasDisallowedMessage: one iteration of the outer loop for
    a message, the recursive call at line 46 being the inner fixpoint. *)
Fixpoint disallowed (blocked : list string) (m : msg) {struct m} : bool :=
  match m with
  | Plain _ => is_blocked blocked m
  | Exec None => true
  | Exec (Some l) =>
      (fix any (l : list msg) : bool :=
         match l with [] => false | x :: l' => disallowed blocked x || any l' end) l
      || is_blocked blocked m
  end.

Definition has_disallowed (blocked : list string) (msgs : list msg) : bool :=
  (fix any (l : list msg) : bool :=
     match l with [] => false | x :: l' => disallowed blocked x || any l' end) msgs.

(** msg_filter_template.go:28-35 AnteHandle.  The next handler is a function of the context
    (any state type) and the transaction's messages; [inl tt] is the filter's own error. *)
Definition ante_handle {Ctx R : Type} (blocked : list string)
  (next : Ctx -> list msg -> Ctx * R) (ctx : Ctx) (msgs : list msg) : Ctx * (unit + R) :=
  if has_disallowed blocked msgs then (ctx, inl tt)
  else let '(c, r) := next ctx msgs in (c, inr r).

(** * Oracle IBC middleware *)

(** Stand-ins for the IBC argument types; the middleware never looks inside them. *)
Definition bytes := list Z.
Record packet := Packet { pk_seq : Z; pk_src_port : string; pk_src_chan : string;
                          pk_dst_port : string; pk_dst_chan : string; pk_data : bytes }.

(** ibc-go porttypes.IBCModule over a context type: every callback may change the context. *)
Record ibc_module (Ctx : Type) := IbcModule {
  on_open_init : Ctx -> Z -> list string -> string -> string -> Z -> string -> string -> Ctx * option string;
  on_open_try : Ctx -> Z -> list string -> string -> string -> Z -> string -> string -> Ctx * option string;
  on_open_ack : Ctx -> string -> string -> string -> string -> Ctx * bool;
  on_open_confirm : Ctx -> string -> string -> Ctx * bool;
  on_close_init : Ctx -> string -> string -> Ctx * bool;
  on_close_confirm : Ctx -> string -> string -> Ctx * bool;
  on_recv : Ctx -> packet -> string -> Ctx * bytes;
  on_ack : Ctx -> packet -> bytes -> string -> Ctx * bool;
  on_timeout : Ctx -> packet -> string -> Ctx * bool }.

(** ibc-go porttypes.ICS4Wrapper *)
Record ics4 (Ctx : Type) := Ics4 {
  send_packet : Ctx -> Z -> string -> string -> Z -> Z -> bytes -> Ctx * option Z;
  write_ack : Ctx -> Z -> packet -> bytes -> Ctx * bool;
  app_version : Ctx -> string -> string -> option string }.
Arguments IbcModule {Ctx}. Arguments Ics4 {Ctx}.
Arguments on_open_init {Ctx}. Arguments on_open_try {Ctx}. Arguments on_open_ack {Ctx}.
Arguments on_open_confirm {Ctx}. Arguments on_close_init {Ctx}. Arguments on_close_confirm {Ctx}.
Arguments on_recv {Ctx}. Arguments on_ack {Ctx}. Arguments on_timeout {Ctx}.
Arguments send_packet {Ctx}. Arguments write_ack {Ctx}. Arguments app_version {Ctx}.

(** x/oracle/keeper/keeper.go:45-79: the keeper forwards to its ICS4 wrapper *)
Definition keeper_ics4 {Ctx} (w : ics4 Ctx) : ics4 Ctx := Ics4
  (fun ctx cap sourcePort sourceChannel th tt data =>
     send_packet w ctx cap sourcePort sourceChannel th tt data)
  (fun ctx cap p ack => write_ack w ctx cap p ack)
  (fun ctx port chan => app_version w ctx port chan).

(** x/oracle/ibc_middleware.go:33-128: the nine ICS26 callbacks *)
Definition mw_module {Ctx} (app : ibc_module Ctx) : ibc_module Ctx := IbcModule
  (fun ctx order hops port chan cap cpty version => on_open_init app ctx order hops port chan cap cpty version)
  (fun ctx order hops port chan cap cpty version => on_open_try app ctx order hops port chan cap cpty version)
  (fun ctx port chan cchan cversion => on_open_ack app ctx port chan cchan cversion)
  (fun ctx port chan => on_open_confirm app ctx port chan)
  (fun ctx port chan => on_close_init app ctx port chan)
  (fun ctx port chan => on_close_confirm app ctx port chan)
  (fun ctx p relayer => on_recv app ctx p relayer)
  (fun ctx p ack relayer => on_ack app ctx p ack relayer)
  (fun ctx p relayer => on_timeout app ctx p relayer).

(** x/oracle/ibc_middleware.go:131-168: SendPacket (passes sourceChannel twice),
    WriteAcknowledgement, GetAppVersion *)
Definition mw_ics4 {Ctx} (w : ics4 Ctx) : ics4 Ctx := Ics4
  (fun ctx cap sourcePort sourceChannel th tt data =>
     send_packet (keeper_ics4 w) ctx cap sourceChannel sourceChannel th tt data)
  (fun ctx cap p ack => write_ack (keeper_ics4 w) ctx cap p ack)
  (fun ctx port chan => app_version (keeper_ics4 w) ctx port chan).
