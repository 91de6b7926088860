(** Model of the x/did Cosmos module: keeper state, message server, querier, genesis.
    Go sources: /repo/x/did/keeper/*.go, /repo/x/did/module.go, /repo/x/did/types/*.go *)
From Coq Require Import List String Bool ZArith QArith.
Import ListNotations.
Open Scope string_scope.
Open Scope list_scope.

(** ** Types *)

(** x/did/types/genesis.pb.go Coin (proto/did/v1/genesis.proto); Go uint64/uint32 kept as Z. *)
Record coin := Coin {
  coin_name : string; coin_index : Z; coin_path : Z; coin_symbol : string; coin_hrp : string }.

(** proto/did/v1/genesis.proto:67-86 message Params.  The two [double] reward rates are
    modelled as rationals (the code never computes with them). *)
Record params := Params {
  accepted_coins : list coin;
  property_allowlist : list string;
  whitelisted_origins : list string;
  assertion_reward_rate : Q;
  encryption_reward_rate : Q }.

(** x/did/types/coins.go:13-38 *)
Definition coin_btc := Coin "Bitcoin" 0 2147483648 "BTC" "bc".
Definition coin_eth := Coin "Ethereum" 60 2147483708 "ETH" "".
Definition coin_snr := Coin "Sonr" 703 2147484351 "SNR" "idx".
(** x/did/types/coins.go:41-47 DefaultCoins *)
Definition default_coins := [coin_btc; coin_eth; coin_snr].
(** x/did/types/coins.go:61-63 Coin.Equal *)
Definition coin_equal (a b : coin) : bool :=
  Z.eqb (coin_index a) (coin_index b) && Z.eqb (coin_path a) (coin_path b).
(** x/did/types/genesis.go:27-41 DefaultParams *)
Definition default_params : params :=
  Params default_coins ["email"; "phone"] ["sonr.local"; "sonr.id"] (35 # 100) (1 # 2).
(** x/did/types/genesis.go:54-57 Params.Validate: always nil *)
Definition params_validate (p : params) : bool := true.

(** proto/did/v1/state.proto tables Authenticator, Keyshare, Proof: the primary key is the
    single field [id]; the remaining fields are one opaque payload here. *)
Record row := Row { row_id : string; row_payload : string }.

(** A table as an association list, newest binding first; [table_get] is the primary key
    lookup (api/did/v1/state.cosmos_orm.go Get/Has). *)
Definition table := list row.
Fixpoint table_get (t : table) (k : string) : option row :=
  match t with
  | [] => None
  | r :: t' => if String.eqb (row_id r) k then Some r else table_get t' k
  end.

(** Module store: params item (x/did/keeper/keeper.go:25 Params) and ORM tables (line 24).
    The two use one KV store with prefixes; modelled as disjoint. *)
Record store := Store {
  st_params : option params;
  st_auth : table; st_keyshare : table; st_proof : table }.

Definition empty_store : store := Store None [] [] [].

(** x/did/keeper/keeper.go:18-32, only the fields the handlers read. *)
Record keeper := Keeper { kp_authority : string }.

(** x/did/keeper/keeper.go:35-39 NewKeeper: an empty authority means the gov module address,
    an opaque string [gov]. *)
Definition new_keeper (gov authority : string) : keeper :=
  Keeper (if String.eqb authority "" then gov else authority).

(** ** Message server *)

Inductive res (A : Type) := Ok (a : A) | Err | Panic.
Arguments Ok {A} a. Arguments Err {A}. Arguments Panic {A}.

(** ORM Insert: error when the primary key exists (cosmossdk.io/orm), else a new row.
    api/did/v1/state.cosmos_orm.go:64,178,292 *)
Definition table_insert (t : table) (r : row) : option table :=
  match table_get t (row_id r) with Some _ => None | None => Some (r :: t) end.

(** x/did/keeper/server.go:59-65 UpdateParams *)
Definition update_params (k : keeper) (s : store) (authority : string) (p : params)
  : store * res unit :=
  if negb (String.eqb (kp_authority k) authority) then (s, Err)
  else (Store (Some p) (st_auth s) (st_keyshare s) (st_proof s), Ok tt).

(** x/did/keeper/querier.go:23-32 Querier.Params *)
Definition query_params (s : store) : res params :=
  match st_params s with Some p => Ok p | None => Err end.

(** The three list accessors of MsgInitializeController (GetAssertionList, ...) are not
    defined in /repo; a message is what they return: a list and an error flag. *)
Record init_msg := InitMsg {
  im_assertions : list row; im_assertions_err : bool;
  im_keyshares : list row;  im_keyshares_err : bool;
  im_verifications : list row; im_verifications_err : bool }.

(** One of the [for _, x := range list { Insert; if err return }] loops of
    x/did/keeper/server.go:28-36: stops at the first failing insert, earlier inserts stay
    in the context.  The boolean is false when an insert failed. *)
Fixpoint insert_all (t : table) (l : list row) : table * bool :=
  match l with
  | [] => (t, true)
  | r :: l' => match table_insert t r with
               | None => (t, false)
               | Some t' => insert_all t' l'
               end
  end.

(** x/did/keeper/server.go:28-36 (and 37-45, 46-54): the loop body runs when [err != nil]. *)
Definition init_block (t : table) (l : list row) (err : bool) : table * bool :=
  if err then insert_all t l else (t, true).

(** x/did/keeper/server.go:25-56 InitializeController *)
Definition initialize_controller (s : store) (m : init_msg) : store * res unit :=
  let '(a, ok1) := init_block (st_auth s) (im_assertions m) (im_assertions_err m) in
  let s1 := Store (st_params s) a (st_keyshare s) (st_proof s) in
  if negb ok1 then (s1, Err) else
  let '(ks, ok2) := init_block (st_keyshare s1) (im_keyshares m) (im_keyshares_err m) in
  let s2 := Store (st_params s1) (st_auth s1) ks (st_proof s1) in
  if negb ok2 then (s2, Err) else
  let '(pr, ok3) := init_block (st_proof s2) (im_verifications m) (im_verifications_err m) in
  let s3 := Store (st_params s2) (st_auth s2) (st_keyshare s2) pr in
  if negb ok3 then (s3, Err) else (s3, Ok tt).

(** x/did/keeper/server.go:68-72 AuthenticateController: panics *)
Definition authenticate_controller (s : store) : store * res unit := (s, Panic).

(** ** Genesis *)

(** x/did/keeper/genesis.go:16-23 Keeper.InitGenesis *)
Definition keeper_init_genesis (s : store) (p : params) : store * res unit :=
  if negb (params_validate p) then (s, Err)
  else (Store (Some p) (st_auth s) (st_keyshare s) (st_proof s), Ok tt).

(** x/did/keeper/genesis.go:26-37 Keeper.ExportGenesis: panics when params are not set *)
Definition export_genesis (s : store) : res params :=
  match st_params s with Some p => Ok p | None => Panic end.

(** x/did/module.go:115-122 AppModule.InitGenesis: the message argument is ignored *)
Definition module_init_genesis (s : store) (genesis : params) : store :=
  Store (Some default_params) (st_auth s) (st_keyshare s) (st_proof s).

(** ** Histories *)

Inductive op :=
| OpUpdate (authority : string) (p : params)
| OpInit (m : init_msg)
| OpAuthenticate
| OpQuery.

Inductive out := OutMsg (r : res unit) | OutQuery (r : res params).

Definition step (k : keeper) (s : store) (o : op) : store * out :=
  match o with
  | OpUpdate a p => let '(s', r) := update_params k s a p in (s', OutMsg r)
  | OpInit m => let '(s', r) := initialize_controller s m in (s', OutMsg r)
  | OpAuthenticate => let '(s', r) := authenticate_controller s in (s', OutMsg r)
  | OpQuery => (s, OutQuery (query_params s))
  end.

Fixpoint run (k : keeper) (s : store) (h : list op) : store * list out :=
  match h with
  | [] => (s, [])
  | o :: h' => let '(s1, r) := step k s o in
               let '(s2, rs) := run k s1 h' in (s2, r :: rs)
  end.

(** The same step executed by baseapp on a cached context: the writes of a message that
    returns an error or panics are discarded (cosmos-sdk runMsgs; not part of /repo). *)
Definition deliver (k : keeper) (s : store) (o : op) : store * out :=
  let '(s', r) := step k s o in
  match r with
  | OutMsg (Ok _) => (s', r)
  | OutQuery _ => (s', r)
  | _ => (s, r)
  end.

(** x/did/types/coins.go:50-58 FormatAddress: which of the three outcomes.  bech32, keccak
    and checksum hex are oracles; [pubKey[1:]] panics on an empty slice. *)
Section FormatAddress.
  Variable bech32 : string -> list Z -> option string.
  Variable eth_hex : list Z -> string.
  Definition format_address (c : coin) (pk : list Z) : res string :=
    if negb (String.eqb (coin_hrp c) "") then
      match bech32 (coin_hrp c) pk with Some s => Ok s | None => Err end
    else if Z.eqb (coin_index c) 60 then
      match pk with [] => Panic | _ :: tl => Ok (eth_hex tl) end
    else Err.
End FormatAddress.
