(** crypto/signatures/schnorr/mina: poseidon_config.go, poseidon_hash.go (the sponge), txn.go, keys.go, signature.go and
    challenge_derive.go, with the point encodings of crypto/core/curves/pallas_curve.go they use.

    Base-field elements are elements of an abstract field [F] with the codec the package uses ([ToRaw], [SetRaw],
    [Bytes], [SetBytes], [IsOdd], [Sqrt]); MinaInstance.v puts the limb-level field of PastaField.v there.  Points are
    the Jacobian points of PointModel.v.  Scalars are integers below the modulus [q] (C85, C86).
    Simplifications: the Poseidon constants and the BLAKE2b-256 hash are parameters; a panic is [Panic]; the capacity of
    an input slice is its length; maps and JSON are not modelled (UnmarshalJSON; see DESIGN.md). *)
From Coq Require Import ZArith NArith List Bool.
From Verif Require Import EcField PointModel LimbSpec NativeField MinaBitsModel.
Import ListNotations.
Set Implicit Arguments.
Unset Strict Implicit.
Local Open Scope Z_scope.

Inductive res (A : Type) := Ok (a : A) | Err | Panic.
Arguments Ok {A}. Arguments Err {A}. Arguments Panic {A}.
Definition bind {A B} (r : res A) (f : A -> res B) : res B := match r with Ok a => f a | Err => Err | Panic => Panic end.
Definition unpanic {A} (o : option A) : res A := match o with Some a => Ok a | None => Panic end.

(** native/pasta/fp/fp.go: ToRaw, SetRaw, Bytes, SetBytes, IsOdd, Sqrt *)
Record fp_codec (F : field) := FpCodec {
  fc_raw : F -> Z; fc_set_raw : Z -> F; fc_bytes : F -> list Z; fc_set_bytes : list Z -> option F;
  fc_odd : F -> bool; fc_sqrt : F -> F * bool }.

(** poseidon_config.go:14-22 [SBox], 47-53 [Permutation], 105-112 [NetworkType] *)
Inductive sbox_kind := Cube | Quint | Sept | Inverse.
Inductive permutation := ThreeW | FiveW | Three.
Definition TestNet := 0. Definition MainNet := 1. Definition NullNet := 2.
(** poseidon_hash.go:23 [contexts]: the constants of one permutation; sc_iv is indexed by the network *)
Record sponge_consts (F : field) := SpongeConsts {
  sc_width : nat; sc_rate : nat; sc_rounds : nat; sc_sbox : sbox_kind;
  sc_keys : list (list F); sc_mds : list (list F); sc_iv : list (list F) }.

(** copy(out[lo:hi], src) on a slice of length at least hi *)
Definition put (lo hi : nat) (src out : list Z) : list Z :=
  let n := Nat.min (hi - lo) (length src) in firstn lo out ++ firstn n src ++ skipn (lo + n) out.
(** x[i] |= v *)
Definition or_at (i : nat) (v : Z) (x : list Z) : list Z := firstn i x ++ Z.lor (nth i x 0) v :: skipn (S i) x.

Section Mina.
  Variable F : field.
  Variable C : fp_codec F.
  Variable gen : pt F.
  Variable consts : permutation -> sponge_consts F.
  Variable blake : list Z -> list Z.
  Variables (p q : Z).
  Local Open Scope fld_scope.

  (** ** poseidon_config.go, poseidon_hash.go *)
  (** poseidon_config.go:24-44 [Exp] *)
  Definition sbox_exp (k : sbox_kind) (f : F) : F :=
    match k with
    | Cube => let t := f * f in t * f
    | Quint => let t := f * f in let t := t * t in t * f
    | Sept => let f2 := f * f in let f4 := f2 * f2 in let t := f2 * f4 in t * f
    | Inverse => finv f
    end.
  (** poseidon_hash.go:15-21 [Context]: the constants, the state and the number of elements absorbed since the last permutation *)
  Record context := Context { cx_type : permutation; cx_state : list F; cx_absorbed : nat }.
  Definition cc (ctx : context) : sponge_consts F := consts (cx_type ctx).
  (** poseidon_config.go:78-82 [ark], 84-88 [sbox], 90-104 [mds] *)
  Definition ark (ctx : context) (round : nat) (st : list F) : list F :=
    map (fun i => nth i st 0 + nth i (nth round (sc_keys (cc ctx)) []) 0) (seq 0 (sc_width (cc ctx))).
  Definition sbox (ctx : context) (st : list F) : list F := map (fun i => sbox_exp (sc_sbox (cc ctx)) (nth i st 0)) (seq 0 (sc_width (cc ctx))).
  Definition mds (ctx : context) (st : list F) : list F :=
    map (fun row => fold_left (fun acc col => acc + nth col st 0 * nth col (nth row (sc_mds (cc ctx)) []) 0) (seq 0 (sc_width (cc ctx))) 0)
      (seq 0 (sc_width (cc ctx))).
  (** poseidon_config.go:56-76 [Permute] *)
  Definition permute_state (ctx : context) (st : list F) : list F :=
    match cx_type ctx with
    | ThreeW => ark ctx (sc_rounds (cc ctx)) (fold_left (fun st r => mds ctx (sbox ctx (ark ctx r st))) (seq 0 (sc_rounds (cc ctx))) st)
    | Three | FiveW => fold_left (fun st r => ark ctx r (mds ctx (sbox ctx st))) (seq 0 (sc_rounds (cc ctx))) st
    end.
  Definition permute (ctx : context) : context := Context (cx_type ctx) (permute_state ctx (cx_state ctx)) (cx_absorbed ctx).
  (** poseidon_hash.go:1133-1165 [Init]; [None] is the nil it returns for an unknown network (a nil receiver and an
      unknown permutation cannot arise here) *)
  Definition ctx_init (pType : permutation) (networkId : Z) : option context :=
    if negb (networkId =? TestNet)%Z && negb (networkId =? MainNet)%Z && negb (networkId =? NullNet)%Z then None
    else Some (Context pType
      (if negb (networkId =? NullNet)%Z then nth (Z.to_nat networkId) (sc_iv (consts pType)) [] else repeat 0 (sc_width (consts pType))) 0%nat).
  (** poseidon_hash.go:1167-1176 [Update] *)
  Definition absorb (ctx : context) (f : F) : context :=
    let ctx := if (cx_absorbed ctx =? sc_rate (cc ctx))%nat then let c := permute ctx in Context (cx_type c) (cx_state c) 0%nat else ctx in
    Context (cx_type ctx)
      (firstn (cx_absorbed ctx) (cx_state ctx) ++ (nth (cx_absorbed ctx) (cx_state ctx) 0 + f) :: skipn (S (cx_absorbed ctx)) (cx_state ctx))
      (S (cx_absorbed ctx)).
  Definition update (ctx : context) (fields : list F) : context := fold_left absorb fields ctx.
  (** poseidon_hash.go:1178-1182 [Digest] *)
  Definition digest (ctx : context) : Z := (fc_raw C (nth 0%nat (cx_state (permute ctx)) (f0 : F)) mod q)%Z.

  (** ** pallas_curve.go *)
  (** pallas_curve.go:1004-1010 [X], [Y] *)
  Definition ep_x (P : pt F) : F := px (pallas_affine P).
  Definition ep_y (P : pt F) : F := py (pallas_affine P).
  (** pallas_curve.go:839-858 [Mul], on the 32 little-endian bytes of the scalar *)
  Definition ep_mul (P : pt F) (k : Z) : pt F := pallas_mul P (map Z.to_N (put_le 32 k)).
  (** pallas_curve.go:898-909 [ToAffineCompressed] *)
  Definition to_compressed (P : pt F) : list Z :=
    let p1 := pallas_affine P in
    let x := fc_bytes C (px p1) in
    let x := or_at 31 (byte (Z.shiftl (Z.land (nth 0 (fc_bytes C (py p1)) 0%Z) 1) 7)) x in
    if is_identity p1 then repeat 0%Z 32 else x.
  (** pallas_curve.go:975-980 [rhsPallas]; [b] is 5 *)
  Definition rhs_pallas (x : F) : F := let x2 := x * x in let x3 := x * x2 in x3 + five F.
  (** pallas_curve.go:919-949 [FromAffineCompressed] *)
  Definition from_compressed (bytes : list Z) : option (pt F) :=
    if negb (length bytes =? 32)%nat then None
    else
      let sign := Z.land (Z.shiftr (nth 31 bytes 0%Z) 7) 1 in
      let input := firstn 31 bytes ++ [Z.land (nth 31 bytes 0%Z) 0x7F] in
      match fc_set_bytes C input with
      | None => None
      | Some x =>
          let '(rhs, square) := fc_sqrt C (rhs_pallas x) in
          if negb square then None
          else
            let rhs := if negb (Z.land (nth 0 (fc_bytes C rhs) 0%Z) 1 =? sign)%Z then - rhs else rhs in
            let P := Pt x rhs 1 in
            if pallas_on_curve P then Some P else None
      end.

  (** ** txn.go *)
  Record transaction := Txn {
    t_fee : Z; t_fee_token : Z; t_fee_payer : pt F; t_nonce : Z; t_valid_until : Z; t_memo : list Z;
    t_tag0 : bool; t_tag1 : bool; t_tag2 : bool; t_source : pt F; t_receiver : pt F;
    t_token_id : Z; t_amount : Z; t_locked : bool; t_network : Z }.
  Definition b2z (b : bool) : Z := if b then 1%Z else 0%Z.
  (** txn.go:54-80 [MarshalBinary] *)
  Definition marshal_txn (t : transaction) : list Z :=
    let out := repeat 0%Z 175 in
    let out := put 0 8 (put_le 8 (t_fee t)) out in
    let out := put 8 16 (put_le 8 (t_fee_token t)) out in
    let out := put 16 48 (to_compressed (t_fee_payer t)) out in
    let out := put 48 52 (put_le 4 (t_nonce t)) out in
    let out := put 52 56 (put_le 4 (t_valid_until t)) out in
    let out := put 56 57 [1%Z] out in
    let out := put 57 58 [byte (Z.of_nat (length (t_memo t)))] out in
    let out := put 58 90 (t_memo t) out in
    let out := put 90 91 [b2z (t_tag0 t)] out in
    let out := put 91 92 [b2z (t_tag1 t)] out in
    let out := put 92 93 [b2z (t_tag2 t)] out in
    let out := put 93 125 (to_compressed (t_source t)) out in
    let out := put 125 157 (to_compressed (t_receiver t)) out in
    let out := put 157 165 (put_le 8 (t_token_id t)) out in
    let out := put 165 173 (put_le 8 (t_amount t)) out in
    let out := put 173 174 [b2z (t_locked t)] out in
    put 174 175 [byte (t_network t)] out.
  (** txn.go:82-126 [UnmarshalBinary]; [58+input[57]] is computed on bytes *)
  Definition unmarshal_txn (input : list Z) : res transaction :=
    if (length input <? 175)%nat then Err
    else
      match from_compressed (slice 16 48 input) with None => Err | Some feePayer =>
      match from_compressed (slice 93 125 input) with None => Err | Some source =>
      match from_compressed (slice 125 157 input) with None => Err | Some receiver =>
        let hi := Z.to_nat (byte (58 + nth 57 input 0%Z)) in
        if (hi <? 58)%nat || (length input <? hi)%nat then Panic
        else Ok (Txn (le_val (slice 0 8 input)) (le_val (slice 8 16 input)) feePayer (le_val (slice 48 52 input)) (le_val (slice 52 56 input))
          (slice 58 hi input) (nth 90 input 0 =? 1)%Z (nth 91 input 0 =? 1)%Z (nth 92 input 0 =? 1)%Z source receiver
          (le_val (slice 157 165 input)) (le_val (slice 165 173 input)) (nth 173 input 0 =? 1)%Z (nth 174 input 0%Z))
      end end end.
  (** txn.go:199-224 [addRoInput]; roinput.AddFp keeps the element, of which only ToRaw is used *)
  Definition memo_bytes (memo : list Z) : list Z := put 2 34 memo (1%Z :: byte (Z.of_nat (length memo)) :: repeat 0%Z 32).
  Definition add_ro_input (t : transaction) (input : roinput) : option roinput :=
    let input := ro_add_fp input (fc_raw C (ep_x (t_fee_payer t))) in
    let input := ro_add_fp input (fc_raw C (ep_x (t_source t))) in
    let input := ro_add_fp input (fc_raw C (ep_x (t_receiver t))) in
    let then_ (r : option roinput) (f : roinput -> option roinput) := match r with Some r => f r | None => None end in
    let r := ro_add_uint64 input (t_fee t) in
    let r := then_ r (fun r => ro_add_uint64 r (t_fee_token t)) in
    let r := then_ r (fun r => ro_add_bit r (fc_odd C (ep_y (t_fee_payer t)))) in
    let r := then_ r (fun r => ro_add_uint32 r (t_nonce t)) in
    let r := then_ r (fun r => ro_add_uint32 r (t_valid_until t)) in
    let r := then_ r (fun r => ro_add_bytes r (memo_bytes (t_memo t))) in
    let r := then_ r (fun r => ro_add_bit r (t_tag0 t)) in
    let r := then_ r (fun r => ro_add_bit r (t_tag1 t)) in
    let r := then_ r (fun r => ro_add_bit r (t_tag2 t)) in
    let r := then_ r (fun r => ro_add_bit r (fc_odd C (ep_y (t_source t)))) in
    let r := then_ r (fun r => ro_add_bit r (fc_odd C (ep_y (t_receiver t)))) in
    let r := then_ r (fun r => ro_add_uint64 r (t_token_id t)) in
    let r := then_ r (fun r => ro_add_uint64 r (t_amount t)) in
    then_ r (fun r => ro_add_bit r (t_locked t)).

  (** ** keys.go *)
  (** keys.go:245-254 [msgHash]; a nil context makes Update panic *)
  Definition msg_hash (pk : pt F) (rx : F) (input : roinput) (hashType : permutation) (networkId : Z) : res Z :=
    let input := ro_add_fp input (fc_raw C (ep_x pk)) in
    let input := ro_add_fp input (fc_raw C (ep_y pk)) in
    let input := ro_add_fp input (fc_raw C rx) in
    match ctx_init hashType networkId with
    | None => Panic
    | Some ctx => bind (unpanic (ro_to_fields p input)) (fun fields => Ok (digest (update ctx (map (fc_set_raw C) fields))))
    end.
  (** keys.go:256-272 [msgDerive], on a clone of the input *)
  Definition msg_derive_bytes (sk : Z) (msg : roinput) (pk : pt F) (networkId : Z) : res (list Z) :=
    let input := ro_add_fp msg (fc_raw C (ep_x pk)) in
    let input := ro_add_fp input (fc_raw C (ep_y pk)) in
    bind (unpanic (ro_add_fq input sk)) (fun input =>
    bind (unpanic (ro_add_bytes input [byte networkId])) (fun input =>
    unpanic (ro_bytes input))).
  Definition msg_derive (sk : Z) (msg : roinput) (pk : pt F) (networkId : Z) : res Z :=
    bind (msg_derive_bytes sk msg pk networkId) (fun inputBytes =>
    let hash := blake inputBytes in
    let hash := firstn 31 hash ++ [Z.land (nth 31 hash 0%Z) 0x3F] in
    Ok (le_val hash mod q)%Z).
  (** signature.go:17-20 *)
  Record signature := Signature { sig_r : F; sig_s : Z }.
  (** keys.go:113-116 [GetPublicKey] *)
  Definition get_public_key (sk : Z) : pt F := ep_mul gen sk.
  (** keys.go:178-209 [finishSchnorrSign] *)
  Definition finish_sign (sk : Z) (input : roinput) (networkId : Z) : res signature :=
    if (sk =? 0)%Z then Err
    else
      let pk := get_public_key sk in
      bind (msg_derive sk input pk networkId) (fun k =>
      if (k =? 0)%Z then Err
      else
        let r := ep_mul gen k in
        let k := if fc_odd C (ep_y r) then ((- k) mod q)%Z else k in
        let rx := ep_x r in
        bind (msg_hash pk rx input ThreeW networkId) (fun e =>
        let e := ((e * sk) mod q)%Z in
        let s := ((k + e) mod q)%Z in
        if feqb rx 0 || (s =? 0)%Z then Err else Ok (Signature rx s))).
  (** keys.go:225-243 [finishSchnorrVerify]; [Ok tt] is the nil error *)
  Definition finish_verify (pk : pt F) (sig : signature) (input : roinput) (networkId : Z) : res unit :=
    if is_identity pk then Err
    else if feqb (sig_r sig) 0 || (sig_s sig =? 0)%Z then Err
    else
      bind (msg_hash pk (sig_r sig) input ThreeW networkId) (fun e =>
      let sg := ep_mul gen (sig_s sig) in
      let epk := ep_mul pk e in
      let epk := pallas_neg epk in
      let r := pallas_add sg epk in
      if negb (fc_odd C (ep_y r)) && feqb (ep_x r) (sig_r sig) then Ok tt else Err).
  (** keys.go:162-176 and 211-223 [SignTransaction], [SignMessage], [VerifyTransaction], [VerifyMessage] *)
  Definition txn_input (t : transaction) : res roinput := unpanic (add_ro_input t (ro_init 75)).
  Definition message_input (message : list Z) : res roinput := unpanic (ro_add_bytes (ro_init (length message)) message).
  Definition sign_transaction (sk : Z) (t : transaction) : res signature :=
    bind (txn_input t) (fun input => finish_sign sk input (t_network t)).
  Definition verify_transaction (pk : pt F) (sig : signature) (t : transaction) : res unit :=
    bind (txn_input t) (fun input => finish_verify pk sig input (t_network t)).
  Definition sign_message (sk : Z) (message : list Z) : res signature :=
    bind (message_input message) (fun input => finish_sign sk input MainNet).
  Definition verify_message (pk : pt F) (sig : signature) (message : list Z) : res unit :=
    bind (message_input message) (fun input => finish_verify pk sig input MainNet).

  (** challenge_derive.go:18-42 [DeriveChallenge] *)
  Definition derive_challenge (msg : list Z) (pubKey R : pt F) : res Z :=
    bind (unmarshal_txn msg) (fun txn =>
    bind (unpanic (add_ro_input txn (ro_init 75))) (fun input =>
    msg_hash pubKey (ep_x R) input ThreeW MainNet)).

  (** signature.go:22-48; [set_fq] is fq.SetBytes *)
  Definition marshal_signature (sig : signature) : list Z :=
    put 32 64 (put_le 32 (sig_s sig)) (put 0 32 (fc_bytes C (sig_r sig)) (repeat 0%Z 64)).
  Definition unmarshal_signature (set_fq : list Z -> option Z) (input : list Z) : option signature :=
    if negb (length input =? 64)%nat then None
    else
      match fc_set_bytes C (slice 0 32 input) with
      | None => None
      | Some rx => match set_fq (slice 32 64 input) with Some s => Some (Signature rx s) | None => None end
      end.
  (** keys.go:35-50 [GenerateAddress] and 53-90 [ParseAddress], before and after the base58 encoding; [sha] is SHA-256 *)
  Definition address_bytes (sha : list Z -> list Z) (pk : pt F) : list Z :=
    let payload := repeat 0%Z 40 in
    let payload := put 0 3 [0xcb; 1; 1]%Z payload in
    let a := pallas_affine pk in
    let buffer := fc_bytes C (px a) ++ fc_bytes C (py a) in
    let payload := put 3 35 (firstn 32 buffer) payload in
    let payload := put 35 36 [Z.land (nth 32 buffer 0%Z) 1] payload in
    let hash2 := sha (sha (firstn 36 payload)) in
    put 36 40 (firstn 4 hash2) payload.
  Definition parse_address_bytes (sha : list Z -> list Z) (buffer : list Z) : option (pt F) :=
    if negb (length buffer =? 40)%nat then None
    else if negb (nth 0 buffer 0 =? 0xcb)%Z then None
    else if negb (nth 1 buffer 0 =? 1)%Z then None
    else if negb (nth 2 buffer 0 =? 1)%Z then None
    else
      let hash2 := sha (sha (firstn 36 buffer)) in
      if negb (if list_eq_dec Z.eq_dec (firstn 4 hash2) (slice 36 40 buffer) then true else false) then None
      else
        let x := slice 3 35 buffer in
        let x := or_at 31 (byte (Z.shiftl (nth 35 buffer 0%Z) 7)) x in
        from_compressed x.
End Mina.
