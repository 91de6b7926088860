(** What the Mina package is meant to do. *)
From Coq Require Import ZArith NArith List Bool.
From Verif Require Import EcField EcSpec PointModel PointSpec LimbSpec NativeField MinaBitsModel MinaBitsSpec MinaModel.
Import ListNotations.
Set Implicit Arguments.
Unset Strict Implicit.
Local Open Scope Z_scope.

Section Spec.
  Variable F : field.
  Variable C : fp_codec F.
  Variable p : Z.
  (** the codec of a field of p elements *)
  Record codec_ok : Prop := CodecOk {
    ck_p : 2 ^ 254 < p < 2 ^ 255;
    ck_p_odd : Z.odd p = true;
    ck_range : forall x, 0 <= fc_raw C x < p;
    ck_inj : forall x y, fc_raw C x = fc_raw C y -> x = y;
    ck_zero : fc_raw C (f0 : F) = 0;
    ck_neg : forall x, fc_raw C (fopp x) = (- fc_raw C x) mod p;
    ck_set_raw : forall v, 0 <= v < 2 ^ 256 -> fc_raw C (fc_set_raw C v) = v mod p;
    ck_bytes : forall x, is_bytes (fc_bytes C x) /\ length (fc_bytes C x) = 32%nat /\ le_val (fc_bytes C x) = fc_raw C x;
    ck_set_bytes : forall x, fc_raw C x < 2 ^ 254 -> fc_set_bytes C (fc_bytes C x) = Some x;
    ck_odd : forall x, fc_odd C x = Z.odd (fc_raw C x);
    ck_sqrt : forall x y, fmul y y = x -> exists r, fc_sqrt C x = (r, true) /\ fmul r r = x }.

  (** the affine coordinates of a point; (0, 0) for the point at infinity, as in the code *)
  Definition x_of (P : point F) : F := match P with None => f0 | Some (x, _) => x end.
  Definition y_of (P : point F) : F := match P with None => f0 | Some (_, y) => y end.
  (** the multiple of a point by an integer *)
  Definition times (k : Z) (P : point F) : point F := ec_mul f0 (Z.to_nat k) P.

  (** the bits of a transaction, in the order of the Mina specification: the memo as a version byte, a length byte
      and 32 bytes, zero-padded *)
  Definition parity (x : F) : bool := Z.odd (fc_raw C x).
  Definition txn_fields (t : transaction F) : list Z :=
    [fc_raw C (x_of (jacobian (t_fee_payer t))); fc_raw C (x_of (jacobian (t_source t))); fc_raw C (x_of (jacobian (t_receiver t)))].
  Definition txn_bits (t : transaction F) : list bool :=
    int_bits (t_fee t) 64 ++ int_bits (t_fee_token t) 64 ++ [parity (y_of (jacobian (t_fee_payer t)))] ++
    int_bits (t_nonce t) 32 ++ int_bits (t_valid_until t) 32 ++
    all_bits (1 :: Z.of_nat (length (t_memo t)) mod 256 :: firstn 32 (t_memo t) ++ repeat 0 (32 - length (t_memo t))) ++
    [t_tag0 t; t_tag1 t; t_tag2 t] ++
    [parity (y_of (jacobian (t_source t))); parity (y_of (jacobian (t_receiver t)))] ++
    int_bits (t_token_id t) 64 ++ int_bits (t_amount t) 64 ++ [t_locked t].

  (** a point of the curve other than the identity *)
  Definition is_key (P : pt F) : Prop := on_curve f0 (five F) (jacobian P) /\ jacobian P <> None.
  (** a transaction whose numbers fit their Go types and whose memo is at most 32 bytes long *)
  Record well_formed (t : transaction F) : Prop := WellFormed {
    wf_fee : 0 <= t_fee t < 2 ^ 64; wf_fee_token : 0 <= t_fee_token t < 2 ^ 64;
    wf_nonce : 0 <= t_nonce t < 2 ^ 32; wf_valid : 0 <= t_valid_until t < 2 ^ 32;
    wf_memo : is_bytes (t_memo t) /\ (length (t_memo t) <= 32)%nat;
    wf_token : 0 <= t_token_id t < 2 ^ 64; wf_amount : 0 <= t_amount t < 2 ^ 64;
    wf_payer : is_key (t_fee_payer t); wf_source : is_key (t_source t); wf_receiver : is_key (t_receiver t) }.
  (** the same transaction, whatever coordinates represent its keys *)
  Definition same_body (t u : transaction F) : Prop :=
    (t_fee t, t_fee_token t, t_nonce t, t_valid_until t, t_memo t, (t_tag0 t, t_tag1 t, t_tag2 t), t_token_id t, t_amount t, t_locked t) =
    (t_fee u, t_fee_token u, t_nonce u, t_valid_until u, t_memo u, (t_tag0 u, t_tag1 u, t_tag2 u), t_token_id u, t_amount u, t_locked u) /\
    jacobian (t_fee_payer t) = jacobian (t_fee_payer u) /\ jacobian (t_source t) = jacobian (t_source u) /\
    jacobian (t_receiver t) = jacobian (t_receiver u).

  (** the sponge: blocks of [rate] elements are added to the state, a permutation after each *)
  Definition add_block (st block : list F) : list F :=
    map (fun i => fadd (nth i st f0) (nth i block f0)) (seq 0 (length st)).
  Fixpoint sponge (perm : list F -> list F) (rate : nat) (fuel : nat) (st : list F) (fields : list F) : list F :=
    match fuel, skipn rate fields with
    | S fuel, _ :: _ => sponge perm rate fuel (perm (add_block st (firstn rate fields))) (skipn rate fields)
    | _, _ => perm (add_block st fields)
    end.
  (** the Poseidon permutations: vectors of [width] elements, a power map on every element, a matrix and round keys; the
      permutation used for signatures adds the key before the power map and a last key at the end, the others add it
      after the matrix *)
  Fixpoint pow (x : F) (n : nat) : F := match n with O => f1 | S n => fmul x (pow x n) end.
  Definition power (k : sbox_kind) (x : F) : F :=
    match k with Cube => pow x 3 | Quint => pow x 5 | Sept => pow x 7 | Inverse => finv x end.
  Fixpoint dot (u v : list F) : F := match u, v with x :: u, y :: v => fadd (fmul x y) (dot u v) | _, _ => f0 end.
  Fixpoint add_vec (u v : list F) : list F := match u, v with x :: u, y :: v => fadd x y :: add_vec u v | _, _ => [] end.
  Definition mat_vec (M : list (list F)) (v : list F) : list F := map (fun row => dot row v) M.
  Definition poseidon (T : permutation) (K : sponge_consts F) (st : list F) : list F :=
    let mix st := mat_vec (sc_mds K) (map (power (sc_sbox K)) st) in
    match T with
    | ThreeW => add_vec (fold_left (fun st key => mix (add_vec st key)) (firstn (sc_rounds K) (sc_keys K)) st) (nth (sc_rounds K) (sc_keys K) [])
    | _ => fold_left (fun st key => add_vec (mix st) key) (firstn (sc_rounds K) (sc_keys K)) st
    end.
  (** the constants have the sizes they declare *)
  Record shape (T : permutation) (K : sponge_consts F) : Prop := Shape {
    sh_rate : (0 < sc_rate K <= sc_width K)%nat;
    sh_keys : @Forall (list F) (fun key => length key = sc_width K :> nat) (sc_keys K) /\
      (sc_rounds K + match T with ThreeW => 1 | _ => 0 end <= length (sc_keys K))%nat;
    sh_mds : length (sc_mds K) = sc_width K /\ @Forall (list F) (fun row => length row = sc_width K :> nat) (sc_mds K);
    sh_iv : length (sc_iv K) = 2%nat /\ @Forall (list F) (fun iv => length iv = sc_width K :> nat) (sc_iv K) }.
  (** the initial state: a constant of the network, zero for the null network *)
  Definition start (K : sponge_consts F) (network : Z) : list F :=
    if network =? NullNet then repeat f0 (sc_width K) else nth (Z.to_nat network) (sc_iv K) [].
  (** the hash of some integers to a scalar *)
  Definition hash (q : Z) (T : permutation) (K : sponge_consts F) (network : Z) (l : list Z) : Z :=
    fc_raw C (nth 0 (sponge (poseidon T K) (sc_rate K) (length l) (start K network) (map (fc_set_raw C) l)) f0) mod q.
  (** what is hashed of some field elements and bits: the elements, then the bits by groups of 254 *)
  Definition pack (fields : list Z) (bits : list bool) : list Z := fields ++ map bits_value (groups (S (length bits)) bits).
  (** the challenge of a signature: the hash of the fields and bits that are signed *)
  Definition challenge (q : Z) (K : sponge_consts F) (network : Z) (fields : list Z) (bits : list bool) : Z := hash q ThreeW K network (pack fields bits).
  (** the verification equation of a signature (r, s) by a public key [pk], G being the generator: s G = R + e pk for a
      point R of abscissa r and even ordinate, e being the challenge of the signed fields and bits, the key and r *)
  Definition accepted (q : Z) (K : sponge_consts F) (G pk : point F) (sig : signature F) (network : Z) (fields : list Z) (bits : list bool) : Prop :=
    let e := challenge q K network (fields ++ [fc_raw C (x_of pk); fc_raw C (y_of pk); fc_raw C (sig_r sig)]) bits in
    exists y, on_curve f0 (five F) (Some (sig_r sig, y)) /\ parity y = false /\ times (sig_s sig) G = ec_add f0 (Some (sig_r sig, y)) (times e pk).
  Definition known (network : Z) : Prop := network = TestNet \/ network = MainNet \/ network = NullNet.
End Spec.
