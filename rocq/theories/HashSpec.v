(** Independent vocabulary: RFC 9380 expand_message_xmd, the NIST HMAC-DRBG output stream. *)
From Coq Require Import List Bool ZArith.
From Verif Require Import CodecSpec.
Import ListNotations.
Open Scope Z_scope.

Section Rfc.
  Variable H : list Z -> list Z.
  (** strxor of equal-length strings *)
  Fixpoint strxor (a b : list Z) : list Z :=
    match a, b with x :: a', y :: b' => Z.lxor x y :: strxor a' b' | _, _ => [] end.
  (** DST_prime = DST || I2OSP(len(DST), 1) *)
  Definition rfc_dst_prime (DST : list Z) := DST ++ be_n 1 (Z.of_nat (length DST)).
  (** b_0 = H(Z_pad || msg || l_i_b_str || I2OSP(0, 1) || DST_prime) *)
  Definition rfc_b0 (bsize : nat) (msg DST : list Z) (len : nat) :=
    H (repeat 0 bsize ++ msg ++ be_n 2 (Z.of_nat len) ++ [0] ++ rfc_dst_prime DST).
  (** b_1 = H(b_0 || I2OSP(1,1) || DST_prime), b_i = H(strxor(b_0, b_(i-1)) || I2OSP(i,1) || DST_prime);
      [rfc_block b0 DST k] is b_(k+1) *)
  Fixpoint rfc_block (b0 DST : list Z) (k : nat) : list Z :=
    match k with
    | O => H (b0 ++ be_n 1 1 ++ rfc_dst_prime DST)
    | S k' => H (strxor b0 (rfc_block b0 DST k') ++ be_n 1 (Z.of_nat k + 1) ++ rfc_dst_prime DST)
    end.
  (** uniform_bytes = b_1 || ... || b_ell, first len bytes *)
  Definition rfc_expand (bsize : nat) (msg DST : list Z) (len ell : nat) :=
    firstn len (concat (map (rfc_block (rfc_b0 bsize msg DST len) DST) (seq 0 ell))).
End Rfc.

Section DrbgStream.
  Variable hmac : list Z -> list Z -> list Z.
  (** V_1 || V_2 || ... || V_n with V_(i+1) = HMAC(K, V_i) *)
  Fixpoint v_after (k v : list Z) (n : nat) : list Z :=
    match n with O => v | S n' => hmac k (v_after k v n') end.
  Definition v_stream (k v : list Z) (n : nat) : list Z :=
    concat (map (v_after k v) (seq 1 n)).

  (** NIST SP 800-90A, 10.1.2: the working state is (Key, V). HMAC_DRBG_Update (10.1.2.2) with optional
      provided data: [None] is "no data" (the two last steps are skipped then) *)
  Definition sp_mix (tag : Z) (data : list Z) (s : list Z * list Z) : list Z * list Z :=
    let key := hmac (fst s) (snd s ++ tag :: data) in (key, hmac key (snd s)).
  Definition sp_update (data : option (list Z)) (s : list Z * list Z) : list Z * list Z :=
    match data with
    | None => sp_mix 0 [] s
    | Some x => sp_mix 1 x (sp_mix 0 x s)
    end.
  (** 10.1.2.3 instantiate: Key = 00..00, V = 01..01, seed material = entropy || nonce || personalisation *)
  Definition sp_instantiate (h : nat) (seed : list Z) : list Z * list Z :=
    sp_update (Some seed) (repeat 0 h, repeat 1 h).
  (** requests of a user: so many output blocks, or a reseed *)
  Inductive request := Generate (blocks : nat) | Reseed (entropy : list Z).
  (** the output bytes of a request and the next working state (10.1.2.4, 10.1.2.5) *)
  Definition sp_step (r : request) (s : list Z * list Z) : list Z * (list Z * list Z) :=
    match r with
    | Generate q => (v_stream (fst s) (snd s) q, sp_update None (fst s, v_after (fst s) (snd s) q))
    | Reseed e => ([], sp_update (Some e) s)
    end.
  (** the outputs of a whole history of requests *)
  Fixpoint sp_run (rs : list request) (s : list Z * list Z) : list (list Z) :=
    match rs with
    | [] => []
    | r :: rs' => let (out, s') := sp_step r s in out :: sp_run rs' s'
    end.
End DrbgStream.

(** OS2IP: the integer a big-endian byte string denotes *)
Fixpoint be_value (l : list Z) : Z :=
  match l with [] => 0 | b :: l' => b * 256 ^ Z.of_nat (length l') + be_value l' end.

(** a list of values is a collision of f: two different inputs with one output *)
Definition collision (f : list Z -> list Z) : Prop := exists a b, a <> b /\ f a = f b.
