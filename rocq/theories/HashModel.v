(** Hash-based helpers: ExpandMessageXmd, hashToField, the iterated HKDF (internal.Hash and
    core.FiatShamir), ByteSub, HMAC-DRBG, HMAC commitments. Hash, HKDF and HMAC are arbitrary functions. *)
From Coq Require Import List Bool ZArith.
From Verif Require Import BytesModel CodecModel.
Import ListNotations.
Open Scope Z_scope.

(** ---- crypto/internal/hash.go:74-93 ByteSub ---- *)
Definition int8 (b : Z) : Z := if b <? 128 then b else b - 256.      (* int8(byte) *)
Definition wrap8 (x : Z) : Z := int8 (x mod 256).                    (* int8 arithmetic *)
(** one loop iteration: returns the new byte and the new borrow mask *)
Definition byte_sub_step (b m : Z) : Z * Z :=
  let b := (b - m) mod 256 in
  let s1 := Z.shiftr (int8 b) 7 in
  let s2 := Z.shiftr (wrap8 (- int8 b)) 7 in
  let s := (Z.lor s1 s2 + 1) mod 256 in
  let m := Z.land s m in
  (Z.lor b ((- s) mod 256), m).
Fixpoint byte_sub_from (l : list Z) (m : Z) : list Z :=
  match l with
  | [] => []
  | b :: l' => let '(b', m') := byte_sub_step b m in b' :: byte_sub_from l' m'
  end.
Definition byte_sub (l : list Z) : list Z := byte_sub_from l 1.

(** ---- crypto/internal/hash.go:36-60 Hash; crypto/core/hash.go:246-271 FiatShamir ---- *)
Section Kdf.
  (** hkdf.New(sha256.New, ikm, salt, info).Read of 32 bytes, as a function of ikm: salt is 32 zero
      bytes and info is fixed in both callers *)
  Variable kdf : list Z -> list Z.
  (** the loop over the values: prefix f, previous output okm *)
  Fixpoint hash_loop (f okm : list Z) (values : list (list Z)) : list Z :=
    match values with
    | [] => okm
    | b :: vs => hash_loop (byte_sub f) (kdf ((f ++ b) ++ okm)) vs
    end.
  Definition ff32 : list Z := repeat 255 32.
  Definition zero32 : list Z := repeat 0 32.
  Definition hash_values (values : list (list Z)) : list Z := hash_loop ff32 zero32 values.
  (** internal.Hash: a nil slice (None) is refused *)
  Fixpoint all_some {A} (l : list (option A)) : option (list A) :=
    match l with
    | [] => Some []
    | None :: _ => None
    | Some a :: l' => match all_some l' with Some r => Some (a :: r) | None => None end
    end.
  Definition internal_hash (values : list (option (list Z))) : option (list Z) :=
    match all_some values with Some vs => Some (hash_values vs) | None => None end.
  (** core.FiatShamir: big integers enter through Bytes(), i.e. without their sign *)
  Definition fiat_shamir (values : list (option Z)) : option (list Z) :=
    match all_some values with Some vs => Some (hash_values (map be_bytes vs)) | None => None end.
End Kdf.

(** ---- crypto/core/hash.go:113-121 xor (b2 must be at least as long as b1) ---- *)
Definition xor_bytes (b1 b2 : list Z) : list Z := map (fun p => Z.lxor (fst p) (snd p)) (combine b1 b2).

Section Xmd.
  Variable H : list Z -> list Z.       (* hashThis(f, .) *)
  Variable hsize bsize : nat.          (* f().Size(), f().BlockSize() *)

  (** math.Ceil(float64(len)/float64(size)) for lengths far below 2^53 *)
  Definition ceil_div (a b : nat) : nat := Nat.div (a + (b - 1)) b.

  (** crypto/core/hash.go:137 dstPrime *)
  Definition dst_prime (DST : list Z) : list Z := DST ++ i2osp (Z.of_nat (length DST)) 1.
  (** crypto/core/hash.go:140-143 zPad, msgPrime *)
  Definition msg_prime (msg DST : list Z) (len : nat) : list Z :=
    i2osp 0 bsize ++ msg ++ i2osp (Z.of_nat len) 2 ++ i2osp 0 1 ++ dst_prime DST.
  (** crypto/core/hash.go:156-164 the loop for i = 2..ell: [prev] is b[i-1] *)
  Fixpoint xmd_rest (b0 prev dstp : list Z) (i : Z) (k : nat) : list (list Z) :=
    match k with
    | O => []
    | S k' => let bi := H (xor_bytes b0 prev ++ i2osp i 1 ++ dstp) in
              bi :: xmd_rest b0 bi dstp (i + 1) k'
    end.
  (** crypto/core/hash.go:123-172 ExpandMessageXmd. ell = 0: b has one entry and b[1] panics *)
  Definition expand_message_xmd (msg DST : list Z) (len : nat) : outcome (list Z) :=
    let ell := ceil_div len hsize in
    if Nat.ltb 255 ell then Err
    else
      let dstp := dst_prime DST in
      let b0 := H (msg_prime msg DST len) in
      match ell with
      | O => Panic
      | S k =>
          let b1 := H (b0 ++ i2osp 1 1 ++ dstp) in
          let bs := b1 :: xmd_rest b0 b1 dstp 2 k in
          Ok (firstn len (concat bs))
      end.

  (** crypto/core/hash.go:174-215 hashToField with extension degree m = 1 (all supported curves), L
      bytes per element, field characteristic p; [DST] is "Coinbase_tECDSA" in the source *)
  Definition hash_to_field (msg DST : list Z) (count L : nat) (p : Z) : outcome (list Z) :=
    match expand_message_xmd msg DST (count * L) with
    | Ok u => Ok (map (fun i => os2ip (firstn L (skipn (L * i) u)) mod p) (seq 0 count))
    | Err => Err
    | Panic => Panic
    end.
End Xmd.

(** ---- crypto/signatures/common/hmacdrbg.go ---- *)
Section Drbg.
  Variable hmac : list Z -> list Z -> list Z.   (* key, message *)
  Variable hsize : nat.                          (* hasher().Size() *)
  Record drbg := { dk : list Z; dv : list Z; dcount : Z }.

  (** hmacdrbg.go:69-98 update(seeds) *)
  Definition drbg_update (d : drbg) (seeds : list (list Z)) : drbg :=
    let k1 := hmac (dk d) (dv d ++ [0] ++ concat seeds) in
    let v1 := hmac k1 (dv d) in
    match seeds with
    | [] => {| dk := k1; dv := v1; dcount := dcount d |}
    | _ => let k2 := hmac k1 (v1 ++ [1] ++ concat seeds) in
           {| dk := k2; dv := hmac k2 v1; dcount := dcount d |}
    end.
  Definition drbg_bump (d : drbg) : drbg := {| dk := dk d; dv := dv d; dcount := dcount d + 1 |}.
  (** hmacdrbg.go:23-38 NewHmacDrbg *)
  Definition drbg_new (entropy nonce pers : list Z) : drbg :=
    drbg_bump (drbg_update {| dk := repeat 0 hsize; dv := repeat 1 hsize; dcount := 0 |} [entropy; nonce; pers]).
  (** hmacdrbg.go:61-63 Reseed *)
  Definition drbg_reseed (d : drbg) (entropy : list Z) : drbg := drbg_update d [entropy].

  (** hmacdrbg.go:51-53 "for j, b := range drbg.v { dst[i+j] = b }": None is the index panic *)
  Fixpoint write_at (dst : list Z) (i : nat) (v : list Z) : option (list Z) :=
    match v with
    | [] => Some dst
    | b :: v' => if Nat.ltb i (length dst)
                 then write_at (firstn i dst ++ b :: skipn (S i) dst) (S i) v' else None
    end.
  (** hmacdrbg.go:46-55 the loop; fuel bounds the iterations (each advances by len(v) >= 1);
      running out of fuel stands for the loop not terminating (hash size 0) and yields None *)
  Fixpoint drbg_loop (fuel : nat) (k v dst : list Z) (i : nat) : option (list Z * list Z * nat) :=
    if Nat.ltb i (length dst) then
      match fuel with
      | O => None
      | S f => let v' := hmac k v in
               match write_at dst i v' with
               | Some dst' => drbg_loop f k v' dst' (i + length v')
               | None => None
               end
      end
    else Some (v, dst, i).
  (** hmacdrbg.go:40-59 Read: returns (n, filled dst, new state), None on panic *)
  Definition drbg_read (d : drbg) (dst : list Z) : option (nat * list Z * drbg) :=
    match length dst with
    | O => Some (0%nat, dst, d)
    | _ => match drbg_loop (length dst) (dk d) (dv d) dst 0 with
           | Some (v, dst', i) =>
               Some (i, dst', drbg_bump (drbg_update {| dk := dk d; dv := v; dcount := dcount d |} []))
           | None => None
           end
    end.
End Drbg.

(** ---- crypto/core/commit.go ---- *)
Section Commit.
  Variable hmac : list Z -> list Z -> list Z.   (* ComputeHMAC(sha256, msg, key): key, message *)
  Record witness := { w_msg : list Z; w_r : list Z }.
  (** commit.go:59-80 Commit with the 32 random bytes r *)
  Definition commit (msg r : list Z) : list Z * witness := (hmac r msg, {| w_msg := msg; w_r := r |}).
  (** commit.go:84-96 Open: Err is the wrong-length error *)
  Definition open_commit (c : list Z) (d : witness) : outcome bool :=
    if Nat.eqb (length c) 32 then Ok (list_eqb (hmac (w_r d) (w_msg d)) c) else Err.
End Commit.
