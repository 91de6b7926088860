(** crypto/daed/aes_siv.go. AES is an arbitrary function from keys and 16-byte blocks to 16-byte
    blocks; crypto/cipher's CTR stream is modelled as documented (big-endian 128-bit counter). *)
From Coq Require Import List Bool ZArith.
From Verif Require Import BytesModel CodecModel CodecSpec.
Import ListNotations.
Open Scope Z_scope.

(** block[j] ^= x[j] for j < len x, the rest of the block unchanged *)
Fixpoint xor_onto (x block : list Z) : list Z :=
  match x, block with
  | a :: x', b :: block' => Z.lxor b a :: xor_onto x' block'
  | _, _ => block
  end.
(** block[off+j] ^= x[j] *)
Definition xor_at (off : nat) (x block : list Z) : list Z :=
  firstn off block ++ xor_onto x (skipn off block).
(** aes_siv.go:240-244 xorBlock: 16 bytes *)
Definition xor_block (x block : list Z) : list Z := xor_onto (firstn 16 x) block.

Definition zero_block : list Z := repeat 0 16.

(** aes_siv.go:85-92 multiplyByX, the loop over block[i], block[i+1], and the final byte *)
Fixpoint mulx_loop (carry : Z) (l : list Z) : list Z :=
  match l with
  | [] => []
  | [b] => [Z.lxor ((b * 2) mod 256) (if carry =? 1 then 135 else 0)]
  | b :: ((b' :: _) as l') => Z.lor ((b * 2) mod 256) (Z.shiftr b' 7) :: mulx_loop carry l'
  end.
Definition multiply_by_x (block : list Z) : list Z :=
  mulx_loop (Z.shiftr (nth 0 block 0) 7) block.

Section Aes.
  Variable aes : list Z -> list Z -> list Z.     (* key, block *)

  Record siv_key := { k1 : list Z; k2 : list Z; cmacK1 : list Z; cmacK2 : list Z }.

  (** aes_siv.go:52-80 NewAESSIV: None is the error for a key that is not 64 bytes *)
  Definition new_aes_siv (key : list Z) : option siv_key :=
    if Nat.eqb (length key) 64 then
      let k1' := firstn 32 key in
      let b1 := multiply_by_x (aes k1' zero_block) in
      let b2 := multiply_by_x b1 in
      Some {| k1 := k1'; k2 := skipn 32 key; cmacK1 := b1; cmacK2 := b2 |}
    else None.

  Section WithKey.
    Variable K : siv_key.
    Definition enc (b : list Z) : list Z := aes (k1 K) b.

    (** aes_siv.go:219-224 the loop over the first numBs-1 blocks *)
    Fixpoint cmac_loop (n : nat) (data block : list Z) (idx : nat) : list Z * nat :=
      match n with
      | O => (block, idx)
      | S n' => cmac_loop n' data (enc (xor_block (firstn 16 (skipn idx data)) block)) (idx + 16)
      end.
    (** aes_siv.go:211-237 cmac *)
    Definition cmac (data : list Z) : list Z :=
      let numBs := Nat.div (length data + 15) 16 in
      let numBs := if Nat.eqb numBs 0 then 1%nat else numBs in
      let lastBSize := (length data - (numBs - 1) * 16)%nat in
      let '(block, idx) := cmac_loop (numBs - 1) data zero_block 0 in
      let block := xor_onto (firstn lastBSize (skipn idx data)) block in
      let block := if Nat.eqb lastBSize 16 then xor_block (cmacK1 K) block
                   else xor_block (cmacK2 K) (xor_at lastBSize [128] block) in
      enc block.

    (** aes_siv.go:184-189 the loop of cmacLong: returns the block and the remaining data *)
    Fixpoint cmac_long_loop (fuel : nat) (block rest : list Z) : list Z * list Z :=
      match fuel with
      | O => (block, rest)
      | S f => if Nat.leb 16 (length rest)
               then cmac_long_loop f (xor_block (firstn 16 rest) (enc block)) (skipn 16 rest)
               else (block, rest)
      end.
    (** aes_siv.go:180-208 cmacLong (len(data) >= 16); fuel len(data) is enough *)
    Definition cmac_long (data last : list Z) : list Z :=
      let '(block, rest) := cmac_long_loop (length data) (firstn 16 data) (skipn 16 data) in
      let remaining := length rest in
      let block := xor_at remaining (firstn (16 - remaining) last) block in
      let block :=
        if Nat.eqb remaining 0 then xor_block (cmacK1 K) block
        else let b := enc block in
             let b := xor_onto rest (xor_onto (skipn (16 - remaining) last) b) in
             xor_block (cmacK2 K) (xor_at remaining [128] b) in
      enc block.

    (** aes_siv.go:156-174 s2v *)
    Definition s2v (msg ad : list Z) : list Z :=
      let block := multiply_by_x (cmac zero_block) in
      let block := xor_block (cmac ad) block in
      if Nat.leb 16 (length msg) then cmac_long msg block
      else
        let block := multiply_by_x block in
        let block := xor_onto msg block in
        cmac (xor_at (length msg) [128] block).

    (** crypto/cipher CTR: block i of the key stream encrypts the counter iv + i mod 2^128 *)
    Definition ctr_stream (iv : list Z) (n : nat) : list Z :=
      firstn n (flat_map (fun i => aes (k2 K) (be_n 16 ((of_be iv + Z.of_nat i) mod 2 ^ 128)))
                         (seq 0 (S (n / 16)))).
    (** aes_siv.go:136-152 ctrCrypt: clears the top bits of iv[8] and iv[12]; XORKeyStream *)
    Definition clear_iv (siv : list Z) : list Z :=
      let iv := firstn 8 siv ++ Z.land (nth 8 siv 0) 127 :: skipn 9 siv in
      firstn 12 iv ++ Z.land (nth 12 iv 0) 127 :: skipn 13 iv.
    Definition ctr_crypt (siv inp : list Z) : list Z :=
      map (fun p => Z.lxor (fst p) (snd p)) (combine inp (ctr_stream (clear_iv siv) (length inp))).

    (** aes_siv.go:95-109 EncryptDeterministically; plaintexts longer than maxInt-16 (an error) do not
        fit in memory and are not modelled *)
    Definition siv_encrypt (pt ad : list Z) : list Z :=
      let siv := s2v pt ad in
      siv ++ ctr_crypt siv pt.

    (** aes_siv.go:112-132 DecryptDeterministically: None is the error *)
    Fixpoint diff_acc (a b : list Z) : Z :=
      match a, b with x :: a', y :: b' => Z.lor (Z.lxor x y) (diff_acc a' b') | _, _ => 0 end.
    Definition siv_decrypt (ct ad : list Z) : option (list Z) :=
      if Nat.ltb (length ct) 16 then None
      else
        let siv := firstn 16 ct in
        let pt := ctr_crypt siv (skipn 16 ct) in
        if diff_acc siv (s2v pt ad) =? 0 then Some pt else None.
  End WithKey.
End Aes.

(** ---- crypto/secret/encrypt.go:29-127: only the byte layout of Encrypt and Decrypt is modelled.
    [seal]/[open_] stand for AES-GCM under the shared secret of the Kyber encapsulation. ---- *)
Section Secret.
  Variable acc_size ct_size nonce_size : nat.     (* 60, 1088, 12 *)
  Variable acc : Type.
  Variable marshal : acc -> list Z.
  Variable unmarshal : list Z -> option acc.
  Variable encaps_ct encaps_ss : acc -> list Z.  (* from the keypair derived from the accumulator *)
  Variable decaps : acc -> list Z -> list Z.
  Variable seal : list Z -> list Z -> list Z -> list Z.            (* key nonce plaintext *)
  Variable open_ : list Z -> list Z -> list Z -> option (list Z).
  Variable witness_ok : acc -> bool.

  (** encrypt.go:29-70 *)
  Definition secret_encrypt (a : acc) (nonce msg : list Z) : option (list Z) :=
    if Nat.eqb (length (marshal a)) acc_size then
      Some ((encaps_ct a ++ nonce) ++ seal (encaps_ss a) nonce (marshal a ++ msg))
    else None.
  (** encrypt.go:73-127 *)
  Definition secret_decrypt (data : list Z) : option (list Z) :=
    if Nat.ltb (length data) (ct_size + acc_size) then None
    else match unmarshal (firstn acc_size data) with
         | None => None
         | Some a =>
             let ct := firstn ct_size (skipn acc_size data) in
             let ss := decaps a ct in
             if Nat.ltb (length data) (acc_size + ct_size + nonce_size) then None
             else
               let nonce := firstn nonce_size (skipn (acc_size + ct_size) data) in
               let c := skipn (acc_size + ct_size + nonce_size) data in
               match open_ ss nonce c with
               | None => None
               | Some pt => if witness_ok a then Some pt else None
               end
         end.
End Secret.
