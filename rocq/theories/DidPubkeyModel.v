(** x/did's PublicKey: decoding of key bytes, signature verification, equality. *)
From Coq Require Import List Bool ZArith.
From Verif Require Import BytesModel CodecModel.
Import ListNotations.
Open Scope Z_scope.

(** proto/did/v1/genesis.proto:89-103 PublicKey; the string fields are kept as byte lists *)
Record public_key := { pk_key : list Z; pk_type : list Z; pk_did : list Z }.

(** x/did/types/pubkey.go:26-28 String *)
Definition pk_string (k : public_key) : list Z :=
  flat_map (fun b => [hex_char (b / 16); hex_char (b mod 16)]) (pk_key k).

(** x/did/types/pubkey.go:50-52 Equals; other.Bytes() is other's Key (pubkey.go:21-23) *)
Definition pk_equals (k o : public_key) : bool := if list_eq_dec Z.eq_dec (pk_key k) (pk_key o) then true else false.

(** x/did/types/pubkey.go:60-69 BuildEcPoint: pubKey[1:33] and pubKey[33:] panic on fewer than 33 bytes.
    (The curve conversion never fails for K256.) *)
Definition build_ec_point (b : list Z) : outcome (Z * Z) :=
  if Nat.ltb (length b) 33 then Panic else Ok (of_be (firstn 32 (skipn 1 b)), of_be (skipn 33 b)).

Section Verify.
  (** the curve group as the native package provides it: [embed x y] is SetBigInt on reduced coordinates
      (None: not on the curve; (0,0): the identity) and [xy] is BigInt(); [p], [N] are the field and group
      orders; [sha3] is SHA3-256 *)
  Variable V : Type.
  Variable add : V -> V -> V.
  Variable smul : Z -> V -> V.
  Variable G : V.
  Variable embed : Z -> Z -> option V.
  Variable xy : V -> Z * Z.
  Variables p N : Z.
  Variable sha3 : list Z -> list Z.

  (** crypto/core/curves/native/point.go:358-381 EllipticPoint.SetBigInt reduces both coordinates *)
  Definition set_big_int (x y : Z) : option V := embed (x mod p) (y mod p).

  (** crypto/core/curves/ecdsa.go:28-38 VerifyEcdsa: crypto/ecdsa.Verify of the Go library, which for a curve
      that is not one of its own runs its generic verifier on the methods of Koblitz256
      (crypto/core/curves/k256_curve.go:60-103).  Those return nil coordinates for a point that is not on the
      curve, on which the library's next step panics. *)
  Definition verify_ecdsa (x y : Z) (hash : list Z) (r s : Z) : outcome bool :=
    if (r <=? 0) || (s <=? 0) || (N <=? r) || (N <=? s) then Ok false
    else match mod_inv s N with
         | None => Panic
         | Some w =>
             let u1 := (hash_to_int hash N * w) mod N in
             let u2 := (r * w) mod N in
             let p1 := xy (smul u1 G) in
             match set_big_int x y with
             | None => Panic
             | Some Q =>
                 let p2 := xy (smul u2 Q) in
                 match set_big_int (fst p1) (snd p1), set_big_int (fst p2) (snd p2) with
                 | Some A, Some B =>
                     let pt := xy (add A B) in
                     if (fst pt =? 0) && (snd pt =? 0) then Ok false else Ok (fst pt mod N =? r)
                 | _, _ => Panic
                 end
             end
         end.

  (** x/did/types/pubkey.go:31-47 VerifySignature *)
  Definition verify_signature (k : public_key) (msg sig : list Z) : outcome bool :=
    match build_ec_point (pk_key k) with
    | Ok (x, y) =>
        match deserialize_sig sig with
        | None => Ok false
        | Some sg => verify_ecdsa x y (sha3 msg) (sig_r sg) (sig_s sg)
        end
    | Err => Ok false
    | Panic => Panic
    end.
End Verify.
