(** RFC 4493 CMAC and RFC 5297 S2V/SIV, written from the RFCs. *)
From Coq Require Import List Bool ZArith.
From Verif Require Import BytesModel CodecSpec HashSpec.
Import ListNotations.
Open Scope Z_scope.

(** doubling in GF(2^128): shift the 128-bit string left, xor 0x87 if the dropped bit was 1 *)
Definition dbl (b : list Z) : list Z :=
  let v := of_be b in
  be_n 16 (if v <? 2 ^ 127 then 2 * v else Z.lxor (2 * v - 2 ^ 128) 135).

Section Cmac.
  Variable E : list Z -> list Z.
  Definition sub1 : list Z := dbl (E (repeat 0 16)).
  Definition sub2 : list Z := dbl sub1.
  (** message block i (from 0) *)
  Definition mblock (M : list Z) (i : nat) : list Z := firstn 16 (skipn (16 * i) M).
  (** 10* padding to 16 bytes *)
  Definition pad (b : list Z) : list Z := b ++ 128 :: repeat 0 (15 - length b).
  (** n = ceil(len/16), at least 1 *)
  Definition nblocks (M : list Z) : nat := Nat.max 1 (Nat.div (length M + 15) 16).
  Definition mlast (M : list Z) : list Z :=
    let l := mblock M (nblocks M - 1) in
    if Nat.eqb (length l) 16 then strxor l sub1 else strxor (pad l) sub2.
  (** X_0 = 0; X_i = E(X_(i-1) xor M_i) *)
  Definition rfc_cmac (M : list Z) : list Z :=
    let X := fold_left (fun X i => E (strxor X (mblock M i))) (seq 0 (nblocks M - 1)) (repeat 0 16) in
    E (strxor X (mlast M)).
  (** A xorend B: xor B into the last 16 bytes of A *)
  Definition xorend (A B : list Z) : list Z :=
    firstn (length A - 16) A ++ strxor (skipn (length A - 16) A) B.
  (** S2V(AD, P) of RFC 5297 section 2.4 *)
  Definition rfc_s2v (AD P : list Z) : list Z :=
    let D := strxor (dbl (rfc_cmac (repeat 0 16))) (rfc_cmac AD) in
    rfc_cmac (if Nat.leb 16 (length P) then xorend P D else strxor (dbl D) (pad P)).
End Cmac.

(** SIV-ENCRYPT of RFC 5297 section 2.6: V || (P xor CTR stream from Q = V with bits 31 and 63 cleared) *)
Definition siv_counter (V : list Z) : Z :=
  Z.clearbit (Z.clearbit (of_be V) 63) 31.
Section Siv.
  Variable E1 E2 : list Z -> list Z.
  (** byte j of the key stream: byte (j mod 16) of E2(Q + j/16 mod 2^128) *)
  Definition stream_byte (Q : Z) (j : nat) : Z :=
    nth (j mod 16) (E2 (be_n 16 ((Q + Z.of_nat (j / 16)) mod 2 ^ 128))) 0.
  Definition rfc_siv (AD P : list Z) : list Z :=
    let V := rfc_s2v E1 AD P in
    V ++ map (fun j => Z.lxor (nth j P 0) (stream_byte (siv_counter V) j)) (seq 0 (length P)).
End Siv.
