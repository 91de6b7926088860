(** Byte codecs of the crypto packages: I2OSP/OS2IP, ECDSA signature and EC point encodings,
    scalar byte reversal, RFC6979 octet conversions, hex printing, compact signatures. *)
From Coq Require Import List Bool ZArith.
From Verif Require Import BytesModel.
Import ListNotations.
Open Scope Z_scope.

(** crypto/core/hash.go:78-87 I2OSP. [n] is a Go int; negative [n] (which panics) is not modelled.
    new(big.Int).SetInt64(b).Bytes() is the minimal encoding of |b|. *)
Definition i2osp (b : Z) (n : nat) : list Z :=
  let os := be_bytes b in
  if Nat.ltb (length os) n then repeat 0 (n - length os) ++ os else firstn n os.

(** crypto/core/hash.go:89-91 OS2IP *)
Definition os2ip (os : list Z) : Z := of_be os.

(** Go copy(buf[lo:hi], src) for a fixed array, 0 <= lo <= hi <= len(buf), with exactly
    min(hi-lo, len src) bytes copied *)
Definition copy_into (buf : list Z) (lo hi : nat) (src : list Z) : list Z :=
  let k := Nat.min (hi - lo) (length src) in
  firstn lo buf ++ firstn k src ++ skipn (lo + k) buf.

(** curves.EcdsaSignature *)
Record ecdsa_sig := { sig_v : Z; sig_r : Z; sig_s : Z }.

(** crypto/signatures/ecdsa/ecdsa_signature.go:11-20 SerializeSecp256k1Signature.
    None: the slice bound 33-len(rBytes) or 66-len(sBytes) is negative and Go panics. *)
Definition serialize_sig (s : ecdsa_sig) : option (list Z) :=
  let rB := be_bytes (sig_r s) in
  let sB := be_bytes (sig_s s) in
  let buf := (sig_v s mod 256) :: repeat 0 65 in
  if Nat.leb (length rB) 33 then
    let buf := copy_into buf (33 - length rB) 33 rB in
    if Nat.leb (length sB) 66 then Some (copy_into buf (66 - length sB) 66 sB) else None
  else None.

(** crypto/signatures/ecdsa/ecdsa_signature.go:23-33 DeserializeSecp256k1Signature.
    None is the returned error. *)
Definition deserialize_sig (b : list Z) : option ecdsa_sig :=
  if Nat.eqb (length b) 66 then
    Some {| sig_v := nth 0 b 0; sig_r := of_be (firstn 32 (skipn 1 b)); sig_s := of_be (skipn 33 b) |}
  else None.

(** crypto/core/curves/ec_point.go:21-35: the two curve tables *)
Inductive curve := Secp256k1 | P224 | P256 | P384 | P521 | OtherCurve (name : nat).
Definition curve_id (c : curve) : option Z :=
  match c with
  | Secp256k1 => Some 0 | P224 => Some 1 | P256 => Some 2 | P384 => Some 3 | P521 => Some 4
  | OtherCurve _ => None
  end.
Definition curve_of_id (b : Z) : option curve :=
  if b =? 0 then Some Secp256k1 else if b =? 1 then Some P224 else if b =? 2 then Some P256
  else if b =? 3 then Some P384 else if b =? 4 then Some P521 else None.
(** crypto/internal/point.go:16-19 CalcFieldSize; BitSize of the named curves *)
Definition curve_bits (c : curve) : nat :=
  match c with Secp256k1 => 256 | P224 => 224 | P256 => 256 | P384 => 384 | P521 => 521 | OtherCurve _ => 255 end.
Definition field_size (c : curve) : nat := Nat.div (curve_bits c + 7) 8.

Record ec_point := { pt_curve : curve; pt_x : Z; pt_y : Z }.
Inductive outcome (A : Type) := Ok (a : A) | Err | Panic.
Arguments Ok {A}. Arguments Err {A}. Arguments Panic {A}.

(** crypto/core/curves/ec_point.go:83-92 EcPoint.MarshalBinary *)
Definition ecpoint_marshal (p : ec_point) : outcome (list Z) :=
  match curve_id (pt_curve p) with
  | None => Err
  | Some code =>
      match fill_bytes 32 (pt_x p), fill_bytes 32 (pt_y p) with
      | Some bx, Some by_ => Ok (code :: bx ++ by_)
      | _, _ => Panic
      end
  end.

(** crypto/core/curves/ec_point.go:94-102 EcPoint.UnmarshalBinary; data[0], data[1:33], data[33:65]
    panic when out of range *)
Definition ecpoint_unmarshal (data : list Z) : outcome ec_point :=
  match data with
  | [] => Panic
  | b :: rest =>
      match curve_of_id b with
      | None => Err
      | Some c =>
          if Nat.leb 64 (length rest)
          then Ok {| pt_curve := c; pt_x := of_be (firstn 32 rest); pt_y := of_be (firstn 32 (skipn 32 rest)) |}
          else Panic
      end
  end.

(** crypto/core/curves/ec_point.go:206-213 EcPoint.Bytes *)
Definition ecpoint_bytes (p : ec_point) : outcome (list Z) :=
  let n := field_size (pt_curve p) in
  match fill_bytes n (pt_x p), fill_bytes n (pt_y p) with
  | Some bx, Some by_ => Ok (bx ++ by_)
  | _, _ => Panic
  end.

Section OnCurve.
  (** elliptic.Curve.IsOnCurve of the external curve implementations *)
  Variable on_curve : curve -> Z -> Z -> bool.

  (** crypto/core/curves/ec_point.go:104-117 IsValid, IsIdentity *)
  Definition pt_valid (p : ec_point) : bool :=
    on_curve (pt_curve p) (pt_x p) (pt_y p) || ((pt_x p =? 0) && (pt_y p =? 0)).

  (** crypto/core/curves/ec_point.go:217-231 PointFromBytesUncompressed *)
  Definition point_from_bytes (c : curve) (b : list Z) : outcome ec_point :=
    let n := field_size c in
    if Nat.eqb (length b) (n * 2) then
      let p := {| pt_curve := c; pt_x := of_be (firstn n b); pt_y := of_be (skipn n b) |} in
      if pt_valid p then Ok p else Err
    else Err.

  (** curve prime of elliptic.CurveParams *)
  Variable curve_p : curve -> Z.
  (** crypto/core/curves/ec_point.go:162-173 EcPoint.Neg *)
  Definition pt_neg (p : ec_point) : outcome ec_point :=
    let q := {| pt_curve := pt_curve p; pt_x := pt_x p; pt_y := curve_p (pt_curve p) - pt_y p |} in
    if pt_valid q then Ok q else Err.
End OnCurve.

(** crypto/internal/point.go:21-29 ReverseScalarBytes: out[i] = in[len-1-i] *)
Definition reverse_scalar_bytes (b : list Z) : list Z :=
  map (fun i => nth (length b - 1 - i) b 0) (seq 0 (length b)).

(** crypto/data.go:73-91 int2octets *)
Definition int2octets (v : Z) (rolen : nat) : list Z :=
  let out := be_bytes v in
  if Nat.ltb (length out) rolen then repeat 0 (rolen - length out) ++ out
  else if Nat.ltb rolen (length out) then skipn (length out - rolen) out
  else out.

(** crypto/data.go:110-123 hashToInt; orderBits is N.BitLen(), i.e. log2 N + 1 for N > 0 *)
Definition bit_len (n : Z) : Z := if n =? 0 then 0 else Z.log2 (Z.abs n) + 1.
Definition hash_to_int (h : list Z) (N : Z) : Z :=
  let orderBits := bit_len N in
  let orderBytes := Z.to_nat ((orderBits + 7) / 8) in
  let h := if Nat.ltb orderBytes (length h) then firstn orderBytes h else h in
  let ret := of_be h in
  let excess := Z.of_nat (length h) * 8 - orderBits in
  if 0 <? excess then Z.shiftr ret excess else ret.

(** crypto/data.go:94-101 bits2octets *)
Definition bits2octets (inp : list Z) (N : Z) (rolen : nat) : list Z :=
  let z1 := hash_to_int inp N in
  let z2 := z1 - N in
  if z2 <? 0 then int2octets z1 rolen else int2octets z2 rolen.

(** strconv.FormatInt(v, 16) for one byte: no leading zero; digits as ASCII codes *)
Definition hex_char (d : Z) : Z := if d <? 10 then 48 + d else 87 + d.
Definition format_byte_hex (v : Z) : list Z :=
  if v <? 16 then [hex_char v] else [hex_char (v / 16); hex_char (v mod 16)].
(** crypto/data.go:129-140 bytesToHexString (and SignToString 125-127) *)
Definition bytes_to_hex_string (b : list Z) : list Z :=
  flat_map (fun v => let t := format_byte_hex v in
                     if Nat.ltb 1 (length t) then t else 48 :: t) b.

Section SignCompact.
  (** btcec ecdsa.RecoverCompact(sig, hash): the recovered public key point, if any *)
  Variable recover : list Z -> list Z -> option (Z * Z).
  (** crypto/data.go:25-44 the body of one iteration of SignCompact's loop: header byte, R and S
      padded to curvelen = 32 bytes. (27 + byte(i) and += 4 never overflow a byte for i < 4.) *)
  Definition pad32 (x : Z) : list Z :=
    let bytelen := Z.to_nat ((bit_len x + 7) / 8) in
    (if Nat.ltb bytelen 32 then repeat 0 (32 - bytelen) else []) ++ be_bytes x.
  Definition compact_candidate (i : Z) (r s : Z) (compressed : bool) : list Z :=
    (27 + i + (if compressed then 4 else 0)) :: pad32 r ++ pad32 s.
  (** crypto/data.go:15-51 SignCompact on secp256k1 (BitSize 256): first i in 0..3 whose recovered
      key is the given one *)
  Fixpoint sign_compact_from (fuel : nat) (i : Z) (r s : Z) (pk : Z * Z) (h : list Z) (c : bool) : option (list Z) :=
    match fuel with
    | O => None
    | S f =>
        let result := compact_candidate i r s c in
        match recover result h with
        | Some (x, y) => if (x =? fst pk) && (y =? snd pk) then Some result
                         else sign_compact_from f (i + 1) r s pk h c
        | None => sign_compact_from f (i + 1) r s pk h c
        end
    end.
  Definition sign_compact r s pk h c := sign_compact_from 4 0 r s pk h c.
End SignCompact.

(** crypto/core/mod.go:38-70 ConstantTimeEq on non-nil integers: equal byte strings and signs *)
Definition list_eqb (a b : list Z) : bool := if list_eq_dec Z.eq_dec a b then true else false.
Definition ct_eq (a b : Z) : bool := list_eqb (be_bytes a) (be_bytes b) && (Z.sgn a =? Z.sgn b).
(** crypto/core/mod.go:74-85 In *)
Definition in_zm (x m : Z) : bool := negb (x <? 0) && (x <? m).
(** crypto/core/mod.go:88-144 Add, Mul, Exp, Neg, Inv on non-nil arguments; big.Int.Mod is the
    Euclidean remainder (result in [0,|m|)), which for m > 0 is Z.modulo; m = 0 panics (not modelled).
    big.Int.Exp with y <= 0 and m <> 0: y = 0 gives 1 mod m, y < 0 uses the modular inverse (not modelled).
    big.Int.ModInverse is given by the extended Euclid result reduced into [0,m). *)
Definition mod_add (x y m : Z) : Z := (x + y) mod m.
Definition mod_mul (x y m : Z) : Z := (x * y) mod m.
Definition mod_exp (x y m : Z) : Z := (x ^ y) mod m.
Definition mod_neg (x m : Z) : Z := (- x) mod m.
(** extended Euclid, the algorithm of math/big's ModInverse (lehmerGCD computes the same cofactors);
    [fuel] only has to exceed b *)
Fixpoint ext_gcd (fuel : nat) (a b : Z) : Z * Z * Z :=
  match fuel with
  | O => (1, 0, a)
  | S f => if b =? 0 then (1, 0, a)
           else let '(u, v, d) := ext_gcd f b (a mod b) in (v, u - (a / b) * v, d)
  end.
Definition mod_inv (x m : Z) : option Z :=
  let '(u, v, d) := ext_gcd (S (Z.to_nat m)) (x mod m) m in
  if d =? 1 then Some (u mod m) else None.
