(** crypto/ted25519/ted25519: threshold Ed25519 (keygen.go, noncegen.go, partialsig.go, sigagg.go,
    ext.go, ed25519.go Verify). The scalar field is the field of p elements (p the Ed25519 group order),
    points are a vector space over it: points outside the prime-order subgroup are not represented.
    Byte strings are lists of naturals. [H] is SHA-512 followed by SetBytesWide (reduction mod p).
    ToAffineCompressed / FromAffineCompressed are [enc] / [decp]. *)
From mathcomp Require Import all_ssreflect all_algebra.
From Verif Require Import AlgBase ShamirModel SharingV1Model.
Set Implicit Arguments.
Unset Strict Implicit.
Unset Printing Implicit Defensive.
Import GRing.Theory.
Local Open Scope ring_scope.

Inductive terr := TShare of verr | TScalar | TNoSigs | TNonce | TShamirNew | TSplit | TFewVerifiers
  | TKeyLen | TSigLen | TPoint.

Definition lift {A} (r : res verr A) : res terr A :=
  match r with Ok a => Ok a | Err e => Err (TShare e) | Panic => Panic end.
(** an error replaced by another (fmt.Errorf without wrapping) *)
Definition relabel {E E' A} (e : E') (r : res E A) : res E' A :=
  match r with Ok a => Ok a | Err _ => Err e | Panic => Panic end.
(** an error answered by panic(err) *)
Definition must {E E' A} (r : res E A) : res E' A :=
  match r with Ok a => Ok a | _ => Panic end.

(** copy(dst[:], src) into a zeroed 32-byte array *)
Definition fit32 (bs : seq nat) : seq nat := take 32 (bs ++ nseq 32 0%N).
(** ext.go:42-50 reverseBytes *)
Definition reverse_bytes (bs : seq nat) : seq nat := rev bs.
(** binary.BigEndian.PutUint32 *)
Definition be4 (n : nat) : seq nat :=
  [:: (n %/ 256 %/ 256 %/ 256) %% 256; (n %/ 256 %/ 256) %% 256; (n %/ 256) %% 256; n %% 256]%N.

Section Ted.
  Variable p : nat.
  Local Notation F := ('F_p).
  Local Notation share1 := (share1 p).
  Variables (V : lmodType F) (G : V) (enc : V -> seq nat) (decp : seq nat -> option V).
  Variable H : seq nat -> F.

  (** core/curves/ed25519_curve.go:247-256 SetBytes, 286-288 SetBytesCanonical: 32 little-endian bytes
      of a number below the order *)
  Definition scalar_le (bs : seq nat) : res terr F :=
    if size bs != 32%N then Err TScalar
    else if (setb (rev bs) < p)%N then Ok (setb (rev bs))%:R else Err TScalar.
  (** ed25519_curve.go:241-243 Bytes: 32 bytes little-endian *)
  Definition scalar_bytes (s : F) : seq nat := fit32 (rev (getb (nat_of_ord s))).

  (** the loop keygen.go:164-175: coefficient bytes reversed, copied to 32 bytes, times the generator *)
  Fixpoint commit_coeffs (cs : seq F) : res terr (seq V) :=
    match cs with
    | [::] => Ok [::]
    | c :: rest =>
        rbind (scalar_le (fit32 (reverse_bytes (getb (nat_of_ord c))))) (fun s =>
        rbind (commit_coeffs rest) (fun l => Ok (s *: G :: l)))
    end.

  (** keygen.go:150-177 split; config.T, config.N are [t] and [n], [rnd] the random coefficients *)
  Definition split (secret : seq nat) (t n : nat) (rnd : seq F) : res terr (seq V * seq share1) :=
    rbind (relabel TShamirNew (new_shamir1 t n)) (fun s =>
    rbind (relabel TSplit (get_shares1 s secret rnd)) (fun r =>
    rbind (commit_coeffs r.2) (fun v => Ok (v, r.1)))).

  (** keygen.go:180-193 Reconstruct *)
  Definition reconstruct (shares : seq share1) (t n : nat) : res terr (seq nat) :=
    lift (rbind (new_shamir1 t n) (fun s => combine1 s shares)).

  (** the loop keygen.go:213-229: i *= x; the scalar is read, little-endian, from the big-endian bytes
      of i; rhs += commitments[j] * scalar *)
  Fixpoint vss_loop (x i : F) (rhs : V) (cs : seq V) : res terr V :=
    match cs with
    | [::] => Ok rhs
    | c :: rest =>
        let i' := i * x in
        rbind (relabel TScalar (scalar_le (fit32 (getb (nat_of_ord i'))))) (fun s =>
        vss_loop x i' (rhs + s *: c) rest)
    end.

  (** keygen.go:198-240 VerifyVSS *)
  Definition verify_vss (share : share1) (commitments : seq V) (t : nat) : res terr bool :=
    if (size commitments < t)%N then Err TFewVerifiers
    else rbind (lift (elem p (setb (be4 share.1)))) (fun x =>
         match commitments with
         | [::] => Panic
         | c0 :: cs =>
             rbind (vss_loop x 1 c0 cs) (fun rhs =>
             rbind (scalar_le (fit32 (reverse_bytes (getb (nat_of_ord share.2))))) (fun v =>
             Ok (v *: G == rhs)))
         end).

  (** sharing/v1/shamir.go:35-40 ShamirShare.Bytes *)
  Definition share_bytes (s : share1) : seq nat := be4 s.1 ++ getb (nat_of_ord s.2).
  (** keygen.go:68-75 KeyShareFromBytes: slicing panics below 4 bytes; the identifier is the first 4
      bytes big-endian *)
  Definition share_from_bytes (bs : seq nat) : res terr share1 :=
    if (size bs < 4)%N then Panic
    else rbind (lift (elem p (setb (drop 4 bs)))) (fun v => Ok (setb (take 4 bs), v)).

  (** noncegen.go:93-101 NonceShare.Add (v1 share Add), folded over the other nonce shares *)
  Fixpoint add_all (acc : share1) (l : seq share1) : res terr share1 :=
    match l with
    | [::] => Ok acc
    | o :: rest => rbind (lift (share_add acc o)) (fun s => add_all s rest)
    end.

  (** ext.go:17-29 GeAdd *)
  Definition ge_add (a b : seq nat) : res terr (seq nat) :=
    match decp a with
    | None => Panic
    | Some pa => match decp b with None => Panic | Some pb => Ok (enc (pa + pb)) end
    end.

  (** ext.go:58-123 ThresholdSign *)
  Definition threshold_sign (key pub msg rshare R : seq nat) : res terr (seq nat) :=
    if (size key == 0%N) || (32 < size key)%N then Panic
    else if (size rshare == 0%N) || (32 < size rshare)%N then Panic
    else let c := H (R ++ pub ++ msg) in
         rbind (must (scalar_le (fit32 key))) (fun x =>
         rbind (must (scalar_le (fit32 rshare))) (fun r =>
         let s := c * x + r in
         Ok (fit32 R ++ scalar_bytes s))).

  (** partialsig.go:18-21 PartialSignature *)
  Definition psig := (nat * seq nat)%type.
  (** partialsig.go:33-40 R, S *)
  Definition sig_R (s : seq nat) : seq nat := take 32 s.
  Definition sig_S (s : seq nat) : seq nat := drop 32 s.

  (** partialsig.go:25-30 NewPartialSignature *)
  Definition new_partial (id : nat) (sig : seq nat) : res terr psig :=
    if size sig != 64%N then Panic else Ok (id, sig).

  (** partialsig.go:48-55 TSign; byte(Identifier) truncates *)
  Definition tsign (msg : seq nat) (key : share1) (pub : seq nat) (nonce : share1) (noncePub : seq nat)
    : res terr psig :=
    rbind (threshold_sign (reverse_bytes (getb (nat_of_ord key.2))) pub msg
             (reverse_bytes (getb (nat_of_ord nonce.2))) noncePub) (fun sig =>
    new_partial (key.1 %% 256)%N sig).

  (** the loop sigagg.go:44-50 *)
  Fixpoint to_shares (sigs : seq psig) : res terr (seq share1) :=
    match sigs with
    | [::] => Ok [::]
    | s :: rest => rbind (lift (elem p (setb (reverse_bytes (sig_S s.2))))) (fun v =>
                   rbind (to_shares rest) (fun l => Ok ((s.1, v) :: l)))
    end.

  (** sigagg.go:19-62 Aggregate *)
  Definition aggregate (sigs : seq psig) (t n : nat) : res terr (seq nat) :=
    match sigs with
    | [::] => Err TNoSigs
    | s0 :: rest =>
        let R := sig_R s0.2 in
        if ~~ all (fun s => sig_R s.2 == R) rest then Err TNonce
        else rbind (lift (new_shamir1 t n)) (fun sh =>
             rbind (to_shares sigs) (fun shares =>
             rbind (lift (combine1 sh shares)) (fun sigS =>
             Ok (fit32 R ++ fit32 (reverse_bytes sigS)))))
    end.

  (** ed25519.go:233-287 Verify; sig[63]&224 != 0 is sig[63] >= 32 *)
  Definition verify (pub msg sig : seq nat) : res terr bool :=
    if size pub != 32%N then Err TKeyLen
    else if (size sig != 64%N) || (31 < nth 0%N sig 63)%N then Err TSigLen
    else match decp (fit32 pub) with
         | None => Err TPoint
         | Some A =>
             let negA := - A in
             let h := H (take 32 sig ++ pub ++ msg) in
             rbind (scalar_le (fit32 (drop 32 sig))) (fun s =>
             Ok (take 32 sig == enc (h *: negA + s *: G)))
         end.
End Ted.
