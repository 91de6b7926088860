(** crypto/signatures/bls/bls_sig: lib.go, usual_bls_sig.go, usual_bls.go (keys in G1, signatures in G2). tiny_bls_sig.go
    and tiny_bls.go are the same code with G1 and G2 exchanged, except that tiny SigAugVt.Sign has no empty-message check.

    V1, V2, VT are the prime-order groups as vector spaces over the scalar field F, [e] the pairing, G curve G1's
    generator, [hash msg dst] G2.Hash. A stored point is [In v] or, outside the prime-order subgroup, [Off]; a nil
    pointer and a nil message are None. [enc1] and [enc2] are ToCompressed, [dec1] and [dec2] FromCompressed (None = error;
    it checks the subgroup). Randomness is an argument. Not represented: HKDF key derivation (SecretKey.Generate). *)
From mathcomp Require Import all_ssreflect all_algebra.
From Coq Require Import BinNat.
From Verif Require Import AlgBase PairingBase ShamirModel ByteVec SchnorrModel.
Delimit Scope nat_scope with N.
Delimit Scope N_scope with num.
Set Implicit Arguments.
Unset Strict Implicit.
Unset Printing Implicit Defensive.
Import GRing.Theory.
Local Open Scope ring_scope.

Inductive bls_err :=
  | BlNilMessage | BlZeroKey | BlKey | BlArgs | BlSubgroup | BlNoKey | BlNoMsg | BlCounts | BlNil | BlNoSig | BlDistinct
  | BlEmpty | BlDst | BlLen | BlZeros | BlScalar | BlPoint | BlIdentity | BlFew | BlMany | BlDup | BlRecombine
  | BlThreshold | BlShamir of serr.

Inductive point (V : Type) := In of V | Off.
Arguments In {V}.
Arguments Off {V}.

(** internal/point.go:21-29 ReverseScalarBytes *)
Definition rev_bytes (b : bytes) : bytes := rev b.
(** copy into a zeroed 32-byte array *)
Definition fit32b (b : bytes) : bytes := take 32 (b ++ nseq 32 0%num).

Section Bls.
  Variables (F : fieldType) (V1 V2 VT : lmodType F) (e : pairing V1 V2 VT) (G : V1).
  Variables (hash : bytes -> bytes -> V2).
  Variables (enc1 : V1 -> bytes) (dec1 : bytes -> option V1) (enc2 : V2 -> bytes) (dec2 : bytes -> option V2).
  (** little-endian native.Field Bytes and SetBytes of a 32-byte array *)
  Variables (le_bytes : F -> bytes) (le_set : bytes -> option F).
  (** the outcome of the pairing equation for a key outside the subgroup, not determined by the bilinear model *)
  Variable off_check : bytes -> bytes -> V2 -> bool.

  (** lib.go:41-51 allRowsUnique: [seen] is the map *)
  Fixpoint rows_unique (seen : seq bytes) (rows : seq bytes) : bool :=
    match rows with
    | [::] => true
    | r :: rest => if r \in seen then false else rows_unique (r :: seen) rest
    end.
  Definition all_rows_unique (rows : seq bytes) : bool := rows_unique [::] rows.

  (** lib.go:102-105 SecretKey.MarshalBinary *)
  Definition sk_marshal (sk : F) : bytes := rev_bytes (le_bytes sk).
  (** lib.go:110-126 SecretKey.UnmarshalBinary *)
  Definition sk_unmarshal (data : bytes) : res bls_err F :=
    if size data != 32%N then Err BlLen
    else if data == nseq (size data) 0%num then Err BlZeros
    else match le_set (fit32b (rev_bytes data)) with None => Err BlScalar | Some v => Ok v end.

  (** lib.go:129-132 SecretKeyShare{identifier, value} *)
  Definition key_share := (nat * bytes)%type.
  (** lib.go:135-141 SecretKeyShare.MarshalBinary: blob[:l] and blob[l] panic beyond the array *)
  Definition share_marshal (s : key_share) : res bls_err bytes :=
    let l := size s.2 in
    if (32 < l)%N then Panic
    else Ok (s.2 ++ N.of_nat s.1 :: nseq (32 - l) 0%num).
  (** lib.go:144-158 SecretKeyShare.UnmarshalBinary *)
  Definition share_unmarshal (data : bytes) : res bls_err key_share :=
    if size data != 33%N then Err BlLen
    else if data == nseq (size data) 0%num then Err BlZeros
    else Ok (N.to_nat (nth 0%num data 32), take 32 data).

  (** sharing's Scalar.Bytes of this curve (core/curves/bls12381_curve.go:238-241) *)
  Definition be_bytes (x : F) : bytes := rev_bytes (le_bytes x).

  (** lib.go:162-208 thresholdizeSecretKey; the count check after Split (186-188) is not represented *)
  Definition thresholdize (sk : F) (threshold total : nat) (rnd : seq F) : res bls_err (seq key_share) :=
    if (total < threshold)%N then Err BlThreshold
    else if threshold == 0%N then Err BlThreshold
    else if (total <= 1)%N then Err BlThreshold
    else if (255 < total)%N || (255 < threshold)%N then Err BlThreshold
    else match rbind (new_shamir threshold total false) (fun s => split be_bytes s sk rnd) with
         | Ok shares => Ok [seq (s.1 %% 256, s.2)%N | s <- shares]
         | Err x => Err (BlShamir x)
         | Panic => Panic
         end.

  (** usual_bls_sig.go:157-164 GetPublicKey; a multiple of the generator is in the subgroup *)
  Definition get_public_key (sk : F) : res bls_err V1 :=
    let r := sk *: G in if r == 0 then Err BlKey else Ok r.

  (** usual_bls_sig.go:42-45, 53-69 PublicKey MarshalBinary, UnmarshalBinary *)
  Definition pk_unmarshal (data : bytes) : res bls_err V1 :=
    if size data != 48%N then Err BlLen
    else match dec1 data with
         | None => Err BlPoint
         | Some p => if p == 0 then Err BlIdentity else Ok p
         end.
  (** usual_bls_sig.go:132-153 Signature.UnmarshalBinary; ProofOfPossession and MultiSignature call it *)
  Definition sig_unmarshal (data : bytes) : res bls_err V2 :=
    if size data != 96%N then Err BlLen
    else match dec2 data with
         | None => Err BlPoint
         | Some p => if p == 0 then Err BlIdentity else Ok p
         end.

  (** usual_bls_sig.go:174-187 createSignature *)
  Definition create_signature (sk : F) (msg : option bytes) (dst : bytes) : res bls_err V2 :=
    match msg with
    | None => Err BlNilMessage
    | Some m => if sk == 0 then Err BlZeroKey else Ok (sk *: hash m dst)
    end.

  (** usual_bls_sig.go:191-208 verifySignature *)
  Definition verify_signature (pk : point V1) (msg : option bytes) (sg : option (point V2)) (dst : bytes) : res bls_err bool :=
    match sg, msg with
    | Some s, Some m =>
        if (if pk is In p then p == 0 else false) then Err BlArgs
        else match s with
             | Off => Err BlSubgroup
             | In s =>
                 if s == 0 then Err BlSubgroup
                 else match pk with
                      | In p => Ok (e p (hash m dst) + e (- G) s == 0)
                      | Off => Ok (off_check m dst s)
                      end
             end
    | _, _ => Err BlArgs
    end.

  (** the loop usual_bls_sig.go:118-127: the sum of the pairings added to the engine *)
  Fixpoint add_pairs (pks : seq (option (point V1))) (msgs : seq bytes) (dst : bytes) : res bls_err VT :=
    match pks with
    | [::] => Ok 0
    | pk :: rest =>
        match pk with
        | None => Err BlNil
        | Some Off => Err BlSubgroup
        | Some (In p) =>
            if p == 0 then Err BlSubgroup
            else rbind (add_pairs rest (behead msgs) dst) (fun t => Ok (e p (hash (head [::] msgs) dst) + t))
        end
    end.
  (** usual_bls_sig.go:98-130 coreAggregateVerify *)
  Definition aggregate_verify (sg : point V2) (pks : seq (option (point V1))) (msgs : seq bytes) (dst : bytes) : res bls_err bool :=
    if (size pks < 1)%N then Err BlNoKey
    else if (size msgs < 1)%N then Err BlNoMsg
    else if size pks != size msgs then Err BlCounts
    else match sg with
         | Off => Err BlSubgroup
         | In s => rbind (add_pairs pks msgs dst) (fun t => Ok (t + e (- G) s == 0))
         end.

  (** the loops of usual_bls_sig.go:211-226 aggregatePublicKeys and 229-244 aggregateSignatures *)
  Fixpoint sum_points (V : lmodType F) (acc : V) (l : seq (option (point V))) : res bls_err V :=
    match l with
    | [::] => Ok acc
    | None :: _ => Err BlNil
    | Some Off :: _ => Err BlSubgroup
    | Some (In p) :: rest => sum_points (acc + p) rest
    end.
  Definition aggregate_public_keys (pks : seq (option (point V1))) : res bls_err V1 :=
    if (size pks < 1)%N then Err BlNoKey else sum_points 0 pks.
  Definition aggregate_signatures (sigs : seq (option (point V2))) : res bls_err V2 :=
    if (size sigs < 1)%N then Err BlNoSig else sum_points 0 sigs.

  (** usual_bls.go:128-130 SigBasic.Sign, 146-148 Verify are createSignature and verifySignature with the scheme's tag;
      usual_bls.go:155-164 SigBasic.AggregateVerify, 360-369 SigPop.AggregateVerify *)
  Definition basic_aggregate_verify (pks : seq (option (point V1))) (msgs : seq bytes) (sigs : seq (option (point V2))) (dst : bytes)
    : res bls_err bool :=
    if ~~ all_rows_unique msgs then Err BlDistinct
    else rbind (aggregate_signatures sigs) (fun s => aggregate_verify (In s) pks msgs dst).

  (** usual_bls.go:209-224 SigAug.Sign *)
  Definition aug_sign (sk : F) (msg : bytes) (dst : bytes) : res bls_err V2 :=
    if size msg == 0%N then Err BlEmpty
    else rbind (get_public_key sk) (fun pk => create_signature sk (Some (enc1 pk ++ msg)) dst).
  (** usual_bls.go:249-256 SigAug.Verify; [encp] is ToCompressed of the possibly invalid point *)
  Definition aug_verify (pk : V1) (msg : bytes) (sg : option (point V2)) (dst : bytes) : res bls_err bool :=
    verify_signature (In pk) (Some (enc1 pk ++ msg)) sg dst.
  (** usual_bls.go:262-278 SigAug.AggregateVerify; a nil key is a nil dereference in MarshalBinary *)
  Definition aug_aggregate_verify (pks : seq V1) (msgs : seq bytes) (sigs : seq (option (point V2))) (dst : bytes) : res bls_err bool :=
    if size pks != size msgs then Err BlCounts
    else let data := [seq enc1 x.1 ++ x.2 | x <- zip pks msgs] in
         rbind (aggregate_signatures sigs) (fun s => aggregate_verify (In s) [seq Some (In p) | p <- pks] data dst).

  (** usual_bls.go:303-308 NewSigPopWithDst *)
  Definition new_sig_pop (sign_dst pop_dst : bytes) : res bls_err (bytes * bytes) :=
    if sign_dst == pop_dst then Err BlDst else Ok (sign_dst, pop_dst).
  (** usual_bls.go:408-414 SigPop.FastAggregateVerify *)
  Definition fast_aggregate_verify (pks : seq (option (point V1))) (msg : option bytes) (asig : option (point V2)) (dst : bytes)
    : res bls_err bool :=
    rbind (aggregate_public_keys pks) (fun apk => verify_signature (In apk) msg asig dst).
  (** usual_bls.go:420-428 FastAggregateVerifyConstituent *)
  Definition fast_aggregate_verify_constituent (pks : seq (option (point V1))) (msg : option bytes) (sigs : seq (option (point V2)))
    (dst : bytes) : res bls_err bool :=
    rbind (aggregate_signatures sigs) (fun s => fast_aggregate_verify pks msg (Some (In s)) dst).
  (** usual_bls_sig.go:257-271 createProofOfPossession; usual_bls.go:435-437 PopProve *)
  Definition pop_prove (sk : F) (pop_dst : bytes) : res bls_err V2 :=
    rbind (get_public_key sk) (fun pk => create_signature sk (Some (enc1 pk)) pop_dst).
  (** usual_bls_sig.go:300-309 ProofOfPossession.verify; usual_bls.go:444-446 PopVerify *)
  Definition pop_verify (pk : option V1) (pop : point V2) (pop_dst : bytes) : res bls_err bool :=
    match pk with
    | None => Err BlArgs
    | Some p => verify_signature (In p) (Some (enc1 p)) (Some pop) pop_dst
    end.

  (** usual_bls_sig.go:403-420 partialSign *)
  Definition partial_sign (s : key_share) (msg : bytes) (dst : bytes) : res bls_err (nat * point V2) :=
    if size msg == 0%N then Err BlEmpty
    else match le_set (fit32b (rev_bytes s.2)) with
         | None => Err BlScalar
         | Some x => Ok (s.1, In (x *: hash msg dst))
         end.
  (** usual_bls.go:227-239 SigAug.PartialSign *)
  Definition aug_partial_sign (s : key_share) (pk : V1) (msg : bytes) (dst : bytes) : res bls_err (nat * point V2) :=
    if size msg == 0%N then Err BlEmpty else partial_sign s (enc1 pk ++ msg) dst.

  (** usual_bls_sig.go:470-491 splitXY; [dup] is the map *)
  Fixpoint split_xy (dup : seq nat) (ps : seq (option (nat * point V2))) : res bls_err (seq F * seq V2) :=
    match ps with
    | [::] => Ok ([::], [::])
    | None :: _ => Err BlNil
    | Some (i, s) :: rest =>
        if i \in dup then Err BlDup
        else match s with
             | Off => Err BlSubgroup
             | In v => rbind (split_xy (i :: dup) rest) (fun xy => Ok (i%:R :: xy.1, v :: xy.2))
             end
    end.
  (** usual_bls_sig.go:441-457: the basis of node i; a zero denominator is an error *)
  Definition basis_of (xs : seq F) (i : nat) : res bls_err F :=
    foldl (fun acc j => rbind acc (fun basis =>
             if i == j then Ok basis
             else let den := xs`_i - xs`_j in
                  if den == 0 then Err BlRecombine else Ok (basis * ((- xs`_j) * den^-1))))
          (Ok 1) (iota 0 (size xs)).
  (** usual_bls_sig.go:423-467 combineSigs *)
  Definition combine_sigs (ps : seq (option (nat * point V2))) : res bls_err V2 :=
    if (size ps < 2)%N then Err BlFew
    else if (255 < size ps)%N then Err BlMany
    else rbind (split_xy [::] ps) (fun xy =>
         foldl (fun acc i => rbind acc (fun sg =>
                  rbind (basis_of xy.1 i) (fun b => Ok (sg + b *: nth 0 xy.2 i))))
               (Ok 0) (iota 0 (size xy.1))).
End Bls.
