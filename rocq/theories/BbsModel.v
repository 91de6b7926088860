(** crypto/signatures/bbs and crypto/signatures/common/proof_committed_builder.go: BBS+ signatures.

    V1, V2, VT are the prime-order groups as vector spaces over the scalar field F, [e] the pairing, [g1] and [g2] the
    generators. Parameters: [hash] is Hash into the group of signatures, [enc1] ToAffineCompressed there, [uenc2]
    ToAffineUncompressed of a public key, [fbytes] Scalar.Bytes of the nonce, [wide] SetBytesWide of 64 bytes and [ext] the
    output of a Merlin transcript as a function of all operations made on it. A nil point is None. A Go map is the list of
    its entries in the order of one iteration, with distinct keys. Random values and the two values drawn from the
    deterministic generator (secret_key.go:116-118) are arguments. Not represented: byte codecs of the keys, type
    conversions that cannot fail, nil arguments. *)
From mathcomp Require Import all_ssreflect all_algebra.
From Coq Require Import BinNat String.
From Verif Require Import AlgBase PairingBase ByteVec SchnorrModel SimplestOtModel.
Delimit Scope nat_scope with N.
Delimit Scope N_scope with num.
Set Implicit Arguments.
Unset Strict Implicit.
Unset Printing Implicit Defensive.
Import GRing.Theory.
Local Open Scope ring_scope.

Inductive bbs_err :=
  | BbLength | BbGenerators | BbMessages | BbSecretKey | BbInverse | BbPublicKey | BbSignature | BbResult | BbMismatch
  | BbLimit | BbSecrets | BbIndex | BbProof | BbWide.

(** proof_message.go:17-76 ProofMessage: RevealedMessage, or one of the two hidden kinds with the blinding it returns *)
Inductive proof_message (F : Type) := Revealed of F | Hidden of F & F.
(** GetMessage, IsHidden *)
Definition pm_msg (F : Type) (m : proof_message F) : F := match m with Revealed x => x | Hidden x _ => x end.
Definition pm_hidden (F : Type) (m : proof_message F) : bool := if m is Hidden _ _ then true else false.

(** byte(n >> 24), byte(n >> 16), byte(n >> 8), byte(n) *)
Definition be4 (n : nat) : bytes :=
  [seq N.land (N.shiftr (N.of_nat n) s) 255%num | s <- [:: 24%num; 16%num; 8%num; 0%num]].

(** proof_committed_builder.go:15 *)
Definition pcb_limit : nat := 65535.

Section Bbs.
  Variables (F : fieldType) (V1 V2 VT : lmodType F) (e : pairing V1 V2 VT) (g1 : V1) (g2 : V2).
  Variables (hash : bytes -> V1) (enc1 : V1 -> bytes) (uenc2 : V2 -> bytes) (fbytes : F -> bytes).
  Variables (wide : bytes -> option F) (ext : transcript -> bytes).

  (** message_generators.go:30-35 MessageGenerators *)
  Record generators := Gens { g_h0 : V1; g_length : nat; g_state : bytes }.
  (** signature.go Signature, blind_signature.go BlindSignature *)
  Record signature := Sig { sg_a : V1; sg_e : F; sg_s : F }.

  (** message_generators.go:38-58 Init: 192 bytes of key (copy), 5 zero bytes, the length *)
  Definition gen_state (pk : V2) (n : nat) : bytes :=
    take 192 (uenc2 pk ++ nseq 192 0%num) ++ nseq 5 0%num ++ be4 n.
  Definition init (pk : V2) (length : int) : res bbs_err generators :=
    match length with
    | Negz _ => Err BbLength
    | Posz n => let st := gen_state pk n in Ok (Gens (hash st) n st)
    end.
  (** message_generators.go:60-77 Get: the index is written to a copy of the state, but msgg.state is hashed *)
  Definition get (g : generators) (i : int) : option V1 :=
    match i with
    | Negz _ => Some (g_h0 g)
    | Posz 0%N => Some (g_h0 g)
    | Posz n => if (g_length g < n)%N then None else Some (hash (g_state g))
    end.

  (** bls12381_curve.go:484-506 SumOfProducts: nil for a nil point or different lengths. The value is the sum of the
      products (C60 is about the algorithm that computes it). *)
  Definition sum_of_products (ps : seq (option V1)) (ss : seq F) : option V1 :=
    if all isSome ps then
      if size ps == size ss then Some (\sum_(x <- zip ps ss) x.2 *: odflt 0 x.1) else None
    else None.

  (** secret_key.go:144-159 computeB *)
  Definition compute_b (s : F) (msgs : seq F) (g : generators) : res bbs_err V1 :=
    match msgs with
    | [::] => Panic
    | _ :: _ =>
        let ps := Some g1 :: get g 0 :: [seq get g (Posz i.+1) | i <- iota 0 (size msgs)] in
        match sum_of_products ps (1 :: s :: msgs) with None => Panic | Some b => Ok b end
    end.

  (** secret_key.go:137-141 PublicKey *)
  Definition public_key (sk : F) : V2 := sk *: g2.

  (** secret_key.go:107-134 Sign; ee and s are the two values drawn *)
  Definition sign (sk : F) (g : generators) (msgs : seq F) (ee s : F) : res bbs_err signature :=
    if (g_length g < size msgs)%N then Err BbGenerators
    else if (size msgs < 1)%N then Err BbMessages
    else if sk == 0 then Err BbSecretKey
    else rbind (compute_b s msgs g) (fun b =>
         if ee + sk == 0 then Err BbInverse
         else Ok (Sig ((ee + sk)^-1 *: b) ee s)).

  (** public_key.go:44-73 Verify *)
  Definition verify (pk : V2) (sg : signature) (g : generators) (msgs : seq F) : res bbs_err unit :=
    if (g_length g < size msgs)%N then Err BbGenerators
    else if (size msgs < 1)%N then Err BbMessages
    else if pk == 0 then Err BbPublicKey
    else if sg_a sg == 0 then Err BbSignature
    else let a := sg_e sg *: g2 + pk in
         rbind (compute_b (sg_s sg) msgs g) (fun b =>
         if e (sg_a sg) a + e (- b) g2 == 0 then Ok tt else Err BbResult).

  (** proof_committed_builder.go:21-25 ProofCommittedBuilder: points and blinding scalars *)
  Definition builder := (seq (option V1) * seq F)%type.
  (** proof_committed_builder.go:37-44, 47-54 CommitRandom, Commit *)
  Definition commit (b : builder) (p : option V1) (r : F) : res bbs_err builder :=
    if (pcb_limit < size b.1)%N then Err BbLimit else Ok (rcons b.1 p, rcons b.2 r).
  (** proof_committed_builder.go:66-72 GetChallengeContribution *)
  Definition contribution (b : builder) : bytes :=
    match sum_of_products b.1 b.2 with None => [::] | Some c => enc1 c end.
  (** proof_committed_builder.go:75-86 GenerateProof *)
  Definition generate_proof (b : builder) (c : F) (secrets : seq F) : res bbs_err (seq F) :=
    if size secrets != size b.2 then Err BbSecrets
    else Ok [seq x.1 * c + x.2 | x <- zip secrets b.2].

  (** pok_signature.go:23-36 PokSignature *)
  Record pok := Pok { pk_a' : V1; pk_abar : V1; pk_d : V1; pk_proof1 : builder; pk_proof2 : builder;
                      pk_secrets1 : seq F; pk_secrets2 : seq F }.
  (** pok_signature_proof.go:21-25 PokSignatureProof *)
  Record pok_proof := PokProof { pp_a' : V1; pp_abar : V1; pp_d : V1; pp_proof1 : seq F; pp_proof2 : seq F }.

  (** pok_signature.go:106-114 the loop over the messages *)
  Fixpoint commit_hidden (g : generators) (i : nat) (msgs : seq (proof_message F)) (b : builder) (secrets : seq F)
    : res bbs_err (builder * seq F) :=
    match msgs with
    | [::] => Ok (b, secrets)
    | Revealed _ :: rest => commit_hidden g i.+1 rest b secrets
    | Hidden m bl :: rest =>
        rbind (commit b (get g (Posz i.+1)) bl) (fun b' => commit_hidden g i.+1 rest b' (rcons secrets m))
    end.

  (** pok_signature.go:39-130 NewPokSignature; r1, r2 from getNonZeroScalar, k1..k4 from CommitRandom *)
  Definition new_pok (sg : signature) (g : generators) (msgs : seq (proof_message F)) (r1 r2 k1 k2 k3 k4 : F)
    : res bbs_err pok :=
    if size msgs != g_length g then Err BbMismatch
    else if r1 == 0 then Err BbInverse
    else let r3 := r1^-1 in
      rbind (compute_b (sg_s sg) (map (@pm_msg F) msgs) g) (fun b =>
      let a' := r1 *: sg_a sg in
      let abar := r1 *: b - sg_e sg *: a' in
      match sum_of_products [:: Some b; Some (g_h0 g)] [:: r1; r2] with
      | None => Err BbSignature
      | Some d =>
          let s' := sg_s sg + r2 * r3 in
          rbind (commit ([::], [::]) (Some a') k1) (fun p1 =>
          rbind (commit p1 (Some (g_h0 g)) k2) (fun p1 =>
          rbind (commit ([::], [::]) (Some (- d)) k3) (fun p2 =>
          rbind (commit p2 (Some (g_h0 g)) k4) (fun p2 =>
          rbind (commit_hidden g 0 msgs p2 [:: r3; s']) (fun x =>
          Ok (Pok a' abar d p1 x.1 [:: sg_e sg; r2] x.2))))))
      end).

  (** pok_signature.go:134-140 GetChallengeContribution *)
  Definition pok_contribution (p : pok) (t : transcript) : transcript :=
    t ++ [:: TAppend "A'"%string (enc1 (pk_a' p)); TAppend "Abar"%string (enc1 (pk_abar p));
             TAppend "D"%string (enc1 (pk_d p)); TAppend "Proof1"%string (contribution (pk_proof1 p));
             TAppend "Proof2"%string (contribution (pk_proof2 p))].
  (** pok_signature.go:143-159 GenerateProof *)
  Definition pok_generate (p : pok) (c : F) : res bbs_err pok_proof :=
    rbind (generate_proof (pk_proof1 p) c (pk_secrets1 p)) (fun p1 =>
    rbind (generate_proof (pk_proof2 p) c (pk_secrets2 p)) (fun p2 =>
    Ok (PokProof (pk_a' p) (pk_abar p) (pk_d p) p1 p2))).

  (** pok_signature_proof.go:168-178 the points and scalars of the hidden messages, from index i on: n more messages,
      j is the next index into proof2 *)
  Fixpoint hidden_terms (g : generators) (revealed : seq (int * F)) (proof2 : seq F) (i j n : nat)
    : res bbs_err (seq (option V1) * seq F) :=
    match n with
    | O => Ok ([::], [::])
    | n'.+1 =>
        if Posz i \in unzip1 revealed then hidden_terms g revealed proof2 i.+1 j n'
        else if (size proof2 <= j)%N then Panic
        else rbind (hidden_terms g revealed proof2 i.+1 j.+1 n') (fun x =>
             Ok (get g (Posz i.+1) :: x.1, nth 0 proof2 j :: x.2))
    end.
  (** pok_signature_proof.go:127-183 GetChallengeContribution: the two commitments computed by the verifier; a negative
      capacity panics, and so does a method of a nil point *)
  Definition proof_commitments (p : pok_proof) (g : generators) (revealed : seq (int * F)) (c : F) : res bbs_err (V1 * V1) :=
    match pp_proof1 p with
    | x0 :: x1 :: _ =>
        match sum_of_products [:: Some (pp_abar p - pp_d p); Some (pp_a' p); Some (g_h0 g)] [:: c; x0; x1] with
        | None => Panic
        | Some c1 =>
            match sum_of_products (Some g1 :: [seq get g (x.1 + 1) | x <- revealed]) (1 :: unzip2 revealed) with
            | None => Panic
            | Some r =>
                if (g_length g < size revealed)%N then Panic
                else match pp_proof2 p with
                     | y0 :: y1 :: _ =>
                         rbind (hidden_terms g revealed (pp_proof2 p) 0 2 (g_length g)) (fun x =>
                         match sum_of_products ([:: Some r; Some (- pp_d p); Some (g_h0 g)] ++ x.1)
                                               ([:: c; y0; y1] ++ x.2) with
                         | None => Panic
                         | Some c2 => Ok (c1, c2)
                         end)
                     | _ => Panic
                     end
            end
        end
    | _ => Panic
    end.
  Definition proof_contribution (p : pok_proof) (g : generators) (revealed : seq (int * F)) (c : F) (t : transcript)
    : res bbs_err transcript :=
    rbind (proof_commitments p g revealed c) (fun x =>
    Ok (t ++ [:: TAppend "A'"%string (enc1 (pp_a' p)); TAppend "Abar"%string (enc1 (pp_abar p));
                 TAppend "D"%string (enc1 (pp_d p)); TAppend "Proof1"%string (enc1 x.1);
                 TAppend "Proof2"%string (enc1 x.2)])).
  (** pok_signature_proof.go:189-194 VerifySigPok *)
  Definition verify_sig_pok (p : pok_proof) (pk : V2) : bool :=
    [&& pk != 0, pp_a' p != 0, pp_abar p != 0 & e (pp_a' p) pk + e (pp_abar p) (- g2) == 0].
  (** pok_signature_proof.go:206-211, and what a prover does between GetChallengeContribution and GenerateProof
      (pok_signature_proof_test.go): the nonce is appended and 64 bytes are reduced to the challenge *)
  Definition pok_challenge (t : transcript) (nonce : F) : option F :=
    wide (ext (t ++ [:: TAppend "nonce"%string (fbytes nonce); TExtract "signature proof of knowledge"%string 64])).
  (** pok_signature_proof.go:197-213 Verify *)
  Definition pok_verify (p : pok_proof) (revealed : seq (int * F)) (pk : V2) (g : generators) (nonce c : F)
      (t : transcript) : res bbs_err bool :=
    rbind (proof_contribution p g revealed c t) (fun t' =>
    match pok_challenge t' nonce with
    | None => Ok false
    | Some c' => Ok (verify_sig_pok p pk && (c == c'))
    end).

  (** blind_signature_context.go:29-36 BlindSignatureContext *)
  Record context := Ctx { bc_commitment : V1; bc_challenge : F; bc_proofs : seq F }.
  (** blind_signature_context.go:81-87 and 180-183 the challenge *)
  Definition blind_challenge (random_commitment blind_commitment : bytes) (nonce : F) : option F :=
    wide (ext [:: TNew "new blind signature"%string; TAppend "random commitment"%string random_commitment;
                  TAppend "blind commitment"%string blind_commitment; TAppend "nonce"%string (fbytes nonce);
                  TExtract "blind signature context challenge"%string 64]).

  (** blind_signature_context.go:59-72 the loop over the map; [rnd] are the values CommitRandom draws, in order *)
  Fixpoint blind_loop (g : generators) (msgs : seq (int * F)) (rnd : seq F) (b : builder) : res bbs_err builder :=
    match msgs with
    | [::] => Ok b
    | (i, _) :: rest =>
        if (Posz (g_length g) < i) || (i < 0) then Err BbIndex
        else rbind (commit b (get g (i + 1)) (head 0 rnd)) (fun b' => blind_loop g rest (behead rnd) b')
    end.
  (** blind_signature_context.go:45-106 NewBlindSignatureContext; [blinding] is the signature blinding and [k] the last
      value drawn by CommitRandom *)
  Definition new_context (msgs : seq (int * F)) (g : generators) (nonce : F) (rnd : seq F) (blinding k : F)
    : res bbs_err (context * F) :=
    rbind (blind_loop g msgs rnd ([::], [::])) (fun b =>
    let secrets := rcons (unzip2 msgs) blinding in
    let points := rcons b.1 (get g 0) in
    rbind (commit b (get g 0) k) (fun b' =>
    match sum_of_products points secrets with
    | None => Panic
    | Some cm =>
        match blind_challenge (contribution b') (enc1 cm) nonce with
        | None => Err BbWide
        | Some c => rbind (generate_proof b' c secrets) (fun ps => Ok (Ctx cm c ps, blinding))
        end
    end)).

  (** blind_signature_context.go:169-178 the random commitment as the issuer recomputes it; None is nil *)
  Definition context_commitment (bc : context) (known : seq int) (g : generators) : option V1 :=
    sum_of_products ([seq get g (Posz i.+1) | i <- iota 0 (g_length g) & Posz i \notin known]
                     ++ [:: get g 0; Some (bc_commitment bc)])
                    (rcons (bc_proofs bc) (- bc_challenge bc)).
  (** blind_signature_context.go:160-193 Verify *)
  Definition context_verify (bc : context) (known : seq int) (g : generators) (nonce : F) : res bbs_err unit :=
    if has (fun i => Posz (g_length g) < i) known then Err BbIndex
    else match context_commitment bc known g with
         | None => Panic
         | Some cm =>
             match blind_challenge (enc1 cm) (enc1 (bc_commitment bc)) nonce with
             | None => Err BbWide
             | Some c => if c == bc_challenge bc then Ok tt else Err BbProof
             end
         end.

  (** blind_signature_context.go:199-255 ToBlindSignature; ee and s are the two values drawn. The sorted message list
      only feeds the deterministic generator. *)
  Definition to_blind_signature (bc : context) (msgs : seq (int * F)) (sk : F) (g : generators) (nonce ee s : F)
    : res bbs_err signature :=
    if sk == 0 then Err BbSecretKey
    else if has (fun x => Posz (g_length g) < x.1) msgs then Err BbGenerators
    else rbind (context_verify bc (unzip1 msgs) g nonce) (fun _ =>
         if ee + sk == 0 then Err BbInverse
         else match sum_of_products ([:: Some (bc_commitment bc); Some g1; get g 0] ++ [seq get g (x.1 + 1) | x <- msgs])
                                    ([:: 1; 1; s] ++ unzip2 msgs) with
              | None => Panic
              | Some b => Ok (Sig ((ee + sk)^-1 *: b) ee s)
              end).
  (** blind_signature.go:73-79 ToUnblinded *)
  Definition to_unblinded (sg : signature) (blinder : F) : signature := Sig (sg_a sg) (sg_e sg) (sg_s sg + blinder).
End Bbs.
