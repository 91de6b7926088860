(** crypto/dkg/frost: participant.go, dkg_round1.go, dkg_round2.go.

    Same conventions as ShamirModel (F scalars, V points, G generator, B byte strings). Maps are
    association lists with distinct keys, in the order in which a range visits them; the theorems hold
    for every order. Points of V are on the curve. [H i ctx A R] is
    Scalar.Hash(byte i || ctx || A.ToAffineCompressed() || R.ToAffineCompressed()), an arbitrary
    function. Random scalars are arguments. *)
From mathcomp Require Import all_ssreflect all_algebra.
From Verif Require Import AlgBase ShamirModel.
Set Implicit Arguments.
Unset Strict Implicit.
Unset Printing Implicit Defensive.
Import GRing.Theory.
Local Open Scope ring_scope.

Inductive derr := DNil | DRound | DCount | DZero | DScalar | DSharing of serr | DLen | DCi | DCommit
  | DProd | DHash | DFeldman.

(** the value of a map at a key *)
Fixpoint lookup (A : Type) (m : seq (nat * A)) (k : nat) : option A :=
  match m with [::] => None | (k', a) :: r => if k == k' then Some a else lookup r k end.

(** indexing a slice; None is out of range *)
Definition onth (A : Type) (s : seq A) (i : nat) : option A := ohead (drop i s).

Section Dkg.
  Variables (F : fieldType) (B : eqType) (enc : F -> B) (dec : B -> option F).
  Variables (V : lmodType F) (G : V) (H : nat -> nat -> V -> V -> F).

  (** participant.go:18-30 DkgParticipant; [dp_others] is the key list of otherParticipantShares *)
  Record dkg := Dkg {
    dp_round : nat; dp_id : nat; dp_sh : shamir; dp_others : seq nat; dp_ctx : nat;
    dp_verifiers : seq V; dp_shares : seq (share B);
    dp_sk : F; dp_vk : V; dp_vkshare : V }.

  (** participant.go:38-65 NewDkgParticipant; [ctx] is the byte of the parsed context string *)
  Definition new_dkg (id threshold ctx : nat) (curve_nil : bool) (others : seq nat) : res derr dkg :=
    if curve_nil || (size others == 0%N) then Err DNil
    else match new_shamir threshold (size others).+1 curve_nil with
         | Ok s => Ok (Dkg 1 id s (undup others) ctx [::] [::] 0 0 0)
         | Err e => Err (DSharing e)
         | Panic => Panic
         end.

  (** dkg_round1.go:25-28 Round1Bcast *)
  Record bcast1 := Bcast1 { b_ver : seq V; b_w : F; b_c : F }.

  (** dkg_round1.go:138-141: p2pSend[id] = shares[id-1], index out of range panics *)
  Fixpoint send_shares (shares : seq (share B)) (ids : seq nat) : res derr (seq (nat * share B)) :=
    match ids with
    | [::] => Ok [::]
    | id :: rest =>
        match (if id == 0%N then None else onth shares id.-1) with
        | None => Panic
        | Some s => rbind (send_shares shares rest) (fun l => Ok ((id, s) :: l))
        end
    end.

  (** dkg_round1.go:60-148 Round1; [secret] None is a nil slice, then [sampled] is used; [rnd] are the
      polynomial's coefficients, [ki] the nonce *)
  Definition round1 (dp : dkg) (secret : option B) (sampled : F) (rnd : seq F) (ki : F)
    : res derr (dkg * bcast1 * seq (nat * share B)) :=
    if dp_round dp != 1%N then Err DRound
    else if (sh_lim (dp_sh dp) < (size (dp_others dp)).+1)%N
         || ((size (dp_others dp)).+1 < sh_thr (dp_sh dp))%N then Err DCount
    else
      let sr := match secret with
                | None => Ok sampled
                | Some b => match dec b with
                            | None => Err DScalar
                            | Some s => if s == 0 then Err DZero else Ok s
                            end
                end in
      rbind sr (fun s =>
      match feldman_split enc G (dp_sh dp) s rnd with
      | Err e => Err (DSharing e)
      | Panic => Panic
      | Ok (verifiers, shares) =>
          let Ri := ki *: G in
          let ci := H (dp_id dp %% 256)%N (dp_ctx dp) (nth 0 verifiers 0) Ri in
          let wi := s * ci + ki in
          rbind (send_shares shares (dp_others dp)) (fun p2p =>
          Ok (Dkg 2 (dp_id dp) (dp_sh dp) (dp_others dp) (dp_ctx dp) verifiers shares 0 0 0,
              Bcast1 verifiers wi ci, p2p))
      end).

  (** dkg_round2.go:69-114: the loop over bcast *)
  Fixpoint check_loop (dp : dkg) (p2p : seq (nat * share B)) (bc : seq (nat * bcast1)) : res derr unit :=
    match bc with
    | [::] => Ok tt
    | (id, b) :: rest =>
        if id == dp_id dp then check_loop dp p2p rest
        else match b_ver b with
             | [::] => Panic
             | A0 :: _ =>
                 let prod1 := b_w b *: G in
                 let prod2 := (- b_c b) *: A0 in
                 if (A0 == 0) || (prod2 == 0) then Err DProd
                 else let cj := H (id %% 256)%N (dp_ctx dp) A0 (prod1 + prod2) in
                 if cj != b_c b then Err DHash
                 else match lookup p2p id with
                      | None => Panic
                      | Some fji =>
                          match feldman_verify dec G (b_ver b) fji with
                          | Ok _ => check_loop dp p2p rest
                          | Err _ => Err DFeldman
                          | Panic => Panic
                          end
                      end
             end
    end.

  (** dkg_round2.go:122-131 *)
  Fixpoint sk_loop (dp : dkg) (p2p : seq (nat * share B)) (bc : seq (nat * bcast1)) (sk : F) : res derr F :=
    match bc with
    | [::] => Ok sk
    | (id, b) :: rest =>
        if id == dp_id dp then sk_loop dp p2p rest sk
        else match lookup p2p id with
             | None => Panic
             | Some s => match dec s.2 with
                         | None => Err DScalar
                         | Some t2 => sk_loop dp p2p rest (sk + t2)
                         end
             end
    end.

  (** dkg_round2.go:134-139; [nth 0 _ 0] is Commitments[0], non-empty after the first loop *)
  Definition vk_loop (dp : dkg) (bc : seq (nat * bcast1)) (vk : V) : V :=
    foldl (fun vk e => if e.1 == dp_id dp then vk else vk + nth 0 (b_ver e.2) 0) vk bc.

  (** dkg_round2.go:25-158 Round2; None stands for a nil map. Returns the new state, whose
      [dp_vk] and [dp_vkshare] are the two fields of Round2Bcast. *)
  Definition round2 (dp : dkg) (bcast : option (seq (nat * bcast1)))
    (p2psend : option (seq (nat * share B))) : res derr dkg :=
    if dp_round dp != 2%N then Err DRound
    else match bcast, p2psend with
    | Some bc, Some p2p =>
        if size p2p == 0%N then Err DNil
        else if (sh_lim (dp_sh dp) < size bc)%N || (size bc < (sh_thr (dp_sh dp)).-1)%N then Err DLen
        else if ((sh_lim (dp_sh dp)).-1 < size p2p)%N || (size p2p < (sh_thr (dp_sh dp)).-1)%N then Err DLen
        else if has (fun e => b_c e.2 == 0) bc then Err DCi
        else if has (fun e => has (fun c => c == 0) (b_ver e.2)) bc then Err DCommit
        else rbind (check_loop dp p2p bc) (fun _ =>
        match (if dp_id dp == 0%N then None else onth (dp_shares dp) (dp_id dp).-1) with
        | None => Panic
        | Some own =>
            match dec own.2 with
            | None => Err DScalar
            | Some sk0 =>
                rbind (sk_loop dp p2p bc sk0) (fun sk =>
                let vk := vk_loop dp bc (nth 0 (dp_verifiers dp) 0) in
                Ok (Dkg 3 (dp_id dp) (dp_sh dp) (dp_others dp) (dp_ctx dp)
                        (dp_verifiers dp) (dp_shares dp) sk vk (sk *: G)))
            end
        end)
    | _, _ => Err DNil
    end.
End Dkg.
