(** crypto/dkg/gennaro: participant.go, round1.go .. round4.go, and the two-party wrapper
    crypto/dkg/gennaro2p/genarro2p.go.

    Conventions of SharingV1Model (scalars in 'F_p, points in an 'F_p-vector space V with generator G,
    byte strings are lists of numbers) and of FrostDkgModel (maps are association lists in the order a
    range visits them). EcScalar.Add on two scalars is addition in 'F_p. Random values are arguments. *)
From mathcomp Require Import all_ssreflect all_algebra.
From Verif Require Import AlgBase ShamirModel SharingV1Model FrostDkgModel.
Set Implicit Arguments.
Unset Strict Implicit.
Unset Printing Implicit Defensive.
Import GRing.Theory.
Local Open Scope ring_scope.

Inductive gerr := GNil | GIds | GSharing of verr | GRound | GSecret | GZero | GMissing | GShare | GKey.

Definition lift_v (A : Type) (r : res verr A) : res gerr A :=
  match r with Ok a => Ok a | Err e => Err (GSharing e) | Panic => Panic end.

Section Gennaro.
  Variable p : nat.
  Local Notation F := ('F_p).
  Variables (V : lmodType F) (G : V).

  (** participant.go:93-97 dkgParticipantData: Share and Verifiers (None = nil) *)
  Definition pdata := (option (share1 p) * option (seq V))%type.

  (** participant.go:21-32 Participant; the result of Pedersen.Split is (secret shares, blinding
      shares, blinded verifiers, verifiers) *)
  Record gp := GP {
    g_round : nat; g_id : nat; g_pd : pedersen V; g_others : seq (nat * pdata);
    g_sshares : seq (share1 p); g_bshares : seq (share1 p); g_blinded : seq V; g_ver : seq V;
    g_sk : F; g_vk : V }.

  (** participant.go:78-91 validIds *)
  Definition valid_ids (ids : seq nat) : bool := all (fun i => i \in ids) (iota 1 (size ids)).

  (** participant.go:40-75 NewParticipant *)
  Definition new_participant (id threshold : nat) (generator : option V) (others : seq nat) : res gerr gp :=
    match generator with
    | None => Err GNil
    | Some g =>
        if size others == 0%N then Err GNil
        else if ~~ valid_ids (rcons others id) then Err GIds
        else rbind (lift_v (new_shamir1 threshold (size others).+1)) (fun _ =>
             rbind (lift_v (new_pedersen1 threshold (size others).+1 (Some g))) (fun pd =>
             Ok (GP 1 id pd [seq (i, (None, None)) | i <- undup others] [::] [::] [::] [::] 0 0)))
    end.

  (** round1.go:66-72: SecretShares[id-1] and BlindingShares[id-1] for every other participant *)
  Fixpoint p2p_send (ss bs : seq (share1 p)) (ids : seq nat) : res gerr (seq (nat * (share1 p * share1 p))) :=
    match ids with
    | [::] => Ok [::]
    | id :: rest =>
        match (if id == 0%N then None else onth ss id.-1), (if id == 0%N then None else onth bs id.-1) with
        | Some s, Some b => rbind (p2p_send ss bs rest) (fun l => Ok ((id, (s, b)) :: l))
        | _, _ => Panic
        end
    end.

  (** round1.go:36-79 Round1. [secret] None: nil; [sampled] is the fresh random secret, [blinding] the
      random blinding factor and [rnd], [rndb] the polynomial coefficients drawn by Pedersen.Split.
      Returns the blinded verifiers and the shares to send. *)
  Definition g_round1 (dp : gp) (secret : option (seq nat)) (sampled blinding : nat) (rnd rndb : seq F)
    : res gerr (gp * seq V * seq (nat * (share1 p * share1 p))) :=
    if g_round dp != 1%N then Err GRound
    else
      rbind (match secret with
             | None => Ok (getb sampled)
             | Some b => if ~~ (setb b < p)%N then Err GSecret
                         else if setb b == 0%N then Err GZero else Ok b
             end) (fun sec =>
      rbind (lift_v (pedersen_split1 G (g_pd dp) sec blinding rnd rndb)) (fun r =>
      let: (_, bsh, ssh, blinded, ver) := r in
      rbind (p2p_send ssh bsh (unzip1 (g_others dp))) (fun p2p =>
      Ok (GP 2 (g_id dp) (g_pd dp) (g_others dp) ssh bsh blinded ver 0 0, blinded, p2p)))).

  (** dp.otherParticipantShares[id].Share = s; a missing key is a nil dereference *)
  Fixpoint set_share (m : seq (nat * pdata)) (id : nat) (s : share1 p) : option (seq (nat * pdata)) :=
    match m with
    | [::] => None
    | (k, d) :: r => if id == k then Some ((k, (Some s, d.2)) :: r)
                     else omap (cons (k, d)) (set_share r id s)
    end.
  (** dp.otherParticipantShares[id].Verifiers = v *)
  Fixpoint set_ver (m : seq (nat * pdata)) (id : nat) (v : seq V) : option (seq (nat * pdata)) :=
    match m with
    | [::] => None
    | (k, d) :: r => if id == k then Some ((k, (d.1, Some v)) :: r)
                     else omap (cons (k, d)) (set_ver r id v)
    end.

  (** round2.go:42-80: the loop over bcast *)
  Fixpoint g_loop2 (dp : gp) (p2p : seq (nat * (share1 p * share1 p))) (bc : seq (nat * seq V))
    (oth : seq (nat * pdata)) (sk : F) : res gerr (seq (nat * pdata) * F) :=
    match bc with
    | [::] => Ok (oth, sk)
    | (id, bvs) :: rest =>
        if id == g_id dp then g_loop2 dp p2p rest oth sk
        else match lookup p2p id with
             | None => Err GMissing
             | Some (xji, rji) =>
                 rbind (lift_v (pedersen_verify1 G (g_pd dp) xji rji bvs)) (fun ok =>
                 if ~~ ok then Err GShare
                 else match set_share oth id xji with
                      | None => Panic
                      | Some oth' => g_loop2 dp p2p rest oth' (sk + xji.2)
                      end)
             end
    end.

  (** round2.go:22-90 Round2. Returns the (unblinded) verifiers. *)
  Definition g_round2 (dp : gp) (bc : seq (nat * seq V)) (p2p : seq (nat * (share1 p * share1 p)))
    : res gerr (gp * seq V) :=
    if g_round dp != 2%N then Err GRound
    else if (size bc == 0%N) || (size p2p == 0%N) then Err GNil
    else match (if g_id dp == 0%N then None else onth (g_sshares dp) (g_id dp).-1) with
         | None => Panic
         | Some own =>
             rbind (g_loop2 dp p2p bc (g_others dp) own.2) (fun r =>
             Ok (GP 3 (g_id dp) (g_pd dp) r.1 (g_sshares dp) (g_bshares dp) (g_blinded dp) (g_ver dp) r.2 0,
                 g_ver dp))
         end.

  (** round3.go:42-68: the loop over bcast; a nil stored share is a nil dereference in Feldman.Verify *)
  Fixpoint g_loop3 (dp : gp) (bc : seq (nat * seq V)) (oth : seq (nat * pdata)) (pk : V)
    : res gerr (seq (nat * pdata) * V) :=
    match bc with
    | [::] => Ok (oth, pk)
    | (id, vs) :: rest =>
        if id == g_id dp then g_loop3 dp rest oth pk
        else match lookup oth id with
             | Some (Some xji, _) =>
                 rbind (lift_v (feldman_verify1 G (pd_sh (g_pd dp)) xji vs)) (fun ok =>
                 if ~~ ok then Err GShare
                 else match set_ver oth id vs, vs with
                      | Some oth', v0 :: _ => g_loop3 dp rest oth' (pk + v0)
                      | _, _ => Panic
                      end)
             | _ => Panic
             end
    end.

  (** round3.go:22-89 Round3. Returns the public key and (id, secret share). *)
  Definition g_round3 (dp : gp) (bc : seq (nat * seq V)) : res gerr (gp * V * share1 p) :=
    if g_round dp != 3%N then Err GRound
    else if size bc == 0%N then Err GNil
    else match g_ver dp with
         | [::] => Panic
         | v0 :: _ =>
             rbind (g_loop3 dp bc (g_others dp) v0) (fun r =>
             if r.2 == 0 then Err GKey
             else Ok (GP 4 (g_id dp) (g_pd dp) r.1 (g_sshares dp) (g_bshares dp) (g_blinded dp) (g_ver dp)
                         (g_sk dp) r.2, r.2, (g_id dp, g_sk dp)))
         end.

  (** round4.go:44-73: Wj = Pk + sum_k (j*(k+1)) v[k], v participant j's verifiers; indexing past the end
      panics *)
  Fixpoint pub_share (j : nat) (v : seq V) (ks : seq nat) (w : V) : res gerr V :=
    match ks with
    | [::] => Ok w
    | k :: rest => match onth v k with
                   | None => Panic
                   | Some vk => pub_share j v rest (w + (j * k.+1)%:R *: vk)
                   end
    end.
  Fixpoint pub_shares (dp : gp) (rs : seq (nat * seq V)) : res gerr (seq (nat * V)) :=
    match rs with
    | [::] => Ok [::]
    | (j, v) :: rest => rbind (pub_share j v (iota 0 (size (g_ver dp))) (g_vk dp)) (fun w =>
                        rbind (pub_shares dp rest) (fun l => Ok ((j, w) :: l)))
    end.

  (** round4.go:21-76 Round4. The map r has the participant's own verifiers and the others' (nil when
      absent); the result does not depend on the order of the range. *)
  Definition g_round4 (dp : gp) : res gerr (seq (nat * V)) :=
    if g_round dp != 4%N then Err GRound
    else pub_shares dp ((g_id dp, g_ver dp) :: [seq (e.1, odflt [::] e.2.2) | e <- g_others dp]).
End Gennaro.
