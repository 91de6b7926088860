(** crypto/ted25519/frost: participant.go, round1.go, round2.go, round3.go.

    Conventions of FrostDkgModel. A message is an element of M ([mempty m] is len(msg) == 0).
    [Hr b m l] is Scalar.Hash(byte b || m || l_0 || l_1 ...) for the list l of (byte, Di, Ei);
    [ch m vk r] is challengeDeriver.DeriveChallenge (None = error); [isneg] is Point.IsNegative.
    All three are arbitrary functions. *)
From mathcomp Require Import all_ssreflect all_algebra.
From Verif Require Import AlgBase ShamirModel FrostDkgModel.
Set Implicit Arguments.
Unset Strict Implicit.
Unset Printing Implicit Defensive.
Import GRing.Theory.
Local Open Scope ring_scope.

Inductive ferr := FNil | FThreshold | FCoeffs | FIds | FRound | FD | FE | FLen | FInput | FPoint
  | FChallenge | FShare | FInvalid | FOneTime.

Section Sign.
  Variables (F : fieldType) (V : lmodType F) (G : V) (M : Type) (mempty : M -> bool).
  Variables (Hr : nat -> M -> seq (nat * V * V) -> F) (ch : M -> V -> V -> option F) (isneg : V -> bool).

  (** participant.go:18-46 Signer and state; a nil scalar is None. The curve is the section's. *)
  Record signer := Signer {
    sg_sk : F; sg_vkshare : V; sg_vk : V; sg_id : nat; sg_thr : nat; sg_round : nat;
    sg_l : seq (nat * F); sg_cos : seq nat;
    sg_d : option F; sg_e : option F;
    sg_comm : option (seq (nat * option (V * V)));
    sg_msg : option M; sg_c : F; sg_Rs : seq (nat * V); sg_R : V }.

  (** participant.go:49-83 NewSigner; (sk, vkshare, vk) are the fields read from info (None: nil) *)
  Definition new_signer (info : option (F * V * V)) (id thresh : nat) (l : seq (nat * F)) (cos : seq nat)
    : res ferr signer :=
    match info with
    | None => Err FNil
    | Some (sk, vks, vk) =>
        if (size cos == 0%N) || (size l == 0%N) then Err FNil
        else if (size cos < thresh)%N then Err FThreshold
        else if size l != size cos then Err FCoeffs
        else if has (fun i => ~~ (i \in unzip1 l)) cos then Err FIds
        else Ok (Signer sk vks vk id thresh 1 l cos None None None None 0 [::] 0)
    end.

  (** round1.go:45-80 SignRound1; [di], [ei] are the sampled scalars. Returns Di, Ei. *)
  Definition sign_round1 (s : signer) (di ei : F) : res ferr (signer * (V * V)) :=
    if sg_round s != 1%N then Err FRound
    else Ok (Signer (sg_sk s) (sg_vkshare s) (sg_vk s) (sg_id s) (sg_thr s) 2 (sg_l s) (sg_cos s)
                    (Some di) (Some ei) (sg_comm s) (sg_msg s) (sg_c s) (sg_Rs s) (sg_R s),
             (di *: G, ei *: G)).

  (** round2.go:161-183 concatHashArray: the (Dj, Ej) part; a missing or nil entry is a nil dereference *)
  Fixpoint concat_points (input : seq (nat * option (V * V))) (cos : seq nat) : option (seq (nat * V * V)) :=
    match cos with
    | [::] => Some [::]
    | id :: rest =>
        match lookup input id with
        | Some (Some (D, E)) =>
            match concat_points input rest with
            | Some l => Some ((id %% 256, D, E)%N :: l)
            | None => None
            end
        | _ => None
        end
    end.

  (** round2.go:97-115: the loop over round2Input. The accumulator is (ri, Rs, R). *)
  Fixpoint r2_loop (s : signer) (m : M) (input todo : seq (nat * option (V * V)))
    (ri : option F) (Rs : seq (nat * V)) (R : V) : res ferr (option F * seq (nat * V) * V) :=
    match todo with
    | [::] => Ok (ri, Rs, R)
    | (id, data) :: rest =>
        match concat_points input (sg_cos s), data with
        | Some blob, Some (D, E) =>
            let rj := Hr (id %% 256)%N m blob in
            let ri' := if sg_id s == id then Some rj else ri in
            let Rj := rj *: E + D in
            r2_loop s m input rest ri' (rcons Rs (id, Rj)) (R + Rj)
        | _, _ => Panic
        end
    end.

  (** round2.go:47-158 SignRound2. Returns (zi, vki). A nil ri (own identifier not among the input's
      keys) or a nil Li makes a method call on a nil scalar: Panic. *)
  Definition sign_round2 (s : signer) (m : M) (input : seq (nat * option (V * V)))
    : res ferr (signer * (F * V)) :=
    match sg_d s, sg_e s with
    | None, _ => Err FD
    | Some d, oe =>
      if d == 0 then Err FD
      else match oe with
      | None => Err FE
      | Some e =>
        if e == 0 then Err FE
        else if mempty m then Err FNil
        else if sg_round s != 2%N then Err FRound
        else if size input != sg_thr s then Err FLen
        else if has (fun x => x.2 == None) input then Err FInput
        else if has (fun x => if x.2 is Some (D, E) then (D == 0) || (E == 0) else false) input
             then Err FPoint
        else rbind (r2_loop s m input input None [::] 0) (fun acc =>
        let: (ri, Rs, R) := acc in
        match ch m (sg_vk s) R with
        | None => Err FChallenge
        | Some c =>
            match lookup (sg_l s) (sg_id s), ri with
            | Some Li, Some r =>
                let Liskic := Li * sg_sk s * c in
                let e' := if isneg R then - e else e in
                let d' := if isneg R then - d else d in
                let zi := Liskic + e' * r + d' in
                Ok (Signer (sg_sk s) (sg_vkshare s) (sg_vk s) (sg_id s) (sg_thr s) 3 (sg_l s) (sg_cos s)
                           (Some 0) (Some 0) (Some input) (Some m) c Rs R,
                    (zi, sg_vkshare s))
            | _, _ => Panic
            end
        end)
      end
    end.

  (** round3.go:75-104: the loop over round3Input *)
  Fixpoint r3_loop (s : signer) (input : seq (nat * option (F * V))) (z : F) : res ferr F :=
    match input with
    | [::] => Ok z
    | (id, None) :: _ => Panic
    | (id, Some (zj, vkj)) :: rest =>
        match lookup (sg_l s) id, lookup (sg_Rs s) id with
        | Some Lj, Some Rj0 =>
            let Rj := if isneg (sg_R s) then - Rj0 else Rj0 in
            if zj *: G != (sg_c s * Lj) *: vkj + Rj then Err FShare
            else r3_loop s rest (z + zj)
        | _, _ => Panic     (* a nil scalar or point; some curves return an error instead *)
        end
    end.

  (** round3.go:30-131 SignRound3; None is a nil map. Returns (R, Z, C). *)
  Definition sign_round3 (s : signer) (input : option (seq (nat * option (F * V))))
    : res ferr (signer * (V * F * F)) :=
    match sg_d s, sg_e s with
    | Some d, Some e =>
      if (d != 0) || (e != 0) then Err FOneTime
      else match sg_msg s with
      | None => Err FNil
      | Some m =>
        if mempty m then Err FNil
        else match input with
        | None => Err FNil
        | Some inp =>
          if has (fun x => ~~ isSome x.2) inp then Err FNil
          else match sg_comm s with
          | None => Err FNil
          | Some cm =>
            if size cm != size inp then Err FNil
            else if sg_round s != 3%N then Err FRound
            else if size inp != sg_thr s then Err FLen
            else rbind (r3_loop s inp 0) (fun z =>
            let tempR := z *: G + (- sg_c s) *: sg_vk s in
            match ch m (sg_vk s) tempR with
            | None => Err FChallenge
            | Some tempC =>
                if tempC != sg_c s then Err FInvalid
                else Ok (Signer (sg_sk s) (sg_vkshare s) (sg_vk s) (sg_id s) (sg_thr s) 4 (sg_l s) (sg_cos s)
                                (sg_d s) (sg_e s) (sg_comm s) (sg_msg s) (sg_c s) (sg_Rs s) (sg_R s),
                         (sg_R s, z, sg_c s))
            end)
          end
        end
      end
    | _, _ => Panic          (* smallD.IsZero() on a nil scalar *)
    end.

  (** round3.go:134-162 Verify of the signature (z, c) *)
  Definition frost_verify (vk : V) (m : M) (z c : F) : res ferr bool :=
    if mempty m then Err FNil
    else match ch m vk (z *: G + (- c) *: vk) with
         | None => Err FChallenge
         | Some c' => if c' != c then Err FInvalid else Ok true
         end.
End Sign.
