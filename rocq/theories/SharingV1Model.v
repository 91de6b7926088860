(** crypto/sharing/v1: shamir.go, polynomial.go, feldman.go, pedersen.go over the field of p elements
    (curves.Field / curves.Element; FieldModel gives the integer-level operations).
    Byte strings are lists of numbers; big.Int.SetBytes / Bytes are [setb] / [getb]. uint32 values
    are naturals. *)
From mathcomp Require Import all_ssreflect all_algebra.
From Verif Require Import AlgBase ShamirModel.
Set Implicit Arguments.
Unset Strict Implicit.
Unset Printing Implicit Defensive.
Import GRing.Theory.
Local Open Scope ring_scope.

(** math/big Int.SetBytes: big-endian *)
Definition setb (bs : seq nat) : nat := foldl (fun a b => (a * 256 + b)%N) 0%N bs.
(** math/big Int.Bytes: big-endian, no leading zero byte; [fuel] bounds the number of digits *)
Fixpoint getb_fuel (fuel n : nat) : seq nat :=
  match fuel with
  | O => [::]
  | S f => if n == 0%N then [::] else rcons (getb_fuel f (n %/ 256)%N) (n %% 256)%N
  end.
Definition getb (n : nat) : seq nat := getb_fuel n n.

Inductive verr := VLimit | VThreshold | VEmpty | VLarge | VCount | VId | VDup | VCoord | VPoints
  | VNil | VIdentity.

(** v1/shamir.go:58-68 NewShamir. A negative int takes the branch of 0. The uint32 conversions are
    the identity below 2^32, which the field [limit < 2^32] of the theorems' hypotheses gives. *)
Definition new_shamir1 (threshold limit : nat) : res verr shamir :=
  if (limit < threshold)%N then Err VLimit
  else if (threshold < 2)%N then Err VThreshold
  else Ok (Shamir threshold limit).

Section V1.
  Variable p : nat.
  Local Notation F := ('F_p).

  Definition share1 := (nat * F)%type.

  (** field.go:84-90 newElement (via NewElement, ElementFromBytes): panics outside [0, p) *)
  Definition elem (n : nat) : res verr F := if (n < p)%N then Ok (n%:R) else Panic.

  (** v1/shamir.go:43-49 Add: Element.Add then NewShamirShare(ElementFromBytes(Bytes())) *)
  Definition share_add (s o : share1) : res verr share1 :=
    if s.1 != o.1 then Panic
    else rbind (elem (setb (getb (nat_of_ord (s.2 + o.2))))) (fun v => Ok (s.1, v)).

  (** the loop v1/shamir.go:127-134 *)
  Fixpoint deal_loop (poly : seq F) (ks : seq nat) : res verr (seq share1) :=
    match ks with
    | [::] => Ok [::]
    | i :: rest => rbind (elem i.+1) (fun x =>
                   let y := evaluate poly x in
                   rbind (deal_loop poly rest) (fun l => Ok ((i.+1, y) :: l)))
    end.

  (** v1/shamir.go:111-136 GetSharesAndPolynomial; v1/polynomial.go:18-36 newPoly is [poly_init] with
      the random elements [rnd], polynomial.go:39-49 evaluate has the body of [evaluate] *)
  Definition get_shares1 (s : shamir) (secret : seq nat) (rnd : seq F)
    : res verr (seq share1 * seq F) :=
    if size secret == 0%N then Err VEmpty
    else if ~~ (setb secret < p)%N then Err VLarge
    else rbind (elem (setb secret)) (fun e =>
         let poly := poly_init e (sh_thr s) rnd in
         rbind (deal_loop poly (iota 0 (sh_lim s))) (fun l => Ok (l, poly))).

  (** v1/shamir.go:72-75 Split *)
  Definition split1 (s : shamir) (secret : seq nat) (rnd : seq F) : res verr (seq share1) :=
    rbind (get_shares1 s secret rnd) (fun r => Ok r.1).

  (** v1/shamir.go:149-162: the product over j of the basis of node i *)
  Definition basis1 (xs : seq F) (thr i : nat) : res verr F :=
    foldl (fun acc j => rbind acc (fun basis =>
             if i == j then Ok basis
             else let denom := xs`_j - xs`_i in
                  if denom == 0 then Err VCoord else Ok (basis * (xs`_j / denom))))
          (Ok 1) (iota 0 thr).

  (** v1/shamir.go:139-168 Interpolate *)
  Definition interpolate1 (s : shamir) (xs ys : seq F) : res verr F :=
    if (size xs < sh_thr s)%N || (size ys < sh_thr s)%N then Err VPoints
    else foldl (fun acc i => rbind acc (fun result =>
                  rbind (basis1 xs (sh_thr s) i) (fun b => Ok (result + ys`_i * b))))
               (Ok 0) (iota 0 (sh_thr s)).

  (** v1/shamir.go:87-100: the loop over the first threshold shares. The map [dups] is never written,
      so the duplicate test never fires; it is kept with the empty key set. *)
  Fixpoint collect1 (limit : nat) (l : seq share1) : res verr (seq F * seq F) :=
    match l with
    | [::] => Ok ([::], [::])
    | r :: rest =>
        if (limit < r.1)%N || (r.1 < 1)%N then Err VId
        else if r.1 \in ([::] : seq nat) then Err VDup
        else rbind (elem r.1) (fun x =>
             rbind (collect1 limit rest) (fun q => Ok (x :: q.1, r.2 :: q.2)))
    end.

  (** v1/shamir.go:78-107 Combine *)
  Definition combine1 (s : shamir) (shares : seq share1) : res verr (seq nat) :=
    if (size shares < sh_thr s)%N then Err VCount
    else rbind (collect1 (sh_lim s) (take (sh_thr s) shares)) (fun q =>
         rbind (interpolate1 s q.1 q.2) (fun r => Ok (getb (nat_of_ord r)))).

  (** the loop v1/shamir.go:195-210 *)
  Fixpoint basis_list (xs : seq F) (thr : nat) (ks : seq nat) : res verr (seq F) :=
    match ks with
    | [::] => Ok [::]
    | i :: rest => rbind (basis1 xs thr i) (fun b =>
                   rbind (basis_list xs thr rest) (fun l => Ok (b :: l)))
    end.
  (** v1/shamir.go:172-212 ComputeL *)
  Definition compute_l (s : shamir) (shares : seq share1) : res verr (seq F) :=
    if (size shares < sh_thr s)%N then Err VCount
    else rbind (collect1 (sh_lim s) (take (sh_thr s) shares)) (fun q =>
         basis_list q.1 (sh_thr s) (iota 0 (sh_thr s))).

  Section Points.
    (** EcPoint with Add, ScalarMult, NewScalarBaseMult as the group of order p; the nil and
        other-curve error branches of ec_point.go are not reached with points of one curve *)
    Variables (V : lmodType F) (G : V).

    (** v1/feldman.go:41-58 Split *)
    Definition feldman_split1 (s : shamir) (secret : seq nat) (rnd : seq F)
      : res verr (seq V * seq share1) :=
      rbind (get_shares1 s secret rnd) (fun r => Ok ([seq c *: G | c <- r.2], r.1)).

    (** v1/feldman.go:67-107 Verify *)
    Definition feldman_verify1 (s : shamir) (sh : share1) (verifiers : seq V) : res verr bool :=
      if (size verifiers < sh_thr s)%N then Err VCount
      else rbind (elem sh.1) (fun x =>
           match verifiers with
           | [::] => Panic
           | c0 :: cs => Ok (sh.2 *: G == commit_eval c0 cs x)
           end).

    (** v1/pedersen.go:34-55 NewPedersen *)
    Definition new_pedersen1 (threshold limit : nat) (generator : option V) : res verr (pedersen V) :=
      if (limit < threshold)%N then Err VLimit
      else if (threshold < 2)%N then Err VThreshold
      else match generator with
           | None => Err VNil
           | Some g => if g == 0 then Err VIdentity else Ok (Pedersen (Shamir threshold limit) g)
           end.

    (** v1/pedersen.go:58-105 Split: [blinding] is the random integer below p; its Bytes() are split *)
    Definition pedersen_split1 (pd : pedersen V) (secret : seq nat) (blinding : nat) (rnd rndb : seq F)
      : res verr (nat * seq share1 * seq share1 * seq V * seq V) :=
      rbind (get_shares1 (pd_sh pd) secret rnd) (fun sp =>
      rbind (get_shares1 (pd_sh pd) (getb blinding) rndb) (fun sb =>
        Ok (blinding, sb.1, sp.1,
            [seq sp.2`_i *: G + sb.2`_i *: pd_gen pd | i <- iota 0 (size sp.2)],
            [seq c *: G | c <- sp.2]))).

    (** v1/pedersen.go:115-163 Verify *)
    Definition pedersen_verify1 (pd : pedersen V) (sh bsh : share1) (verifiers : seq V)
      : res verr bool :=
      if (size verifiers < sh_thr (pd_sh pd))%N then Err VCount
      else rbind (elem sh.1) (fun x =>
           match verifiers with
           | [::] => Panic
           | c0 :: cs => Ok (sh.2 *: G + bsh.2 *: pd_gen pd == commit_eval c0 cs x)
           end).
  End Points.
End V1.
