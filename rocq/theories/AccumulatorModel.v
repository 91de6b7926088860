(** crypto/accumulator: accumulator.go, key.go, lib.go, witness.go, proof.go. Elements and keys are the
    scalars F; accumulators and witnesses points of V1; public keys points of V2 with generator [P2];
    [P1] is the G1 generator. Go nil checks on scalars and points are not represented (values are always
    present) except where nil slices matter ([option] below). Marshalling is not modelled. *)
From mathcomp Require Import all_ssreflect all_algebra.
From Verif Require Import AlgBase PairingBase.
Set Implicit Arguments.
Unset Strict Implicit.
Unset Printing Implicit Defensive.
Import GRing.Theory.
Local Open Scope ring_scope.

Inductive aerr := ANil | AInvert | AInvalid | ALen.

Section Acc.
  Variables (F : fieldType) (V1 V2 VT : lmodType F) (e : pairing V1 V2 VT) (P1 : V1) (P2 : V2).

  (** Scalar.Invert: an error for zero *)
  Definition invert (x : F) : res aerr F := if x == 0 then Err AInvert else Ok x^-1.

  (** key.go:71-86 BatchAdditions *)
  Definition batch_additions (sk : F) (additions : seq F) : F :=
    foldl (fun mul y => mul * (y + sk)) 1 additions.
  (** key.go:89-99 BatchDeletions *)
  Definition batch_deletions (sk : F) (deletions : seq F) : res aerr F :=
    invert (batch_additions sk deletions).
  (** key.go:30-36 GetPublicKey *)
  Definition get_public_key (sk : F) : V2 := sk *: P2.

  (** accumulator.go:38-47 New *)
  Definition acc_new : V1 := P1.
  (** accumulator.go:52-63 WithElements *)
  Definition with_elements (sk : F) (m : seq F) : V1 := batch_additions sk m *: acc_new.
  (** accumulator.go:66-76 AddElements *)
  Definition add_elements (acc : V1) (sk : F) (m : seq F) : V1 := batch_additions sk m *: acc.
  (** accumulator.go:80-87 Add *)
  Definition acc_add (acc : V1) (sk y : F) : res aerr V1 :=
    if acc == 0 then Err ANil else Ok ((y + sk) *: acc).
  (** accumulator.go:91-102 Remove *)
  Definition acc_remove (acc : V1) (sk y : F) : res aerr V1 :=
    if acc == 0 then Err ANil
    else rbind (invert (y + sk)) (fun i => Ok (i *: acc)).

  (** lib.go:109-132 polynomial Add *)
  Fixpoint padd (p q : seq F) : seq F :=
    match p, q with
    | [::], _ => q
    | _, [::] => p
    | a :: p', b :: q' => (a + b) :: padd p' q'
    end.
  (** lib.go:135-158 polynomial Sub *)
  Fixpoint psub (p q : seq F) : seq F :=
    match p, q with
    | [::], _ => [seq - b | b <- q]
    | _, [::] => p
    | a :: p', b :: q' => (a - b) :: psub p' q'
    end.
  (** lib.go:161-192 polynomial Mul: prod[i+j] += p[i]*q[j] on an array of m+n-1 zeros. An empty factor
      gives a negative or wrong length in Go; it is only called with q of length 2 and p non-empty. *)
  Definition pmul (p q : seq F) : seq F :=
    foldl (fun prod ij => set_nth 0 prod (ij.1 + ij.2)%N (prod`_(ij.1 + ij.2) + p`_(ij.1) * q`_(ij.2)))
          (nseq (size p + size q).-1 0)
          [seq (i, j) | i <- iota 0 (size p), j <- iota 0 (size q)].
  (** lib.go:195-204 MulScalar *)
  Definition pscale (p : seq F) (k : F) : seq F := [seq c * k | c <- p].

  (** key.go:118-133, 171-184: poly = prod over ys of (y - x), starting from [1] *)
  Definition roots_poly (ys : seq F) : seq F := foldl (fun poly y => pmul poly [:: y; - 1]) [:: 1] ys.

  (** the loop key.go:111-141 over s *)
  Definition vD_loop (sk : F) (dels : seq F) : res aerr (seq F) :=
    foldl (fun acc s => rbind acc (fun vD =>
             rbind (batch_deletions sk (take s.+1 dels)) (fun c =>
             Ok (padd vD (pscale (roots_poly (take s dels)) c)))))
          (Ok [::]) (iota 0 (size dels)).
  (** the loop key.go:155-191 over s *)
  Definition vA_loop (sk : F) (adds : seq F) : seq F :=
    foldl (fun vA s =>
             let c := if s == 0%N then 1 else batch_additions sk (take s adds) in
             padd vA (pscale (roots_poly (drop s.+1 adds)) c))
          [::] (iota 0 (size adds)).

  (** key.go:103-203 CreateCoefficients *)
  Definition create_coefficients (sk : F) (adds dels : seq F) : res aerr (seq F) :=
    rbind (vD_loop sk dels) (fun vD =>
    let vD' := pscale vD (batch_additions sk adds) in
    Ok (psub (vA_loop sk adds) vD')).

  (** accumulator.go:106-139 Update *)
  Definition acc_update (acc : V1) (sk : F) (adds dels : seq F) : res aerr (V1 * seq V1) :=
    if acc == 0 then Err ANil
    else let a := batch_additions sk adds in
         rbind (batch_deletions sk dels) (fun d =>
         let newAcc := (a * d) *: acc in
         rbind (create_coefficients sk adds dels) (fun els =>
         Ok (newAcc, [seq x *: acc | x <- els]))).

  (** witness.go:19-22 MembershipWitness *)
  Definition witness := (V1 * F)%type.

  (** witness.go:25-43 New *)
  Definition wit_new (y : F) (acc : V1) (sk : F) : res aerr witness :=
    if acc == 0 then Err ANil
    else if sk == 0 then Err ANil
    else if y == 0 then Err ANil
    else rbind (acc_remove acc sk y) (fun c => Ok (c, y + 0)).

  (** witness.go:47-88 Verify *)
  Definition wit_verify (w : witness) (pk : V2) (acc : V1) : res aerr unit :=
    if (w.1 == 0) || (w.2 == 0) then Err ANil
    else if pk == 0 then Err ANil
    else if acc == 0 then Err ANil
    else let p := w.2 *: P2 + pk in
         if e w.1 p + e (- acc) P2 != 0 then Err AInvalid else Ok tt.

  (** lib.go:19-41 dad; a nil slice is [None] *)
  Definition dad (values : option (seq F)) (y : F) : res aerr F :=
    match values with
    | None => Err ANil
    | Some vs => Ok (if vs is [:: a] then a - y
                     else foldl (fun result v => result * (v - y)) 1 vs)
    end.

  (** lib.go:46-64 polynomialPoint evaluate; p[0] of an empty slice panics *)
  Definition pp_eval (p : seq V1) (x : F) : res aerr V1 :=
    match p with
    | [::] => Panic
    | c0 :: cs => Ok (foldl (fun st c => (st.1 * x, st.2 + st.1 *: c)) (x, c0) cs).2
    end.

  (** lib.go:67-90 polynomialPoint Add *)
  Fixpoint pp_add (p q : seq V1) : seq V1 :=
    match p, q with
    | [::], _ => [seq c + 0 | c <- q]
    | _, [::] => [seq c + 0 | c <- p]
    | a :: p', b :: q' => (a + 0 + b) :: pp_add p' q'
    end.
  (** lib.go:93-104 polynomialPoint Mul *)
  Definition pp_mul (p : seq V1) (k : F) : seq V1 := [seq k *: c | c <- p].

  (** witness.go:340-375 evaluateDelta *)
  Definition evaluate_delta (y : F) (adds dels : option (seq F)) (coefs : seq V1) : res aerr (F * V1) :=
    rbind (dad dels y) (fun d0 =>
    rbind (invert d0) (fun d =>
    rbind (dad adds y) (fun a0 =>
    let a := a0 * d in
    rbind (pp_eval coefs y) (fun v => Ok (a, d *: v))))).

  (** witness.go:93-101 ApplyDelta *)
  Definition apply_delta (w : witness) (delta : F * V1) : witness := (delta.1 *: w.1 + delta.2, w.2).

  (** witness.go:104-114 BatchUpdate *)
  Definition batch_update (w : witness) (adds dels : option (seq F)) (coefs : seq V1) : res aerr witness :=
    rbind (evaluate_delta w.2 adds dels coefs) (fun dl => Ok (apply_delta w dl)).

  (** one published batch *)
  Record batch := Batch { b_adds : option (seq F); b_dels : option (seq F); b_coefs : seq V1 }.

  (** the loop witness.go:257-280: the lists aa and dd *)
  Fixpoint dads (y : F) (bs : seq batch) : res aerr (seq F * seq F) :=
    match bs with
    | [::] => Ok ([::], [::])
    | b :: rest => rbind (dad (b_adds b) y) (fun ta =>
                   rbind (dad (b_dels b) y) (fun td =>
                   rbind (dads y rest) (fun q => Ok (ta :: q.1, td :: q.2))))
    end.

  (** witness.go:236-336 evaluateDeltas; the three slices are given as one list of batches, so the length
      test of line 237 cannot fail *)
  Definition evaluate_deltas (y : F) (bs : seq batch) : res aerr (F * V1) :=
    rbind (dads y bs) (fun q =>
    let aa := q.1 in let dd := q.2 in
    let a := foldl (fun x t => x * t) 1 aa in
    rbind (invert (foldl (fun x t => x * t) 1 dd)) (fun d =>
    let p := foldl (fun p i =>
               let ddh := foldl (fun x t => x * t) 1 (take i dd) in
               let dak := foldl (fun x t => x * t) 1 (drop i.+1 aa) in
               pp_add p (pp_mul (nth [::] [seq b_coefs b | b <- bs] i) (dak * ddh)))
             [::] (iota 0 (size bs)) in
    rbind (pp_eval p y) (fun v => Ok (a * d, d *: v)))).

  (** witness.go:117-127 MultiBatchUpdate *)
  Definition multi_batch_update (w : witness) (bs : seq batch) : res aerr witness :=
    rbind (evaluate_deltas w.2 bs) (fun dl => Ok (apply_delta w dl)).

  (** proof.go:28-30 ProofParams *)
  Record params := Params { pp_x : V1; pp_y : V1; pp_z : V1 }.

  (** proof.go:99-122: the values of MembershipProofCommitting that are used later *)
  Record committing := Committing {
    m_eC : V1; m_tSigma : V1; m_tRho : V1; m_dSigma : F; m_dRho : F;
    m_rY : F; m_rSigma : F; m_rRho : F; m_rDSigma : F; m_rDRho : F; m_sigma : F; m_rho : F;
    m_RSigma : V1; m_RRho : V1; m_RDSigma : V1; m_RDRho : V1; m_RE : VT; m_acc : V1; m_y : F }.

  (** proof.go:125-254 New; the seven random scalars are arguments *)
  Definition mpc_new (w : witness) (acc : V1) (pp : params) (pk : V2)
      (sigma rho rY rSigma rRho rDSigma rDRho : F) : committing :=
    let eC := (sigma + rho) *: pp_z pp + w.1 in
    let tSigma := sigma *: pp_x pp in
    let tRho := rho *: pp_y pp in
    let RDSigma := rY *: tSigma + rDSigma *: (- pp_x pp) in
    let RDRho := rY *: tRho + rDRho *: (- pp_y pp) in
    let RE := e (rY *: eC) P2 + e ((- (rDSigma + rDRho)) *: pp_z pp) P2
              + e ((- (rSigma + rRho)) *: pp_z pp) pk in
    Committing eC tSigma tRho (w.2 * sigma) (w.2 * rho) rY rSigma rRho rDSigma rDRho sigma rho
      (rSigma *: pp_x pp) (rRho *: pp_y pp) RDSigma RDRho RE acc w.2.

  (** proof.go:506-518 and 258-269: the byte string that is hashed, as the list of what is written *)
  Definition transcript := (V1 * V1 * V1 * V1 * VT * V1 * V1 * V1 * V1)%type.
  Definition challenge_bytes (m : committing) : transcript :=
    (m_acc m, m_eC m, m_tSigma m, m_tRho m, m_RE m, m_RSigma m, m_RRho m, m_RDSigma m, m_RDRho m).

  (** proof.go:297-302 *)
  Definition schnorr_resp (r v c : F) : F := v * c + r.

  (** proof.go:317-326 MembershipProof *)
  Record mproof := MProof {
    p_eC : V1; p_tSigma : V1; p_tRho : V1; p_sSigma : F; p_sRho : F; p_sDSigma : F; p_sDRho : F;
    p_sY : F }.

  (** proof.go:273-295 GenProof *)
  Definition gen_proof (m : committing) (c : F) : mproof :=
    MProof (m_eC m) (m_tSigma m) (m_tRho m)
      (schnorr_resp (m_rSigma m) (m_sigma m) c) (schnorr_resp (m_rRho m) (m_rho m) c)
      (schnorr_resp (m_rDSigma m) (m_dSigma m) c) (schnorr_resp (m_rDRho m) (m_dRho m) c)
      (schnorr_resp (m_rY m) (m_y m) c).

  (** proof.go:329-415 Finalize *)
  Definition finalize (mp : mproof) (acc : V1) (pp : params) (pk : V2) (c : F) : transcript :=
    let RSigma := p_sSigma mp *: pp_x pp + c *: (- p_tSigma mp) in
    let RRho := p_sRho mp *: pp_y pp + c *: (- p_tRho mp) in
    let RDSigma := p_sY mp *: p_tSigma mp + p_sDSigma mp *: (- pp_x pp) in
    let RDRho := p_sY mp *: p_tRho mp + p_sDRho mp *: (- pp_y pp) in
    let lhs := p_sY mp *: p_eC mp + (- (p_sDSigma mp + p_sDRho mp)) *: pp_z pp + (- c) *: acc in
    let rhs := c *: p_eC mp + (- (p_sSigma mp + p_sRho mp)) *: pp_z pp in
    let RE := e lhs P2 + e rhs pk in
    (acc, p_eC mp, p_tSigma mp, p_tRho mp, RE, RSigma, RRho, RDSigma, RDRho).
End Acc.
