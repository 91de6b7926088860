(** crypto/bulletproof: helpers.go, ipp_prover.go, ipp_verifier.go, range_prover.go, range_verifier.go,
    range_batch_prover.go, range_batch_verifier.go.

    Scalars are a field F and points a vector space V over it. Parameters: [enc] is ToAffineUncompressed, [wide]
    SetBytesWide, [ext] the output of the Merlin transcript as a function of all operations made on it, [sbytes] and
    [setbytes] Scalar.Bytes and SetBytes, [val] Scalar.BigInt. Randomness is an argument. The generator vectors G and H
    (generators.go) are arbitrary lists; a negative n (panics when slicing) is not represented. SumOfProducts is the sum
    of products, nil for different lengths (C60); using the nil panics. *)
From mathcomp Require Import all_ssreflect all_algebra.
From Coq Require Import BinNat String.
From Verif Require Import AlgBase ByteVec SchnorrModel SimplestOtModel.
Delimit Scope nat_scope with N.
Delimit Scope N_scope with num.
Set Implicit Arguments.
Unset Strict Implicit.
Unset Printing Implicit Defensive.
Import GRing.Theory.
Local Open Scope ring_scope.

Inductive bp_err := BpLength | BpEmpty | BpOdd | BpInverse | BpWide | BpMax | BpPow2 | BpRange | BpTHat | BpBit | BpScalar | BpFuel.

Section Helpers.
  Variables (F : fieldType) (V : lmodType F).

  (** helpers.go:16-32 innerProduct *)
  Definition inner_product (a b : seq F) : res bp_err F :=
    if size a != size b then Err BpLength
    else if (size a < 1)%N then Err BpEmpty
    else Ok (foldl (fun acc x => x.1 * x.2 + acc) 0 (zip a b)).
  (** helpers.go:35-46, 49-60 splitPointVector, splitScalarVector *)
  Definition split_vec (A : Type) (s : seq A) : res bp_err (seq A * seq A) :=
    if (size s < 1)%N then Err BpEmpty
    else if odd (size s) then Err BpOdd
    else Ok (take (size s)./2 s, drop (size s)./2 s).
  (** helpers.go:63-71, 74-82 *)
  Definition scale_points (x : F) (g : seq V) : seq V := [seq x *: p | p <- g].
  Definition scale_scalars (x : F) (a : seq F) : seq F := [seq y * x | y <- a].
  (** helpers.go:85-95 multiplyPairwisePointVectors *)
  Definition add_points (g h : seq V) : res bp_err (seq V) :=
    if size g != size h then Err BpLength else Ok [seq x.1 + x.2 | x <- zip g h].
  (** helpers.go:98-108, 111-121, 124-133 multiply-, add-, subtractPairwiseScalarVectors *)
  Definition mul_scalars (a b : seq F) : res bp_err (seq F) :=
    if size a != size b then Err BpLength else Ok [seq x.1 * x.2 | x <- zip a b].
  Definition add_scalars (a b : seq F) : res bp_err (seq F) :=
    if size a != size b then Err BpLength else Ok [seq x.1 + x.2 | x <- zip a b].
  Definition sub_scalars (a b : seq F) : res bp_err (seq F) :=
    if size a != size b then Err BpLength else Ok [seq x.1 - x.2 | x <- zip a b].
  (** x.Invert() *)
  Definition invert (x : F) : res bp_err F := if x == 0 then Err BpInverse else Ok x^-1.
  (** helpers.go:136-147 invertScalars *)
  Fixpoint invert_scalars (xs : seq F) : res bp_err (seq F) :=
    match xs with
    | [::] => Ok [::]
    | x :: rest => rbind (invert x) (fun y => rbind (invert_scalars rest) (fun ys => Ok (y :: ys)))
    end.
  (** helpers.go:150-152 isPowerOfTwo: 0 & -1 is 0 *)
  Definition is_power_of_two (i : nat) : bool :=
    if i is i'.+1 then N.land (N.of_nat i) (N.of_nat i') == 0%num else true.
  (** helpers.go:156-163 get2nVector: the first entry of an empty vector panics *)
  Definition get2n (n : nat) : res bp_err (seq F) :=
    if (n < 1)%N then Panic else Ok (mkseq (fun i => iter i (fun x => x + x) 1) n).
  (** helpers.go:165-171 get1nVector *)
  Definition get1n (n : nat) : seq F := nseq n 1.
  (** helpers.go:173-181 getknVector: sets entries 0 and 1 *)
  Definition getkn (k : F) (n : nat) : res bp_err (seq F) :=
    if (n < 2)%N then Panic else Ok (mkseq (fun i => k ^+ i) n).
  (** SumOfProducts, and the panic of a method of nil *)
  Definition msm (ps : seq V) (ss : seq F) : res bp_err V :=
    if size ps == size ss then Ok (\sum_(x <- zip ps ss) x.2 *: x.1) else Panic.
End Helpers.

Section Bp.
  Variables (F : fieldType) (V : lmodType F).
  Variables (enc : V -> bytes) (wide : bytes -> option F) (ext : transcript -> bytes).

  (** transcript.ExtractBytes(label, 64) followed by SetBytesWide *)
  Definition challenge (t : transcript) (l : string) : res bp_err (transcript * F) :=
    let t' := rcons t (TExtract l 64) in
    match wide (ext t') with None => Err BpWide | Some x => Ok (t', x) end.

  (** ipp_prover.go:28-32 InnerProductProof *)
  Record ipp := Ipp { ip_a : F; ip_b : F; ip_L : seq V; ip_R : seq V }.

  (** ipp_prover.go:330-342 calcx *)
  Definition ipp_calcx (L R : V) (t : transcript) : res bp_err (transcript * F) :=
    challenge (t ++ [:: TAppend "addRecursiveL"%string (enc L); TAppend "addRecursiveR"%string (enc R)]) "getx"%string.

  (** ipp_prover.go:180-324 proveRecursive. capP and c are carried along in the code but not used for the proof, so they
      are left out. The recursion halves the vectors: [fuel] counts down and the callers give the length, which is more
      than the number of halvings. *)
  Fixpoint prove_rec (fuel : nat) (a b : seq F) (Ls Rs g h : seq V) (u : V) (t : transcript) : res bp_err ipp :=
    if size a != size b then Err BpLength
    else if size g != size h then Err BpLength
    else if size a != size g then Err BpLength
    else if size a == 1%N then Ok (Ipp (head 0 a) (head 0 b) Ls Rs)
    else match fuel with
    | O => Err BpFuel
    | fuel'.+1 =>
      rbind (split_vec a) (fun sa => rbind (split_vec b) (fun sb =>
      rbind (split_vec g) (fun sg => rbind (split_vec h) (fun sh =>
      rbind (inner_product sa.1 sb.2) (fun cL => rbind (inner_product sa.2 sb.1) (fun cR =>
      rbind (msm sg.2 sa.1) (fun lga => rbind (msm sh.1 sb.2) (fun lhb =>
      let L := lga + lhb + cL *: u in
      rbind (msm sg.1 sa.2) (fun rga => rbind (msm sh.2 sb.1) (fun rhb =>
      let R := rga + rhb + cR *: u in
      rbind (ipp_calcx L R t) (fun tx => let x := tx.2 in
      rbind (invert x) (fun xi =>
      rbind (add_points (scale_points xi sg.1) (scale_points x sg.2)) (fun g' =>
      rbind (add_points (scale_points x sh.1) (scale_points xi sh.2)) (fun h' =>
      rbind (add_scalars (scale_scalars x sa.1) (scale_scalars xi sa.2)) (fun a' =>
      rbind (add_scalars (scale_scalars xi sb.1) (scale_scalars x sb.2)) (fun b' =>
      rbind (inner_product a' b') (fun _ =>
      prove_rec fuel' a' b' (rcons Ls L) (rcons Rs R) g' h' u tx.1)))))))))))))))))
    end.

  (** ipp_prover.go:135-177 Prove; G, H are the prover's generators *)
  Definition prove (G H : seq V) (a b : seq F) (u : V) (t : transcript) : res bp_err ipp :=
    if ~~ is_power_of_two (size a) then Err BpPow2
    else if size G != size H then Err BpLength
    else rbind (inner_product a b) (fun c =>
      if (size G < size a)%N then Err BpMax
      else rbind (msm (take (size a) G) a) (fun _ => rbind (msm (take (size b) H) b) (fun _ =>
           prove_rec (size a) a b [::] [::] (take (size a) G) (take (size b) H) u t))).

  (** ipp_prover.go:103-130 getP *)
  Definition get_p (G H : seq V) (a b : seq F) (u : V) : res bp_err V :=
    if ~~ is_power_of_two (size a) then Err BpPow2
    else if size G != size H then Err BpLength
    else rbind (inner_product a b) (fun c =>
      if (size G < size a)%N then Panic
      else rbind (msm (take (size a) G) a) (fun ga => rbind (msm (take (size b) H) b) (fun hb =>
           Ok (ga + hb + c *: u)))).

  (** ipp_verifier.go:142-159 getxs *)
  Fixpoint getxs (t : transcript) (Ls Rs : seq V) : res bp_err (transcript * seq F) :=
    match Ls, Rs with
    | [::], _ => Ok (t, [::])
    | _ :: _, [::] => Panic
    | L :: Ls', R :: Rs' =>
        rbind (ipp_calcx L R t) (fun tx => rbind (getxs tx.1 Ls' Rs') (fun r => Ok (r.1, tx.2 :: r.2)))
    end.

  (** ipp_verifier.go:101-116 getRHS *)
  Fixpoint get_rhs (P : V) (Ls Rs : seq V) (xs : seq F) : res bp_err V :=
    match Ls, Rs, xs with
    | [::], _, _ => Ok P
    | L :: Ls', R :: Rs', x :: xs' =>
        rbind (invert (x * x)) (fun xxi => get_rhs (P + (x * x) *: L + xxi *: R) Ls' Rs' xs')
    | _, _, _ => Panic
    end.
  (** ipp_verifier.go:119-137 getLHS *)
  Definition get_lhs (u : V) (p : ipp) (g h : seq V) (s : seq F) : res bp_err V :=
    rbind (invert_scalars s) (fun si =>
    rbind (msm g (scale_scalars (ip_a p) s)) (fun gas => rbind (msm h (scale_scalars (ip_b p) si)) (fun hbs =>
    Ok (gas + hbs + (ip_a p * ip_b p) *: u)))).

  (** ipp_verifier.go:164-183 gets: i >> (len(xs)-j-1) & 1 *)
  Fixpoint gets_at (i : nat) (xs : seq F) (si : F) : res bp_err F :=
    match xs with
    | [::] => Ok si
    | x :: rest => if odd (i %/ 2 ^ size rest)%N then gets_at i rest (si * x)
                   else rbind (invert x) (fun xi => gets_at i rest (si * xi))
    end.
  Fixpoint gets_from (i n : nat) (xs : seq F) : res bp_err (seq F) :=
    match n with
    | O => Ok [::]
    | n'.+1 => rbind (gets_at i xs 1) (fun s => rbind (gets_from i.+1 n' xs) (fun r => Ok (s :: r)))
    end.
  Definition gets (xs : seq F) (n : nat) : res bp_err (seq F) := gets_from 0 n xs.

  (** ipp_verifier.go:189-209 getsNew. An entry not yet assigned is None; using it panics. *)
  Definition new_step (step half : nat) (xx : F) (ss : seq (option F)) (i : nat) : res bp_err (seq (option F)) :=
    match nth None ss i with
    | None => Panic
    | Some s => if (size ss <= i + half)%N then Panic else Ok (set_nth None ss (i + half) (Some (s * xx)))
    end.
  (** the inner loop visits 0, step, 2*step, ... below n *)
  Definition new_inner (n step half : nat) (xx : F) (ss : seq (option F)) : res bp_err (seq (option F)) :=
    foldl (fun r i => rbind r (fun ss => new_step step half xx ss i)) (Ok ss)
          [seq (c * step)%N | c <- iota 0 ((n + step.-1) %/ step)].
  Fixpoint new_outer (n : nat) (xs : seq F) (ss : seq (option F)) : res bp_err (seq (option F)) :=
    match xs with
    | [::] => Ok ss
    | x :: rest => rbind (new_inner n (2 ^ (size rest).+1) (2 ^ size rest) (x * x) ss) (fun ss' => new_outer n rest ss')
    end.
  Definition gets_new (xs : seq F) (n : nat) : res bp_err (seq (option F)) :=
    if (n < 1)%N then Panic
    else rbind (invert (foldl (fun acc x => acc * x) 1 xs)) (fun s0 =>
         new_outer n xs (Some s0 :: nseq n.-1 None)).
  (** entries are used by invertScalars: a nil one panics *)
  Definition all_set (ss : seq (option F)) : res bp_err (seq F) :=
    if all isSome ss then Ok (map (odflt 0) ss) else Panic.

  (** 1 << len(capLs): for 63 and more the result is negative or zero and slicing or indexing panics *)
  Definition shift1 (k : nat) : res bp_err nat := if (62 < k)%N then Panic else Ok (2 ^ k)%N.

  (** ipp_verifier.go:32-70 Verify *)
  Definition verify (G H : seq V) (P u : V) (p : ipp) (t : transcript) : res bp_err bool :=
    if size (ip_L p) != size (ip_R p) then Err BpLength
    else if size G != size H then Err BpLength
    else rbind (shift1 (size (ip_L p))) (fun n =>
      if (size G < n)%N then Err BpMax
      else rbind (getxs t (ip_L p) (ip_R p)) (fun tx => let xs := tx.2 in
           rbind (gets_new xs n) (fun ss => rbind (all_set ss) (fun s =>
           rbind (get_lhs u p (take n G) (take n H) s) (fun lhs =>
           rbind (get_rhs P (ip_L p) (ip_R p) xs) (fun rhs => Ok (lhs == rhs))))))).

  (** ipp_verifier.go:74-98 VerifyFromRangeProof *)
  Definition verify_from_range (g h : seq V) (Phmu u : V) (that : F) (p : ipp) (t : transcript) : res bp_err bool :=
    rbind (shift1 (size (ip_L p))) (fun n =>
    rbind (getxs t (ip_L p) (ip_R p)) (fun tx => let xs := tx.2 in
    rbind (gets xs n) (fun s =>
    rbind (get_lhs u p g h s) (fun lhs =>
    rbind (get_rhs (Phmu + that *: u) (ip_L p) (ip_R p) xs) (fun rhs => Ok (lhs == rhs)))))).

  (** ipp_prover.go:77-98 rangeToIPP *)
  Definition range_to_ipp (g h : seq V) (l r : seq F) (u : V) (t : transcript) : res bp_err ipp :=
    prove_rec (size l) l r [::] [::] g h u t.
End Bp.

Section Range.
  Variables (F : fieldType) (V : lmodType F).
  Variables (enc : V -> bytes) (wide : bytes -> option F) (ext : transcript -> bytes).
  Variables (sbytes : F -> bytes) (setbytes : bytes -> option F) (val : F -> N).
  Notation ipp := (ipp V).

  (** range_prover.go:35-40 RangeProof, 42-44 RangeProofGenerators *)
  Record range_proof := RangeProof { rp_A : V; rp_S : V; rp_T1 : V; rp_T2 : V; rp_taux : F; rp_mu : F; rp_that : F; rp_ipp : ipp }.
  Record range_gens := RGens { rg_g : V; rg_h : V; rg_u : V }.
  (** the random values of a proof: alpha, rho, tau1, tau2 and the two blinding vectors (range_prover.go:120-131, 199-200) *)
  Record range_rnd := RRnd { rr_alpha : F; rr_rho : F; rr_tau1 : F; rr_tau2 : F; rr_sL : nat -> F; rr_sR : nat -> F }.

  (** range_prover.go:418-434 cmoveScalar: which is 0 or 1 *)
  Definition cmove (x y : F) (which : N) : res bp_err F :=
    let mask := if which == 0%num then 0%num else 255%num in
    let xb := sbytes x in let yb := sbytes y in
    if (size yb < size xb)%N then Panic
    else match setbytes [seq N.lxor c.1 (N.land (N.lxor c.1 c.2) mask) | c <- zip xb yb] with
         | None => Err BpScalar
         | Some o => Ok o
         end.
  (** range_prover.go:396-415 getaL: bit i is vBytes[i>>3] >> (i&7) & 1 *)
  Definition ith_bit (b : bytes) (i : nat) : N :=
    N.land (N.shiftr (nth 0%num b (i %/ 8)%N) (N.of_nat (i %% 8)%N)) 1.
  Fixpoint get_aL_from (vb : bytes) (i n : nat) : res bp_err (seq F) :=
    match n with
    | O => Ok [::]
    | n'.+1 => if (size vb <= i %/ 8)%N then Panic
               else rbind (cmove 0 1 (ith_bit vb i)) (fun x => rbind (get_aL_from vb i.+1 n') (fun r => Ok (x :: r)))
    end.
  Definition get_aL (v : F) (n : nat) : res bp_err (seq F) := get_aL_from (sbytes v) 0 n.
  (** range_batch_prover.go:246-256 getaLBatched *)
  Fixpoint get_aL_batched (vs : seq F) (n : nat) : res bp_err (seq F) :=
    match vs with
    | [::] => Ok [::]
    | v :: rest => rbind (get_aL v n) (fun a => rbind (get_aL_batched rest n) (fun r => Ok (a ++ r)))
    end.

  (** range_prover.go:391-393 getcapV *)
  Definition get_capV (v gamma : F) (g h : V) : V := gamma *: h + v *: g.

  (** range_prover.go:440-459 calcyz, range_batch_prover.go:258-277 calcyzBatched (one "addV" per commitment) *)
  Definition calc_yz (Vs : seq V) (A S : V) (t : transcript) : res bp_err (transcript * (F * F)) :=
    let t1 := t ++ [seq TAppend "addV"%string (enc W) | W <- Vs]
                ++ [:: TAppend "addcapA"%string (enc A); TAppend "addcapS"%string (enc S)] in
    rbind (challenge wide ext t1 "gety"%string) (fun ty =>
    rbind (challenge wide ext ty.1 "getz"%string) (fun tz => Ok (tz.1, (ty.2, tz.2)))).
  (** range_prover.go:465-477 calcx *)
  Definition calc_x (T1 T2 : V) (t : transcript) : res bp_err (transcript * F) :=
    challenge wide ext (t ++ [:: TAppend "addcapT1"%string (enc T1); TAppend "addcapT2"%string (enc T2)]) "getx"%string.

  (** range_verifier.go:162-187 deltayz *)
  Definition delta_yz (y z : F) (n : nat) : res bp_err F :=
    rbind (getkn y n) (fun yn => rbind (inner_product (get1n F n) yn) (fun d1 =>
    rbind (get2n F n) (fun tn => rbind (inner_product (get1n F n) tn) (fun d2 =>
    Ok ((z - z * z) * d1 - z ^+ 3 * d2))))).
  (** range_batch_prover.go:279-310 deltayzBatched *)
  Definition delta_yz_batched (y z : F) (n m : nat) : res bp_err F :=
    rbind (getkn y (n * m)) (fun yn => rbind (inner_product (get1n F (n * m)) yn) (fun d1 =>
    rbind (get2n F n) (fun tn => rbind (inner_product (get1n F n) tn) (fun d2 =>
    let second := (foldl (fun st _ => let ze := st.1 * z in (ze, st.2 + ze * d2)) (z * z, 0) (iota 1 m)).2 in
    Ok ((z - z * z) * d1 - second))))).

  (** range_verifier.go:118-129 gethPrime; getknVector is called before the error of Invert is looked at *)
  Definition get_h' (h : seq V) (y : F) : res bp_err (seq V) :=
    if y == 0 then (if (size h < 2)%N then Panic else Err BpInverse)
    else rbind (getkn y^-1 (size h)) (fun yi => Ok [seq x.2 *: x.1 | x <- zip h yi]).

  (** range_verifier.go:134-159 getPhmu *)
  Definition get_phmu (g h' : seq V) (h A S : V) (x y z mu : F) (n : nat) : res bp_err V :=
    rbind (getkn y n) (fun yn => rbind (get2n F n) (fun tn =>
    rbind (add_scalars (scale_scalars z yn) (scale_scalars (z * z) tn)) (fun ex =>
    rbind (msm h' ex) (fun last =>
    rbind (msm g (scale_scalars (- z) (get1n F n))) (fun zg =>
    Ok (A + x *: S + zg + last - mu *: h)))))).
  (** range_batch_prover.go:313-348 getPhmuBatched *)
  Definition get_phmu_batched (g h' : seq V) (h A S : V) (x y z mu : F) (n m : nat) : res bp_err V :=
    rbind (get2n F n) (fun tn =>
    rbind (foldl (fun r j => rbind r (fun st =>
             let ze := st.1 * z in
             rbind (msm (take n (drop (j * n) h')) (scale_scalars ze tn)) (fun el => Ok (ze, st.2 + el))))
             (Ok (z, 0)) (iota 0 m)) (fun st =>
    rbind (getkn y (n * m)) (fun yn =>
    rbind (msm h' (scale_scalars z yn)) (fun hz =>
    let last := st.2 + hz in
    rbind (msm g (scale_scalars (- z) (get1n F (n * m)))) (fun zg =>
    Ok (A + x *: S + zg + last - mu *: h)))))).

  (** range_batch_prover.go:223-235 getSumTermrXBatched *)
  Definition sum_term (z : F) (n m : nat) : res bp_err (seq F) :=
    rbind (get2n F n) (fun tn =>
    Ok (foldl (fun st _ => let ze := st.1 * z in (ze, st.2 ++ scale_scalars ze tn)) (z, [::]) (iota 0 m)).2).

  (** range_prover.go:88-285 Prove and range_batch_prover.go:16-219 BatchProve share everything between the bit vector aL
      and the inner product proof; [q] is z^2 2^n or the sum term, [sumv] and [gam] the value and blinding parts of t0
      and taux, [delta] and [phmu] the functions of the single or batched case. [nn] is n or n*m. *)
  Definition prove_core (g h : seq V) (pg : range_gens) (rnd : range_rnd) (nn : nat) (aL : seq F) (Vs : seq V)
      (q : F -> res bp_err (seq F)) (sumv gam : F -> res bp_err F) (delta : F -> F -> res bp_err F)
      (phmu : seq V -> V -> V -> F -> F -> F -> F -> res bp_err V) (t : transcript) : res bp_err range_proof :=
    let one := get1n F nn in
    rbind (sub_scalars aL one) (fun aR =>
    rbind (msm g aL) (fun gaL => rbind (msm h aR) (fun haR =>
    let A := rr_alpha rnd *: rg_h pg + gaL + haR in
    let sL := mkseq (rr_sL rnd) nn in let sR := mkseq (rr_sR rnd) nn in
    rbind (msm g sL) (fun gsL => rbind (msm h sR) (fun hsR =>
    let S := rr_rho rnd *: rg_h pg + gsL + hsR in
    rbind (calc_yz Vs A S t) (fun tyz => let y := tyz.2.1 in let z := tyz.2.2 in
    let zone := scale_scalars z one in
    rbind (sub_scalars aL zone) (fun l0 =>
    rbind (q z) (fun qv =>
    rbind (add_scalars aR zone) (fun aRz =>
    rbind (getkn y nn) (fun yn =>
    rbind (mul_scalars yn aRz) (fun had =>
    rbind (add_scalars had qv) (fun r0 =>
    rbind (mul_scalars yn sR) (fun r1 =>
    rbind (inner_product sL r0) (fun t1a => rbind (inner_product r1 l0) (fun t1b =>
    let t1 := t1a + t1b in
    rbind (inner_product sL r1) (fun t2 =>
    let T1 := t1 *: rg_g pg + rr_tau1 rnd *: rg_h pg in
    let T2 := t2 *: rg_g pg + rr_tau2 rnd *: rg_h pg in
    rbind (calc_x T1 T2 tyz.1) (fun tx => let x := tx.2 in
    rbind (add_scalars l0 (scale_scalars x sL)) (fun l =>
    rbind (add_scalars r0 (scale_scalars x r1)) (fun r =>
    rbind (sumv z) (fun sv => rbind (delta y z) (fun dl =>
    let that := sv + dl + t1 * x + t2 * (x * x) in
    rbind (gam z) (fun gm =>
    let taux := rr_tau2 rnd * (x * x) + rr_tau1 rnd * x + gm in
    let mu := rr_alpha rnd + rr_rho rnd * x in
    rbind (get_h' h y) (fun h' =>
    rbind (phmu h' A S x y z mu) (fun P =>
    rbind (challenge wide ext tx.1 "getw"%string) (fun tw =>
    rbind (range_to_ipp enc wide ext g h' l r (tw.2 *: rg_u pg) tw.1) (fun ip =>
    Ok (RangeProof A S T1 T2 taux mu that ip))))))))))))))))))))))))))).

  (** range_prover.go:88-285 Prove *)
  Definition range_prove (G H : seq V) (v gamma : F) (n : nat) (pg : range_gens) (rnd : range_rnd) (t : transcript)
    : res bp_err range_proof :=
    if (size G < n)%N then Err BpMax
    else if (2 ^ N.of_nat n <? val v)%num then Err BpRange
    else rbind (get_aL v n) (fun aL =>
         prove_core (take n G) (take n H) pg rnd n aL [:: get_capV v gamma (rg_g pg) (rg_h pg)]
           (fun z => rbind (get2n F n) (fun tn => Ok (scale_scalars (z * z) tn)))
           (fun z => Ok (v * (z * z))) (fun z => Ok (z * z * gamma))
           (fun y z => delta_yz y z n)
           (fun h' A S x y z mu => get_phmu (take n G) h' (rg_h pg) A S x y z mu n) t).

  (** range_prover.go:366-378 checkRange *)
  Definition check_range (v : F) (n : nat) : bool := ~~ (N.shiftl 1 (N.of_nat n) <? val v)%num.
  (** range_batch_prover.go:237-244 getcapVBatched (gamma[i] panics if gamma is short) *)
  Definition capVs (vs gs : seq F) (g h : V) : res bp_err (seq V) :=
    if (size gs < size vs)%N then Panic else Ok [seq get_capV x.1 x.2 g h | x <- zip vs gs].
  (** range_batch_prover.go:16-219 BatchProve *)
  Definition batch_prove (G H : seq V) (vs gs : seq F) (n : nat) (pg : range_gens) (rnd : range_rnd) (t : transcript)
    : res bp_err range_proof :=
    let m := size vs in let nm := (n * m)%N in
    if (size G < nm)%N then Err BpMax
    else if ~~ all (fun v => check_range v n) vs then Err BpRange
    else rbind (get_aL_batched vs n) (fun aL =>
         rbind (capVs vs gs (rg_g pg) (rg_h pg)) (fun Vs =>
         prove_core (take nm G) (take nm H) pg rnd nm aL Vs
           (fun z => sum_term z n m)
           (fun z => rbind (getkn z m) (fun zm => Ok (foldl (fun acc x => acc + x.1 * x.2) 0 (zip (scale_scalars (z * z) zm) vs))))
           (fun z => Ok (foldl (fun st ga => let ze := st.1 * z in (ze, st.2 + ze * ga)) (z, 0) (take m gs)).2)
           (fun y z => delta_yz_batched y z n m)
           (fun h' A S x y z mu => get_phmu_batched (take nm G) h' (rg_h pg) A S x y z mu n m) t)).

  (** range_verifier.go:42-97 Verify and range_batch_verifier.go:13-70 VerifyBatched, likewise *)
  Definition verify_core (g h : seq V) (pg : range_gens) (p : range_proof) (Vs : seq V)
      (check : F -> F -> F -> res bp_err bool) (delta : F -> F -> res bp_err F)
      (phmu : seq V -> F -> F -> F -> res bp_err V) (t : transcript) : res bp_err bool :=
    rbind (calc_yz Vs (rp_A p) (rp_S p) t) (fun tyz => let y := tyz.2.1 in let z := tyz.2.2 in
    rbind (calc_x (rp_T1 p) (rp_T2 p) tyz.1) (fun tx => let x := tx.2 in
    rbind (challenge wide ext tx.1 "getw"%string) (fun tw =>
    rbind (delta y z) (fun dl =>
    rbind (check dl x z) (fun ok =>
    if ~~ ok then Err BpTHat
    else rbind (get_h' h y) (fun h' =>
         rbind (phmu h' x y z) (fun P =>
         verify_from_range enc wide ext g h' P (tw.2 *: rg_u pg) (rp_that p) (rp_ipp p) tw.1))))))).

  (** range_verifier.go:100-115 checktHat *)
  Definition check_that (p : range_proof) (W g h : V) (dl x z : F) : bool :=
    rp_that p *: g + rp_taux p *: h == (z * z) *: W + dl *: g + x *: rp_T1 p + (x * x) *: rp_T2 p.
  (** range_batch_verifier.go:73-91 checktHatBatched *)
  Definition check_that_batched (p : range_proof) (Vs : seq V) (g h : V) (dl x z : F) (m : nat) : res bp_err bool :=
    rbind (getkn z m) (fun zm =>
    rbind (msm Vs (scale_scalars (z * z) zm)) (fun Vz =>
    Ok (rp_that p *: g + rp_taux p *: h == Vz + dl *: g + x *: rp_T1 p + (x * x) *: rp_T2 p))).

  (** range_verifier.go:42-97 Verify *)
  Definition range_verify (G H : seq V) (p : range_proof) (W : V) (pg : range_gens) (n : nat) (t : transcript) : res bp_err bool :=
    if (size G < n)%N then Err BpMax
    else verify_core (take n G) (take n H) pg p [:: W]
           (fun dl x z => Ok (check_that p W (rg_g pg) (rg_h pg) dl x z))
           (fun y z => delta_yz y z n)
           (fun h' x y z => get_phmu (take n G) h' (rg_h pg) (rp_A p) (rp_S p) x y z (rp_mu p) n) t.
  (** range_batch_verifier.go:13-70 VerifyBatched *)
  Definition verify_batched (G H : seq V) (p : range_proof) (Vs : seq V) (pg : range_gens) (n : nat) (t : transcript)
    : res bp_err bool :=
    let m := size Vs in let nm := (n * m)%N in
    if (size G < nm)%N then Err BpMax
    else verify_core (take nm G) (take nm H) pg p Vs
           (fun dl x z => check_that_batched p Vs (rg_g pg) (rg_h pg) dl x z m)
           (fun y z => delta_yz_batched y z n m)
           (fun h' x y z => get_phmu_batched (take nm G) h' (rg_h pg) (rp_A p) (rp_S p) x y z (rp_mu p) n m) t.
End Range.
