(** C57: what the range proof verifier accepts, for an arbitrary proof. *)
From mathcomp Require Import all_ssreflect all_algebra.
From Coq Require Import BinNat NArith String Ring.
From Verif Require Import AlgBase VRing ByteVec SchnorrModel SimplestOtModel BpModel BpProofs BpIppProps BpRangeProofs.
Delimit Scope nat_scope with N.
Delimit Scope N_scope with num.
Set Implicit Arguments.
Unset Strict Implicit.
Unset Printing Implicit Defensive.
Import GRing.Theory.
Local Open Scope ring_scope.

Section V.
  Variables (F : fieldType) (V : lmodType F).
  Variables (enc : V -> bytes) (wide : bytes -> option F) (ext : transcript -> bytes).
  Add Ring tvring : (tv_ring V).

  (** the transcripts y, z, x and w are drawn from: every commitment, A and S before y and z, T1 and T2 before x and w *)
  Definition t_y (t : transcript) (Vs : seq V) (p : range_proof V) : transcript :=
    t ++ [seq TAppend "addV"%string (enc W) | W <- Vs]
      ++ [:: TAppend "addcapA"%string (enc (rp_A p)); TAppend "addcapS"%string (enc (rp_S p)); TExtract "gety"%string 64].
  Definition t_z t Vs p := rcons (t_y t Vs p) (TExtract "getz"%string 64).
  Definition t_x t Vs p :=
    t_z t Vs p ++ [:: TAppend "addcapT1"%string (enc (rp_T1 p)); TAppend "addcapT2"%string (enc (rp_T2 p)); TExtract "getx"%string 64].
  Definition t_w t Vs p := rcons (t_x t Vs p) (TExtract "getw"%string 64).

  Record challenges (t : transcript) (Vs : seq V) (p : range_proof V) (y z x w : F) (xs : seq F) : Prop := Challenges {
    ch_y : wide (ext (t_y t Vs p)) = Some y;
    ch_z : wide (ext (t_z t Vs p)) = Some z;
    ch_x : wide (ext (t_x t Vs p)) = Some x;
    ch_w : wide (ext (t_w t Vs p)) = Some w;
    ch_xs : round_challenges enc wide ext (t_w t Vs p) (ip_L (rp_ipp p)) (ip_R (rp_ipp p)) xs;
    ch_y0 : y != 0;
    ch_nz : forall c, c \in xs -> c != 0 }.

  (** the sum over i < n of y^i, and of 2^i *)
  Definition ysum (y : F) (n : nat) : F := \sum_(i < n) y ^+ i.
  (** the commitment equation of a proof for the commitments W_j: V(z) is the sum of z^(2+j) W_j *)
  Definition that_equation (p : range_proof V) (g h Vz : V) (delta x : F) : bool :=
    rp_that p *: g + rp_taux p *: h == Vz + delta *: g + x *: rp_T1 p + x ^+ 2 *: rp_T2 p.
  (** the inner product equation over generators G_i and y^-i H_i for the point P and the base U *)
  Definition ipp_equation (q : ipp V) (n : nat) (G H : seq V) (y : F) (xs : seq F) (P U : V) : bool :=
    ip_a q *: (\sum_(i < n) weight xs i *: G`_i) + ip_b q *: (\sum_(i < n) (weight xs i)^-1 *: (y^-1 ^+ i *: H`_i))
      + (ip_a q * ip_b q) *: U
    == P + \sum_(j < size (ip_L q)) ((xs`_j * xs`_j) *: (ip_L q)`_j + (xs`_j * xs`_j)^-1 *: (ip_R q)`_j).

  Lemma core_equation (G H : seq V) (p : range_proof V) (Vs : seq V) (pg : range_gens V) (n : nat) (t : transcript)
      (check : F -> F -> F -> res bp_err bool) (delta : F -> F -> res bp_err F) (phmu : seq V -> F -> F -> F -> res bp_err V)
      (ck : bool) (dl : F) (P : V) (y z x w : F) (xs : seq F) :
    size G = n -> size H = n -> (1 < n)%N ->
    size (ip_R (rp_ipp p)) = size (ip_L (rp_ipp p)) -> (size (ip_L (rp_ipp p)) < 63)%N -> n = (2 ^ size (ip_L (rp_ipp p)))%N ->
    challenges t Vs p y z x w xs ->
    delta y z = Ok dl -> check dl x z = Ok ck -> phmu (mkseq (fun i => y^-1 ^+ i *: H`_i) n) x y z = Ok P ->
    verify_core enc wide ext G H pg p Vs check delta phmu t
    = if ck then Ok (ipp_equation (rp_ipp p) n G H y xs (P + rp_that p *: (w *: rg_u pg)) (w *: rg_u pg)) else Err BpTHat.
  Proof.
    move=> sG sH n1 sR k63 En [cy cz cx cw cxs y0 nz] Ed Ec Ep.
    rewrite /verify_core /calc_yz /challenge rcons_cat rcons_cat /= -/(t_y t Vs p) cy /= -/(t_z t Vs p) cz /= /calc_x /challenge.
    rewrite rcons_cat /= -/(t_x t Vs p) cx /= -/(t_w t Vs p) cw /= Ed /= Ec /=; case: ck {Ec} => //=.
    rewrite (get_h'_mk sH n1 y0) /= Ep /=.
    have [t' Ex] := round_challenges_getxs cxs.
    have sx : size xs = size (ip_L (rp_ipp p)).
      elim: (ip_L _) (ip_R _) (t_w _ _ _) (xs) cxs => [|L Ls IH] [|R Rs] t0 [|c cs] //= [_] /IH -> //.
    have nz' : all (fun c => c != 0) xs by apply/allP.
    have sg : size G = (2 ^ size (ip_L (rp_ipp p)))%N by rewrite sG.
    have sh : size (mkseq (fun i => y^-1 ^+ i *: H`_i) n) = (2 ^ size (ip_L (rp_ipp p)))%N by rewrite size_mkseq.
    rewrite (verify_from_range_eq _ _ _ k63 (esym sR) sg sh Ex nz' sx).
    congr Ok; rewrite /ipp_equation; congr (_ == _ + _).
    - rewrite /lhs_of (@vdot_nth _ _ _ _ n) ?size_s_of ?sx //.
      rewrite (@vdot_nth _ _ _ _ n) ?size_mkseq ?size_map ?size_s_of ?sx //.
      have -> : \sum_(i < n) (s_of xs)`_i *: G`_i = \sum_(i < n) weight xs i *: G`_i.
        by apply: eq_bigr => i _; rewrite s_of_weight ?sx -?En.
      have -> : \sum_(i < n) [seq c^-1 | c <- s_of xs]`_i *: (mkseq (fun i => y^-1 ^+ i *: H`_i) n)`_i
              = \sum_(i < n) (weight xs i)^-1 *: (y^-1 ^+ i *: H`_i); last by [].
      by apply: eq_bigr => i _; rewrite (nth_map 0) ?size_s_of ?sx -?En // s_of_weight ?sx -?En // nth_mkseq.
    - rewrite /rounds; clear -sx sR; move: sx sR.
      elim: (ip_L _) (ip_R _) xs => [|L Ls IH] [|R Rs] [|c cs] //=; first by rewrite big_ord0.
      by move=> [sx] [sR]; rewrite big_ord_recl /= (IH _ _ sx sR).
  Qed.

  (** C57: the verdict on an arbitrary proof *)
  Theorem C57_verify_equation (G H : seq V) (p : range_proof V) (W : V) (pg : range_gens V) (n : nat) (t : transcript)
      (y z x w : F) (xs : seq F) :
    (1 < n)%N -> (n <= size G)%N -> (n <= size H)%N ->
    size (ip_R (rp_ipp p)) = size (ip_L (rp_ipp p)) -> (size (ip_L (rp_ipp p)) < 63)%N -> n = (2 ^ size (ip_L (rp_ipp p)))%N ->
    challenges t [:: W] p y z x w xs ->
    range_verify enc wide ext G H p W pg n t =
    if that_equation p (rg_g pg) (rg_h pg) (z ^+ 2 *: W) ((z - z ^+ 2) * ysum y n - z ^+ 3 * ysum 2%:R n) x
    then Ok (ipp_equation (rp_ipp p) n G H y xs
               (rp_A p + x *: rp_S p - z *: (\sum_(i < n) G`_i)
                + \sum_(i < n) (z * y ^+ i + z ^+ 2 * 2%:R ^+ i) *: (y^-1 ^+ i *: H`_i) - rp_mu p *: rg_h pg
                + rp_that p *: (w *: rg_u pg)) (w *: rg_u pg))
    else Err BpTHat.
  Proof.
    move=> n1 lG lH sR k63 En Hc; rewrite /range_verify ltnNge lG /=.
    have n0 : (0 < n)%N by exact: ltnW.
    have sG : size (take n G) = n by rewrite size_takel.
    have sH : size (take n H) = n by rewrite size_takel.
    have T (A : seq V) (i : 'I_n) : (take n A)`_i = A`_i by rewrite nth_take.
    have D : delta_yz y z n = Ok ((z - z * z) * ysum y n - z ^+ 3 * ysum 2%:R n).
      rewrite /delta_yz getkn_mk //= get1n_mk inner_mk //= get2n_mk //= inner_mk //=.
      by rewrite /ysum; congr (Ok (_ * _ - _ * _)); apply: eq_bigr => i _; rewrite mul1r.
    rewrite (core_equation pg sG sH n1 sR k63 En Hc D (ck := that_equation p (rg_g pg) (rg_h pg) (z ^+ 2 *: W)
               ((z - z ^+ 2) * ysum y n - z ^+ 3 * ysum 2%:R n) x)
             (P := rp_A p + x *: rp_S p - z *: (\sum_(i < n) G`_i)
                + \sum_(i < n) (z * y ^+ i + z ^+ 2 * 2%:R ^+ i) *: (y^-1 ^+ i *: H`_i) - rp_mu p *: rg_h pg)).
    - case: (that_equation _ _ _ _ _ _) => //; congr Ok; rewrite /ipp_equation; congr (_ *: _ + _ *: _ + _ == _);
        by apply: eq_bigr => i _; rewrite T.
    - by rewrite /check_that /that_equation !expr2.
    - rewrite /get_phmu getkn_mk //= get2n_mk //= !scale_mk add_mk /= msm_mk ?size_mkseq //= get1n_mk scale_mk msm_mk //=.
      congr (Ok (_ + _ + _ + _ - _)).
      + by rewrite scaler_sumr -sumrN; apply: eq_bigr => i _; rewrite T mul1r scaleNr.
      + by apply: eq_bigr => i _; rewrite nth_mkseq // T [y ^+ i * z]mulrC [_ ^+ i * (z * z)]mulrC expr2.
  Qed.

  (** such challenges exist for every proof with as many L as R points when the hash outputs reduce to non-zero scalars *)
  Theorem C57_challenges_exist (t : transcript) (Vs : seq V) (p : range_proof V) : usable_challenges wide ext ->
    size (ip_R (rp_ipp p)) = size (ip_L (rp_ipp p)) -> exists y z x w xs, challenges t Vs p y z x w xs.
  Proof.
    move=> U sR.
    have E t0 l : exists2 c, wide (ext (rcons t0 (TExtract l 64))) = Some c & c != 0.
      have [c] := U t0 l; rewrite /challenge; case: (wide _) => // c' [<-] c0; by exists c'.
    have R t0 : exists xs, round_challenges enc wide ext t0 (ip_L (rp_ipp p)) (ip_R (rp_ipp p)) xs /\ forall c, c \in xs -> c != 0.
      elim: (ip_L _) (ip_R _) sR t0 => [|L Ls IH] [|Q Rs] //= sR t0; first by exists [::].
      move: sR => [sR]; have [c] := E (t0 ++ [:: TAppend "addRecursiveL" (enc L); TAppend "addRecursiveR" (enc Q)]) "getx"%string.
      rewrite rcons_cat /= => Ec c0; have [xs [H1 H2]] := IH _ sR (t0 ++ [:: TAppend "addRecursiveL" (enc L); TAppend "addRecursiveR" (enc Q); TExtract "getx" 64]).
      exists (c :: xs); split; first by split.
      by move=> d; rewrite inE => /orP [/eqP -> //|]; exact: H2.
    have [y] := E (t ++ [seq TAppend "addV"%string (enc W) | W <- Vs]
      ++ [:: TAppend "addcapA"%string (enc (rp_A p)); TAppend "addcapS"%string (enc (rp_S p))]) "gety"%string.
    rewrite !rcons_cat /= => Ey y0.
    have [z Ez _] := E (t_y t Vs p) "getz"%string.
    have [x] := E (t_z t Vs p ++ [:: TAppend "addcapT1"%string (enc (rp_T1 p)); TAppend "addcapT2"%string (enc (rp_T2 p))]) "getx"%string.
    rewrite rcons_cat /= => Exx _; have [w Ew _] := E (t_x t Vs p) "getw"%string.
    have [xs [Hx nz]] := R (t_w t Vs p); exists y, z, x, w, xs; split=> //.
  Qed.

  (** the challenges y and z depend on every commitment and on A and S, x and w also on T1 and T2: different values
      give different transcripts *)
  Theorem C57_transcript_binds (t : transcript) (Vs Vs' : seq V) (p p' : range_proof V) : injective enc ->
    (t_y t Vs p = t_y t Vs' p' -> [/\ Vs = Vs', rp_A p = rp_A p' & rp_S p = rp_S p']) /\
    (t_w t Vs p = t_w t Vs' p' -> [/\ Vs = Vs', rp_A p = rp_A p', rp_S p = rp_S p', rp_T1 p = rp_T1 p' & rp_T2 p = rp_T2 p']).
  Proof.
    move=> inj.
    have CI (T : Type) (a b c : seq T) : a ++ b = a ++ c -> b = c by elim: a => //= x a IH [/IH].
    have Y : t_y t Vs p = t_y t Vs' p' -> [/\ Vs = Vs', rp_A p = rp_A p' & rp_S p = rp_S p'].
      rewrite /t_y => /CI; elim: Vs Vs' => [|A As IH] [|B Bs] //=; first by case=> /inj -> /inj ->.
      by case=> /inj -> /IH [-> -> ->].
    split=> //; rewrite /t_w => /rcons_inj [] E.
    have Sz Us q : size (t_x t Us q) = (size (t_z t Us q) + 3)%N by rewrite /t_x size_cat.
    have Ez : size (t_z t Vs p) = size (t_z t Vs' p').
      by have := congr1 size E; rewrite !Sz => /addIn.
    have E1 := congr1 (take (size (t_z t Vs p))) E; have E2 := congr1 (drop (size (t_z t Vs p))) E.
    rewrite /t_x !take_size_cat // in E1; rewrite /t_x !drop_size_cat // in E2.
    case: E2 => /inj -> /inj ->; move: E1; rewrite /t_z => /rcons_inj [] /Y [-> -> ->]; by [].
  Qed.
End V.
