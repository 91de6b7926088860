(** Proofs about the inner product argument: vectors, the folding step, the verifier's coefficients. *)
From mathcomp Require Import all_ssreflect all_algebra.
From Coq Require Import BinNat String Ring.
From Verif Require Import AlgBase VRing ByteVec SchnorrModel SimplestOtModel BpModel BbsPokProps.
Delimit Scope nat_scope with N.
Delimit Scope N_scope with num.
Set Implicit Arguments.
Unset Strict Implicit.
Unset Printing Implicit Defensive.
Import GRing.Theory.
Local Open Scope ring_scope.

Lemma rbind_ok E A B (r : res E A) (f : A -> res E B) y : rbind r f = Ok y -> exists2 x, r = Ok x & f x = Ok y.
Proof. by case: r => //= x; exists x. Qed.

Section Vec.
  Variables (F : fieldType) (V : lmodType F).
  Add Ring tvring : (tv_ring V).

  Definition vdot (g : seq V) (a : seq F) : V := \sum_(x <- zip g a) x.2 *: x.1.
  Definition dot (a b : seq F) : F := \sum_(x <- zip a b) x.1 * x.2.

  Lemma vdot_cat g1 g2 a1 a2 : size g1 = size a1 -> vdot (g1 ++ g2) (a1 ++ a2) = vdot g1 a1 + vdot g2 a2.
  Proof. by move=> E; rewrite /vdot zip_cat // big_cat. Qed.
  Lemma dot_cat a1 a2 b1 b2 : size a1 = size b1 -> dot (a1 ++ a2) (b1 ++ b2) = dot a1 b1 + dot a2 b2.
  Proof. by move=> E; rewrite /dot zip_cat // big_cat. Qed.
  Lemma vdot_nth g a n : size g = n -> size a = n -> vdot g a = \sum_(i < n) a`_i *: g`_i.
  Proof.
    elim: g a n => [|p g IH] [|x a] [|n] //= => [_ _|[sg] [sa]]; first by rewrite /vdot big_nil big_ord0.
    by rewrite /vdot /= big_cons big_ord_recl /= -(IH a n sg sa).
  Qed.
  Lemma dot_nth a b n : size a = n -> size b = n -> dot a b = \sum_(i < n) a`_i * b`_i.
  Proof.
    elim: a b n => [|p g IH] [|x a] [|n] //= => [_ _|[sg] [sa]]; first by rewrite /dot big_nil big_ord0.
    by rewrite /dot /= big_cons big_ord_recl /= -(IH a n sg sa).
  Qed.

  Lemma foldl_dot (s : seq (F * F)) acc : foldl (fun acc x => x.1 * x.2 + acc) acc s = acc + \sum_(x <- s) x.1 * x.2.
  Proof. by elim: s acc => [|x s IH] acc /=; rewrite ?big_nil ?addr0 // IH big_cons addrCA addrA. Qed.
  Lemma inner_product_ok (a b : seq F) n : size a = n -> size b = n -> (0 < n)%N -> inner_product a b = Ok (dot a b).
  Proof.
    move=> sa sb n0; rewrite /inner_product sa sb eqxx /=; case: ltnP => [|_]; first by rewrite ltnS leqn0; case: (n) n0.
    by rewrite foldl_dot add0r.
  Qed.
  Lemma msm_ok (g : seq V) (a : seq F) n : size g = n -> size a = n -> msm g a = Ok (vdot g a).
  Proof. by move=> sg sa; rewrite /msm sg sa eqxx. Qed.

  (** the folded vectors *)
  Lemma vdot_fold (x y : F) (g1 g2 : seq V) (a : seq F) n : size g1 = n -> size g2 = n -> size a = n ->
    vdot [seq z.1 + z.2 | z <- zip (scale_points x g1) (scale_points y g2)] a = x *: vdot g1 a + y *: vdot g2 a.
  Proof.
    move=> s1 s2 sa.
    rewrite (@vdot_nth _ a n) ?(vdot_nth s1 sa) ?(vdot_nth s2 sa) // ?size_map ?size_zip ?size_map ?s1 ?s2 ?minnn //.
    rewrite 2!scaler_sumr -big_split; apply: eq_bigr => i _ /=.
    rewrite (nth_map (0, 0)) ?size_zip ?size_map ?s1 ?s2 ?minnn // nth_zip ?size_map ?s1 ?s2 //=.
    rewrite !(nth_map 0) ?s1 ?s2 // scalerDr !scalerA; congr (_ *: _ + _ *: _); exact: mulrC.
  Qed.
  Lemma vdot_foldr (x y : F) (g : seq V) (a1 a2 : seq F) n : size g = n -> size a1 = n -> size a2 = n ->
    vdot g [seq z.1 + z.2 | z <- zip (scale_scalars x a1) (scale_scalars y a2)] = x *: vdot g a1 + y *: vdot g a2.
  Proof.
    move=> sg s1 s2.
    rewrite (@vdot_nth g _ n) ?(vdot_nth sg s1) ?(vdot_nth sg s2) // ?size_map ?size_zip ?size_map ?s1 ?s2 ?minnn //.
    rewrite 2!scaler_sumr -big_split; apply: eq_bigr => i _ /=.
    rewrite (nth_map (0, 0)) ?size_zip ?size_map ?s1 ?s2 ?minnn // nth_zip ?size_map ?s1 ?s2 //=.
    by rewrite !(nth_map 0) ?s1 ?s2 // scalerDl !scalerA; congr (_ *: _ + _ *: _); exact: mulrC.
  Qed.
  Lemma dot_fold (x y x' y' : F) (a1 a2 b1 b2 : seq F) n : size a1 = n -> size a2 = n -> size b1 = n -> size b2 = n ->
    dot [seq z.1 + z.2 | z <- zip (scale_scalars x a1) (scale_scalars y a2)]
        [seq z.1 + z.2 | z <- zip (scale_scalars x' b1) (scale_scalars y' b2)]
    = x * x' * dot a1 b1 + x * y' * dot a1 b2 + y * x' * dot a2 b1 + y * y' * dot a2 b2.
  Proof.
    move=> s1 s2 s3 s4.
    rewrite (@dot_nth _ _ n) ?(dot_nth s1 s3) ?(dot_nth s1 s4) ?(dot_nth s2 s3) ?(dot_nth s2 s4) //
      ?size_map ?size_zip ?size_map ?s1 ?s2 ?s3 ?s4 ?minnn //.
    rewrite 4!mulr_sumr -3!big_split; apply: eq_bigr => i _ /=.
    rewrite !(nth_map (0, 0)) ?size_zip ?size_map ?s1 ?s2 ?s3 ?s4 ?minnn // !nth_zip ?size_map ?s1 ?s2 ?s3 ?s4 //=.
    rewrite !(nth_map 0) ?s1 ?s2 ?s3 ?s4 //.
    move: a1`_i a2`_i b1`_i b2`_i => p q r s; vphi V; ring.
  Qed.
  Lemma vdot_scale (c : F) (g : seq V) (a : seq F) n : size g = n -> size a = n -> vdot g (scale_scalars c a) = c *: vdot g a.
  Proof.
    move=> sg sa; rewrite (@vdot_nth g _ n) ?(vdot_nth sg sa) ?size_map ?sa // scaler_sumr; apply: eq_bigr => i _.
    by rewrite (nth_map 0) ?sa // scalerA mulrC.
  Qed.
  Lemma vdot_map_l (c : F) (g : seq V) (a : seq F) n : size g = n -> size a = n -> vdot g [seq c * x | x <- a] = c *: vdot g a.
  Proof.
    move=> sg sa; rewrite -(vdot_scale c sg sa) /scale_scalars; congr vdot; apply: eq_map => y; exact: mulrC.
  Qed.

  (** the coefficients of the verifier: entry i is the product of x_j or 1/x_j for the bits of i, x_0 for the top bit *)
  Fixpoint s_of (xs : seq F) : seq F :=
    if xs is x :: rest then [seq x^-1 * s | s <- s_of rest] ++ [seq x * s | s <- s_of rest] else [:: 1].
  Lemma size_s_of xs : size (s_of xs) = (2 ^ size xs)%N.
  Proof. by elim: xs => [|x xs IH] //=; rewrite size_cat !size_map IH addnn -mul2n expnS. Qed.
  Lemma s_of_neq0 xs : all (fun x => x != 0) xs -> all (fun x => x != 0) (s_of xs).
  Proof.
    elim: xs => [|x xs IH] /=; first by rewrite oner_eq0.
    case/andP => x0 /IH /allP A; rewrite all_cat !all_map; apply/andP; split; apply/allP => y /A y0 /=; apply: mulf_neq0 => //; by rewrite invr_eq0.
  Qed.
  Lemma s_of_inv x rest : [seq y^-1 | y <- s_of (x :: rest)]
    = [seq x * y | y <- [seq z^-1 | z <- s_of rest]] ++ [seq x^-1 * y | y <- [seq z^-1 | z <- s_of rest]].
  Proof. by rewrite /= map_cat -!map_comp; congr (_ ++ _); apply: eq_map => y /=; rewrite invfM ?invrK. Qed.
  Lemma nth_s_of x rest i : (i < 2 ^ (size rest).+1)%N ->
    (s_of (x :: rest))`_i = (if odd (i %/ 2 ^ size rest)%N then x else x^-1) * (s_of rest)`_(i %% 2 ^ size rest)%N.
  Proof.
    move=> lt; have P : (0 < 2 ^ size rest)%N by rewrite expn_gt0.
    rewrite /= nth_cat size_map size_s_of; case: (ltnP i (2 ^ size rest)) => h.
    - by rewrite divn_small // modn_small //= (nth_map 0) ?size_s_of.
    - have E : (i = 1 * 2 ^ size rest + (i - 2 ^ size rest))%N by rewrite mul1n subnKC.
      have lt2 : (i - 2 ^ size rest < 2 ^ size rest)%N by rewrite ltn_subLR // addnn -mul2n -expnS.
      rewrite [in X in odd X]E [in X in (s_of rest)`_X]E divnMDl // modnMDl divn_small // modn_small //= (nth_map 0) ?size_s_of //.
  Qed.

  Lemma gets_at_eq i xs si : all (fun x => x != 0) xs ->
    gets_at i xs si = Ok (si * (s_of xs)`_(i %% 2 ^ size xs)%N).
  Proof.
    elim: xs si => [|x rest IH] si /=; first by rewrite expn0 modn1 mulr1.
    case/andP => x0 nz; have P : (0 < 2 ^ size rest)%N by rewrite expn_gt0.
    rewrite (nth_s_of x) ?ltn_mod ?expn_gt0 //.
    have E : (i %% 2 ^ (size rest).+1 %% 2 ^ size rest = i %% 2 ^ size rest)%N.
      by rewrite modn_dvdm // expnS dvdn_mull.
    have O : odd (i %% 2 ^ (size rest).+1 %/ 2 ^ size rest)%N = odd (i %/ 2 ^ size rest)%N.
      have -> : (i %/ 2 ^ size rest = i %/ 2 ^ (size rest).+1 * 2 + i %% 2 ^ (size rest).+1 %/ 2 ^ size rest)%N.
        by rewrite -divnMDl // -mulnA -expnS -divn_eq.
      by rewrite oddD oddM andbF.
    rewrite E O; case: ifP => _.
    - by rewrite IH // mulrA.
    - by rewrite /invert (negbTE x0) /= IH // mulrA.
  Qed.
  Lemma gets_from_eq xs i n : all (fun x => x != 0) xs -> (i + n <= 2 ^ size xs)%N ->
    gets_from i n xs = Ok (take n (drop i (s_of xs))).
  Proof.
    move=> nz; elim: n i => [|n IH] i le /=; first by rewrite take0.
    have lt : (i < 2 ^ size xs)%N by apply: leq_trans le; rewrite addnS ltnS leq_addr.
    rewrite gets_at_eq // mul1r modn_small //= IH ?addSnnS //=.
    by rewrite [drop i _](drop_nth 0) ?size_s_of //=.
  Qed.
  Lemma gets_eq xs : all (fun x => x != 0) xs -> gets xs (2 ^ size xs) = Ok (s_of xs).
  Proof. by move=> nz; rewrite /gets gets_from_eq // drop0 -size_s_of take_size. Qed.

  (** the loop of getsNew *)
  Lemma new_inner_eq N half xx (e : nat -> F) (ss : seq (option F)) : (0 < half)%N ->
    size ss = (N * half.*2)%N -> (forall c, (c < N)%N -> nth None ss (c * half.*2) = Some (e c)) ->
    exists2 ss', new_inner (N * half.*2) half.*2 half xx ss = Ok ss' &
      size ss' = size ss /\
      forall p, nth None ss' p = if (p %% half.*2 == half)%N && (p %/ half.*2 < N)%N then Some (e (p %/ half.*2)%N * xx) else nth None ss p.
  Proof.
    set st := half.*2 => h0 sz H; have st0 : (0 < st)%N by rewrite /st double_gt0.
    have hs : (half < st)%N by rewrite /st -addnn -[X in (X < _)%N]addn0 ltn_add2l.
    rewrite /new_inner; have -> : ((N * st + st.-1) %/ st)%N = N.
      by rewrite divnMDl // divn_small ?prednK ?addn0 // leqnn.
    have: forall k, (k <= N)%N -> exists2 ss',
        foldl (fun r i => rbind r (fun ss0 => new_step st half xx ss0 i)) (Ok ss : res bp_err _) [seq (c * st)%N | c <- iota 0 k] = Ok ss' &
        size ss' = size ss /\
        forall p, nth None ss' p = if (p %% st == half)%N && (p %/ st < k)%N then Some (e (p %/ st)%N * xx) else nth None ss p.
      elim=> [|k IH] le; first by exists ss => //; split=> // p; rewrite ltn0 andbF.
      case: (IH (ltnW le)) => ss' E [sz' H'].
      rewrite -addn1 iotaD map_cat foldl_cat E /= add0n /new_step H' modnMl.
      rewrite (ltn_eqF h0) /= H //.
      have lt : (k * st + half < size ss')%N.
        rewrite sz' sz; apply: leq_trans (_ : k.+1 * st <= _)%N; last by rewrite leq_pmul2r.
        by rewrite mulSn addnC ltn_add2r.
      rewrite leqNgt lt /=; eexists; first by [].
      split; first by rewrite size_set_nth sz' maxnC -sz'; apply/maxn_idPl.
      move=> p; rewrite nth_set_nth /= H'; case: (p =P (k * st + half)%N) => [->|ne].
      - by rewrite modnMDl modn_small // eqxx divnMDl // divn_small // addn0 addn1 ltnSn.
      - case: eqP => //= em; have -> : (p %/ st < k + 1)%N = (p %/ st < k)%N; last by [].
        rewrite addn1 ltnS leq_eqVlt; case: eqP => //= ek; case: ne.
        by rewrite (divn_eq p st) em ek.
    by move/(_ N (leqnn N)).
  Qed.

  Lemma new_outer_eq (xs : seq F) N (e : nat -> F) (ss : seq (option F)) : all (fun x => x != 0) xs ->
    size ss = (N * 2 ^ size xs)%N -> (forall c, (c < N)%N -> nth None ss (c * 2 ^ size xs) = Some (e c)) ->
    exists2 ss', new_outer (N * 2 ^ size xs) xs ss = Ok ss' &
      size ss' = size ss /\
      forall c i, (c < N)%N -> (i < 2 ^ size xs)%N -> nth None ss' (c * 2 ^ size xs + i) = Some (e c * \prod_(x <- xs) x * (s_of xs)`_i).
  Proof.
    elim: xs N e ss => [|x rest IH] N e ss nz sz H /=.
      exists ss => //; split=> // c i cN; rewrite expn0 ltnS leqn0 => /eqP ->; rewrite addn0 H //= big_nil !mulr1 //.
    move: nz => /= /andP [x0 nz].
    have D : (2 ^ (size rest).+1 = (2 ^ size rest).*2)%N by rewrite expnS mul2n.
    have P : (0 < 2 ^ size rest)%N by rewrite expn_gt0.
    rewrite D; rewrite /= D in sz H.
    have [ss1 -> [sz1 H1]] := new_inner_eq (x * x) P sz H.
    set e1 := fun c => if odd c then e (c./2) * (x * x) else e (c./2).
    have Hn : (N.*2 * 2 ^ size rest = N * (2 ^ size rest).*2)%N by rewrite -!muln2 -mulnA [(2 * _)%N]mulnC.
    have := IH N.*2 e1 ss1 nz; rewrite /= Hn sz1 sz; case=> //.
      move=> c cN; rewrite H1 /e1.
      have Ec : (c * 2 ^ size rest = c./2 * (2 ^ size rest).*2 + odd c * 2 ^ size rest)%N.
        by rewrite -[in LHS](odd_double_half c) mulnDl addnC -!muln2 -!mulnA [(2 * _)%N]mulnC.
      have lh : (c./2 < N)%N by rewrite -ltn_double; apply: leq_ltn_trans cN; rewrite -[X in (_ <= X)%N](odd_double_half c) leq_addl.
      have st0 : (0 < (2 ^ size rest).*2)%N by rewrite double_gt0.
      rewrite Ec; case: (odd c).
      - have hs : (1 * 2 ^ size rest < (2 ^ size rest).*2)%N by rewrite mul1n -addnn -[X in (X < _)%N]addn0 ltn_add2l.
        by rewrite modnMDl modn_small // mul1n eqxx divnMDl // divn_small ?addn0 ?lh // -[X in (X < _)%N]mul1n.
      - by rewrite mul0n addn0 modnMl (ltn_eqF P) /= H.
    move=> ss2 -> [sz2 H2]; exists ss2 => //; split=> // c i cN iN.
    rewrite big_cons nth_cat size_map size_s_of; case: (ltnP i (2 ^ size rest)) => hi.
    - have -> : (c * (2 ^ size rest).*2 + i = c.*2 * 2 ^ size rest + i)%N.
        by congr addn; rewrite -!muln2 -mulnA [(2 * _)%N]mulnC.
      rewrite H2 ?ltn_double // /e1 odd_double doubleK (nth_map 0) ?size_s_of //; congr Some.
      move: (s_of rest)`_ _ (\prod_(_ <- _) _) (e c) => p q r.
      rewrite -[LHS]mulr1 -[X in _ * X](divff x0); move: (x^-1) => y; vphi V; ring.
    - have lt2 : (i - 2 ^ size rest < 2 ^ size rest)%N by rewrite ltn_subLR // addnn.
      have -> : (c * (2 ^ size rest).*2 + i = c.*2.+1 * 2 ^ size rest + (i - 2 ^ size rest))%N.
        by rewrite mulSn [RHS]addnAC subnKC // [RHS]addnC; congr addn; rewrite -!muln2 -mulnA [(2 * _)%N]mulnC.
      rewrite H2 ?ltn_Sdouble // /e1 /= odd_double ?uphalf_double (nth_map 0) ?size_s_of //; congr Some.
      by move: (s_of rest)`_ _ (\prod_(_ <- _) _) (e c) => p q r; vphi V; ring.
  Qed.

  Lemma foldl_prod (xs : seq F) acc : foldl (fun a x => a * x) acc xs = acc * \prod_(x <- xs) x.
  Proof. by elim: xs acc => [|x s IH] acc /=; rewrite ?big_nil ?mulr1 // IH big_cons mulrA. Qed.
  Lemma prod_neq0 (xs : seq F) : (\prod_(x <- xs) x != 0) = all (fun x => x != 0) xs.
  Proof. by elim: xs => [|x xs IH]; rewrite ?big_nil ?oner_eq0 // big_cons mulf_eq0 negb_or IH. Qed.

  Lemma gets_new_eq (xs : seq F) : all (fun x => x != 0) xs -> gets_new xs (2 ^ size xs) = Ok [seq Some s | s <- s_of xs].
  Proof.
    move=> nz; have P : (0 < 2 ^ size xs)%N by rewrite expn_gt0.
    rewrite /gets_new ltnNge P /= foldl_prod mul1r /invert; move: (nz); rewrite -prod_neq0 => pn; rewrite (negbTE pn) /=.
    have := @new_outer_eq xs 1 (fun=> (\prod_(x <- xs) x)^-1) (Some (\prod_(x <- xs) x)^-1 :: nseq (2 ^ size xs).-1 None) nz.
    rewrite mul1n; case.
    - by rewrite /= size_nseq prednK.
    - by move=> c; rewrite ltnS leqn0 => /eqP ->; rewrite mul0n.
    move=> ss -> [sz H]; congr Ok; apply: (@eq_from_nth _ None).
    - by rewrite sz /= size_nseq size_map size_s_of prednK.
    - rewrite sz /= size_nseq prednK // => i lt.
      rewrite -[i in LHS]add0n -[X in (X + _)%N](mul0n (2 ^ size xs)%N) H // (nth_map 0) ?size_s_of //; congr Some.
      by rewrite mulVf // mul1r.
  Qed.
  Lemma gets_new_zero (xs : seq F) n : (0 < n)%N -> ~~ all (fun x => x != 0) xs -> gets_new xs n = Err BpInverse.
  Proof.
    move=> n0; rewrite -prod_neq0 negbK => p0; rewrite /gets_new ltnNge n0 /= foldl_prod mul1r /invert p0 //.
  Qed.
  Lemma all_set_some (s : seq F) : all_set [seq Some x | x <- s] = Ok s.
  Proof.
    rewrite /all_set all_map (eq_all (a2 := predT)) // all_predT -map_comp; congr Ok.
    by rewrite -[RHS]map_id; apply: eq_map.
  Qed.
  Lemma invert_scalars_ok (s : seq F) : all (fun x => x != 0) s -> invert_scalars s = Ok [seq x^-1 | x <- s].
  Proof. by elim: s => [|x s IH] //= /andP [x0 nz]; rewrite /invert (negbTE x0) /= IH. Qed.
End Vec.

Section Ipp.
  Variables (F : fieldType) (V : lmodType F).
  Variables (enc : V -> bytes) (wide : bytes -> option F) (ext : transcript -> bytes).
  Add Ring tvring2 : (tv_ring V).
  Notation nonzero := (all (fun x : F => x != 0)).

  (** what the rounds add to the commitment *)
  Fixpoint rounds (Ls Rs : seq V) (xs : seq F) : V :=
    match Ls, Rs, xs with
    | L :: Ls', R :: Rs', x :: xs' => (x * x) *: L + (x * x)^-1 *: R + rounds Ls' Rs' xs'
    | _, _, _ => 0
    end.

  Lemma get_rhs_eq (P : V) Ls Rs xs : nonzero xs -> size Ls = size xs -> size Rs = size xs ->
    get_rhs P Ls Rs xs = Ok (P + rounds Ls Rs xs).
  Proof.
    elim: xs Ls Rs P => [|x xs IH] [|L Ls] [|R Rs] P //=; first by rewrite addr0.
    case/andP => x0 nz [sL] [sR]; rewrite /invert mulf_eq0 (negbTE x0) /= IH //; congr Ok; by rewrite !addrA.
  Qed.

  Definition lhs_of (u : V) (p : ipp V) (g h : seq V) (xs : seq F) : V :=
    ip_a p *: vdot g (s_of xs) + ip_b p *: vdot h [seq s^-1 | s <- s_of xs] + (ip_a p * ip_b p) *: u.
  Lemma get_lhs_eq u (p : ipp V) g h xs : nonzero xs -> size g = (2 ^ size xs)%N -> size h = (2 ^ size xs)%N ->
    get_lhs u p g h (s_of xs) = Ok (lhs_of u p g h xs).
  Proof.
    move=> nz sg sh; have ss := size_s_of xs.
    rewrite /get_lhs invert_scalars_ok ?s_of_neq0 //=.
    by rewrite (msm_ok sg) ?size_map //= (msm_ok sh) ?size_map //= (vdot_scale _ sg) ?(vdot_scale _ sh) ?size_map.
  Qed.

  Lemma split_vec_ok (A : Type) (s : seq A) n : size s = (n.+1.*2)%N ->
    split_vec s = Ok (take n.+1 s, drop n.+1 s).
  Proof. by move=> E; rewrite /split_vec E odd_double doubleK. Qed.
  Lemma add_points_ok (g h : seq V) n : size g = n -> size h = n -> add_points g h = Ok [seq x.1 + x.2 | x <- zip g h].
  Proof. by move=> sg sh; rewrite /add_points sg sh eqxx. Qed.
  Lemma add_scalars_ok (g h : seq F) n : size g = n -> size h = n -> add_scalars g h = Ok [seq x.1 + x.2 | x <- zip g h].
  Proof. by move=> sg sh; rewrite /add_scalars sg sh eqxx. Qed.
  Lemma sub_scalars_ok (g h : seq F) n : size g = n -> size h = n -> sub_scalars g h = Ok [seq x.1 - x.2 | x <- zip g h].
  Proof. by move=> sg sh; rewrite /sub_scalars sg sh eqxx. Qed.
  Lemma mul_scalars_ok (g h : seq F) n : size g = n -> size h = n -> mul_scalars g h = Ok [seq x.1 * x.2 | x <- zip g h].
  Proof. by move=> sg sh; rewrite /mul_scalars sg sh eqxx. Qed.
  Lemma size_fold (A B C : Type) (f : A * B -> C) (s : seq A) (t : seq B) n : size s = n -> size t = n -> size [seq f z | z <- zip s t] = n.
  Proof. by move=> ss st; rewrite size_map size_zip ss st minnn. Qed.

  (** one round of the prover *)
  Definition roundL (a1 b2 : seq F) (g2 h1 : seq V) (u : V) : V := vdot g2 a1 + vdot h1 b2 + dot a1 b2 *: u.
  Lemma prove_rec_step fuel (a b : seq F) Ls Rs (g h : seq V) u t n :
    size a = n.+1.*2 -> size b = n.+1.*2 -> size g = n.+1.*2 -> size h = n.+1.*2 ->
    let a1 := take n.+1 a in let a2 := drop n.+1 a in let b1 := take n.+1 b in let b2 := drop n.+1 b in
    let g1 := take n.+1 g in let g2 := drop n.+1 g in let h1 := take n.+1 h in let h2 := drop n.+1 h in
    let L := roundL a1 b2 g2 h1 u in let R := roundL a2 b1 g1 h2 u in
    prove_rec enc wide ext fuel.+1 a b Ls Rs g h u t
    = rbind (ipp_calcx enc wide ext L R t) (fun tx => let x := tx.2 in
      rbind (invert x) (fun xi =>
      prove_rec enc wide ext fuel [seq z.1 + z.2 | z <- zip (scale_scalars x a1) (scale_scalars xi a2)]
                [seq z.1 + z.2 | z <- zip (scale_scalars xi b1) (scale_scalars x b2)] (rcons Ls L) (rcons Rs R)
                [seq z.1 + z.2 | z <- zip (scale_points xi g1) (scale_points x g2)]
                [seq z.1 + z.2 | z <- zip (scale_points x h1) (scale_points xi h2)] u tx.1)).
  Proof.
    move=> sa sb sg sh a1 a2 b1 b2 g1 g2 h1 h2 L R.
    have T (A : Type) (s : seq A) : size s = n.+1.*2 -> size (take n.+1 s) = n.+1 /\ size (drop n.+1 s) = n.+1.
      by move=> E; rewrite size_takel ?size_drop E -addnn ?addnK ?leq_addr.
    have [sa1 sa2] := T _ a sa; have [sb1 sb2] := T _ b sb; have [sg1 sg2] := T _ g sg; have [sh1 sh2] := T _ h sh.
    rewrite [LHS]/= sa sb sg sh !eqxx /=.
    rewrite !(split_vec_ok (n := n)) //= -/a1 -/a2 -/b1 -/b2 -/g1 -/g2 -/h1 -/h2.
    rewrite !(@inner_product_ok F _ _ n.+1) //=.
    rewrite !(@msm_ok F V _ _ n.+1) //= -/(roundL a1 b2 g2 h1 u) -/(roundL a2 b1 g1 h2 u) -/L -/R.
    case: (ipp_calcx _ _ _ _ _ _) => [[t' x]| |] //=; case: (invert x) => [xi| |] //=.
    rewrite !(@add_points_ok _ _ n.+1) ?size_map //= !(@add_scalars_ok _ _ n.+1) ?size_map //=.
    rewrite (@inner_product_ok F _ _ n.+1) //= ?(@size_fold _ _ _ _ _ _ n.+1) ?size_map //.
  Qed.
  Lemma prove_rec_one fuel (a b : seq F) Ls Rs (g h : seq V) u t :
    size a = 1%N -> size b = 1%N -> size g = 1%N -> size h = 1%N ->
    prove_rec enc wide ext fuel a b Ls Rs g h u t = Ok (Ipp (head 0 a) (head 0 b) Ls Rs).
  Proof. by move=> sa sb sg sh; case: fuel => [|f]; rewrite /= sa sb sg sh. Qed.

  (** the identity of one round *)
  Lemma round_identity (x : F) (a b : seq F) (g h : seq V) u n : x != 0 ->
    size a = n.+1.*2 -> size b = n.+1.*2 -> size g = n.+1.*2 -> size h = n.+1.*2 ->
    let a1 := take n.+1 a in let a2 := drop n.+1 a in let b1 := take n.+1 b in let b2 := drop n.+1 b in
    let g1 := take n.+1 g in let g2 := drop n.+1 g in let h1 := take n.+1 h in let h2 := drop n.+1 h in
    let a' := [seq z.1 + z.2 | z <- zip (scale_scalars x a1) (scale_scalars x^-1 a2)] in
    let b' := [seq z.1 + z.2 | z <- zip (scale_scalars x^-1 b1) (scale_scalars x b2)] in
    let g' := [seq z.1 + z.2 | z <- zip (scale_points x^-1 g1) (scale_points x g2)] in
    let h' := [seq z.1 + z.2 | z <- zip (scale_points x h1) (scale_points x^-1 h2)] in
    vdot g' a' + vdot h' b' + dot a' b' *: u
    = vdot g a + vdot h b + dot a b *: u + ((x * x) *: roundL a1 b2 g2 h1 u + (x * x)^-1 *: roundL a2 b1 g1 h2 u).
  Proof.
    move=> x0 sa sb sg sh a1 a2 b1 b2 g1 g2 h1 h2 a' b' g' h'.
    have T (A : Type) (s : seq A) : size s = n.+1.*2 -> size (take n.+1 s) = n.+1 /\ size (drop n.+1 s) = n.+1.
      by move=> E; rewrite size_takel ?size_drop E -addnn ?addnK ?leq_addr.
    have [sa1 sa2] := T _ a sa; have [sb1 sb2] := T _ b sb; have [sg1 sg2] := T _ g sg; have [sh1 sh2] := T _ h sh.
    have sa' : size a' = n.+1 by rewrite (@size_fold _ _ _ _ _ _ n.+1) ?size_map.
    have sb' : size b' = n.+1 by rewrite (@size_fold _ _ _ _ _ _ n.+1) ?size_map.
    rewrite (vdot_fold _ _ sg1 sg2 sa') (vdot_fold _ _ sh1 sh2 sb').
    rewrite !(vdot_foldr _ _ _ sa1 sa2) // !(vdot_foldr _ _ _ sb1 sb2) // (dot_fold V _ _ _ _ sa1 sa2 sb1 sb2).
    rewrite -[in RHS](cat_take_drop n.+1 a) -[in RHS](cat_take_drop n.+1 b) -[in RHS](cat_take_drop n.+1 g) -[in RHS](cat_take_drop n.+1 h).
    rewrite -/a1 -/a2 -/b1 -/b2 -/g1 -/g2 -/h1 -/h2 !vdot_cat ?sg1 ?sa1 ?sh1 ?sb1 // dot_cat ?sa1 ?sb1 // /roundL.
    move: (vdot g1 a1) (vdot g1 a2) (vdot g2 a1) (vdot g2 a2) (vdot h1 b1) (vdot h1 b2) (vdot h2 b1) (vdot h2 b2)
          (dot a1 b1) (dot a1 b2) (dot a2 b1) (dot a2 b2) => v1 v2 v3 v4 v5 v6 v7 v8 d1 d2 d3 d4.
    have xy := mulfV x0; rewrite invfM; move: (x^-1) xy => y xy.
    rewrite !scalerDr !scalerA ![y * x]mulrC !xy !scale1r !mul1r ?[y * y]mulrC; vpsi V; ring.
  Qed.

  Lemma lhs_fold (u : V) (p : ipp V) (x : F) xs (g h : seq V) n : x != 0 ->
    size g = n.+1.*2 -> size h = n.+1.*2 -> (2 ^ size xs)%N = n.+1 ->
    let g1 := take n.+1 g in let g2 := drop n.+1 g in let h1 := take n.+1 h in let h2 := drop n.+1 h in
    lhs_of u p [seq z.1 + z.2 | z <- zip (scale_points x^-1 g1) (scale_points x g2)]
               [seq z.1 + z.2 | z <- zip (scale_points x h1) (scale_points x^-1 h2)] xs
    = lhs_of u p g h (x :: xs).
  Proof.
    move=> x0 sg sh sx g1 g2 h1 h2.
    have T (s : seq V) : size s = n.+1.*2 -> size (take n.+1 s) = n.+1 /\ size (drop n.+1 s) = n.+1.
      by move=> E; rewrite size_takel ?size_drop E -addnn ?addnK ?leq_addr.
    have [sg1 sg2] := T g sg; have [sh1 sh2] := T h sh.
    have ss : size (s_of xs) = n.+1 by rewrite size_s_of.
    rewrite /lhs_of s_of_inv [s_of (x :: xs)]/= -[in RHS](cat_take_drop n.+1 g) -[in RHS](cat_take_drop n.+1 h).
    rewrite !vdot_cat ?size_map ?ss ?sg1 ?sh1 // (vdot_fold _ _ sg1 sg2 ss) (vdot_fold _ _ sh1 sh2) ?size_map //.
    by rewrite !(@vdot_map_l _ _ _ _ _ n.+1) ?size_map.
  Qed.

  Lemma prove_rec_ok k fuel (a b : seq F) Ls Rs (g h : seq V) u t pf :
    size a = (2 ^ k)%N -> size b = (2 ^ k)%N -> size g = (2 ^ k)%N -> size h = (2 ^ k)%N ->
    prove_rec enc wide ext fuel a b Ls Rs g h u t = Ok pf ->
    exists Ls' Rs' t' xs,
      [/\ ip_L pf = Ls ++ Ls', ip_R pf = Rs ++ Rs', [/\ size Ls' = k, size Rs' = k & size xs = k],
          getxs enc wide ext t Ls' Rs' = Ok (t', xs) &
          nonzero xs /\ lhs_of u pf g h xs = vdot g a + vdot h b + dot a b *: u + rounds Ls' Rs' xs].
  Proof.
    elim: k fuel a b Ls Rs g h t pf => [|k IH] fuel a b Ls Rs g h t pf sa sb sg sh.
      rewrite prove_rec_one // => -[<-]; exists [::], [::], t, [::]; split=> //; rewrite ?cats0 //; split=> //=.
      rewrite /lhs_of /= invr1 addr0.
      case: a sa => [|x [|//]] //= _; case: b sb => [|y [|//]] //= _; case: g sg => [|G [|//]] //= _; case: h sh => [|H [|//]] //= _.
      by rewrite /vdot /dot /= !big_cons !big_nil /= !scale1r !addr0.
    have [n En] : exists n, (2 ^ k = n.+1)%N by case E : (2 ^ k)%N (expn_gt0 2 k) => [|n] // _; exists n.
    move: sa sb sg sh; rewrite expnS mul2n En => sa sb sg sh.
    case: fuel => [|fuel].
      by rewrite /= sa sb sg sh !eqxx.
    rewrite (prove_rec_step _ _ _ _ _ sa sb sg sh); set L := roundL _ _ _ _ _; set R := roundL _ _ _ _ _.
    move=> Eall; have [[t1 x] Ex /=] := rbind_ok Eall; rewrite /invert; case: eqP => //= /eqP x0 E.
    have S (A B C : Type) (f : A * B -> C) (s : seq A) (s' : seq B) : size s = n.+1 -> size s' = n.+1 -> size [seq f z | z <- zip s s'] = (2 ^ k)%N.
      by move=> s1 s2; rewrite En (size_fold _ s1 s2).
    have T (A : Type) (s : seq A) : size s = n.+1.*2 -> size (take n.+1 s) = n.+1 /\ size (drop n.+1 s) = n.+1.
      by move=> e; rewrite size_takel ?size_drop e -addnn ?addnK ?leq_addr.
    have [sa1 sa2] := T _ a sa; have [sb1 sb2] := T _ b sb; have [sg1 sg2] := T _ g sg; have [sh1 sh2] := T _ h sh.
    have Q := (fun h1 h2 h3 h4 => IH _ _ _ _ _ _ _ _ _ h1 h2 h3 h4 E).
    case: Q; try by apply: S; rewrite size_map.
    move=> Ls' [Rs' [t' [xs [EL ER [sL sR sx] Exs [nz Eq]]]]].
    exists (L :: Ls'), (R :: Rs'), t', (x :: xs); split.
    - by rewrite EL cat_rcons.
    - by rewrite ER cat_rcons.
    - by rewrite /= sL sR sx.
    - by rewrite /= Ex /= Exs.
    - rewrite /= x0 nz; split=> //.
      rewrite -(lhs_fold u pf x0 sg sh) ?sx // Eq (round_identity u x0 sa sb sg sh) -/L -/R; by rewrite !addrA.
  Qed.

  (** every challenge is usable *)
  Definition usable_challenges := forall t l, exists2 x, challenge wide ext t l = Ok (rcons t (TExtract l 64), x) & x != 0.
  Lemma prove_rec_total k fuel (a b : seq F) Ls Rs (g h : seq V) u t : usable_challenges -> (k <= fuel)%N ->
    size a = (2 ^ k)%N -> size b = (2 ^ k)%N -> size g = (2 ^ k)%N -> size h = (2 ^ k)%N ->
    exists pf, prove_rec enc wide ext fuel a b Ls Rs g h u t = Ok pf.
  Proof.
    move=> U; elim: k fuel a b Ls Rs g h t => [|k IH] fuel a b Ls Rs g h t le sa sb sg sh.
      by rewrite prove_rec_one //; eexists.
    have [n En] : exists n, (2 ^ k = n.+1)%N by case E : (2 ^ k)%N (expn_gt0 2 k) => [|n] // _; exists n.
    move: sa sb sg sh; rewrite expnS mul2n En => sa sb sg sh.
    case: fuel le => [//|fuel] le; rewrite (prove_rec_step _ _ _ _ _ sa sb sg sh) /ipp_calcx.
    set tt := t ++ _; have [x -> x0] := U tt "getx"%string; rewrite /= /invert (negbTE x0) /=.
    have T (A : Type) (s : seq A) : size s = n.+1.*2 -> size (take n.+1 s) = n.+1 /\ size (drop n.+1 s) = n.+1.
      by move=> e; rewrite size_takel ?size_drop e -addnn ?addnK ?leq_addr.
    have [sa1 sa2] := T _ a sa; have [sb1 sb2] := T _ b sb; have [sg1 sg2] := T _ g sg; have [sh1 sh2] := T _ h sh.
    by apply: IH => //; rewrite En (@size_fold _ _ _ _ _ _ n.+1) ?size_map.
  Qed.

  (** verification of an honest inner product proof against any commitment *)
  Lemma shift1_ok k : (k < 63)%N -> shift1 k = Ok (2 ^ k)%N.
  Proof. by rewrite /shift1 => lt; rewrite ltnNge -ltnS lt. Qed.

  Lemma verify_eq (G H : seq V) (P u : V) (p : ipp V) t t' xs :
    size G = size H -> (size (ip_L p) < 63)%N -> size (ip_L p) = size (ip_R p) -> (2 ^ size (ip_L p) <= size G)%N ->
    getxs enc wide ext t (ip_L p) (ip_R p) = Ok (t', xs) -> nonzero xs -> size xs = size (ip_L p) ->
    verify enc wide ext G H P u p t
    = Ok (lhs_of u p (take (2 ^ size xs) G) (take (2 ^ size xs) H) xs == P + rounds (ip_L p) (ip_R p) xs).
  Proof.
    move=> sGH k63 sLR le Ex nz sx; rewrite /verify -sLR eqxx /= sGH eqxx /= shift1_ok //= -sGH ltnNge le /= Ex /=.
    rewrite -sx gets_new_eq //= all_set_some /= get_lhs_eq //; last 2 first.
    - by rewrite size_takel // sx.
    - by rewrite size_takel // sx -sGH.
    by rewrite /= get_rhs_eq // -sLR.
  Qed.
  Lemma verify_from_range_eq (g h : seq V) (P u : V) that (p : ipp V) t t' xs :
    (size (ip_L p) < 63)%N -> size (ip_L p) = size (ip_R p) -> size g = (2 ^ size (ip_L p))%N -> size h = (2 ^ size (ip_L p))%N ->
    getxs enc wide ext t (ip_L p) (ip_R p) = Ok (t', xs) -> nonzero xs -> size xs = size (ip_L p) ->
    verify_from_range enc wide ext g h P u that p t
    = Ok (lhs_of u p g h xs == P + that *: u + rounds (ip_L p) (ip_R p) xs).
  Proof.
    move=> k63 sLR sg sh Ex nz sx; rewrite /verify_from_range shift1_ok //= Ex /=.
    rewrite -sx gets_eq //= get_lhs_eq ?sx //= get_rhs_eq // -sLR //.
  Qed.
End Ipp.
