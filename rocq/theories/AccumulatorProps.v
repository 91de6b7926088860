(** C41-C44: the accumulator. *)
From Coq Require Import Ring.
From mathcomp Require Import all_ssreflect all_algebra.
From Verif Require Import AlgBase VRing ShamirSpec PairingBase AccumulatorModel AccumulatorProofs.
Set Implicit Arguments.
Unset Strict Implicit.
Unset Printing Implicit Defensive.
Import GRing.Theory.
Local Open Scope ring_scope.

(** specification: the accumulator of a multiset of elements under key a is (prod (y + a)) P *)
Definition acc_value (F : fieldType) (V : lmodType F) (P : V) (a : F) (l : seq F) : V :=
  (\prod_(y <- l) (y + a)) *: P.
(** specification: c is a witness of y for accumulator A under key a *)
Definition is_witness (F : fieldType) (V : lmodType F) (a : F) (A c : V) (y : F) : Prop :=
  (y + a) *: c = A.

Section Props.
  Variables (F : fieldType) (V1 V2 VT : lmodType F) (e : pairing V1 V2 VT) (P1 : V1) (P2 : V2).
  Hypothesis P1nz : P1 <> 0.
  Hypothesis P2nz : P2 <> 0.
  Variable sk : F.
  Add Ring tvring : (tv_ring V1).

  (** ** C41 *)

  Theorem C41_with_elements l : with_elements P1 sk l = acc_value P1 sk l.
  Proof. by rewrite /with_elements /acc_value batch_additionsE. Qed.

  (** any order and any split in batches gives one value *)
  Theorem C41_order_independent l l' : perm_eq l l' -> with_elements P1 sk l = with_elements P1 sk l'.
  Proof. by move=> Hp; rewrite !C41_with_elements /acc_value (perm_big _ Hp). Qed.

  Theorem C41_batches (bs : seq (seq F)) :
    foldl (fun acc b => add_elements acc sk b) (acc_new P1) bs = with_elements P1 sk (flatten bs).
  Proof.
    rewrite /with_elements; elim/last_ind: bs => [|bs b IH] /=.
      by rewrite batch_additionsE big_nil scale1r.
    rewrite foldl_rcons IH /add_elements !batch_additionsE flatten_rcons big_cat /= scalerA.
    by rewrite mulrC.
  Qed.

  (** one at a time equals the batch, unless some element is minus the key *)
  Theorem C41_one_at_a_time (acc : V1) l : acc <> 0 -> (forall y, y \in l -> y + sk <> 0) ->
    foldl (fun r y => rbind r (fun a => acc_add a sk y)) (Ok acc) l = Ok (add_elements acc sk l).
  Proof.
    rewrite /add_elements batch_additionsE.
    elim: l acc => [|y l IH] acc Ha Hl /=; first by rewrite big_nil scale1r.
    rewrite {2}/acc_add; case: eqP => // _.
    have Hy : y + sk <> 0 by apply: Hl; rewrite mem_head.
    rewrite IH.
    - by rewrite big_cons scalerA mulrC.
    - by move/eqP; rewrite scaler_eq0 => /orP [/eqP|/eqP].
    - by move=> z Hz; apply: Hl; rewrite inE Hz orbT.
  Qed.

  Theorem C41_add_remove (acc : V1) y acc' : acc_add acc sk y = Ok acc' -> y + sk <> 0 ->
    acc_remove acc' sk y = Ok acc.
  Proof.
    rewrite /acc_add /acc_remove; case: eqP => // Ha [<-] /eqP Hy.
    rewrite scaler_eq0 (negbTE Hy) /= /invert (negbTE Hy) /=; case: eqP => // _.
    by rewrite scalerA mulVf // scale1r.
  Qed.

  Theorem C41_remove_add (acc : V1) y acc' : acc_remove acc sk y = Ok acc' -> acc_add acc' sk y = Ok acc.
  Proof.
    rewrite /acc_add /acc_remove /invert; case: eqP => // Ha.
    case: eqP => // /eqP Hy [<-].
    rewrite scaler_eq0 invr_eq0 (negbTE Hy) /=; case: eqP => // _.
    by rewrite scalerA mulfV // scale1r.
  Qed.

  (** removing an element of the multiset gives the accumulator of the rest *)
  Theorem C41_remove_member l y : (forall z, z \in l -> z + sk <> 0) -> y \in l ->
    acc_remove (with_elements P1 sk l) sk y = Ok (with_elements P1 sk (rem y l)).
  Proof.
    move=> Hl Hy; rewrite !C41_with_elements /acc_value.
    rewrite (perm_big _ (perm_to_rem Hy)) big_cons /=.
    rewrite (@C41_add_remove ((\prod_(z <- rem y l) (z + sk)) *: P1)) //; last exact: Hl.
    rewrite /acc_add scalerA; case: eqP => // /eqP; rewrite scaler_eq0 => /orP [|/eqP //].
    rewrite prodf_seq_eq0 => /hasP [z Hz /= /eqP]; move/Hl => H0; case: H0; exact: mem_rem Hz.
  Qed.

  (** an element that is minus the key cannot be removed *)
  Theorem C41_remove_fails (acc : V1) y : y + sk = 0 -> forall a, acc_remove acc sk y <> Ok a.
  Proof. by move=> E a; rewrite /acc_remove /invert E eqxx /=; case: (acc == 0). Qed.

  (** Update is the removals and additions done one at a time, in this order; the new value *)
  Theorem C41_update_value (acc : V1) adds dels acc' coefs : acc_update acc sk adds dels = Ok (acc', coefs) ->
    acc' = ((\prod_(y <- adds) (y + sk)) / (\prod_(y <- dels) (y + sk))) *: acc.
  Proof.
    rewrite /acc_update; case: eqP => // _; rewrite /batch_deletions /invert !batch_additionsE.
    by case: eqP => //= _; case: (create_coefficients _ _ _) => [els||] //= [<- _].
  Qed.

  Theorem C41_update_one_at_a_time (acc : V1) adds dels : acc <> 0 ->
    (forall y, y \in adds -> y + sk <> 0) -> (forall y, y \in dels -> y + sk <> 0) ->
    exists acc' coefs, acc_update acc sk adds dels = Ok (acc', coefs) /\
      foldl (fun r y => rbind r (fun a => acc_add a sk y))
        (foldl (fun r y => rbind r (fun a => acc_remove a sk y)) (Ok acc) dels) adds = Ok acc'.
  Proof.
    move=> Ha HA HD.
    have N : \prod_(y <- dels) (y + sk) != 0.
      by rewrite prodf_seq_neq0; apply/allP => z Hz /=; apply/eqP; exact: HD.
    have [els [E _]] := create_coefficientsE 0 adds N.
    case EU: (acc_update acc sk adds dels) => [[acc' coefs]||]; last 2 first.
    - move: EU; rewrite /acc_update; case: eqP => // _.
      by rewrite /batch_deletions /invert !batch_additionsE (negbTE N) /= E.
    - move: EU; rewrite /acc_update; case: eqP => // _.
      by rewrite /batch_deletions /invert !batch_additionsE (negbTE N) /= E.
    exists acc', coefs; split=> //; rewrite (C41_update_value EU).
    have R : forall (ds : seq F) (a : V1), a <> 0 -> (forall y, y \in ds -> y + sk <> 0) ->
       foldl (fun r y => rbind r (fun a => acc_remove a sk y)) (Ok a) ds
       = Ok ((\prod_(y <- ds) (y + sk))^-1 *: a).
      elim=> [|d ds IH] a Hna Hds /=; first by rewrite big_nil invr1 scale1r.
      have /eqP Hd : d + sk <> 0 by apply: Hds; rewrite mem_head.
      rewrite {2}/acc_remove /invert (negbTE Hd); case: eqP => //= _.
      rewrite IH.
      - by rewrite big_cons invfM scalerA mulrC.
      - by move/eqP; rewrite scaler_eq0 invr_eq0 (negbTE Hd) => /eqP.
      - by move=> z Hz; apply: Hds; rewrite inE Hz orbT.
    rewrite R // C41_one_at_a_time //.
      by rewrite /add_elements batch_additionsE scalerA.
    by move/eqP; rewrite scaler_eq0 invr_eq0 (negbTE N) => /eqP.
  Qed.

  (** ** C42 *)

  Let pk := get_public_key P2 sk.

  (** what Verify accepts *)
  Theorem C42_verify_iff (c : V1) (y : F) (A : V1) :
    wit_verify e P2 (c, y) pk A = Ok tt <->
    [/\ c <> 0, y <> 0, sk <> 0, A <> 0 & is_witness sk A c y].
  Proof.
    rewrite /wit_verify /pk /get_public_key /= scaler_eq0 /is_witness.
    have -> : (P2 == 0) = false by apply/eqP.
    rewrite orbF pair_addr !pair_scaler pairNl -scalerDl.
    case: (c =P 0) => [->|Hc] /=; first by split=> // -[].
    case: (y =P 0) => [->|Hy] /=; first by split=> // -[].
    case: (sk =P 0) => [E|Hs]; first by split=> // -[].
    case: (A =P 0) => [->|HA]; first by split=> // -[].
    rewrite -pair_scalel -pairBl; case: eqP => E /=; split=> //.
      case: (pair_nondeg E) => [/eqP|/P2nz //]; rewrite subr_eq0 => /eqP E'.
      by move=> _; split.
    by case=> _ _ _ _ Ew; case: E; rewrite Ew subrr pair0l.
  Qed.

  (** an issued witness verifies against the accumulator it was issued for *)
  Theorem C42_issued_verifies y (A : V1) w : wit_new y A sk = Ok w ->
    w.2 = y /\ wit_verify e P2 w pk A = Ok tt.
  Proof.
    rewrite /wit_new; case: (A =P 0) => // HA; case: (sk =P 0) => // Hs; case: (y =P 0) => // Hy.
    rewrite /acc_remove; case: (A =P 0) => // _; rewrite /invert; case: (_ =P 0) => //= /eqP Hys [<-] /=.
    rewrite addr0; split=> //; apply/C42_verify_iff; split=> //.
      by move/eqP; rewrite scaler_eq0 invr_eq0 (negbTE Hys) => /eqP.
    by rewrite /is_witness scalerA mulfV // scale1r.
  Qed.

  (** for a fixed accumulator and element the accepted witness is unique *)
  Theorem C42_unique (c c' : V1) y A : wit_verify e P2 (c, y) pk A = Ok tt ->
    wit_verify e P2 (c', y) pk A = Ok tt -> c = c'.
  Proof.
    move=> /C42_verify_iff [_ _ _ HA E] /C42_verify_iff [_ _ _ _ E'].
    apply/eqP; rewrite -subr_eq0; apply/eqP.
    have : (y + sk) *: (c - c') = 0 by rewrite scalerBr E E' subrr.
    move/eqP; rewrite scaler_eq0 => /orP [/eqP Z|/eqP //].
    by case: HA; rewrite -E Z scale0r.
  Qed.

  (** members get the witness that is the accumulator of the others *)
  Theorem C42_member_witness l y : sk <> 0 -> y <> 0 -> (forall z, z \in l -> z + sk <> 0) -> y \in l ->
    wit_new y (with_elements P1 sk l) sk = Ok (with_elements P1 sk (rem y l), y).
  Proof.
    move=> Hs Hy Hl Hin; rewrite /wit_new.
    have HA : with_elements P1 sk l <> 0.
      rewrite C41_with_elements /acc_value => /eqP; rewrite scaler_eq0 => /orP [|/eqP //].
      by rewrite prodf_seq_eq0 => /hasP [z Hz /= /eqP /(Hl _ Hz)].
    case: eqP => // _; case: eqP => // _; case: eqP => // _.
    by rewrite C41_remove_member // addr0.
  Qed.

  (** issuing does not look at membership: the key holder gets an accepted witness for any non-zero
      element that is not minus the key *)
  Theorem C42_issuing_ignores_membership (A : V1) y : A <> 0 -> sk <> 0 -> y <> 0 -> y + sk <> 0 ->
    exists w, wit_new y A sk = Ok w /\ wit_verify e P2 w pk A = Ok tt.
  Proof.
    move=> HA Hs Hy Hys; case E: (wit_new y A sk) => [w||].
    - by exists w; split=> //; have [_ ->] := C42_issued_verifies E.
    - move: E; rewrite /wit_new; case: eqP => // _; case: eqP => // _; case: eqP => // _.
      by rewrite /acc_remove; case: eqP => // _; rewrite /invert; case: eqP.
    - move: E; rewrite /wit_new; case: eqP => // _; case: eqP => // _; case: eqP => // _.
      by rewrite /acc_remove; case: eqP => // _; rewrite /invert; case: eqP.
  Qed.

  (** ** C43 *)

  (** the update of a witness with the published data of a batch that does not delete its element and is
      not empty is a witness for the updated accumulator *)
  Theorem C43_batch_update (A : V1) adds dels A' coefs c y :
    is_witness sk A c y -> acc_update A sk adds dels = Ok (A', coefs) -> y + sk <> 0 ->
    y \notin dels -> (0 < size adds + size dels)%N ->
    exists c', batch_update (c, y) (Some adds) (Some dels) coefs = Ok (c', y) /\ is_witness sk A' c' y.
  Proof.
    move=> Hw EU /eqP Hys Hy Hne; have EA := C41_update_value EU.
    move: EU; rewrite /acc_update; case: (A =P 0) => // HA.
    rewrite /batch_deletions /invert !batch_additionsE; case: (_ =P 0) => // /eqP N.
    have [els [E Ev]] := create_coefficientsE y adds N; rewrite E /= => -[_ <-].
    have ND : \prod_(v <- dels) (v - y) != 0.
      rewrite prodf_seq_neq0; apply/allP => z Hz /=; rewrite subr_eq0.
      by apply/negP => /eqP Ez; move: Hy; rewrite -Ez Hz.
    have Hels : els <> [::].
      move: E; rewrite /create_coefficients; have [vD [EvD _]] := vDE y N; rewrite EvD /= => -[E0] E1.
      have Sz : forall p q : seq F, size (psub p q) = maxn (size p) (size q).
        elim=> [|a p IH] [|b q] //=; rewrite ?size_map ?max0n // IH maxnSS //.
      have Sa : forall p q : seq F, size (padd p q) = maxn (size p) (size q).
        elim=> [|a p IH] [|b q] //=; rewrite ?max0n // IH maxnSS //.
      have : size (psub (vA_loop sk adds) (pscale vD (batch_additions sk adds))) = 0%N by rewrite E0 E1.
      rewrite Sz size_map => /eqP; rewrite -leqn0 geq_max !leqn0 => /andP [SA SD].
      have G : forall (h : nat -> F) (g : nat -> seq F) ks (acc : seq F), (forall s, 0 < size (g s))%N ->
        (0 < size ks + size acc)%N ->
        (0 < size (foldl (fun vA s => padd vA (pscale (g s) (h s))) acc ks))%N.
        move=> h g; elim=> [|s ks IH] acc Hg //= _; apply: IH => //.
        by rewrite Sa size_map addn_gt0 leq_max Hg !orbT.
      case: adds Hne {Ev EA E0} SA SD => [|a0 adds] Hne SA SD; last first.
        move: SA; rewrite /vA_loop.
        rewrite -leqn0 leqNgt => /negP []; apply: G; last by [].
        by move=> s; have [] := roots_polyE (drop s.+1 (a0 :: adds)) 0.
      move: EvD SD; rewrite add0n in Hne; rewrite /vD_loop.
      have D : forall ks (acc vD : seq F), (0 < size ks + size acc)%N ->
        foldl (fun acc s => rbind acc (fun vD =>
             rbind (batch_deletions sk (take s.+1 dels)) (fun c =>
             Ok (padd vD (pscale (roots_poly (take s dels)) c))))) (Ok acc) ks = Ok vD ->
        (0 < size vD)%N.
        elim=> [|s ks IH] acc v /=; first by move=> H [<-].
        move=> _; case: (batch_deletions _ _) => [k||] /=; last 2 first.
        - by elim: (ks) => //= ? ? ->.
        - by elim: (ks) => //= ? ? ->.
        apply: IH; rewrite Sa size_map addn_gt0 leq_max.
        by have [-> _] := roots_polyE (take s dels) 0; rewrite !orbT.
      move=> /D; rewrite size_iota addn0 => /(_ Hne) H0 /eqP Z; by rewrite Z in H0.
    rewrite /batch_update /evaluate_delta !dadE /= /invert (negbTE ND) /=.
    rewrite pp_evalE; last by case: (els) Hels.
    rewrite /= /apply_delta /= ceval_scaled; eexists; split; first reflexivity.
    rewrite /is_witness EA scalerDr !scalerA; rewrite /is_witness in Hw.
    set D := \prod_(v <- dels) (v - y) in ND Ev *; set PD := \prod_(v <- dels) (v + sk) in N Ev *.
    set DA := \prod_(v <- adds) (v - y) in Ev *; set PA := \prod_(v <- adds) (v + sk) in Ev *.
    rewrite mulrC -[_ *: c]scalerA Hw -scalerDl; congr (_ *: _).
    rewrite [_ / D * _]mulrAC Ev mulrBl addrCA subrr addr0.
    by rewrite mulrAC mulfK.
  Qed.

  (** and a verifying witness of an undeleted element still verifies after the update *)
  Theorem C43_updated_witness_verifies (A : V1) adds dels A' coefs w :
    wit_verify e P2 w pk A = Ok tt -> acc_update A sk adds dels = Ok (A', coefs) -> A' <> 0 ->
    w.2 \notin dels -> (0 < size adds + size dels)%N ->
    exists w', batch_update w (Some adds) (Some dels) coefs = Ok w' /\ w'.2 = w.2
               /\ wit_verify e P2 w' pk A' = Ok tt.
  Proof.
    case: w => c y /C42_verify_iff [Hc Hy Hs HA Hw] EU HA' /= Hd Hne.
    have Hys : y + sk <> 0 by move=> Z; case: HA; rewrite -Hw Z scale0r.
    have [c' [E Hw']] := C43_batch_update Hw EU Hys Hd Hne.
    exists (c', y); split=> //; split=> //; apply/C42_verify_iff; split=> // Z.
    by case: HA'; rewrite -Hw' Z scaler0.
  Qed.

  (** if the element itself was deleted the update fails *)
  Theorem C43_deleted_fails (c : V1) y adds dels coefs : y \in dels ->
    batch_update (c, y) adds (Some dels) coefs = Err AInvert.
  Proof.
    move=> Hy; rewrite /batch_update /evaluate_delta dadE /= /invert.
    have -> // : \prod_(v <- dels) (v - y) == 0.
    by rewrite prodf_seq_eq0; apply/hasP; exists y => //=; rewrite subrr.
  Qed.

  (** a batch with no change at all makes the update panic; a nil slice makes it fail *)
  Theorem C43_empty_batch_refuted (c : V1) y : batch_update (c, y) (Some [::]) (Some [::]) [::] = Panic.
  Proof. by rewrite /batch_update /evaluate_delta !dadE /= !big_nil /invert oner_eq0. Qed.

  Theorem C43_nil_slice_fails (c : V1) y dels coefs d : y \notin dels ->
    batch_update (c, y) None (Some dels) coefs <> Ok d.
  Proof.
    move=> Hy; rewrite /batch_update /evaluate_delta dadE /= /invert.
    by case: eqP.
  Qed.

  (** one pass over a list of batches equals updating batch by batch *)
  Definition step_batch (r : res aerr (witness V1)) (b : batch V1) :=
    rbind r (fun w => batch_update w (b_adds b) (b_dels b) (b_coefs b)).

  Lemma batch_update_inv (w : witness V1) (b : batch V1) w' :
    batch_update w (b_adds b) (b_dels b) (b_coefs b) = Ok w' ->
    exists ta td, [/\ dad (b_adds b) w.2 = Ok ta, dad (b_dels b) w.2 = Ok td, td != 0,
      b_coefs b <> [::] & w' = ((ta / td) *: w.1 + td^-1 *: ceval (b_coefs b) w.2, w.2)].
  Proof.
    rewrite /batch_update /evaluate_delta; case ED: (dad (b_dels b) w.2) => [td||] //=.
    rewrite /invert; case: eqP => //= /eqP N; case EA: (dad (b_adds b) w.2) => [ta||] //=.
    case: (b_coefs b) => [|c0 cs] //; rewrite pp_evalE //= => -[<-].
    by exists ta, td; split.
  Qed.

  Lemma foldl_stuck (r : res aerr (witness V1)) (bs : seq (batch V1)) w :
    foldl step_batch r bs = Ok w -> exists w0, r = Ok w0.
  Proof.
    elim: bs r => [|b bs IH] r /=; first by move=> ->; exists w.
    by move=> /IH [w0]; case: r => // w1; exists w1.
  Qed.

  (** the values the sequential updates accumulate *)
  Lemma seq_updates (bs : seq (batch V1)) (w w' : witness V1) : foldl step_batch (Ok w) bs = Ok w' ->
    exists aa dd, [/\ dads w.2 bs = Ok (aa, dd), size aa = size bs /\ size dd = size bs,
      \prod_(d <- dd) d != 0, (forall b, List.In b bs -> b_coefs b <> [::]) &
      w'.2 = w.2 /\
      w'.1 = ((\prod_(a <- aa) a) / (\prod_(d <- dd) d)) *: w.1 +
        (\prod_(d <- dd) d)^-1 *: \sum_(i <- iota 0 (size bs))
           ((\prod_(a <- drop i.+1 aa) a) * \prod_(d <- take i dd) d) *:
             ceval (nth [::] [seq b_coefs b | b <- bs] i) w.2].
  Proof.
    elim: bs w => [|b bs IH] w /=.
      case=> <-; exists [::], [::]; rewrite !big_nil oner_neq0; split=> //; split=> //.
      by rewrite scaler0 addr0 divr1 scale1r.
    move=> E; have [w1 E1] := foldl_stuck E; rewrite E1 in E.
    have [ta [td [Ea Ed Ntd Hcf Ew1]]] := batch_update_inv E1.
    have [aa [dd [Edads [Sa Sd] Nd Hne [E2 Ew]]]] := IH _ E.
    have Ey : w1.2 = w.2 by rewrite Ew1.
    rewrite Ey in Edads E2 Ew; exists (ta :: aa), (td :: dd).
    rewrite Ea Ed /= Edads /= Sa Sd !big_cons; split=> //.
    - by rewrite mulf_neq0.
    - by move=> b' [<-|/Hne].
    split; first exact: E2.
    rewrite Ew Ew1 /= drop0 big_nil mulr1.
    set PA := \prod_(a <- aa) a; set PD := \prod_(d <- dd) d.
    have -> : \sum_(i <- iota 1 (size bs)) (\prod_(a <- drop i aa) a * \prod_(d <- take i (td :: dd)) d)
                 *: ceval (nth [::] (b_coefs b :: [seq b_coefs b0 | b0 <- bs]) i) w.2
        = td *: \sum_(i <- iota 0 (size bs)) (\prod_(a <- drop i.+1 aa) a * \prod_(d <- take i dd) d)
                 *: ceval (nth [::] [seq b_coefs b0 | b0 <- bs] i) w.2.
      rewrite -[1%N]add1n iotaDl big_map scaler_sumr; apply: eq_bigr => i _; rewrite add1n /=.
      by rewrite big_cons scalerA mulrCA.
    rewrite !scalerDr !scalerA addrA; congr (_ *: _ + _ *: _ + _ *: _).
    - by rewrite mulf_div [PA * ta]mulrC [PD * td]mulrC.
    - by rewrite -mulrA -invfM [PA * _]mulrC [PD * td]mulrC.
    - by rewrite invfM mulrAC mulVf // mul1r.
  Qed.

  Theorem C43_multi_equals_sequence (bs : seq (batch V1)) (w w' : witness V1) : bs <> [::] ->
    foldl step_batch (Ok w) bs = Ok w' -> multi_batch_update w bs = Ok w'.
  Proof.
    move=> Hbs /seq_updates [aa [dd [Ed [Sa Sd] Nd Hne [E2 E1]]]].
    rewrite /multi_batch_update /evaluate_deltas Ed /= !prodf /invert (negbTE Nd) /=.
    set P := foldl _ _ _.
    have [HP1 HP2] : (0 < size P)%N /\ ceval P w.2 = \sum_(i <- iota 0 (size bs))
           ((\prod_(a <- drop i.+1 aa) a) * \prod_(d <- take i dd) d) *:
             ceval (nth [::] [seq b_coefs b | b <- bs] i) w.2.
      rewrite /P; clear P.
      have G : forall ks (acc : seq V1), all (fun i => i < size bs)%N ks -> (0 < size acc + size ks)%N ->
        let P := foldl (fun p i =>
               let ddh := foldl (fun x t => x * t) 1 (take i dd) in
               let dak := foldl (fun x t => x * t) 1 (drop i.+1 aa) in
               pp_add p (pp_mul (nth [::] [seq b_coefs b | b <- bs] i) (dak * ddh))) acc ks in
        (0 < size P)%N /\ ceval P w.2 = ceval acc w.2 + \sum_(i <- ks)
           ((\prod_(a <- drop i.+1 aa) a) * \prod_(d <- take i dd) d) *:
             ceval (nth [::] [seq b_coefs b | b <- bs] i) w.2.
        elim=> [|i ks IH] acc /=; first by rewrite addn0 big_nil addr0.
        case/andP=> Hi Hks _; have [//||H1 H2] := IH (pp_add acc (pp_mul
          (nth [::] [seq b_coefs b | b <- bs] i)
          (foldl (fun x t => x * t) 1 (drop i.+1 aa) * foldl (fun x t => x * t) 1 (take i dd)))).
          rewrite size_pp_add size_map addn_gt0 leq_max.
          have : nth [::] [seq b_coefs b | b <- bs] i <> [::].
            have /(Hne _) : List.In (nth (Batch None None [::]) bs i) bs.
              elim: (bs) (i) Hi => [|b0 l IHl] [|j] //= Hj; [by left | by right; apply: IHl].
            by rewrite (nth_map (Batch None None [::])).
          by case: (nth _ _ i) => //= c0 cs _; rewrite orbT.
        split=> //; rewrite H2 ceval_pp_add ceval_pp_mul !prodf big_cons addrA //.
      have [||H1 H2] := G (iota 0 (size bs)) [::].
      - by apply/allP => i; rewrite mem_iota.
      - by rewrite size_iota; case: (bs) Hbs.
      by split=> //; rewrite H2 ceval_nil add0r.
    rewrite pp_evalE; last by case: (P) HP1.
    rewrite /= /apply_delta /= HP2 -E1 -E2; by case: (w').
  Qed.

  Theorem C43_multi_deleted_fails (bs : seq (batch V1)) (w w' : witness V1) b dels : List.In b bs ->
    b_dels b = Some dels -> w.2 \in dels -> multi_batch_update w bs <> Ok w'.
  Proof.
    move=> Hin Eb Hy; rewrite /multi_batch_update /evaluate_deltas.
    case E: (dads w.2 bs) => [[aa dd]||] //=; rewrite /invert !prodf.
    suff -> : \prod_(d <- dd) d == 0 by [].
    elim: bs aa dd Hin E => [|b0 bs IH] aa dd //= Hin.
    case: (dad (b_adds b0) _) => [ta||] //=; case Ed: (dad (b_dels b0) _) => [td||] //=.
    case E: (dads w.2 bs) => [[aa' dd']||] //= [_ <-]; rewrite big_cons mulf_eq0.
    case: Hin => [Eb0|Hin]; last by rewrite (IH _ _ Hin E) orbT.
    move: Ed; rewrite Eb0 Eb dadE => -[<-].
    suff -> : \prod_(v <- dels) (v - w.2) == 0 by [].
    by rewrite prodf_seq_eq0; apply/hasP; exists w.2 => //=; rewrite subrr.
  Qed.

  (** ** C44 *)

  (** the verifier recomputes exactly the values the prover hashed, for every witness of the
      accumulator, all randomness and every challenge *)
  Theorem C44_complete (A : V1) c y (pp : params V1) sigma rho rY rS rR rDS rDR (ch : F) :
    is_witness sk A c y ->
    let m := mpc_new e P2 (c, y) A pp pk sigma rho rY rS rR rDS rDR in
    finalize e P2 (gen_proof m ch) A pp pk ch = challenge_bytes m.
  Proof.
    move=> Hw; rewrite /is_witness in Hw; rewrite /finalize /challenge_bytes /gen_proof /mpc_new /=.
    rewrite /schnorr_resp /pk /get_public_key.
    rewrite !pair_scaler -!pair_scalel -!pair_addl -Hw.
    congr (_, _, _, _, _, _, _, _, _); last by vpsi V1; ring.
    - by congr (pair_fun e _ P2); vpsi V1; ring.
    - by vpsi V1; ring.
    - by vpsi V1; ring.
    - by vpsi V1; ring.
  Qed.

  (** special soundness: two accepting answers to different challenges over the same commitments reveal
      a witness for the accumulator, whatever the prover did *)
  Theorem C44_special_soundness (A : V1) (pp : params V1) (p1 p2 : mproof V1) (c1 c2 : F) :
    pp_x pp <> 0 -> pp_y pp <> 0 -> c1 <> c2 ->
    finalize e P2 p1 A pp pk c1 = finalize e P2 p2 A pp pk c2 ->
    let d := (c1 - c2)^-1 in
    let sigma := d * (p_sSigma p1 - p_sSigma p2) in
    let rho := d * (p_sRho p1 - p_sRho p2) in
    is_witness sk A (p_eC p1 - (sigma + rho) *: pp_z pp) (d * (p_sY p1 - p_sY p2)).
  Proof.
    move=> HX HY /eqP Hc [EC ET ER]; move=> + + + + + d sigma rho; rewrite -EC -ET -ER; move: (p_eC p1) (p_tSigma p1) (p_tRho p1) => E T R {EC ET ER}.
    have Nc : c1 - c2 != 0 by rewrite subr_eq0.
    rewrite /pk /get_public_key !pair_scaler -!pair_scalel -!pair_addl => ERE ERS ERR EDS EDR.
    have Ed : d * (c1 - c2) = 1 by rewrite mulVf.
    have Inj : forall (X : V1) (a b : F), X <> 0 -> a *: X = b *: X -> a = b.
      move=> X a b N /eqP; rewrite -subr_eq0 -scalerBl scaler_eq0 subr_eq0.
      by case/orP=> /eqP.
    have T1 : T = sigma *: pp_x pp.
      rewrite -[T]scale1r -Ed -[LHS]scalerA /sigma -scalerA; congr (_ *: _).
      move: ERS => /eqP; rewrite -subr_eq0 => /eqP Z.
      apply/eqP; rewrite -subr_eq0; apply/eqP; rewrite -oppr0 -[in RHS]Z; vpsi V1; ring.
    have R1 : R = rho *: pp_y pp.
      rewrite -[R]scale1r -Ed -[LHS]scalerA /rho -scalerA; congr (_ *: _).
      move: ERR => /eqP; rewrite -subr_eq0 => /eqP Z.
      apply/eqP; rewrite -subr_eq0; apply/eqP; rewrite -oppr0 -[in RHS]Z; vpsi V1; ring.
    set sY := p_sY p1 - p_sY p2.
    have DS : p_sDSigma p1 - p_sDSigma p2 = sY * sigma.
      apply: (Inj _ _ _ HX); rewrite -scalerA -T1.
      move: EDS => /eqP; rewrite -subr_eq0 => /eqP Z.
      apply/eqP; rewrite -subr_eq0; apply/eqP; rewrite -oppr0 -[in RHS]Z /sY; vpsi V1; ring.
    have DR : p_sDRho p1 - p_sDRho p2 = sY * rho.
      apply: (Inj _ _ _ HY); rewrite -scalerA -R1.
      move: EDR => /eqP; rewrite -subr_eq0 => /eqP Z.
      apply/eqP; rewrite -subr_eq0; apply/eqP; rewrite -oppr0 -[in RHS]Z /sY; vpsi V1; ring.
    have : forall u v : V1, e u P2 = e v P2 -> u - v = 0.
      by move=> u v /eqP; rewrite -subr_eq0 -pairBl => /eqP /pair_nondeg [|/P2nz].
    move=> /(_ _ _ ERE) Z; rewrite /is_witness.
    apply/eqP; rewrite -subr_eq0; apply/eqP.
    rewrite -[X in _ - X]scale1r -Ed.
    have SS : p_sSigma p1 = p_sSigma p2 + (c1 - c2) * sigma.
      by rewrite /sigma mulrA [_ * d]mulrC Ed mul1r addrC subrK.
    have SR : p_sRho p1 = p_sRho p2 + (c1 - c2) * rho.
      by rewrite /rho mulrA [_ * d]mulrC Ed mul1r addrC subrK.
    have EDS' : p_sDSigma p1 = p_sDSigma p2 + sY * sigma by rewrite -DS addrC subrK.
    have EDR' : p_sDRho p1 = p_sDRho p2 + sY * rho by rewrite -DR addrC subrK.
    have EY : p_sY p1 = p_sY p2 + sY by rewrite /sY addrC subrK.
    move: Z; rewrite SS SR EDS' EDR' EY => Z.
    have Esk : sk = d * (c1 - c2) * sk by rewrite Ed mul1r.
    transitivity (d *: (0 : V1)); last by rewrite scaler0.
    rewrite -Z {1}Esk; vpsi V1; ring.
  Qed.
End Props.

(** the hypotheses are met: over the rationals with key 1, set {1, 2}, add 3 and delete 2 *)
Example C43_nonvacuous :
  let V := [the lmodType rat of rat^o] in
  let e := field_pairing [fieldType of rat] in
  let P : V := (1 : rat) in
  let A := with_elements P 1 [:: 1; 2%:R] in
  exists w A' coefs w', [/\ wit_new 1 A 1 = Ok w, wit_verify e P w (get_public_key P 1) A = Ok tt,
    acc_update A 1 [:: 3%:R] [:: 2%:R] = Ok (A', coefs),
    batch_update w (Some [:: 3%:R]) (Some [:: 2%:R]) coefs = Ok w' &
    wit_verify e P w' (get_public_key P 1) A' = Ok tt].
Proof.
  move=> V e P A.
  have PN : P <> 0 by [].
  have EA : A = 6%:R :> rat by [].
  have NA : A <> 0 by rewrite EA.
  have [||//||w [Ew Hw]] := @C42_issuing_ignores_membership _ V V V e P PN 1 A 1 => //.
  have [|y||A' [coefs [EU _]]] := @C41_update_one_at_a_time _ V 1 A [:: 3%:R] [:: 2%:R] => //.
  - by rewrite inE => /eqP ->.
  - by move=> y; rewrite inE => /eqP ->.
  have NA' : A' <> 0.
    by rewrite (C41_update_value EU) !big_cons !big_nil EA.
  have Ew2 : w.2 = 1 by have [-> _] := C42_issued_verifies e PN Ew.
  have [|//|w' [E1 [_ E2]]] := C43_updated_witness_verifies PN Hw EU NA'; first by rewrite Ew2.
  by exists w, A', coefs, w'; split.
Qed.
