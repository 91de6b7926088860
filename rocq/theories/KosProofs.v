(** Lemmas for C51. *)
From mathcomp Require Import all_ssreflect all_algebra.
From Coq Require Import BinNat Lia.
From Verif Require Import AlgBase ByteVec BinFieldModel BinFieldProofs SchnorrModel SimplestOtModel SimplestOtProofs SimplestOtProps KosModel.
Delimit Scope nat_scope with N.
Delimit Scope N_scope with num.
Set Implicit Arguments.
Unset Strict Implicit.
Unset Printing Implicit Defensive.
Import GRing.Theory.

Lemma traverse_ok (T : Type) (d : T) (f : nat -> option T) n l : traverse f n = Some l <->
  size l = n /\ forall i, i < n -> f i = Some (nth d l i).
Proof.
  elim: n l => [|n IH] l /=; first by split=> [[<-]|[/size0nil -> _]].
  split.
  - case E: (traverse f n) => [l'|] //. case Ef: (f n) => [x|] // [<-].
    have [S A] := proj1 (IH l') E. rewrite size_rcons S. split=> // i.
    rewrite ltnS leq_eqVlt nth_rcons S. have [->|N] := eqVneq i n; first by rewrite ltnn Ef.
    move=> /= L. by rewrite L A.
  - case: (lastP l) => [[]//|l' x]. rewrite size_rcons => -[[S] A].
    have E : traverse f n = Some l'.
    { apply/IH. split=> // i L. rewrite A; last exact: leq_trans L _. by rewrite nth_rcons S L. }
    rewrite E. have := A n (ltnSn n). by rewrite nth_rcons S ltnn eqxx => ->.
Qed.
Lemma traverse_none (T : Type) (f : nat -> option T) n : traverse f n = None <-> exists2 i, i < n & f i = None.
Proof.
  elim: n => [|n IH] /=; first by split=> // -[].
  case E: (traverse f n) => [l|].
  - have NO : ~ exists2 i, i < n & f i = None by move/IH; rewrite E.
    split.
    + case Ef: (f n) => [x|] // _. by exists n.
    + move=> [i]. rewrite ltnS leq_eqVlt => /orP [/eqP -> ->//|L Ei]. by case: NO; exists i.
  - split=> // _. have [i L Ei] := proj1 IH E. exists i => //. exact: leq_trans L _.
Qed.

Lemma bitmaskE (b : bool) : bitmask (if b then 1%num else 0%num) = (if b then 255%num else 0%num).
Proof. by case: b. Qed.
Lemma extract_bit_cases v i : extract_bit v i = (if vbit v i then 1%num else 0%num).
Proof.
  rewrite /extract_bit /vbit /nbit. set x := nth _ _ _. set k := (i %% 8).
  rewrite (_ : 1%num = N.ones 1) // N.land_ones N.pow_1_r -N.bit0_mod N.shiftr_spec' N.add_0_l.
  by case: (N.testbit _ _).
Qed.
Lemma nbit255 i : nbit 255 i = (i < 8).
Proof.
  have [L|L] := ltnP i 8; first by move: i L; do 8 case=> //.
  by apply: byte_bits.
Qed.
Lemma nbit1 i : nbit 1 i = (i == 0).
Proof. by case: i. Qed.

(** the transposition *)
Lemma land1 x k : N.land (N.shiftr x (N.of_nat k)) 1 = (if nbit x k then 1 else 0)%num.
Proof. exact: bit_of. Qed.
Lemma transpose_fold input qs M c r t :
  all (fun x : quad => x.1.2 < 8) qs ->
  nbit (nth 0%num (nth [::] (foldl (transpose_step input) M qs) c) r) t =
  nbit (nth 0%num (nth [::] M c) r) t ||
  has (fun x : quad => [&& 8 * x.2.1 + x.2.2 == c, x.1.1 == r, x.1.2 == t &
                           nbit (nth 0%num (nth [::] input (8 * x.1.1 + x.1.2)) x.2.1) x.2.2]) qs.
Proof.
  elim: qs M => [|[[rB rb] [cB cb]] qs IH] M; first by rewrite orbF.
  cbn [all fst snd] => /andP [L A]. cbn [foldl has fst snd]. rewrite IH // orbA. congr (_ || _).
  rewrite /transpose_step nth_upd. rewrite [c == _]eq_sym. case: eqP => [Ec|]; last by rewrite orbF.
  rewrite nth_upd [r == _]eq_sym Ec. case: eqP => [Er|]; last by rewrite orbF.
  rewrite Er nbit_or land1. congr (_ || _). rewrite nbit_mod nbit_shl !andTb.
  case: (nbit (nth _ _ _) cb); last by rewrite nbit0 !andbF.
  rewrite nbit1 andbT. have [<-|N] := eqVneq rb t; first by rewrite L leqnn subnn.
  apply/negbTE/negP => /andP [_ /andP [L1 /eqP E]]. case/negP: N. by rewrite eqn_leq L1 -subn_eq0 E eqxx.
Qed.
Lemma mem_indices eb rB rb cB cb :
  (((rB, rb), (cB, cb)) \in transpose_indices eb) = [&& rB < 32, rb < 8, cB < eb & cb < 8].
Proof.
  have P a b m n : ((a, b) \in [seq (x, y) | x <- iota 0 m, y <- iota 0 n]) = (a < m) && (b < n).
  { apply/allpairsP/andP.
    - move=> [[x y] [/= Hx Hy [-> ->]]]. move: Hx Hy. by rewrite !mem_iota.
    - move=> [La Lb]. exists (a, b). by rewrite /= !mem_iota. }
  have := P rB rb 32 8. have := P cB cb eb 8. move=> P1 P2. rewrite andbA -P1 -P2.
  apply/allpairsP/andP.
  - by move=> [[x y] [Hx Hy E]]; case: E => -> ->.
  - move=> [A B]. by exists ((rB, rb), (cB, cb)).
Qed.
Lemma transpose_bit eb input j i : j < 8 * eb -> i < 256 ->
  vbit (nth [::] (transpose eb input) j) i = vbit (nth [::] input i) j.
Proof.
  move=> Lj Li. rewrite /vbit /transpose transpose_fold; last first.
  { apply/allP => -[[rB rb] [cB cb]]. rewrite mem_indices => /and4P [_ L _ _]. exact: L. }
  rewrite nth_nseq Lj nth_nseq if_same nbit0 orFb.
  apply/hasP/idP.
  - move=> [[[rB rb] [cB cb]] Hq /and4P [/eqP E1 /eqP E2 /eqP E3]]. move: Hq. rewrite mem_indices.
    cbn [fst snd] in *. move=> /and4P [L1 L2 L3 L4]. subst rB rb.
    have -> : (8 * (i %/ 8) + i %% 8) = i by rewrite mulnC -divn_eq.
    have -> : j %/ 8 = cB by rewrite -E1 mulnC divnMDl // divn_small ?addn0.
    by have -> : j %% 8 = cb by rewrite -E1 mulnC modnMDl modn_small.
  - move=> B. exists ((i %/ 8, i %% 8), (j %/ 8, j %% 8)).
    + rewrite mem_indices !ltn_pmod // !ltn_divLR // [eb * 8]mulnC Lj. by rewrite Li.
    + cbn [fst snd]. rewrite [8 * (j %/ 8)]mulnC [8 * (i %/ 8)]mulnC -!divn_eq !eqxx. exact: B.
Qed.
Lemma transpose_rows eb input j : j < 8 * eb ->
  size (nth [::] (transpose eb input) j) = 32 /\ all is_byte (nth [::] (transpose eb input) j).
Proof.
  move=> Lj. rewrite /transpose.
  have HI : all (fun x : quad => (x.1.1 < 32) && (x.1.2 < 8)) (transpose_indices eb).
  { apply/allP => -[[rB rb] [cB cb]]. rewrite mem_indices => /and4P [L1 L2 _ _]. by rewrite /= L1 L2. }
  set P := fun row : bytes => size row = 32 /\ all is_byte row.
  rewrite -/(P _).
  have : forall c, c < 8 * eb -> P (nth [::] (nseq (8 * eb) (nseq kappa_bytes 0%num)) c).
  { move=> c L. rewrite nth_nseq L. split; first by rewrite size_nseq. by apply/allP => b; rewrite mem_nseq => /andP [_ /eqP ->]. }
  elim: (transpose_indices eb) (nseq _ _) HI => [|[[rB rb] [cB cb]] qs IH] M; first by move=> _; apply.
  cbn [all fst snd] => /andP [/andP [L1 L2] A] HM. cbn [foldl]. apply: IH => // c Lc.
  rewrite /transpose_step nth_upd. case: eqP => [Ec|_]; last exact: HM. rewrite -Ec.
  have [S B] := HM c Lc. split.
  - rewrite /upd size_set_nth S. by apply/maxn_idPr.
  - apply/(all_nthP 0%num) => r Lr. rewrite nth_upd. case: eqP => [_|_]; last exact: nth_byte.
    apply/nbit_ltP => t Lt. rewrite nbit_or nbit_mod [t < 8]ltnNge Lt orbF. apply: byte_bits => //. exact: nth_byte.
Qed.

Local Open Scope ring_scope.
Lemma mk_xor_bit a b n i : (i < 8 * n)%N ->
  vbit (mkseq (fun k => N.lxor (nth 0%num a k) (nth 0%num b k)) n) i = vbit a i (+) vbit b i.
Proof. by move=> L; rewrite /vbit nth_mkseq ?nbit_xor // ltn_divLR // mulnC. Qed.
Lemma vpoly_mk_xor a b n : size a = n -> size b = n ->
  vpoly (mkseq (fun k => N.lxor (nth 0%num a k) (nth 0%num b k)) n) = vpoly a + vpoly b.
Proof.
  move=> Sa Sb. apply/polyP => i. rewrite coefD !coef_poly size_mkseq Sa Sb. case: ltnP => L; last by rewrite addr0.
  by rewrite mk_xor_bit // b2_xor.
Qed.
Lemma bytes_mk_xor a b n : all is_byte a -> all is_byte b ->
  all is_byte (mkseq (fun k => N.lxor (nth 0%num a k) (nth 0%num b k)) n).
Proof.
  move=> A B. apply/(all_nthP 0%num) => k. rewrite size_mkseq => L. rewrite nth_mkseq //. apply: byte_xor; exact: nth_byte.
Qed.
Lemma vpoly_zero n : vpoly (nseq n 0%num) = 0.
Proof. apply/polyP => i. rewrite coef0 coef_poly /vbit nth_nseq if_same nbit0. by case: ifP. Qed.
Lemma xor_acc_ok f n : (forall j, (j < n)%N -> size (f j) = 32%N /\ all is_byte (f j)) ->
  [/\ vpoly (xor_acc f n) = \sum_(0 <= j < n) vpoly (f j), size (xor_acc f n) = 32%N & all is_byte (xor_acc f n)].
Proof.
  rewrite /xor_acc. elim: n => [|n IH] A.
  - rewrite big_nil. by split; [exact: (vpoly_zero kappa_bytes)| |].
  - have [|E S B] := IH _; first by move=> j L; apply: A; exact: ltnW.
    have -> : iota 0 n.+1 = rcons (iota 0 n) n by rewrite -[n.+1]addn1 iotaD cats1 add0n.
    rewrite foldl_rcons. move: E S B. move: (foldl _ _ _) => acc E S B.
    have [Sf Bf] := A n (ltnSn n). split.
    + by rewrite vpoly_mk_xor // E big_nat_recr.
    + by rewrite size_mkseq.
    + apply/(all_nthP 0%num) => k. rewrite size_mkseq => L. rewrite nth_mkseq //. apply: byte_xor; exact: nth_byte.
Qed.
Lemma mod_sum (q : {poly F2}) (f : nat -> {poly F2}) n :
  (\sum_(0 <= j < n) f j) %% q = \sum_(0 <= j < n) (f j %% q).
Proof. elim: n => [|n IH]; first by rewrite !big_nil mod0p. by rewrite !big_nat_recr // modpD IH. Qed.
Lemma xor_acc_eq f g n : (forall j, (j < n)%N -> f j = g j) -> xor_acc f n = xor_acc g n.
Proof.
  rewrite /xor_acc. elim: n => [//|n IH] A.
  have -> : iota 0 n.+1 = rcons (iota 0 n) n by rewrite -[n.+1]addn1 iotaD cats1 add0n.
  rewrite !foldl_rcons IH; last by move=> j L; apply: A; exact: ltnW.
  by rewrite A.
Qed.
Lemma mask_poly (b : bool) c : all is_byte c ->
  vpoly (map (fun x => N.land (bitmask (if b then 1%num else 0%num)) x) c) = b2 b *: vpoly c.
Proof.
  move=> B. apply/polyP => i. rewrite coefZ !coef_poly size_map. case: ltnP => L; last by rewrite mulr0.
  have L' : (i %/ 8 < size c)%N by rewrite ltn_divLR // mulnC.
  rewrite -b2_and. congr b2. rewrite /vbit (nth_map 0%num) // nbit_and bitmaskE.
  case: b; last by rewrite nbit0. by rewrite nbit255 ltn_pmod.
Qed.
Lemma mask_block (m : N) c : all is_byte c -> all is_byte (map (fun x => N.land m x) c).
Proof.
  move=> B. apply/allP => y /mapP [x Hx ->]. apply/nbit_ltP => i L. rewrite nbit_and (@byte_bits x i) ?andbF //.
  exact: (allP B).
Qed.

(** the algebra of the consistency check, for any product with the specification of C61 *)
Lemma check_abs (f : seq N -> seq N -> seq N) (psi zeta : nat -> bytes) (w : nat -> bool) (c : nat -> bytes) (P : bytes) n :
  (forall A B, size A = 32%N -> size B = 32%N -> all is_byte A -> all is_byte B ->
     vpoly (f A B) = (vpoly A * vpoly B) %% fpoly) ->
  (forall A B, size (f A B) = 32%N /\ all is_byte (f A B)) ->
  (forall j, (j < n)%N -> size (psi j) = 32%N /\ all is_byte (psi j)) ->
  (forall j, size (c j) = 32%N /\ all is_byte (c j)) ->
  size P = 32%N /\ all is_byte P ->
  (forall j, (j < n)%N -> zeta j = (if w j then xor_bytes (psi j) P else psi j)) ->
  xor_acc (fun j => f (zeta j) (c j)) n =
  mkseq (fun k => N.lxor (nth 0%num (xor_acc (fun j => f (psi j) (c j)) n) k)
     (nth 0%num (f P (xor_acc (fun j => map (fun x => N.land (bitmask (if w j then 1%num else 0%num)) x) (c j)) n)) k)) kappa_bytes.
Proof.
  move=> fP fB HP Hc [SP BP] HZ.
  have [E1 S1 B1] := @xor_acc_ok (fun j => f (zeta j) (c j)) n (fun j _ => fB _ _).
  have [E2 S2 B2] := @xor_acc_ok (fun j => f (psi j) (c j)) n (fun j _ => fB _ _).
  have [|E3 S3 B3] := @xor_acc_ok (fun j => map (fun x => N.land (bitmask (if w j then 1%num else 0%num)) x) (c j)) n.
  { move=> j _. have [S B] := Hc j. rewrite size_map. split=> //. exact: mask_block. }
  move: E1 S1 B1 E2 S2 B2 E3 S3 B3. 
  set a1 := xor_acc (fun j => f (zeta j) (c j)) n. set a2 := xor_acc (fun j => f (psi j) (c j)) n. set a3 := xor_acc _ n.
  move: a1 a2 a3 => a1 a2 a3 E1 S1 B1 E2 S2 B2 E3 S3 B3.
  have [Sn Bn] := fB P a3. apply: vpoly_inj.
  - by rewrite S1 size_mkseq.
  - exact: B1.
  - exact: bytes_mk_xor.
  - rewrite E1 (vpoly_mk_xor S2 Sn) E2 fP // E3 big_distrr mod_sum -big_split. apply: eq_big_nat => j /andP [_ Lj].
    have [Sc Bc] := Hc j. have [Sp Bp] := HP j Lj.
    rewrite -[RHS]/(_ + _) (fP (psi j)) // mask_poly // -modpD HZ //. case: (w j).
    + rewrite (fP _ _ (size_xor_bytes _ _) Sc (bytes_mk_xor _ Bp BP) Bc).
      by rewrite (vpoly_mk_xor Sp SP) mulrDl scale1r.
    + have Z : vpoly P * (b2 false *: vpoly (c j)) = 0 by rewrite scale0r mulr0.
      rewrite fP //. by rewrite -[GRing.muloid _ _ _]/(vpoly P * _) Z addr0.
Qed.
Lemma bfm_block A B : size (binary_field_mul A B) = 32%N /\ all is_byte (binary_field_mul A B).
Proof. by split; [rewrite size_mkseq|exact: expand_bytes]. Qed.

Section Main.
  Variables (F : fieldType) (sbytes : F -> bytes) (setbytes : bytes -> option F).
  Variables (H : bytes -> bytes) (shake : bytes -> bytes -> nat -> bytes).
  Variables (lb eb : nat).
  Hypothesis H_size : forall m, size (H m) = 32%N.
  Hypothesis H_byte : forall m, all is_byte (H m).
  Hypothesis lb_eb : (lb <= eb)%N.
  Hypothesis roundtrip : forall x, setbytes (sbytes x) = Some x.

  Section Run.
    Variables (so : sender_output) (ro : receiver_output) (sid choice : bytes) (gamma : nat -> N).
    Hypothesis M : ot_matched kappa so ro.
    Hypothesis P_size : size (ro_packed ro) = 32%N.
    Hypothesis P_byte : all is_byte (ro_packed ro).
    Hypothesis P_bits : forall i, (i < kappa)%N -> nth false (ro_bits ro) i = vbit (ro_packed ro) i.
    Variables (r : kos_receiver) (m : kos_msg1).
    Hypothesis R1 : kos_round1 H shake lb eb so sid choice gamma = Ok (r, m).

    (* the results of round 1, without unfolding them *)
    Let w := mkseq (fun j => if (j < lb)%N then nth 0%num choice j else gamma (j - lb)%N) eb.
    Let v0 := mkseq (fun i => shake sid (nth ([::], [::]) so i).1 eb) kappa.
    Let v1 := mkseq (fun i => shake sid (nth ([::], [::]) so i).2 eb) kappa.
    Let U := mkseq (fun i => mkseq (fun j =>
                 N.lxor (N.lxor (nth 0%num (nth [::] v0 i) j) (nth 0%num (nth [::] v1 i) j)) (nth 0%num w j)) eb) kappa.
    Lemma round1_inv :
      [/\ kr_sid r = sid, kr_choices r = w, kr_psi r = transpose eb v0 & km_U m = U] /\
      km_W m = xor_acc (fun j => let x := bitmask (extract_bit w j) in
                                 map (fun c => N.land x c) (chi H (H (flatten U)) j)) (8 * eb) /\
      km_V m = xor_acc (fun j => binary_field_mul (nth [::] (transpose eb v0) j) (chi H (H (flatten U)) j)) (8 * eb).
    Proof.
      move: R1. rewrite /kos_round1. case: (size so < kappa)%N; first by discriminate. cbv zeta.
      rewrite -/v0 -/v1 -/w -/U. 
      move=> E. have /(f_equal (fun x : res kos_err (kos_receiver * kos_msg1) => if x is Ok y then y else (r, m))) := E.
      cbv beta iota => {E} E. rewrite -[r]/((r, m).1) -[m]/((r, m).2) -E. cbn [fst snd km_U km_W km_V kr_sid kr_psi kr_choices].
      by split; [split|split]; reflexivity.
    Qed.
    Lemma ext_choice j : (j < 8 * lb)%N -> vbit (kr_choices r) j = vbit choice j.
    Proof.
      move=> L. have [[_ -> _ _] _] := round1_inv.
      have L1 : (j %/ 8 < lb)%N by rewrite ltn_divLR // mulnC.
      rewrite /vbit nth_mkseq; last exact: leq_trans lb_eb. by rewrite L1.
    Qed.
    Lemma sidE : kr_sid r = sid.
    Proof. by have [[-> _ _ _] _] := round1_inv. Qed.

    Let zeta := transpose eb (z_matrix shake eb ro sid (km_U m)).
    Lemma zeta_bit j i : (j < 8 * eb)%N -> (i < 256)%N ->
      vbit (nth [::] zeta j) i = vbit (nth [::] (kr_psi r) j) i (+) (vbit (kr_choices r) j && vbit (ro_packed ro) i).
    Proof.
      move=> Lj Li. rewrite /zeta transpose_bit //. have [[_ -> -> ->] _] := round1_inv.
      rewrite transpose_bit //.
      have L1 : (j %/ 8 < eb)%N by rewrite ltn_divLR // mulnC.
      have [_ _ _ /(_ i Li) [EK _]] := M. have EB := P_bits Li.
      have E0 : nth [::] v0 i = shake sid (nth ([::], [::]) so i).1 eb by rewrite nth_mkseq.
      have E1 : nth [::] v1 i = shake sid (nth ([::], [::]) so i).2 eb by rewrite nth_mkseq.
      have Eu : nbit (nth 0%num (nth [::] U i) (j %/ 8)) (j %% 8) =
           nbit (nth 0%num (nth [::] v0 i) (j %/ 8)) (j %% 8) (+) nbit (nth 0%num (nth [::] v1 i) (j %/ 8)) (j %% 8)
           (+) vbit w j.
      { by rewrite /U nth_mkseq // nth_mkseq // !nbit_xor. }
      rewrite /z_matrix nth_mkseq // EK EB {1 2}/vbit nth_mkseq // bitmaskE nbit_xor nbit_and Eu E0 E1.
      rewrite -/(vbit (ro_packed ro) i) /choose.
      case: (vbit (ro_packed ro) i); last by rewrite nbit0 andbF !addbF.
      rewrite nbit255 ltn_pmod // andTb andbT.
      rewrite -!/(vbit (shake _ _ _) j). case: (vbit (shake sid _.2 eb) j); case: (vbit (shake sid _.1 eb) j); by case: (vbit w j).
    Qed.
    Lemma psi_block j : (j < 8 * eb)%N -> size (nth [::] (kr_psi r) j) = 32%N /\ all is_byte (nth [::] (kr_psi r) j).
    Proof. move=> L. have [[_ _ -> _] _] := round1_inv. exact: transpose_rows. Qed.
    Lemma zeta_row j : (j < 8 * eb)%N ->
      nth [::] zeta j = (if vbit (kr_choices r) j then xor_bytes (nth [::] (kr_psi r) j) (ro_packed ro)
                         else nth [::] (kr_psi r) j).
    Proof.
      move=> L. have [S1 B1] := transpose_rows (z_matrix shake eb ro sid (km_U m)) L. have [S2 B2] := psi_block L.
      have Lk i : (i < 8 * size (nth [::] zeta j))%N -> (i < 256)%N by rewrite /zeta S1.
      case E: (vbit (kr_choices r) j); apply: vec_ext.
      - by rewrite size_xor_bytes /zeta S1.
      - exact: B1.
      - exact: bytes_mk_xor.
      - move=> i Li. have Li' := Lk _ Li. by rewrite zeta_bit // E mk_xor_bit.
      - by rewrite S2 /zeta S1.
      - exact: B1.
      - exact: B2.
      - move=> i Li. have Li' := Lk _ Li. by rewrite zeta_bit // E addbF.
    Qed.

    (** the consistency check passes *)
    Lemma check_passes : let digest := H (flatten (km_U m)) in
      xor_acc (fun j => binary_field_mul (nth [::] zeta j) (chi H digest j)) (8 * eb) =
      mkseq (fun k => N.lxor (nth 0%num (km_V m) k) (nth 0%num (binary_field_mul (ro_packed ro) (km_W m)) k)) kappa_bytes.
    Proof.
      move=> digest.
      have CH j : size (chi H digest j) = 32%N /\ all is_byte (chi H digest j) by rewrite /chi.
      have EV : km_V m = xor_acc (fun j => binary_field_mul (nth [::] (kr_psi r) j) (chi H digest j)) (8 * eb).
      { rewrite /digest. by have [[_ _ -> ->] [_ ->]] := round1_inv. }
      have EW : km_W m = xor_acc (fun j => map (fun c => N.land (bitmask (if vbit (kr_choices r) j then 1%num else 0%num)) c)
                                     (chi H digest j)) (8 * eb).
      { rewrite /digest. have [[_ -> _ ->] [-> _]] := round1_inv.
        apply: xor_acc_eq => j _. cbv zeta. by rewrite extract_bit_cases. }
      rewrite EV EW. exact: (check_abs bfm_ok bfm_block psi_block CH (conj P_size P_byte) zeta_row).
    Qed.
  End Run.
End Main.
