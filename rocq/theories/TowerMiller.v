(** The Miller loop of pairings.go is the textbook loop of MillerSpec.v, up to factors the final exponentiation removes. *)
From Coq Require Import Field Field_theory Ring Ring_theory ZArith NArith Lia Bool List Znumtheory.
From Verif Require Import EcField EcSpec EcAlg EcProofs PointModel NativeField BlsFp TowerModel TowerSpec TowerAlg TowerField TowerFrob TowerSqrt TowerPair MillerSpec TowerStep.
Import ListNotations.
Set Implicit Arguments.
Unset Strict Implicit.
Local Open Scope fld_scope.

Section Untwist.
  (** a field extension and the map (x, y) -> (x / w^2, y / w^3) *)
  Variables (K M : field) (phi : K -> M) (w : M).
  Add Field Ku : (fth K).
  Add Field Mu : (fth M).
  Hypothesis H1 : phi 1 = 1.
  Hypothesis HM : forall x y, phi (x * y) = phi x * phi y.
  Hypothesis HA : forall x y, phi (x + y) = phi x + phi y.
  Hypothesis W : w <> 0.
  Lemma h0 : phi 0 = 0.
  Proof. apply (f_sub_zero). transitivity (phi (0 + 0) - phi 0); [rewrite HA; ring|]. replace (0 + 0 : K) with (0 : K) by ring. ring. Qed.
  Lemma hopp x : phi (- x) = - phi x.
  Proof. transitivity (phi (- x) + phi x - phi x); [ring|]. rewrite <- HA. replace (- x + x) with (0 : K) by ring. rewrite h0. ring. Qed.
  Lemma hsub x y : phi (x - y) = phi x - phi y.
  Proof. replace (x - y) with (x + - y) by ring. rewrite HA, hopp. ring. Qed.
  Lemma hneq x : x <> 0 -> phi x <> 0.
  Proof. intros X E. apply (@f_one_zero M). rewrite <- H1, <- (f_mul_inv X), HM, E. ring. Qed.
  Lemma hdiv x y : y <> 0 -> phi (x / y) = phi x / phi y.
  Proof. intros Y. symmetry. apply f_div_eq; [apply hneq, Y|]. rewrite <- HM. f_equal. field. exact Y. Qed.
  Lemma hinj x y : phi x = phi y -> x = y.
  Proof. intros E. destruct (f_eq_dec x y) as [H|H]; [exact H|]. destruct (hneq (f_sub_neq H)). rewrite hsub, E. ring. Qed.
  Definition ux (x : K) : M := phi x / (w * w).
  Definition uy (y : K) : M := phi y / (w * w * w).
  Definition untwist (P : point K) : point M := match P with None => None | Some (x, y) => Some (ux x, uy y) end.
  Lemma ux_inj x y : ux x = ux y -> x = y.
  Proof.
    intros E. apply hinj. transitivity (ux x * (w * w)); [unfold ux; field; exact W|]. rewrite E. unfold ux. field. exact W.
  Qed.
  Lemma uy_opp y : uy (- y) = - uy y. Proof. unfold uy. rewrite hopp. field. exact W. Qed.
  Lemma uy_inj x y : uy x = uy y -> x = y.
  Proof.
    intros E. apply hinj. transitivity (uy x * (w * w * w)); [unfold uy; field; exact W|]. rewrite E. unfold uy. field. exact W.
  Qed.
  Lemma feqb_inj {A B : field} (g : A -> B) (x y : A) : (g x = g y -> x = y) -> feqb (g x) (g y) = feqb x y.
  Proof.
    intros I. destruct (feqb_case x y) as [[-> E]|[-> E]]; [rewrite E; apply feqb_true|]. apply feqb_false. intros H. apply E, I, H.
  Qed.
  Lemma h2 : phi 2 = 2. Proof. rewrite HA, H1. reflexivity. Qed.
  Lemma h3 : phi 3 = 3. Proof. rewrite !HA, H1. reflexivity. Qed.
  Definition proper_pair (x1 y1 x2 : K) : Prop := x1 = x2 -> 2 * y1 <> 0.
  Lemma slope_u x1 y1 x2 y2 : proper_pair x1 y1 x2 -> slope (ux x1) (uy y1) (ux x2) (uy y2) = phi (slope x1 y1 x2 y2) / w.
  Proof.
    intros PP. unfold slope. rewrite (feqb_inj (g := ux)) by apply ux_inj.
    destruct (feqb_case x1 x2) as [[-> E]|[-> E]].
    - specialize (PP E). rewrite hdiv by exact PP. pose proof (hneq PP) as N. rewrite HM, h2 in N. rewrite !HM, h2, h3. unfold ux, uy.
      assert (NA : (2 : M) <> 0) by (intros Z; apply N; rewrite Z; ring).
      assert (NB : phi y1 <> 0) by (intros Z; apply N; rewrite Z; ring).
      field. repeat split; assumption.
    - pose proof (f_sub_neq E) as N. rewrite hdiv by exact N. apply hneq in N. rewrite !hsub in *. unfold ux, uy. field. split; assumption.
  Qed.
  (** the line, after the twist: a factor w^3 *)
  Lemma line_u x1 y1 x2 y2 (a bb c : K) (u v : M) : proper_pair x1 y1 x2 ->
    (forall u v, a * v + bb * u + c = a * line_at (Some (x1, y1)) (Some (x2, y2)) u v) ->
    phi c + phi bb * u * (w * w) + phi a * v * (w * w * w) = phi a * (w * w * w) * line_at (untwist (Some (x1, y1))) (untwist (Some (x2, y2))) u v.
  Proof.
    intros PP H. cbn [untwist line_at]. rewrite (slope_u y2 PP). cbn [line_at] in H. set (l := slope x1 y1 x2 y2) in *. clearbody l.
    assert (C : c = a * (l * x1 - y1)) by (pose proof (H 0 0) as E; transitivity (a * 0 + bb * 0 + c); [ring|]; rewrite E; ring).
    assert (B : bb = - (a * l)).
    { pose proof (H 1 0) as E. transitivity (a * 0 + bb * 1 + c - c); [ring|]. rewrite E, C. ring. }
    rewrite C, B, hopp, !HM, hsub, HM. unfold ux, uy. field. exact W.
  Qed.
  Lemma third_u l x1 y1 x2 : (let p := line_third (phi l / w) (ux x1) (uy y1) (ux x2) in Some p) = untwist (Some (line_third l x1 y1 x2)).
  Proof.
    cbv zeta. unfold line_third, untwist. do 2 f_equal; unfold ux, uy; rewrite ?hsub, ?HM, ?hsub, ?HM; field; exact W.
  Qed.
  Lemma add_u x1 y1 x2 y2 : x1 <> x2 -> untwist (ec_add 0 (Some (x1, y1)) (Some (x2, y2))) = ec_add 0 (untwist (Some (x1, y1))) (untwist (Some (x2, y2))).
  Proof.
    intros N. pose proof (@slope_u x1 y1 x2 y2 (fun E => False_ind _ (N E))) as S.
    assert (NU : ux x1 <> ux x2) by (intros E; apply N, ux_inj, E).
    unfold slope in S. rewrite (feqb_false N), (feqb_false NU) in S.
    cbn [untwist]. unfold ec_add at 2. rewrite (feqb_false NU), S. etransitivity; [|symmetry; apply third_u]. unfold ec_add. rewrite (feqb_false N). reflexivity.
  Qed.
  Lemma dbl_u x y : 2 * y <> 0 -> untwist (ec_add 0 (Some (x, y)) (Some (x, y))) = ec_add 0 (untwist (Some (x, y))) (untwist (Some (x, y))).
  Proof.
    intros N. pose proof (@slope_u x y x y (fun _ => N)) as S. unfold slope in S. rewrite !feqb_true in S.
    cbn [untwist]. unfold ec_add. rewrite !feqb_true. rewrite <- uy_opp, (feqb_inj (g := uy)) by apply uy_inj.
    assert (O : y <> - y) by (intros E; apply N; transitivity (y - - y); [ring|]; rewrite <- E; ring).
    rewrite (feqb_false O). replace (3 * (ux x * ux x) + 0) with (3 * (ux x * ux x)) by ring. rewrite S.
    etransitivity; [|symmetry; apply third_u]. do 3 f_equal. f_equal. ring.
  Qed.
End Untwist.

Section Loop.
  Variable F : field.
  Hypothesis N1 : forall x : F, x * x <> fopp f1.
  Local Notation K := (Fp2 N1).
  Hypothesis N3 : forall x : K, x * x * x <> xi N1.
  Local Notation L := (Fp6 N3).
  Hypothesis N2 : forall x : L, x * x <> vv N3.
  Local Notation M := (Fp12 N2).
  Add Field Fl : (fth F).
  Add Field Kl : (fth K).
  Add Field Ml : (fth M).
  Variables (g3 g33 g6 : fp2 F) (gen : g2pt F) (fe : N).
  Hypothesis FE : forall f : M, (gt_final_exponentiation g3 g33 g6 f f : M) = fpow f fe.
  Variable b : K.
  Hypothesis odd : odd_order_curve 0 b.
  Definition eK (a : K) : M := emb12 N2 (emb6 N3 a).
  Definition eF (a : F) : M := eK (emb2 N1 a).
  Local Notation w := (ww N2).
  Hypothesis KILL : forall a : K, a <> 0 -> fpow (eK a * (w * w * w)) fe = 1.
  Lemma eK_1 : eK 1 = 1. Proof. reflexivity. Qed.
  Lemma eK_mul a c : eK (a * c) = eK a * eK c. Proof. unfold eK. now rewrite emb6_mul, emb12_mul. Qed.
  Lemma eK_add a c : eK (a + c) = eK a + eK c. Proof. unfold eK. now rewrite emb6_add, emb12_add. Qed.
  Lemma ww_neq : w <> 0.
  Proof.
    intros E. assert (H : fpow w 2 = emb12 N2 (vv N3)) by apply ww_2. rewrite E, fpow_2 in H.
    assert (Z : (emb12 N2 (vv N3) : M) = 0) by (rewrite <- H; ring).
    apply (@f_one_zero F). unfold emb12, fp12_of_fp6, vv in Z. injection Z as Z. exact Z.
  Qed.
  Local Notation psi := (untwist eK w).

  Definition same (f g : M) : Prop := fpow f fe = fpow g fe.
  Lemma same_refl f : same f f. Proof. reflexivity. Qed.
  Lemma same_mul f g f' g' : same f g -> same f' g' -> same (f * f') (g * g').
  Proof. unfold same. intros A B. rewrite !fpow_mulb, A, B. reflexivity. Qed.
  Lemma same_kill a f : a <> 0 -> same (eK a * (w * w * w) * f) f.
  Proof. intros A. unfold same. rewrite fpow_mulb, (KILL A). ring. Qed.

  Lemma line_form (co : coefficients F) (p : pt F) :
    line N2 co p = eK (co_c co) + eK (co_b co) * eF (px p) * (w * w) + eK (co_a co) * eF (py p) * (w * w * w).
  Proof.
    assert (E : forall a x, (fp2_mul0 a x : K) = (a : K) * emb2 N1 x) by (intros [aa ab] x; unfold emb2, fp2_mul0; apply quad_eq; cbn; ring).
    assert (S : forall c d e : K, (Quad (Cubic c d (fp2_zero F)) (Cubic (fp2_zero F) e (fp2_zero F)) : M) = eK c + eK d * (w * w) + eK e * (w * w * w)).
    { intros c d e. etransitivity; [apply (split12 N2)|]. cbn [qu_a qu_b]. rewrite (split6 N3 (Cubic c d _)), (split6 N3 (Cubic _ e _)). cbn [cu_a cu_b cu_c].
      rewrite !emb12_add, !emb12_mul. rewrite <- (ww_2 N2), fpow_2. unfold eK.
      change (fp2_zero F) with (f0 : K). change (emb6 N3 (f0 : K)) with (f0 : L). change (emb12 N2 (f0 : L)) with (f0 : M). ring. }
    unfold line. rewrite S. unfold eF. rewrite <- !eK_mul, <- !E. reflexivity.
  Qed.

  (** one step of the loop, on a binary digit *)
  Definition coeff_dig (q : g2pt F) (s : g2pt F * list (coefficients F)) (x : bool) : g2pt F * list (coefficients F) :=
    let '(c, cfs) := s in
    let '(c, co) := doubling_step c in
    let cfs := cfs ++ [co] in
    if x then let '(c, co) := addition_step c q in (c, cfs ++ [co]) else (c, cfs).
  Definition s_dig (g : nat -> M) (s : M * nat) (x : bool) : M * nat :=
    let '(f, c) := s in
    let f := f * g c in
    let c := S c in
    let '(f, c) := if x then (f * g c, S c) else (f, c) in
    (f * f, c).
  Variables (r : N) (x y : K) (p : pt F).
  Hypothesis PR : prime (Z.of_N r).
  Local Notation Q := (Some (x, y)).
  Hypothesis QC : on_curve 0 b Q.
  Hypothesis QR : mulN r Q = None.
  Local Notation q := (Jpt (x : fp2 F) y (fp2_one F)).
  Definition at_n (n : N) (T : g2pt F) : Prop := (jz T : K) <> 0 /\ jac (jx T : K) (jy T) (jz T) = mulN n Q.
  Lemma q_at : at_n 1 q.
  Proof.
    split; cbn [jx jy jz]; [exact (@f_one_zero K)|]. change (fp2_one F) with (f1 : K). rewrite mulN_1, jac_some by exact (@f_one_zero K).
    do 2 f_equal; field; exact (@f_one_zero K).
  Qed.
  Definition u : M := eF (px p). Definition v : M := eF (py p).
  Lemma dbl_dig n T : (1 <= n)%N -> at_n n T ->
    exists a, at_n (n + n) (fst (doubling_step T)) /\ a <> 0 /\
      line N2 (snd (doubling_step T)) p = eK a * (w * w * w) * line_at (psi (mulN n Q)) (psi (mulN n Q)) u v /\
      psi (mulN (n + n) Q) = ec_add 0 (psi (mulN n Q)) (psi (mulN n Q)).
  Proof.
    intros Hn [Z J]. destruct T as [X Y Zz]. cbn [jx jy jz] in *.
    pose proof (mulN_on odd n QC) as ON. rewrite <- J in ON.
    destruct (double_step odd Z ON) as (Z' & A & E & LN). rewrite (@doubling_form F N1). cbv zeta in *. cbn [fst snd].
    exists (2 * (2 * ((Y : K) * (Zz : K)) * ((Zz : K) * (Zz : K))) : K). rewrite (mulN_add odd n n QC), <- J.
    split; [split; [exact Z'|cbn [jx jy jz]; rewrite (mulN_add odd n n QC), <- J; exact E]|]. split; [exact A|].
    pose proof (on_jac_y odd Z ON) as HY.
    rewrite (jac_some _ _ Z) in *.
    assert (NY : 2 * ((Y : K) / ((Zz : K) * (Zz : K) * (Zz : K))) <> 0).
    { apply f_mul_neq; [exact (two_K odd)|]. apply (y_neq odd ON). }
    split.
    - rewrite line_form. cbn [co_a co_b co_c].
      apply (line_u eK_1 eK_mul eK_add ww_neq); [intros _; exact NY|exact LN].
    - apply (dbl_u eK_1 eK_mul eK_add ww_neq). exact NY.
  Qed.
  Lemma add_dig n T : (1 < n)%N -> (n + 1 < r)%N -> at_n n T ->
    exists a, at_n (n + 1) (fst (addition_step T q)) /\ a <> 0 /\
      line N2 (snd (addition_step T q)) p = eK a * (w * w * w) * line_at (psi (mulN n Q)) (psi Q) u v /\
      psi (mulN (n + 1) Q) = ec_add 0 (psi (mulN n Q)) (psi Q).
  Proof.
    intros Hn Hr [Z J]. destruct T as [X Y Zz]. cbn [jx jy jz] in *.
    pose proof J as J'. rewrite (jac_some _ _ Z) in J'. symmetry in J'.
    pose proof (mul_x_neq odd PR QC QR Hn Hr J') as XN.
    destruct (@add_step K b odd X Y Zz x y Z XN) as (Z' & A & E & LN). rewrite (@addition_form F N1). cbv zeta in *. cbn [fst snd].
    exists (2 * (2 * ((Zz : K) * (x * ((Zz : K) * (Zz : K)) - (X : K)))) : K). rewrite (mulN_add odd n 1 QC), mulN_1, <- J.
    split; [split; [exact Z'|cbn [jx jy jz]; rewrite (mulN_add odd n 1 QC), mulN_1, <- J; exact E]|]. split; [exact A|].
    rewrite (jac_some _ _ Z) in *. split.
    - rewrite line_form. cbn [co_a co_b co_c].
      apply (line_u eK_1 eK_mul eK_add ww_neq); [intros E'; contradiction (XN E')|exact LN].
    - apply (add_u eK_1 eK_mul eK_add ww_neq). exact XN.
  Qed.
  (** no line vanishes at a point whose ordinate is not zero *)
  Lemma dbl_co n T : at_n n T -> (co_a (snd (doubling_step T)) : K) <> 0.
  Proof.
    intros [Z J]. destruct T as [X Y Zz]. cbn [jx jy jz] in *.
    pose proof (mulN_on odd n QC) as ON. rewrite <- J in ON.
    destruct (double_step odd Z ON) as (_ & A & _). rewrite (@doubling_form F N1). cbv zeta in *. cbn [snd co_a]. exact A.
  Qed.
  Lemma add_co n T : (1 < n)%N -> (n + 1 < r)%N -> at_n n T -> (co_a (snd (addition_step T q)) : K) <> 0.
  Proof.
    intros Hn Hr [Z J]. destruct T as [X Y Zz]. cbn [jx jy jz] in *.
    pose proof J as J'. rewrite (jac_some _ _ Z) in J'. symmetry in J'.
    pose proof (mul_x_neq odd PR QC QR Hn Hr J') as XN.
    destruct (@add_step K b odd X Y Zz x y Z XN) as (_ & A & _). rewrite (@addition_form F N1). cbv zeta in *. cbn [snd co_a]. exact A.
  Qed.
  Lemma emb2_neq (c : F) : c <> 0 -> emb2 N1 c <> 0.
  Proof. intros H E. apply H. exact (f_equal (@qu_a F) E). Qed.
  Lemma line_neq (co : coefficients F) : py p <> 0 -> (co_a co : K) <> 0 -> line N2 co p <> 0.
  Proof.
    intros Y A E. assert (E' := f_equal (fun m : fp12 F => cu_b (qu_b m)) E). unfold line in E'. cbn [qu_b cu_b] in E'.
    assert (S : (fp2_mul0 (co_a co) (py p) : K) = (co_a co : K) * emb2 N1 (py p)).
    { destruct (co_a co) as [aa ab]. unfold emb2, fp2_mul0; apply quad_eq; cbn; ring. }
    apply (f_mul_neq A (emb2_neq Y)). rewrite <- S. exact E'.
  Qed.
  Lemma at_ex n : (0 < n < r)%N -> exists T, at_n n T.
  Proof.
    intros H. destruct (mulN n Q) as [[x' y']|] eqn:E; [|exfalso; revert E; apply (order_lt odd PR QC); [discriminate|exact QR|exact H]].
    exists (Jpt (x' : fp2 F) y' (fp2_one F)). split; cbn [jx jy jz]; [exact (@f_one_zero K)|].
    change (fp2_one F) with (f1 : K). rewrite E, jac_some by exact (@f_one_zero K). do 2 f_equal; field; exact (@f_one_zero K).
  Qed.
  Lemma factor_neq (a b' : M) : a * b' <> 0 -> b' <> 0.
  Proof. intros H E. apply H. rewrite E. ring. Qed.
  Lemma tangent_neq n : py p <> 0 -> (0 < n < r)%N -> line_at (psi (mulN n Q)) (psi (mulN n Q)) u v <> 0.
  Proof.
    intros Y H. destruct (at_ex H) as [T AT]. destruct (@dbl_dig n T ltac:(lia) AT) as (a & _ & _ & LN & _).
    apply (factor_neq (a := eK a * (w * w * w))). rewrite <- LN. apply line_neq; [exact Y|]. exact (dbl_co AT).
  Qed.
  Lemma chord_neq n : py p <> 0 -> (1 < n)%N -> (n + 1 < r)%N -> line_at (psi (mulN n Q)) (psi Q) u v <> 0.
  Proof.
    intros Y H H'. destruct (at_ex (n := n) ltac:(lia)) as [T AT]. destruct (@add_dig n T H H' AT) as (a & _ & _ & LN & _).
    apply (factor_neq (a := eK a * (w * w * w))). rewrite <- LN. apply line_neq; [exact Y|]. exact (add_co H H' AT).
  Qed.
  Lemma miller_loop_neq ds : py p <> 0 -> forall n (ft : M), (1 <= n)%N -> ((n + 1) * 2 ^ N.of_nat (length ds) < r)%N -> ft <> 0 ->
    fst (fold_left (miller_digit (psi Q) u v) ds (ft, psi (mulN n Q))) <> 0.
  Proof.
    intros Y. induction ds as [|d ds IH]; intros n ft Hn Hr F0; [exact F0|].
    cbn [length] in Hr. rewrite Nat2N.inj_succ, N.pow_succ_r' in Hr.
    assert (P1 : (1 <= 2 ^ N.of_nat (length ds))%N) by (assert (2 ^ N.of_nat (length ds) <> 0)%N by (apply N.pow_nonzero; lia); lia).
    assert (RN : (0 < n < r)%N) by nia.
    destruct (at_ex RN) as [T AT]. destruct (dbl_dig Hn AT) as (_ & _ & _ & _ & DB). pose proof (tangent_neq Y RN) as TN.
    cbn [fold_left]. unfold miller_digit at 2. rewrite <- DB.
    destruct d.
    - assert (B1 : (1 < n + n)%N) by lia. assert (B2 : (n + n + 1 < r)%N) by nia.
      destruct (at_ex (n := n + n) ltac:(lia)) as [T2 AT2]. destruct (add_dig B1 B2 AT2) as (_ & _ & _ & _ & AD). rewrite <- AD.
      apply IH; [lia|nia|]. pose proof (chord_neq Y B1 B2) as CN. apply f_mul_neq; [apply f_mul_neq; [apply f_mul_neq; exact F0|exact TN]|exact CN].
    - apply IH; [lia|nia|]. apply f_mul_neq; [apply f_mul_neq; exact F0|exact TN].
  Qed.
  (** the whole loop *)
  Lemma loop ds : forall n T cfs (fe' ft : M), (1 <= n)%N -> ((n + 1) * 2 ^ N.of_nat (length ds) < r)%N -> at_n n T -> same fe' (ft * ft) ->
    exists n' T' new, (1 <= n')%N /\ at_n n' T' /\ fold_left (coeff_dig q) ds (T, cfs) = (T', cfs ++ new) /\
      forall g : nat -> M, (forall k, (k < length new)%nat -> g (length cfs + k)%nat = line N2 (nth k new (coef0 F)) p) ->
        exists f1 f2, fold_left (s_dig g) ds (fe', length cfs) = (f1, length (cfs ++ new)) /\
          fold_left (miller_digit (psi Q) u v) ds (ft, psi (mulN n Q)) = (f2, psi (mulN n' Q)) /\ same f1 (f2 * f2).
  Proof.
    induction ds as [|d ds IH]; intros n T cfs fe' ft Hn Hr AT SM.
    { exists n, T, []. rewrite app_nil_r. repeat split; auto; try apply AT. intros g _. exists fe', ft. rewrite ?app_nil_r. auto. }
    cbn [length] in Hr. rewrite Nat2N.inj_succ, N.pow_succ_r' in Hr.
    assert (P1 : (1 <= 2 ^ N.of_nat (length ds))%N) by (assert (2 ^ N.of_nat (length ds) <> 0)%N by (apply N.pow_nonzero; lia); lia).
    destruct (dbl_dig Hn AT) as (a & AT2 & A0 & LN & DB).
    destruct (doubling_step T) as [T2 co] eqn:ED. cbn [fst snd] in *.
    destruct d.
    - assert (B1 : (1 < n + n)%N) by lia. assert (B2 : (n + n + 1 < r)%N) by nia.
      destruct (add_dig B1 B2 AT2) as (a' & AT3 & A0' & LN' & AD).
      destruct (addition_step T2 q) as [T3 co'] eqn:EA. cbn [fst snd] in *.
      set (ft' := ft * ft * line_at (psi (mulN n Q)) (psi (mulN n Q)) u v * line_at (psi (mulN (n + n) Q)) (psi Q) u v).
      assert (SM' : same (fe' * line N2 co p * line N2 co' p * (fe' * line N2 co p * line N2 co' p)) (ft' * ft')).
      { assert (S0 : same (fe' * line N2 co p * line N2 co' p) ft').
        { unfold ft'. rewrite LN, LN'. apply same_mul; [apply same_mul; [exact SM|exact (same_kill _ A0)]|exact (same_kill _ A0')]. }
        apply same_mul; exact S0. }
      destruct (IH (n + n + 1)%N T3 ((cfs ++ [co]) ++ [co']) _ ft' ltac:(lia) ltac:(nia) AT3 SM') as (n' & T' & new & N' & AT' & EF & G).
      exists n', T', (co :: co' :: new). split; [exact N'|]. split; [exact AT'|]. split.
      { cbn [fold_left]. unfold coeff_dig at 2. rewrite ED, EA, EF. rewrite <- !app_assoc. reflexivity. }
      intros g Hg. 
      assert (G0 : g (length cfs) = line N2 co p) by (rewrite <- (Nat.add_0_r (length cfs)); apply Hg; cbn; lia).
      assert (G1 : g (S (length cfs)) = line N2 co' p) by (replace (S (length cfs)) with (length cfs + 1)%nat by lia; apply Hg; cbn; lia).
      destruct (G g) as (h1 & h2 & E1 & E2 & E3).
      { intros k Hk. rewrite !app_length. cbn [length]. replace (length cfs + 1 + 1 + k)%nat with (length cfs + S (S k))%nat by lia. rewrite Hg by (cbn [length]; lia). reflexivity. }
      exists h1, h2. split; [|split; [|exact E3]].
      + cbn [fold_left]. unfold s_dig at 2. rewrite G0, G1. rewrite !app_length in *. cbn [length] in *.
        replace (length cfs + 1 + 1)%nat with (S (S (length cfs))) in E1 by lia. rewrite E1. f_equal. lia.
      + cbn [fold_left]. unfold miller_digit at 2. rewrite <- DB, <- AD. exact E2.
    - set (ft' := ft * ft * line_at (psi (mulN n Q)) (psi (mulN n Q)) u v).
      assert (SM' : same (fe' * line N2 co p * (fe' * line N2 co p)) (ft' * ft')).
      { assert (S0 : same (fe' * line N2 co p) ft').
        { unfold ft'. rewrite LN. apply same_mul; [exact SM|exact (same_kill _ A0)]. }
        apply same_mul; exact S0. }
      destruct (IH (n + n)%N T2 (cfs ++ [co]) _ ft' ltac:(lia) ltac:(nia) AT2 SM') as (n' & T' & new & N' & AT' & EF & G).
      exists n', T', (co :: new). split; [exact N'|]. split; [exact AT'|]. split.
      { cbn [fold_left]. unfold coeff_dig at 2. rewrite ED, EF. rewrite <- !app_assoc. reflexivity. }
      intros g Hg. 
      assert (G0 : g (length cfs) = line N2 co p) by (rewrite <- (Nat.add_0_r (length cfs)); apply Hg; cbn; lia).
      destruct (G g) as (h1 & h2 & E1 & E2 & E3).
      { intros k Hk. rewrite !app_length. cbn [length]. replace (length cfs + 1 + k)%nat with (length cfs + S k)%nat by lia. rewrite Hg by (cbn [length]; lia). reflexivity. }
      exists h1, h2. split; [|split; [|exact E3]].
      + cbn [fold_left]. unfold s_dig at 2. rewrite G0. rewrite !app_length in *. cbn [length] in *.
        replace (length cfs + 1)%nat with (S (length cfs)) in E1 by lia. rewrite E1. f_equal. lia.
      + cbn [fold_left]. unfold miller_digit at 2. rewrite <- DB. exact E2.
  Qed.
  Definition bit (i : Z) : bool := Z.testbit (Z.shiftr bls_param_x 1) i.
  Lemma coeff_bits q0 l : forall T cfs, fold_left (coeff_bit q0) l (T, cfs, true) = (fold_left (coeff_dig q0) (map bit l) (T, cfs), true).
  Proof.
    induction l as [|i l IH]; intros T cfs; [reflexivity|]. cbn [fold_left map].
    replace (coeff_bit q0 (T, cfs, true) i) with (coeff_dig q0 (T, cfs) (bit i), true).
    - destruct (coeff_dig q0 (T, cfs) (bit i)) as [T1 c1]. apply IH.
    - unfold coeff_bit, coeff_dig, bit. cbn [negb]. destruct (doubling_step T) as [T2 co].
      destruct (Z.testbit (Z.shiftr bls_param_x 1) i); [destruct (addition_step T2 q0)|]; reflexivity.
  Qed.
  Lemma s_bits (g : nat -> M) l : forall f c, fold_left (sbit g) l ((f : M) : fp12 F, true, c) =
    (let s := fold_left (s_dig g) (map bit l) (f, c) in ((fst s : M) : fp12 F, true, snd s)).
  Proof.
    induction l as [|i l IH]; intros f c; [reflexivity|]. cbn [fold_left map].
    replace (sbit g ((f : M) : fp12 F, true, c) i) with (let s := s_dig g (f, c) (bit i) in ((fst s : M) : fp12 F, true, snd s)).
    - destruct (s_dig g (f, c) (bit i)) as [f1 c1]. apply IH.
    - unfold sbit, s_dig, bit. cbn [negb]. destruct (Z.testbit (Z.shiftr bls_param_x 1) i); reflexivity.
  Qed.
  Lemma first_coeff q0 (T : g2pt F) (cfs : list (coefficients F)) : coeff_bit q0 (coeff_bit q0 (T, cfs, false) 63) 62 = (T, cfs, true).
  Proof. reflexivity. Qed.
  Lemma first_s (g : nat -> M) (f : M) (c : nat) : sbit g (sbit g (f : fp12 F, false, c) 63) 62 = (f : fp12 F, true, c).
  Proof. reflexivity. Qed.
  Lemma fold_two {A B : Type} (f : A -> B -> A) a c l s : fold_left f (a :: c :: l) s = fold_left f l (f (f s a) c).
  Proof. reflexivity. Qed.
  Definition rest : list Z := skipn 2 down64.
  Lemma down64_split : down64 = 63%Z :: 62%Z :: rest. Proof. reflexivity. Qed.
  Definition xP : positive := Z.to_pos bls_param_x.
  Lemma rest_digits : digits xP = map bit rest ++ [false]. Proof. vm_compute. reflexivity. Qed.
  Lemma rest_length : length (map bit rest) = 62%nat. Proof. vm_compute. reflexivity. Qed.
  Hypothesis RB : (2 ^ 63 < r)%N.
  Hypothesis PZ : pz p <> 0.
  Lemma coeffs_split : exists n' T' new, (1 <= n')%N /\ at_n n' T' /\
      compute_coeffs gen (p, q) = (false, new ++ [snd (doubling_step T')]) /\
      forall g : nat -> M, (forall k, (k < length new)%nat -> g k = line N2 (nth k new (coef0 F)) p) ->
        exists f1 f2, fold_left (s_dig g) (map bit rest) (1, 0%nat) = (f1, length new) /\
          fold_left (miller_digit (psi Q) u v) (map bit rest) (1, psi Q) = (f2, psi (mulN n' Q)) /\ same f1 (f2 * f2).
  Proof.
    assert (SM : same 1 (1 * 1)) by (unfold same; f_equal; ring).
    assert (B : ((1 + 1) * 2 ^ N.of_nat (length (map bit rest)) < r)%N) by (rewrite rest_length; exact RB).
    destruct (@loop (map bit rest) 1 q [] 1 1 ltac:(lia) B q_at SM) as (n' & T' & new & N' & AT' & EF & G).
    exists n', T', new. split; [exact N'|]. split; [exact AT'|]. split.
    - unfold compute_coeffs. cbn [snd]. unfold g2_is_identity. cbn [jz].
      replace (fp2_is_zero (fp2_one F)) with false.
      2:{ symmetry. destruct (fp2_is_zero (fp2_one F)) eqn:E; [|reflexivity]. apply (@fp2_zero_iff F N1) in E. destruct (@f_one_zero K E). }
      unfold cmove. rewrite down64_split, fold_two.
      rewrite first_coeff.
      rewrite coeff_bits, EF. cbn [app]. destruct (doubling_step T') as [T2 co]. reflexivity.
    - intros g Hg. destruct (G g Hg) as (f1 & f2 & E1 & E2 & E3). rewrite mulN_1 in E2. exists f1, f2. auto.
  Qed.
  Theorem one_miller : one_pair N2 gen fe (p, q) = fpow (cj (miller xP (psi Q) u v)) fe.
  Proof.
    destruct coeffs_split as (n' & T' & new & N' & AT' & EC & G).
    destruct (dbl_dig N' AT') as (a & _ & A0 & LN & DB).
    set (g := contrib N2 gen (p, q)).
    assert (GE : forall k, g k = line N2 (nth k (new ++ [snd (doubling_step T')]) (coef0 F)) p).
    { intros k. unfold g, contrib. rewrite EC. cbn [fst snd]. unfold g1_is_identity, fp_is_zero. rewrite (feqb_false PZ). reflexivity. }
    destruct (G g) as (f1 & f2 & E1 & E2 & E3).
    { intros k Hk. rewrite GE, app_nth1 by exact Hk. reflexivity. }
    unfold one_pair. fold g. rewrite <- (cj_pow (miller xP (psi Q) u v)).
    assert (SL : sloop g = cj (f1 * g (length new))).
    { unfold sloop. rewrite down64_split, fold_two.
      rewrite (first_s g (1 : M)).
      rewrite s_bits, E1. reflexivity. }
    rewrite SL, <- cj_pow. f_equal.
    unfold miller. rewrite rest_digits, fold_left_app, E2. cbn [fold_left]. unfold miller_digit. cbn [fst].
    rewrite GE, app_nth2, Nat.sub_diag by lia. cbn [nth]. rewrite LN.
    exact (same_mul E3 (same_kill _ A0)).
  Qed.
  Lemma rest_digits_length : length (digits xP) = 63%nat. Proof. vm_compute. reflexivity. Qed.
  Theorem miller_neq : py p <> 0 -> (2 ^ 64 < r)%N -> miller xP (psi Q) u v <> 0.
  Proof.
    intros Y R. unfold miller. rewrite <- (mulN_1 Q) at 2. apply miller_loop_neq; [exact Y|lia| |exact (@f_one_zero M)].
    rewrite rest_digits_length. change ((1 + 1) * 2 ^ N.of_nat 63)%N with (2 ^ 64)%N. exact R.
  Qed.
End Loop.

Section Api.
  Variable F : field.
  Hypothesis N1 : forall x : F, x * x <> fopp f1.
  Local Notation K := (Fp2 N1).
  Hypothesis N3 : forall x : K, x * x * x <> xi N1.
  Local Notation L := (Fp6 N3).
  Hypothesis N2 : forall x : L, x * x <> vv N3.
  Local Notation M := (Fp12 N2).
  Add Field Ma : (fth M).
  Variables (g3 g33 g6 : fp2 F) (gen : g2pt F) (fe : N).
  Hypothesis FE : forall f : M, (gt_final_exponentiation g3 g33 g6 f f : M) = fpow f fe.
  Variable b : K.
  Hypothesis odd : odd_order_curve 0 b.
  Local Notation w := (ww N2).
  Hypothesis KILL : forall a : K, a <> 0 -> fpow (eK N2 a * (w * w * w)) fe = 1.
  Variable r : N.
  Hypothesis PR : prime (Z.of_N r).
  Hypothesis RB : (2 ^ 63 < r)%N.
  Lemma res_miller (P : pt F) (Q : g2pt F) :
    let x := (jx Q : K) * finv (jz Q : K) in let y := (jy Q : K) * finv (jz Q : K) in
    pz P <> 0 -> (jz Q : K) <> 0 -> on_curve 0 b (Some (x, y)) -> mulN r (Some (x, y)) = None ->
    (engine_result g3 g33 g6 gen (add_pair [] P Q) : M) =
    fpow (cj (miller xP (untwist (eK N2) w (Some (x, y))) (eF N2 (px P * finv (pz P))) (eF N2 (py P * finv (pz P))))) fe.
  Proof.
    intros x y HP HQ ON OR. unfold engine_result. rewrite (pairing_prod gen FE), add_pair_form.
    assert (S : skipped P Q = false).
    { destruct (skipped P Q) eqn:S; [|reflexivity]. apply (@skipped_iff F N1) in S. destruct S; contradiction. }
    rewrite S. cbn [app map]. rewrite prod_cons, prod_nil.
    destruct (g1_affine_cases P) as [(Z & _)|(_ & -> & _)]; [contradiction|].
    destruct (@g2_affine_cases F N1 Q) as [(Z & _)|(_ & -> & _)]; [contradiction|].
    fold x. fold y. rewrite (@one_miller F N1 N3 N2 gen fe b odd KILL r x y _ PR ON OR RB) by (cbn [pz]; apply f_one_zero).
    unfold u, v. cbn [px py pz]. ring.
  Qed.
End Api.
