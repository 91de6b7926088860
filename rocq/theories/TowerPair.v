(** The pairing engine: what holds of pairings.go for every list of pairs - the result is the product over the pairs, in any
    order, and negating either point conjugates the contribution. *)
From Coq Require Import Field Field_theory Ring Ring_theory ZArith NArith Lia Bool List Permutation.
From Verif Require Import EcField PointModel NativeField BlsFp TowerModel TowerSpec TowerAlg TowerField TowerSqrt.
Import ListNotations.
Set Implicit Arguments.
Unset Strict Implicit.
Local Open Scope fld_scope.

Section Pair.
  Variable F : field.
  Hypothesis N1 : forall x : F, x * x <> fopp f1.
  Local Notation K := (Fp2 N1).
  Hypothesis N3 : forall x : K, x * x * x <> xi N1.
  Local Notation L := (Fp6 N3).
  Hypothesis N2 : forall x : L, x * x <> vv N3.
  Local Notation M := (Fp12 N2).
  Add Field Ff : (fth F).
  Add Field Kf : (fth K).
  Add Field Lf : (fth L).
  Add Field Mf : (fth M).
  Variables (g3 g33 g6 : fp2 F) (gen : g2pt F) (fe : N).
  Hypothesis FE : forall f : M, (gt_final_exponentiation g3 g33 g6 f f : M) = fpow f fe.
  Ltac eqK := match goal with |- @eq _ ?a ?b => change (@eq (car K) (a : car K) (b : car K)) end.
  Ltac eqM := match goal with |- @eq _ ?a ?b => change (@eq (car M) (a : car M) (b : car M)) end.
  Ltac eqL := match goal with |- @eq _ ?a ?b => change (@eq (car L) (a : car L) (b : car L)) end.
  Ltac toK :=
    rewrite ?fp2_square_spec, ?fp2_double_spec, ?fp2_nr_spec;
    change (@fp2_mul F) with (@fmul K); change (@fp2_add F) with (@fadd K); change (@fp2_sub F) with (@fsub K);
    change (@fp2_neg F) with (@fopp K); change (Quad (1 : F) 1) with (xi N1); change (fp2_zero F) with (f0 : K); change (fp2_one F) with (f1 : K).

  (** conjugation is a ring homomorphism *)
  Definition cj (x : M) : M := fp12_conjugate x.
  Lemma cj_mul (x y : M) : cj (x * y) = cj x * cj y.
  Proof.
    unfold cj. change (@fmul M) with (@fp12_mul F). rewrite !(@fp12_mul_spec F N1 N3). destruct x as [xa xb], y as [ya yb].
    unfold quad_mul, fp12_conjugate. cbn [qu_a qu_b]. change (@fp6_neg F) with (@fopp L). apply quad_eq; cbn [qu_a qu_b]; eqL; ring.
  Qed.
  Lemma cj_one : cj 1 = 1.
  Proof.
    unfold cj. change (f1 : M) with (fp12_one F). unfold fp12_one, fp12_conjugate. cbn [qu_a qu_b].
    change (@fp6_neg F) with (@fopp L). change (fp6_zero F) with (f0 : L). apply quad_eq; cbn [qu_a qu_b]; eqL; ring.
  Qed.
  Lemma cj_pow x n : cj (fpow x n) = fpow (cj x) n.
  Proof. induction n as [|n IH] using N.peano_ind; [exact cj_one|]. rewrite !fpow_succ, cj_mul, IH. reflexivity. Qed.

  (** the value of a line *)
  Definition line (co : coefficients F) (p : pt F) : M :=
    Quad (Cubic (co_c co) (fp2_mul0 (co_b co) (px p)) (fp2_zero F)) (Cubic (fp2_zero F) (fp2_mul0 (co_a co) (py p)) (fp2_zero F)).
  Lemma ell_line (f : M) co p : (ell f co p : M) = f * line co p.
  Proof. unfold ell. cbv zeta. apply (@fp12_mul_by_abd_spec F N1 N3). Qed.
  Definition contrib (p : pair F) (i : nat) : M :=
    if g1_is_identity (fst p) || fst (compute_coeffs gen p) then 1 else line (nth i (snd (compute_coeffs gen p)) (coef0 F)) (fst p).
  Definition prod (l : list M) : M := fold_right (@fmul M) (f1 : M) l.
  Lemma prod_nil : prod [] = (f1 : M).
  Proof. reflexivity. Qed.
  Lemma prod_cons (x : M) l : prod (x :: l) = x * prod l.
  Proof. reflexivity. Qed.
  Lemma prod_app l m : prod (l ++ m) = prod l * prod m.
  Proof. induction l as [|x l IH]; cbn [app]; rewrite ?prod_nil, ?prod_cons; [ring|]. rewrite IH. ring. Qed.
  Lemma prod_perm l m : Permutation l m -> prod l = prod m.
  Proof.
    induction 1; rewrite ?prod_cons; [reflexivity| | |congruence].
    - rewrite IHPermutation. reflexivity.
    - ring.
  Qed.
  Lemma lines_prod (e : engine F) i : forall f : M,
    (miller_lines e (map (compute_coeffs gen) e) i f : M) = f * prod (map (fun p => contrib p i) e).
  Proof.
    unfold miller_lines. induction e as [|p e IH]; intros f; [cbn; change (f = f * 1); ring|].
    cbn [map combine fold_left]. rewrite IH, prod_cons.
    unfold contrib at 2. unfold cmove.
    destruct (g1_is_identity (fst p) || fst (compute_coeffs gen p)); [ring|]. rewrite ell_line. ring.
  Qed.
  (** ** the loop, as a function of the contributions *)
  Definition st := (fp12 F * bool * nat)%type.
  Definition sbit (g : nat -> M) (s : st) (i : Z) : st :=
    let '(f, found, c) := s in
    let x := Z.testbit (Z.shiftr bls_param_x 1) i in
    if negb found then (f, x, c)
    else
      let f := (f : M) * g c in
      let c := S c in
      let '(f, c) := if x then (f * g c, S c) else (f, c) in
      ((f * f : M) : fp12 F, found, c).
  Definition sloop (g : nat -> M) : M :=
    let '(f, _, c) := fold_left (sbit g) down64 ((1 : M) : fp12 F, false, 0%nat) in
    cj ((f : M) * g c).
  Lemma bit_sbit (e : engine F) s i : miller_bit e (map (compute_coeffs gen) e) s i = sbit (fun c => prod (map (fun p => contrib p c) e)) s i.
  Proof.
    destruct s as [[f found] c]. unfold miller_bit, sbit. destruct found; cbn [negb]; [|reflexivity].
    rewrite !(lines_prod e). destruct (Z.testbit (Z.shiftr bls_param_x 1) i).
    - rewrite (@fp12_square_spec F N1 N3). rewrite ?(lines_prod e). reflexivity.
    - rewrite (@fp12_square_spec F N1 N3). reflexivity.
  Qed.
  Lemma fold_ext {A B : Type} (f g : A -> B -> A) : (forall a b, f a b = g a b) -> forall l a, fold_left f l a = fold_left g l a.
  Proof. intros H. induction l as [|b l IH]; intros a; [reflexivity|]. cbn. rewrite H. apply IH. Qed.
  Lemma loop_sloop (e : engine F) : (miller_loop e (fp12_one F) (map (compute_coeffs gen) e) : M) = sloop (fun c => prod (map (fun p => contrib p c) e)).
  Proof.
    unfold miller_loop, sloop. rewrite (fold_ext (bit_sbit e)). change (fp12_one F) with (1 : M).
    assert (H : forall s : st, (let '(f, _, c) := s in fp12_conjugate (miller_lines e (map (compute_coeffs gen) e) c f)) =
      (let '(f, _, c) := s in cj ((f : M) * prod (map (fun p => contrib p c) e)))) by (intros [[f b] c]; rewrite (lines_prod e); reflexivity).
    revert H. generalize down64. intros l H. exact (H _).
  Qed.
  Lemma sbit_rel (g h k : nat -> M) (op : M -> M -> M) :
    (forall a b c d : M, op (a * b) (c * d) = op a c * op b d) -> (forall c, k c = op (g c) (h c)) ->
    forall l a b n fd, exists f1 f2 n' fd',
      fold_left (sbit g) l ((a : M) : fp12 F, fd, n) = ((f1 : M) : fp12 F, fd', n') /\
      fold_left (sbit h) l ((b : M) : fp12 F, fd, n) = ((f2 : M) : fp12 F, fd', n') /\
      fold_left (sbit k) l ((op a b : M) : fp12 F, fd, n) = ((op f1 f2 : M) : fp12 F, fd', n').
  Proof.
    intros OP KK. induction l as [|i l IH]; intros a b n fd; [now exists a, b, n, fd|].
    cbn [fold_left]. unfold sbit at 2 4 6. destruct fd; cbn [negb]; [|apply IH].
    destruct (Z.testbit (Z.shiftr bls_param_x 1) i); rewrite !KK, <- !OP; apply IH.
  Qed.
  Lemma sloop_mul (g h : nat -> M) : sloop (fun c => g c * h c) = sloop g * sloop h.
  Proof.
    unfold sloop. generalize down64. intros l.
    assert (OP : forall a b c d : M, (a * b) * (c * d) = (a * c) * (b * d)) by (intros; ring).
    destruct (@sbit_rel g h (fun c => g c * h c) (@fmul M) OP (fun c => eq_refl) l 1 1 0%nat false)
      as (a & b & n & fd & E1 & E2 & E3).
    replace ((1 : M) * 1) with (1 : M) in E3 by ring. rewrite E1, E2, E3. rewrite <- cj_mul. f_equal. ring.
  Qed.
  Lemma sloop_one : sloop (fun _ => 1) = 1.
  Proof.
    unfold sloop. assert (H : forall l n fd, exists fd' n', fold_left (sbit (fun _ => 1)) l ((1 : M) : fp12 F, fd, n) = ((1 : M) : fp12 F, fd', n')).
    { induction l as [|i l IH]; intros n fd; [now exists fd, n|]. cbn [fold_left]. unfold sbit at 2. destruct fd; cbn [negb]; [|apply IH].
      destruct (Z.testbit (Z.shiftr bls_param_x 1) i).
      - replace ((1 : M) * 1 * 1 * (1 * 1 * 1)) with (1 : M) by ring. apply IH.
      - replace ((1 : M) * 1 * (1 * 1)) with (1 : M) by ring. apply IH. }
    generalize down64. intros l. destruct (H l 0%nat false) as (fd & n & ->). replace ((1 : M) * 1) with (1 : M) by ring. apply cj_one.
  Qed.
  Lemma sloop_ext (g h : nat -> M) : (forall c, g c = h c) -> sloop g = sloop h.
  Proof.
    intros H. unfold sloop.
    assert (E : forall s i, sbit g s i = sbit h s i) by (intros [[f fd] n] i; unfold sbit; rewrite !H; reflexivity).
    rewrite (fold_ext E). generalize down64. intros l. destruct (fold_left _ _ _) as [[f fd] n]. rewrite H. reflexivity.
  Qed.
  Lemma sloop_cj (g : nat -> M) : sloop (fun c => cj (g c)) = cj (sloop g).
  Proof.
    unfold sloop. generalize down64. intros l.
    destruct (@sbit_rel g g (fun c => cj (g c)) (fun a _ => cj a) (fun a b _ _ => cj_mul a b) (fun c => eq_refl) l 1 1 0%nat false)
      as (a & b & n & fd & E1 & E2 & E3).
    rewrite cj_one in E3. rewrite E1, E3. rewrite <- cj_mul. reflexivity.
  Qed.
  Definition one_pair (p : pair F) : M := fpow (sloop (contrib p)) fe.
  Theorem pairing_prod (e : engine F) : (pairing g3 g33 g6 gen e : M) = prod (map one_pair e).
  Proof.
    assert (H : forall e, sloop (fun c => prod (map (fun p => contrib p c) e)) = prod (map (fun p => sloop (contrib p)) e)).
    { clear e. induction e as [|p e IH]; [exact sloop_one|]. cbn [map]. rewrite prod_cons.
      rewrite <- IH, <- sloop_mul. reflexivity. }
    assert (P : forall l : list (pair F), prod (map one_pair l) = fpow (prod (map (fun p => sloop (contrib p)) l)) fe).
    { induction l as [|p l IH]; cbn [map]; [symmetry; apply fpow_one|].
      rewrite !prod_cons. rewrite fpow_mulb, <- IH. reflexivity. }
    rewrite P, <- H. unfold pairing. destruct e as [|p e].
    - rewrite H. cbn [map]. rewrite prod_nil, fpow_one. reflexivity.
    - cbv zeta. rewrite FE, loop_sloop. reflexivity.
  Qed.

  (** ** negation *)
  Lemma line_neg_y co (p p' : pt F) : px p' = px p -> py p' = - py p -> line co p' = cj (line co p).
  Proof.
    intros X Y. unfold line, cj, fp12_conjugate, fp6_neg. cbn [qu_a qu_b cu_a cu_b cu_c]. rewrite X, Y.
    apply quad_eq; cbn [qu_a qu_b]; [reflexivity|]. apply cubic_eq; cbn [cu_a cu_b cu_c]; apply quad_eq; cbn; ring.
  Qed.
  Definition coneg (co co' : coefficients F) : Prop := co_a co' = fp2_neg (co_a co) /\ co_b co' = co_b co /\ co_c co' = co_c co.
  Lemma line_coneg co co' p : coneg co co' -> line co' p = cj (line co p).
  Proof.
    intros (A & B & C). unfold line, cj, fp12_conjugate, fp6_neg. cbn [qu_a qu_b cu_a cu_b cu_c]. rewrite A, B, C.
    apply quad_eq; cbn [qu_a qu_b]; [reflexivity|]. apply cubic_eq; cbn [cu_a cu_b cu_c]; apply quad_eq; cbn; ring.
  Qed.
  Definition zneg (c c' : g2pt F) : Prop := jx c' = jx c /\ jy c' = jy c /\ jz c' = fp2_neg (jz c).
  Definition yneg (c c' : g2pt F) : Prop := jx c' = jx c /\ jy c' = fp2_neg (jy c) /\ jz c' = jz c.
  (** the two steps in closed form *)
  Lemma let_elim {A B : Type} (v : A) (b : A -> B) (r : B) : (forall y, y = v -> b y = r) -> (let x := v in b x) = r.
  Proof. intros H. apply H. reflexivity. Qed.
  Ltac toKin E :=
    rewrite ?fp2_square_spec, ?fp2_double_spec in E;
    change (@fp2_mul F) with (@fmul K) in E; change (@fp2_add F) with (@fadd K) in E; change (@fp2_sub F) with (@fsub K) in E;
    change (@fp2_neg F) with (@fopp K) in E.
  Ltac letstep := lazymatch goal with |- (let x := ?v in @?b x) = ?r =>
    refine (@let_elim _ _ v b r _); cbv beta; let y := fresh "y" in let E := fresh "E" in intros y E; cbn [jx jy jz] in E; toKin E end.
  Lemma step_eq (x y z x' y' z' a b c a' b' c' : K) :
    x = x' -> y = y' -> z = z' -> a = a' -> b = b' -> c = c' ->
    (Jpt (x : fp2 F) y z, Coef (a : fp2 F) b c) = (Jpt (x' : fp2 F) y' z', Coef (a' : fp2 F) b' c').
  Proof. intros -> -> -> -> -> ->. reflexivity. Qed.
  Definition two : K := 1 + 1.
  Lemma addition_form (X Y Z x y z : K) :
    let h := x * (Z * Z) - X in
    let s := two * (y * (Z * Z * Z) - Y) in
    let h4 := two * two * (h * h) in
    let X' := s * s - h4 * h - two * (h4 * X) in
    let Z' := two * (Z * h) in
    addition_step (Jpt (X : fp2 F) Y Z) (Jpt (x : fp2 F) y z) =
    (Jpt (X' : fp2 F) (s * (h4 * X - X') - two * (Y * (h4 * h))) Z',
     Coef (two * Z' : fp2 F) (two * (- s)) (two * (s * x - y * Z'))).
  Proof.
    intros h s h4 X' Z'. cbv delta [addition_step] beta. repeat letstep. apply step_eq; subst; unfold Z', X', h4, s, h, two; eqK; ring.
  Qed.
  Lemma doubling_form (X Y Z : K) :
    let yy := Y * Y in
    let d := two * (two * (X * yy)) in
    let e := (two + 1) * (X * X) in
    let X' := e * e - two * d in
    let Z' := two * (Y * Z) in
    doubling_step (Jpt (X : fp2 F) Y Z) =
    (Jpt (X' : fp2 F) (e * (d - X') - two * (two * (two * (yy * yy)))) Z',
     Coef (two * (Z' * (Z * Z)) : fp2 F) (- (two * (e * (Z * Z)))) (two * (e * X - two * yy))).
  Proof.
    intros yy d e X' Z'. cbv delta [doubling_step] beta. repeat letstep. apply step_eq; subst; unfold Z', X', e, d, yy, two; eqK; ring.
  Qed.
  Lemma dbl_neg c c' : zneg c c' \/ yneg c c' ->
    zneg (fst (doubling_step c)) (fst (doubling_step c')) /\ coneg (snd (doubling_step c)) (snd (doubling_step c')).
  Proof.
    unfold zneg, yneg, coneg. destruct c as [X Y Z], c' as [X' Y' Z']. cbn [jx jy jz].
    intros [(-> & -> & ->)|(-> & -> & ->)]; rewrite !doubling_form; cbn [jx jy jz fst snd co_a co_b co_c];
      change (@fp2_neg F) with (@fopp K); repeat split; eqK; ring.
  Qed.
  Lemma add_neg c c' q q' : zneg c c' -> yneg q q' ->
    zneg (fst (addition_step c q)) (fst (addition_step c' q')) /\ coneg (snd (addition_step c q)) (snd (addition_step c' q')).
  Proof.
    unfold zneg, yneg, coneg. destruct c as [X Y Z], c' as [X' Y' Z'], q as [x y z], q' as [x' y' z']. cbn [jx jy jz].
    intros (-> & -> & ->) (-> & -> & ->); rewrite !addition_form; cbn [jx jy jz fst snd co_a co_b co_c];
      change (@fp2_neg F) with (@fopp K); repeat split; eqK; ring.
  Qed.
  Lemma coeff_bit_neg q q' c c' cfs cfs' fd i : yneg q q' -> zneg c c' \/ yneg c c' -> Forall2 coneg cfs cfs' ->
    exists d d' cf cf' fd', coeff_bit q (c, cfs, fd) i = (d, cf, fd') /\ coeff_bit q' (c', cfs', fd) i = (d', cf', fd') /\
      (zneg d d' \/ yneg d d') /\ Forall2 coneg cf cf'.
  Proof.
    intros Q C D. unfold coeff_bit. destruct fd; cbn [negb].
    2: { exists c, c', cfs, cfs', (Z.testbit (Z.shiftr bls_param_x 1) i). auto. }
    pose proof (dbl_neg C) as DN. destruct (doubling_step c) as [d co], (doubling_step c') as [d' co']. cbn [fst snd] in DN. destruct DN as [DN CN].
    assert (D2 : Forall2 coneg (cfs ++ [co]) (cfs' ++ [co'])) by (apply Forall2_app; [exact D|constructor; [exact CN|constructor]]).
    destruct (Z.testbit (Z.shiftr bls_param_x 1) i); [|exists d, d', (cfs ++ [co]), (cfs' ++ [co']), true; auto].
    pose proof (add_neg DN Q) as AN. destruct (addition_step d q) as [a ao], (addition_step d' q') as [a' ao']. cbn [fst snd] in AN. destruct AN as [AN ON].
    exists a, a', ((cfs ++ [co]) ++ [ao]), ((cfs' ++ [co']) ++ [ao']), true. repeat split; auto.
    apply Forall2_app; [exact D2|constructor; [exact ON|constructor]].
  Qed.
  Lemma coeffs_loop_neg q q' : yneg q q' -> forall l c c' cfs cfs' fd, zneg c c' \/ yneg c c' -> Forall2 coneg cfs cfs' ->
    exists d d' cf cf' fd', fold_left (coeff_bit q) l (c, cfs, fd) = (d, cf, fd') /\ fold_left (coeff_bit q') l (c', cfs', fd) = (d', cf', fd') /\
      (zneg d d' \/ yneg d d') /\ Forall2 coneg cf cf'.
  Proof.
    intros Q. induction l as [|i l IH]; intros c c' cfs cfs' fd C D; [exists c, c', cfs, cfs', fd; auto|].
    cbn [fold_left]. destruct (@coeff_bit_neg q q' c c' cfs cfs' fd i Q C D) as (d & d' & cf & cf' & fd' & -> & -> & C' & D'). apply IH; assumption.
  Qed.
  Lemma coeffs_neg p p' q q' : yneg q q' -> g2_is_identity q = false ->
    fst (compute_coeffs gen (p, q)) = false /\ fst (compute_coeffs gen (p', q')) = false /\
    Forall2 coneg (snd (compute_coeffs gen (p, q))) (snd (compute_coeffs gen (p', q'))).
  Proof.
    intros Q I. assert (I' : g2_is_identity q' = false) by (destruct Q as (_ & _ & Z); unfold g2_is_identity in *; rewrite Z; exact I).
    unfold compute_coeffs. cbn [snd]. rewrite I, I'. unfold cmove. generalize down64. intros l.
    destruct (@coeffs_loop_neg q q' Q l q q' [] [] false (or_intror Q) (Forall2_nil _)) as (d & d' & cf & cf' & fd' & -> & -> & C & D).
    pose proof (dbl_neg C) as DN. destruct (doubling_step d) as [e co], (doubling_step d') as [e' co']. cbn [fst snd] in *. destruct DN as [_ CN].
    repeat split. apply Forall2_app; [exact D|constructor; [exact CN|constructor]].
  Qed.
  Lemma nth_coneg l l' i : Forall2 coneg l l' -> coneg (nth i l (coef0 F)) (nth i l' (coef0 F)).
  Proof.
    intros H. revert i. induction H as [|a b l l' A H IH]; intros [|i]; cbn [nth]; try apply IH; try exact A.
    all: unfold coneg, coef0; cbn [co_a co_b co_c]; change (@fp2_neg F) with (@fopp K); change (fp2_zero F) with (f0 : K); repeat split; eqK; ring.
  Qed.
  Lemma coeffs_snd p p' q : compute_coeffs gen (p, q) = compute_coeffs gen (p', q).
  Proof. unfold compute_coeffs. cbn [snd]. reflexivity. Qed.
  Lemma one_neg_g1 p p' q : px p' = px p -> py p' = - py p -> pz p' = pz p -> one_pair (p', q) = cj (one_pair (p, q)).
  Proof.
    intros X Y Z. unfold one_pair. rewrite cj_pow, <- sloop_cj. f_equal. apply sloop_ext. intros c. unfold contrib, g1_is_identity. cbn [fst].
    rewrite Z. destruct (fp_is_zero (pz p)); [symmetry; exact cj_one|].
    rewrite (coeffs_snd p' p q). cbn [orb].
    destruct (fst (compute_coeffs gen (p, q))); [symmetry; exact cj_one|]. apply line_neg_y; assumption.
  Qed.
  Lemma one_neg_g2 p q q' : yneg q q' -> g2_is_identity q = false -> one_pair (p, q') = cj (one_pair (p, q)).
  Proof.
    intros Q I. unfold one_pair. rewrite cj_pow, <- sloop_cj. f_equal. apply sloop_ext. intros c. unfold contrib. cbn [fst].
    destruct (coeffs_neg p p Q I) as (-> & -> & H). rewrite orb_false_r. destruct (g1_is_identity p); [symmetry; exact cj_one|].
    apply line_coneg. apply nth_coneg. exact H.
  Qed.

  (** ** the engine *)
  Definition gneg1 (p : pt F) : pt F := Pt (px p) (- py p) (pz p).
  Definition gneg2 (q : g2pt F) : g2pt F := Jpt (jx q) (fp2_neg (jy q)) (jz q).
  Lemma g1_affine_cases (P : pt F) : (pz P = 0 /\ g1_to_affine P = Pt 0 0 0 /\ g1_is_identity (g1_to_affine P) = true) \/
    (pz P <> 0 /\ g1_to_affine P = Pt (px P * finv (pz P)) (py P * finv (pz P)) 1 /\ g1_is_identity (g1_to_affine P) = false).
  Proof.
    unfold g1_to_affine, g1_is_identity, nonzero, fp_is_zero, cmove. cbn [pz]. destruct (feqb_case (pz P) 0) as [[-> E]|[-> E]]; cbn [negb].
    - left. repeat split; [exact E|]. apply feqb_true.
    - right. repeat split; [exact E|]. apply feqb_false. apply f_one_zero.
  Qed.
  Lemma fp2_zero_iff (z : K) : fp2_is_zero z = true <-> z = 0.
  Proof. rewrite fp2_is_zero_equal. apply fp2_equal_spec. Qed.
  Lemma g2_affine_cases (Q : g2pt F) : ((jz Q : K) = 0 /\ g2_to_affine Q = Jpt (fp2_zero F) (fp2_zero F) (fp2_zero F) /\ g2_is_identity (g2_to_affine Q) = true) \/
    ((jz Q : K) <> 0 /\ g2_to_affine Q = Jpt (((jx Q : K) * finv (jz Q : K) : K) : fp2 F) ((jy Q : K) * finv (jz Q : K) : K) (fp2_one F) /\ g2_is_identity (g2_to_affine Q) = false).
  Proof.
    unfold g2_to_affine, g2_is_identity. rewrite (fp2_invert_K N1). destruct (fp2_is_zero (jz Q)) eqn:E; unfold cmove; cbn [jz].
    - left. apply fp2_zero_iff in E. repeat split; [exact E|]. apply fp2_zero_iff. reflexivity.
    - right. assert ((jz Q : K) <> 0) by (intros H; apply fp2_zero_iff in H; congruence). repeat split; [assumption|].
      destruct (fp2_is_zero (fp2_one F)) eqn:E2; [|reflexivity]. apply fp2_zero_iff in E2. destruct (@f_one_zero K E2).
  Qed.
  Lemma affine_neg1 P : g1_is_identity (g1_to_affine P) = false -> g1_to_affine (g1_neg P) = gneg1 (g1_to_affine P).
  Proof.
    destruct (g1_affine_cases P) as [(_ & _ & ->)|(Z & -> & _)]; [discriminate|]. intros _.
    assert (G : g1_neg P = Pt (px P) (- py P) (pz P)).
    { unfold g1_neg, g1_is_identity, fp_is_zero, cmove. apply feqb_false in Z. rewrite Z. reflexivity. }
    rewrite G. destruct (g1_affine_cases (Pt (px P) (- py P) (pz P))) as [(W & _)|(_ & -> & _)]; cbn [pz] in *; [contradiction|].
    unfold gneg1. cbn [px py pz]. f_equal. ring.
  Qed.
  Lemma affine_neg1_id (P : pt F) : g1_is_identity (g1_to_affine (g1_neg P)) = g1_is_identity (g1_to_affine P).
  Proof.
    destruct (g1_affine_cases P) as [(Z & _ & E)|(Z & _ & E)], (g1_affine_cases (g1_neg P)) as [(W & _ & E')|(W & _ & E')]; rewrite E, E'; try reflexivity;
    unfold g1_neg in W; cbn [pz] in W; contradiction.
  Qed.
  Lemma affine_neg2 (Q : g2pt F) : g2_is_identity (g2_to_affine Q) = false -> yneg (g2_to_affine Q) (g2_to_affine (g2_neg Q)).
  Proof.
    destruct (g2_affine_cases Q) as [(_ & _ & ->)|(Z & -> & _)]; [discriminate|]. intros _.
    assert (G : g2_neg Q = gneg2 Q).
    { unfold g2_neg, gneg2, g2_is_identity, fp2_cneg, cmove. destruct (fp2_is_zero (jz Q)) eqn:E; [apply fp2_zero_iff in E; contradiction|reflexivity]. }
    rewrite G. destruct (g2_affine_cases (gneg2 Q)) as [(W & _)|(_ & -> & _)]; unfold gneg2 in *; cbn [jx jy jz] in *; [contradiction|].
    unfold yneg. cbn [jx jy jz]. change (@fp2_neg F) with (@fopp K). repeat split. eqK. ring.
  Qed.
  Lemma affine_neg2_id (Q : g2pt F) : g2_is_identity (g2_to_affine (g2_neg Q)) = g2_is_identity (g2_to_affine Q).
  Proof.
    destruct (g2_affine_cases Q) as [(Z & _ & E)|(Z & _ & E)], (g2_affine_cases (g2_neg Q)) as [(W & _ & E')|(W & _ & E')]; rewrite E, E'; try reflexivity;
    unfold g2_neg in W; cbn [jz] in W; contradiction.
  Qed.
  Local Notation res := (engine_result g3 g33 g6 gen).
  Lemma res_app (e e' : engine F) : (res (e ++ e') : M) = (res e : M) * (res e' : M).
  Proof. unfold engine_result. rewrite !pairing_prod, map_app, prod_app. reflexivity. Qed.
  Lemma res_nil : (res [] : M) = 1.
  Proof. reflexivity. Qed.
  Definition skipped (P : pt F) (Q : g2pt F) : bool := g1_is_identity (g1_to_affine P) || g2_is_identity (g2_to_affine Q).
  Lemma skipped_iff P Q : skipped P Q = true <-> pz P = 0 \/ (jz Q : K) = 0.
  Proof.
    unfold skipped. destruct (g1_affine_cases P) as [(Z & _ & ->)|(Z & _ & ->)], (g2_affine_cases Q) as [(W & _ & ->)|(W & _ & ->)]; cbn [orb];
      split; intros H; auto; try discriminate; destruct H; contradiction.
  Qed.
  Lemma add_pair_form e P Q : add_pair e P Q = if skipped P Q then e else e ++ [(g1_to_affine P, g2_to_affine Q)].
  Proof. reflexivity. Qed.
  Lemma res_add e P Q : (res (add_pair e P Q) : M) = (res e : M) * (res (add_pair [] P Q) : M).
  Proof. rewrite !add_pair_form. destruct (skipped P Q); [rewrite res_nil; eqM; ring|]. rewrite res_app. reflexivity. Qed.
  Definition single (pq : pt F * g2pt F) : M := res (add_pair [] (fst pq) (snd pq)).
  Lemma res_fold l e : (res (fold_left (fun e pq => add_pair e (fst pq) (snd pq)) l e) : M) = (res e : M) * prod (map single l).
  Proof.
    revert e. induction l as [|[P Q] l IH]; intros e; cbn [fold_left map]; [rewrite prod_nil; eqM; ring|].
    rewrite IH, prod_cons. cbn [fst snd]. rewrite res_add. unfold single at 2. cbn [fst snd]. eqM. ring.
  Qed.
  Lemma res_neg1 P Q : (res (add_pair_inv_g1 [] P Q) : M) = cj (res (add_pair [] P Q)).
  Proof.
    unfold add_pair_inv_g1. rewrite !add_pair_form. unfold skipped. rewrite affine_neg1_id.
    destruct (g1_is_identity (g1_to_affine P)) eqn:E1; cbn [orb]; [symmetry; exact cj_one|].
    destruct (g2_is_identity (g2_to_affine Q)) eqn:E2; [symmetry; exact cj_one|]. cbn [app].
    unfold engine_result. rewrite !pairing_prod. cbn [map]. rewrite !prod_cons, !prod_nil.
    rewrite (affine_neg1 E1). rewrite (@one_neg_g1 (g1_to_affine P) (gneg1 (g1_to_affine P))) by reflexivity.
    rewrite cj_mul, cj_one. reflexivity.
  Qed.
  Lemma res_neg2 P Q : (res (add_pair_inv_g2 [] P Q) : M) = cj (res (add_pair [] P Q)).
  Proof.
    unfold add_pair_inv_g2. rewrite !add_pair_form. unfold skipped. rewrite affine_neg2_id.
    destruct (g1_is_identity (g1_to_affine P)) eqn:E1; cbn [orb]; [symmetry; exact cj_one|].
    destruct (g2_is_identity (g2_to_affine Q)) eqn:E2; [symmetry; exact cj_one|]. cbn [app].
    unfold engine_result. rewrite !pairing_prod. cbn [map]. rewrite !prod_cons, !prod_nil.
    rewrite (@one_neg_g2 _ _ _ (affine_neg2 E2) E2).
    rewrite cj_mul, cj_one. reflexivity.
  Qed.
  (** every result is a power of the final exponentiation *)
  Lemma res_fe (e : engine F) : exists f : M, (res e : M) = fpow f fe.
  Proof.
    unfold engine_result. destruct e as [|p e]; [exists 1; symmetry; apply fpow_one|]. unfold pairing. cbv zeta.
    eexists. apply FE.
  Qed.
End Pair.
