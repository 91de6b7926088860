(** The coordinate-wise extensions are fields when n has no root; powers; additivity of the p-th power. *)
From Coq Require Import Field Field_theory Ring Ring_theory ZArith NArith Lia Bool Znumtheory.
From Verif Require Import EcField TowerModel TowerSpec.
Set Implicit Arguments.
Unset Strict Implicit.
Local Open Scope fld_scope.

Lemma quad_eq (T : Type) (x y : quad T) : qu_a x = qu_a y -> qu_b x = qu_b y -> x = y.
Proof. destruct x, y; cbn. intros -> ->. reflexivity. Qed.
Lemma cubic_eq (T : Type) (x y : cubic T) : cu_a x = cu_a y -> cu_b x = cu_b y -> cu_c x = cu_c y -> x = y.
Proof. destruct x, y; cbn. intros -> -> ->. reflexivity. Qed.

Section QuadField.
  Variables (K : field) (n : K).
  Add Field Kq : (fth K).
  Lemma quad_ring : ring_theory (Quad (0 : K) 0) (Quad 1 0) (@quad_add K) (quad_mul n) (@quad_sub K) (@quad_opp K) eq.
  Proof.
    constructor; intros; apply quad_eq; unfold quad_add, quad_mul, quad_sub, quad_opp; cbn; ring.
  Qed.
  Hypothesis NS : forall x : K, x * x <> n.
  Lemma quad_norm_zero x : quad_norm n x = 0 -> x = Quad 0 0.
  Proof.
    destruct x as [a b]. unfold quad_norm. cbn. intros H.
    destruct (f_eq_dec b 0) as [->|B].
    - assert (A : a * a = 0) by (transitivity (a * a - n * (0 * 0)); [ring|exact H]).
      destruct (f_integral A) as [->| ->]; reflexivity.
    - exfalso. apply (@NS (a / b)). replace (a / b * (a / b)) with (a * a / (b * b)) by (field; exact B).
      apply f_div_eq; [apply f_mul_neq; exact B|]. replace (a * a) with ((a * a - n * (b * b)) + b * b * n) by ring. rewrite H. ring.
  Qed.
  Lemma quad_theory : field_theory (Quad (0 : K) 0) (Quad 1 0) (@quad_add K) (quad_mul n) (@quad_sub K) (@quad_opp K)
    (fun x y => quad_mul n x (quad_inv n y)) (quad_inv n) eq.
  Proof.
    constructor; [exact quad_ring| |reflexivity|].
    - intros E. injection E as E. exact (f_one_zero E).
    - intros x X. assert (N : quad_norm n x <> 0) by (intros E; exact (X (quad_norm_zero E))).
      apply quad_eq; unfold quad_mul, quad_inv; cbn; revert N; unfold quad_norm; intros N; field; exact N.
  Qed.
End QuadField.

Section CubicField.
  Variables (K : field) (n : K).
  Add Field Kc : (fth K).
  Lemma cubic_ring : ring_theory (Cubic (0 : K) 0 0) (Cubic 1 0 0) (@cubic_add K) (cubic_mul n) (@cubic_sub K) (@cubic_opp K) eq.
  Proof.
    constructor; intros; apply cubic_eq; unfold cubic_add, cubic_mul, cubic_sub, cubic_opp; cbn; ring.
  Qed.
  Lemma cubic_norm_mul x y : cubic_norm n (cubic_mul n x y) = cubic_norm n x * cubic_norm n y.
  Proof.
    destruct x, y. unfold cubic_norm, adj_a, adj_b, adj_c, cubic_mul. cbn. ring.
  Qed.
  Hypothesis NC : forall x : K, x * x * x <> n.
  Lemma adj_zero (a b c : K) : b * b = a * c -> a * b = n * (c * c) -> a * a = n * (b * c) -> a = 0 /\ b = 0 /\ c = 0.
  Proof.
    intros H1 H2 H3. destruct (f_eq_dec c 0) as [->|C].
    - assert (B : b * b = 0) by (rewrite H1; ring). assert (b = 0) by (destruct (f_integral B); assumption). subst b.
      assert (A : a * a = 0) by (rewrite H3; ring). assert (a = 0) by (destruct (f_integral A); assumption). auto.
    - exfalso. apply (@NC (b / c)). replace (b / c * (b / c) * (b / c)) with (b * b * b / (c * c * c)) by (field; exact C).
      apply f_div_eq; [apply f_mul_neq; [apply f_mul_neq|]; exact C|].
      replace (b * b * b) with (b * (b * b)) by ring. rewrite H1. replace (b * (a * c)) with (a * b * c) by ring. rewrite H2. ring.
  Qed.
  Lemma cubic_norm_zero x : cubic_norm n x = 0 -> x = Cubic 0 0 0.
  Proof.
    intros H.
    assert (A : adj_a n x = 0 /\ adj_b n x = 0 /\ adj_c x = 0).
    { apply adj_zero.
      - transitivity (adj_a n x * adj_c x + cubic_norm n x * cu_c x); [destruct x; unfold cubic_norm, adj_a, adj_b, adj_c; cbn; ring|rewrite H; ring].
      - transitivity (n * (adj_c x * adj_c x) - cubic_norm n x * cu_b x); [destruct x; unfold cubic_norm, adj_a, adj_b, adj_c; cbn; ring|rewrite H; ring].
      - transitivity (n * (adj_b n x * adj_c x) + cubic_norm n x * cu_a x); [destruct x; unfold cubic_norm, adj_a, adj_b, adj_c; cbn; ring|rewrite H; ring]. }
    destruct A as (A & B & C). destruct x as [a b c]. unfold adj_a, adj_b, adj_c in *. cbn in *.
    destruct (@adj_zero a b c) as (-> & -> & ->); [apply f_sub_zero, C|symmetry; apply f_sub_zero, B|apply f_sub_zero, A|reflexivity].
  Qed.
  Lemma cubic_theory : field_theory (Cubic (0 : K) 0 0) (Cubic 1 0 0) (@cubic_add K) (cubic_mul n) (@cubic_sub K) (@cubic_opp K)
    (fun x y => cubic_mul n x (cubic_inv n y)) (cubic_inv n) eq.
  Proof.
    constructor; [exact cubic_ring| |reflexivity|].
    - intros E. injection E as E. exact (f_one_zero E).
    - intros x X. assert (N : cubic_norm n x <> 0) by (intros E; exact (X (cubic_norm_zero E))).
      apply cubic_eq; unfold cubic_mul, cubic_inv; cbn; revert N; unfold cubic_norm, adj_a, adj_b, adj_c; intros N; field; exact N.
  Qed.
End CubicField.

(** replacing the operations of a field by equal functions *)
Lemma theory_ext (T : Type) (z o : T) add mul sub opp div inv add' mul' sub' opp' inv' :
  field_theory z o add mul sub opp div inv eq ->
  (forall x y, add' x y = add x y) -> (forall x y, mul' x y = mul x y) -> (forall x y, sub' x y = sub x y) ->
  (forall x, opp' x = opp x) -> (forall x, x <> z -> inv' x = inv x) ->
  field_theory z o add' mul' sub' opp' (fun x y => mul' x (inv' y)) inv' eq.
Proof.
  intros [[]] A M S O I. constructor; [constructor|..]; intros; rewrite ?A, ?M, ?S, ?O, ?A, ?M, ?S, ?O; auto.
  rewrite I by assumption. auto.
Qed.

(** ** powers *)
Section Pow.
  Variable K : field.
  Add Field Kp : (fth K).
  Implicit Types x y : K.
  Lemma fpow_0 x : fpow x 0 = 1. Proof. reflexivity. Qed.
  Lemma fpow_succ x m : fpow x (N.succ m) = fpow x m * x.
  Proof. unfold fpow. rewrite N.recursion_succ; [reflexivity|reflexivity|]. intros ? ? _ ? ? ->. reflexivity. Qed.
  Lemma fpow_1 x : fpow x 1 = x. Proof. change 1%N with (N.succ 0). rewrite fpow_succ, fpow_0. ring. Qed.
  Lemma fpow_2 x : fpow x 2 = x * x. Proof. change 2%N with (N.succ 1). rewrite fpow_succ, fpow_1. ring. Qed.
  Lemma fpow_3 x : fpow x 3 = x * x * x. Proof. change 3%N with (N.succ 2). rewrite fpow_succ, fpow_2. ring. Qed.
  Lemma fpow_add x m k : fpow x (m + k) = fpow x m * fpow x k.
  Proof.
    induction k as [|k IH] using N.peano_ind; [rewrite N.add_0_r, fpow_0; ring|].
    rewrite N.add_succ_r, !fpow_succ, IH. ring.
  Qed.
  Lemma fpow_one m : fpow 1 m = (1 : K).
  Proof. induction m as [|m IH] using N.peano_ind; [reflexivity|]. rewrite fpow_succ, IH. ring. Qed.
  Lemma fpow_mul x m k : fpow x (m * k) = fpow (fpow x m) k.
  Proof.
    induction k as [|k IH] using N.peano_ind; [now rewrite N.mul_0_r|].
    rewrite N.mul_succ_r, fpow_add, fpow_succ, IH. reflexivity.
  Qed.
  Lemma fpow_mulb x y m : fpow (x * y) m = fpow x m * fpow y m.
  Proof. induction m as [|m IH] using N.peano_ind; [rewrite !fpow_0; ring|]. rewrite !fpow_succ, IH. ring. Qed.
  Lemma fpow_comm x m k : fpow (fpow x m) k = fpow (fpow x k) m.
  Proof. rewrite <- !fpow_mul, N.mul_comm. reflexivity. Qed.
  Lemma fpow_zero m : m <> 0%N -> fpow 0 m = (0 : K).
  Proof. destruct m as [|m] using N.peano_ind; [congruence|]. intros _. rewrite fpow_succ. ring. Qed.
  Lemma fpow_neq x m : x <> 0 -> fpow x m <> 0.
  Proof.
    intros X. induction m as [|m IH] using N.peano_ind; [apply f_one_zero|].
    rewrite fpow_succ. apply f_mul_neq; assumption.
  Qed.
  Lemma fpow_inv x m : x <> 0 -> fpow (finv x) m = finv (fpow x m).
  Proof.
    intros X. pose proof (@fpow_neq x m X) as N. apply (f_cancel N). rewrite <- fpow_mulb, !f_mul_inv, fpow_one by assumption. reflexivity.
  Qed.
  (** an integer as a field element *)
  Definition fz (m : N) : K := N.recursion (0 : K) (fun _ y => y + 1) m.
  Lemma fz_succ m : fz (N.succ m) = fz m + 1.
  Proof. unfold fz. rewrite N.recursion_succ; [reflexivity|reflexivity|]. intros ? ? _ ? ? ->. reflexivity. Qed.
  Lemma fz_add m k : fz (m + k) = fz m + fz k.
  Proof. induction k as [|k IH] using N.peano_ind; [rewrite N.add_0_r; cbn; ring|]. rewrite N.add_succ_r, !fz_succ, IH. ring. Qed.
  Lemma fz_mul m k : fz (m * k) = fz m * fz k.
  Proof. induction k as [|k IH] using N.peano_ind; [rewrite N.mul_0_r; cbn; ring|]. rewrite N.mul_succ_r, fz_add, fz_succ, IH. ring. Qed.

  (** binomial coefficients, and (x + y)^p = x^p + y^p in characteristic p *)
  Fixpoint bin (n k : nat) : N :=
    match n, k with
    | _, O => 1
    | O, S _ => 0
    | S n, S k => bin n k + bin n (S k)
    end%N.
  Lemma bin_absorb n k : (N.of_nat (S k) * bin (S n) (S k) = N.of_nat (S n) * bin n k)%N.
  Proof.
    revert k. induction n as [|n IH]; intros k.
    - destruct k as [|k]; [reflexivity|]. destruct k; cbn [bin]; lia.
    - change (bin (S (S n)) (S k)) with (bin (S n) k + bin (S n) (S k))%N.
      destruct k as [|k].
      + pose proof (IH 0%nat) as H. replace (bin n 0) with 1%N in H by (destruct n; reflexivity).
        replace (bin (S n) 0) with 1%N by reflexivity. lia.
      + pose proof (IH k) as H1. pose proof (IH (S k)) as H2.
        change (bin (S n) (S k)) with (bin n k + bin n (S k))%N in *.
        set (a := bin n k) in *. set (b := bin n (S k)) in *. set (c := bin (S n) (S (S k))) in *. clearbody a b c. clear IH.
        rewrite (Nnat.Nat2N.inj_succ (S k)), (Nnat.Nat2N.inj_succ (S n)) in *.
        set (u := N.of_nat (S k)) in *. set (v := N.of_nat (S n)) in *. clearbody u v. nia.
  Qed.
  (** sum over k < m of f k *)
  Fixpoint sigma (f : nat -> K) (m : nat) : K := match m with O => 0 | S m => sigma f m + f m end.
  Lemma sigma_ext f g m : (forall k, (k < m)%nat -> f k = g k) -> sigma f m = sigma g m.
  Proof. induction m as [|m IH]; intros H; [reflexivity|]. cbn. rewrite IH, H; auto. Qed.
  Lemma sigma_add f g m : sigma (fun k => f k + g k) m = sigma f m + sigma g m.
  Proof. induction m as [|m IH]; cbn; [ring|]. rewrite IH. ring. Qed.
  Lemma sigma_mul f c m : sigma (fun k => f k * c) m = sigma f m * c.
  Proof. induction m as [|m IH]; cbn; [ring|]. rewrite IH. ring. Qed.
  Lemma sigma_first f m : sigma f (S m) = f 0%nat + sigma (fun k => f (S k)) m.
  Proof. induction m as [|m IH]; [cbn; ring|]. cbn [sigma] in *. rewrite IH. ring. Qed.
  Lemma sigma_zero f m : (forall k, (k < m)%nat -> f k = 0) -> sigma f m = 0.
  Proof. induction m as [|m IH]; intros H; [reflexivity|]. cbn. rewrite IH, H; auto. ring. Qed.
  Definition pn (x : K) (k : nat) : K := fpow x (N.of_nat k).
  Lemma pn_S x k : pn x (S k) = pn x k * x.
  Proof. unfold pn. rewrite Nnat.Nat2N.inj_succ. apply fpow_succ. Qed.
  Lemma bin_big n k : (n < k)%nat -> bin n k = 0%N.
  Proof.
    revert k. induction n as [|n IH]; intros [|k] H; try lia; [reflexivity|]. cbn. rewrite !IH by lia. reflexivity.
  Qed.
  Lemma binomial x y n : pn (x + y) n = sigma (fun k => fz (bin n k) * pn x k * pn y (n - k)) (S n).
  Proof.
    induction n as [|n IH].
    - cbn. unfold pn. cbn. ring.
    - rewrite pn_S, IH.
      transitivity (sigma (fun k => fz (bin n k) * pn x k * pn y (n - k)) (S n) * x + sigma (fun k => fz (bin n k) * pn x k * pn y (n - k)) (S n) * y); [ring|].
      rewrite <- !sigma_mul.
      (* the right-hand side *)
      rewrite (sigma_first (fun k => fz (bin (S n) k) * pn x k * pn y (S n - k))).
      rewrite (@sigma_ext (fun k => fz (bin (S n) (S k)) * pn x (S k) * pn y (S n - S k))
        (fun k => fz (bin n k) * pn x k * pn y (n - k) * x + fz (bin n (S k)) * pn x (S k) * pn y (n - k)) (S n)).
      2:{ intros k Hk. cbn [bin]. rewrite fz_add, pn_S. replace (S n - S k)%nat with (n - k)%nat by lia. ring. }
      rewrite sigma_add.
      assert (E : sigma (fun k => fz (bin n k) * pn x k * pn y (n - k) * y) (S n)
        = fz (bin (S n) 0) * pn x 0 * pn y (S n - 0) + sigma (fun k => fz (bin n (S k)) * pn x (S k) * pn y (n - k)) (S n)).
      { rewrite sigma_first. cbn [sigma]. rewrite (bin_big (n := n) (k := S n)) by lia.
        rewrite (@sigma_ext (fun k => fz (bin n (S k)) * pn x (S k) * pn y (n - S k) * y) (fun k => fz (bin n (S k)) * pn x (S k) * pn y (n - k)) n).
        2:{ intros k Hk. replace (n - k)%nat with (S (n - S k)) by lia. rewrite (pn_S y). ring. }
        replace (S n - 0)%nat with (S n) by lia. rewrite pn_S. replace (n - 0)%nat with n by lia.
        replace (bin (S n) 0) with (bin n 0) by (destruct n; reflexivity). change (fz 0) with (0 : K). ring. }
      rewrite E. ring.
  Qed.
  Lemma bin_n n : bin n n = 1%N.
  Proof. induction n as [|n IH]; [reflexivity|]. cbn. rewrite IH, bin_big by lia. reflexivity. Qed.
  Lemma pow_p_add (p : N) x y : prime (Z.of_N p) -> fz p = 0 -> fpow (x + y) p = fpow x p + fpow y p.
  Proof.
    intros P C. assert (B : (1 < Z.of_N p)%Z) by (destruct P; assumption).
    assert (Hn : exists n, N.to_nat p = S (S n)) by (exists (N.to_nat p - 2)%nat; lia). destruct Hn as [n Hn].
    assert (Ep : p = N.of_nat (S (S n))) by lia.
    pose proof (binomial x y (S (S n))) as H. unfold pn at 1 in H. rewrite <- Ep in H. rewrite H.
    rewrite sigma_first.
    assert (SS : forall f m, sigma f (S m) = sigma f m + f m) by reflexivity. rewrite SS, bin_n.
    rewrite (sigma_zero (m := S n)).
    - replace (bin (S (S n)) 0) with 1%N by reflexivity. change (fz 1) with (0 + 1 : K).
      replace (S (S n) - 0)%nat with (S (S n)) by lia. rewrite Nat.sub_diag. unfold pn. rewrite <- Ep. cbn [N.of_nat]. rewrite !fpow_0. ring.
    - intros k Hk. assert (D : exists q, bin (S (S n)) (S k) = (q * p)%N).
      { pose proof (bin_absorb (S n) k) as A.
        assert (V : (Z.of_N p | Z.of_nat (S k) * Z.of_N (bin (S (S n)) (S k)))%Z).
        { exists (Z.of_N (bin (S n) k)). apply (f_equal Z.of_N) in A. rewrite !N2Z.inj_mul in A. lia. }
        apply (prime_mult _ P) in V. destruct V as [[q V]|[q V]].
        - exfalso. assert (0 < q)%Z by nia. nia.
        - exists (Z.to_N q). assert (0 <= q)%Z by nia. nia. }
      destruct D as [q D]. rewrite D, fz_mul, C. ring.
  Qed.
End Pow.

(** integer powers of a non-zero element *)
Section ZPow.
  Variable K : field.
  Add Field Kz : (fth K).
  Definition zpow (x : K) (z : Z) : K :=
    match z with Z0 => 1 | Zpos q => fpow x (Npos q) | Zneg q => finv (fpow x (Npos q)) end.
  Lemma zpow_N x n : zpow x (Z.of_N n) = fpow x n.
  Proof. destruct n; reflexivity. Qed.
  Variable x : K.
  Hypothesis X : x <> 0.
  Lemma zpow_neq z : zpow x z <> 0.
  Proof.
    assert (I : forall y : K, y <> 0 -> finv y <> 0).
    { intros y Y E. apply (@f_one_zero K). rewrite <- (f_mul_inv Y), E. ring. }
    destruct z as [|q|q]; cbn [zpow]; [apply f_one_zero|apply fpow_neq, X|apply I, fpow_neq, X].
  Qed.
  Lemma zpow_sub m k : zpow x (Z.of_N m - Z.of_N k) = fpow x m / fpow x k.
  Proof.
    pose proof (@fpow_neq _ x k X) as NK.
    destruct (N.le_gt_cases k m) as [L|L].
    - replace m with ((m - k) + k)%N at 2 by lia. rewrite fpow_add.
      replace (Z.of_N m - Z.of_N k)%Z with (Z.of_N (m - k)) by lia. rewrite zpow_N. field. exact NK.
    - destruct (k - m)%N as [|q] eqn:E; [lia|]. replace (Z.of_N m - Z.of_N k)%Z with (Zneg q) by lia. cbn [zpow]. rewrite <- E.
      pose proof (@fpow_neq _ x (k - m) X) as N1. pose proof (@fpow_neq _ x m X) as N2.
      replace k with ((k - m) + m)%N at 2 by lia. rewrite fpow_add. field. split; assumption.
  Qed.
  Lemma zpow_split z : exists m k, z = (Z.of_N m - Z.of_N k)%Z.
  Proof. exists (Z.to_N z), (Z.to_N (- z)). lia. Qed.
  Lemma zpow_add a b : zpow x (a + b) = zpow x a * zpow x b.
  Proof.
    destruct (zpow_split a) as (m & k & ->), (zpow_split b) as (m' & k' & ->).
    replace (Z.of_N m - Z.of_N k + (Z.of_N m' - Z.of_N k'))%Z with (Z.of_N (m + m') - Z.of_N (k + k'))%Z by lia.
    rewrite !zpow_sub, !fpow_add. pose proof (@fpow_neq _ x k X). pose proof (@fpow_neq _ x k' X). field. auto.
  Qed.
  Lemma zpow_opp a : zpow x (- a) = finv (zpow x a).
  Proof.
    pose proof (@zpow_neq a) as N. apply (f_cancel N). rewrite <- zpow_add, Z.add_opp_diag_r, (f_mul_inv N). reflexivity.
  Qed.
  Lemma zpow_fpow a n : fpow (zpow x a) n = zpow x (a * Z.of_N n).
  Proof.
    induction n as [|n IH] using N.peano_ind; [rewrite Z.mul_0_r; reflexivity|].
    rewrite fpow_succ, IH, <- zpow_add. f_equal. lia.
  Qed.
End ZPow.
