(** * Pocklington's criterion, with a checker that runs by computation. *)
From Coq Require Import ZArith Lia List Bool Znumtheory Zpow_facts.
From Verif Require Import ZCong ZFermat.
Import ListNotations.
Open Scope Z_scope.

(** ** Trial division *)
Definition trial (n b : Z) : bool :=
  (1 <? n) && (0 <? b) && (n <? b * b) && forallb (fun d => negb (n mod (Z.of_nat d + 2) =? 0)) (seq 0 (Z.to_nat (b - 2))).

Lemma has_prime_divisor n : 1 < n -> exists r, prime r /\ (r | n).
Proof.
  intros H. assert (K : 0 <= n) by lia. revert H. pattern n. apply Z_lt_induction; [|exact K].
  clear n K. intros n IH Hn. destruct (prime_dec n) as [P|P].
  - exists n. split; [exact P|apply Z.divide_refl].
  - destruct (not_prime_divide n Hn P) as (d & Hd & D).
    destruct (IH d) as (r & Pr & R); [lia|lia|]. exists r. split; [exact Pr|].
    apply Z.divide_trans with d; assumption.
Qed.

Lemma trial_ok n b : trial n b = true -> prime n.
Proof.
  unfold trial. rewrite !andb_true_iff, !Z.ltb_lt, forallb_forall. intros [[[H1 H0] H2] H].
  destruct (prime_dec n) as [P|P]; [exact P|exfalso].
  destruct (not_prime_divide n H1 P) as (d & Hd & [k Hk]).
  assert (S : exists x, 1 < x < b /\ (x | n)).
  { destruct (Z_lt_le_dec d b); [exists d; split; [lia|exists k; exact Hk]|].
    assert (0 < k) by nia. assert (k <> 1) by nia. assert (k < b) by nia.
    exists k. split; [lia|]. exists d. lia. }
  destruct S as (x & Hx & D).
  specialize (H (Z.to_nat (x - 2))). rewrite in_seq in H. specialize (H ltac:(lia)).
  replace (Z.of_nat (Z.to_nat (x - 2)) + 2) with x in H by lia.
  rewrite negb_true_iff, Z.eqb_neq in H. apply H. apply Z.mod_divide; [lia|exact D].
Qed.

(** ** Modular powers with an approximate quotient: correct whatever the quotient *)
Definition red (n mu k1 k2 x : Z) : Z := x - Z.shiftr (Z.shiftr x k1 * mu) k2 * n.
Fixpoint pm (n mu k1 k2 a : Z) (e : positive) : Z :=
  match e with
  | xH => a
  | xO e => let t := pm n mu k1 k2 a e in red n mu k1 k2 (Z.square t)
  | xI e => let t := pm n mu k1 k2 a e in red n mu k1 k2 (red n mu k1 k2 (Z.square t) * a)
  end.

Lemma red_ok n mu k1 k2 x : cong n (red n mu k1 k2 x) x.
Proof. exists (- Z.shiftr (Z.shiftr x k1 * mu) k2). unfold red. lia. Qed.
Lemma pm_ok n mu k1 k2 a e : cong n (pm n mu k1 k2 a e) (a ^ Zpos e).
Proof.
  induction e as [e IH|e IH|]; cbn [pm]; cbv zeta; rewrite ?Z.square_spec.
  - rewrite Pos2Z.inj_xI, Z.pow_add_r, Z.pow_1_r, Z.pow_mul_r, Z.pow_2_r by lia.
    replace ((a * a) ^ Z.pos e) with (a ^ Z.pos e * a ^ Z.pos e) by (symmetry; apply Z.pow_mul_l).
    apply (cong_trans _ _ _ _ (red_ok _ _ _ _ _)). apply cong_mul; [|apply cong_refl].
    apply (cong_trans _ _ _ _ (red_ok _ _ _ _ _)). apply cong_mul; exact IH.
  - rewrite Pos2Z.inj_xO, Z.pow_mul_r, Z.pow_2_r by lia.
    replace ((a * a) ^ Z.pos e) with (a ^ Z.pos e * a ^ Z.pos e) by (symmetry; apply Z.pow_mul_l).
    apply (cong_trans _ _ _ _ (red_ok _ _ _ _ _)). apply cong_mul; exact IH.
  - rewrite Z.pow_1_r. apply cong_refl.
Qed.

(** ** Orders *)
Lemma pow_gcd r b : prime r -> ~ (r | b) -> forall y, 0 <= y -> forall x, 0 <= x ->
  cong r (b ^ x) 1 -> cong r (b ^ y) 1 -> cong r (b ^ (Z.gcd x y)) 1.
Proof.
  intros Pr Nb y Hy. pattern y. apply Z_lt_induction; [|exact Hy]. clear y Hy.
  intros y IH x Hx Cx Cy.
  destruct (Z.eq_dec y 0) as [->|N0].
  - rewrite Z.gcd_0_r, Z.abs_eq by exact Hx. exact Cx.
  - destruct (Z_lt_le_dec y 0) as [L|L].
    { rewrite Z.pow_neg_r in Cy by exact L. exfalso.
      destruct Cy as [k Hk]. destruct Pr as [P1 _].
      assert (D : (r | 1)) by (exists (- k); lia). apply Z.divide_1_r_nonneg in D; lia. }
    rewrite Z.gcd_comm, <- Z.gcd_mod by lia. rewrite Z.gcd_comm.
    pose proof (Z.mod_pos_bound x y ltac:(lia)).
    apply IH; [lia|lia|exact Cy|].
    pose proof (Z.div_mod x y N0) as E.
    assert (Hq : 0 <= x / y) by (apply Z.div_pos; lia).
    assert (Q : cong r (b ^ (y * (x / y))) 1).
    { rewrite Z.pow_mul_r by lia. apply cong_trans with (1 ^ (x / y)); [apply cong_pow; assumption|].
      rewrite Z.pow_1_l by exact Hq. apply cong_refl. }
    rewrite E in Cx. rewrite Z.pow_add_r in Cx by (try apply Z.mul_nonneg_nonneg; lia).
    apply cong_trans with (b ^ (y * (x / y)) * b ^ (x mod y)); [|exact Cx].
    apply cong_sym. rewrite <- (Z.mul_1_l (b ^ (x mod y))) at 2.
    apply cong_mul; [exact Q|apply cong_refl].
Qed.

Lemma order_divides r q e b : prime r -> prime q -> 1 <= e -> ~ (r | b) ->
  cong r (b ^ (q ^ e)) 1 -> ~ cong r (b ^ (q ^ (e - 1))) 1 -> (q ^ e | r - 1).
Proof.
  intros Pr Pq He Nb C N. assert (q1 : 1 < q) by (destruct Pq; assumption).
  assert (r1 : 1 < r) by (destruct Pr; assumption).
  assert (Qp : 0 < q ^ e) by (apply Z.pow_pos_nonneg; lia).
  assert (G : cong r (b ^ Z.gcd (q ^ e) (r - 1)) 1).
  { apply pow_gcd; [exact Pr|exact Nb|lia|lia|exact C|]. apply fermat_inv; assumption. }
  pose proof (Z.gcd_divide_l (q ^ e) (r - 1)) as D1.
  pose proof (Z.gcd_divide_r (q ^ e) (r - 1)) as D2.
  set (g := Z.gcd (q ^ e) (r - 1)) in *.
  assert (Hg : 0 <= g) by apply Z.gcd_nonneg.
  destruct (Zdivide_power_2 g q e ltac:(lia) ltac:(lia) Pq D1) as [i Ei].
  assert (Hi : 0 <= i).
  { destruct (Z_lt_le_dec i 0) as [L|L]; [|exact L]. rewrite Z.pow_neg_r in Ei by exact L.
    rewrite Ei in D1. destruct D1 as [k Hk]. lia. }
  destruct (Z_lt_le_dec i e) as [L|L].
  - exfalso. apply N. replace (q ^ (e - 1)) with (g * q ^ (e - 1 - i)).
    2: { rewrite Ei, <- Z.pow_add_r by lia. f_equal. lia. }
    assert (0 <= q ^ (e - 1 - i)) by (apply Z.pow_nonneg; lia).
    rewrite Z.pow_mul_r by lia.
    apply cong_trans with (1 ^ (q ^ (e - 1 - i))); [apply cong_pow; assumption|].
    rewrite Z.pow_1_l by assumption. apply cong_refl.
  - apply Z.divide_trans with g; [|exact D2]. rewrite Ei. exists (q ^ (i - e)).
    rewrite <- Z.pow_add_r by lia. f_equal. lia.
Qed.

(** ** The criterion *)
Fixpoint fprod (fs : list (Z * Z)) : Z := match fs with [] => 1 | (q, e) :: r => q ^ e * fprod r end.
Fixpoint fcop (fs : list (Z * Z)) : bool :=
  match fs with [] => true | (q, e) :: r => (1 <=? e) && (Z.gcd (q ^ e) (fprod r) =? 1) && fcop r end.

Lemma fprod_divides fs x : fcop fs = true -> (forall q e, In (q, e) fs -> (q ^ e | x)) -> (fprod fs | x).
Proof.
  induction fs as [|[q e] fs IH]; cbn [fcop fprod]; intros H D; [apply Z.divide_1_l|].
  rewrite !andb_true_iff, Z.eqb_eq in H. destruct H as [[_ G] C].
  destruct (D q e (or_introl eq_refl)) as [k Hk].
  assert (R : (fprod fs | x)) by (apply IH; [exact C|intros; apply D; right; assumption]).
  rewrite Hk in R. rewrite Z.mul_comm in R. apply Gauss in R.
  - destruct R as [l Hl]. exists l. rewrite Hk, Hl. ring.
  - apply rel_prime_sym. apply Zgcd_1_rel_prime. exact G.
Qed.

Lemma pock_each N a fs :
  1 < N -> fcop fs = true -> (fprod fs | N - 1) ->
  (forall q e, In (q, e) fs -> prime q) ->
  cong N (a ^ (N - 1)) 1 ->
  (forall q e, In (q, e) fs -> Z.gcd (a ^ ((N - 1) / q) - 1) N = 1) ->
  forall r, prime r -> (r | N) -> (fprod fs | r - 1).
Proof.
  intros HN Cop DF Pq Ca Gq. intros r Pr Dr. apply fprod_divides; [exact Cop|]. intros q e Hin.
    assert (He : 1 <= e).
    { clear - Cop Hin. induction fs as [|[q' e'] fs IH]; [destruct Hin|].
      cbn [fcop] in Cop. rewrite !andb_true_iff, Z.leb_le in Cop. destruct Cop as [[L _] C].
      destruct Hin as [E|Hin]; [injection E as -> ->; exact L|apply IH; assumption]. }
    pose proof (Pq q e Hin) as Pp. assert (q1 : 1 < q) by (destruct Pp; assumption).
    assert (r1 : 1 < r) by (destruct Pr; assumption).
    assert (DQ : (q ^ e | N - 1)).
    { apply Z.divide_trans with (fprod fs); [|exact DF]. clear - Hin.
      induction fs as [|[q' e'] fs IH]; [destruct Hin|]. cbn [fprod].
      destruct Hin as [E|Hin]; [injection E as -> ->; apply Z.divide_factor_l|].
      apply Z.divide_mul_r, IH, Hin. }
    destruct DQ as [c Ec].
    assert (Qp : 0 < q ^ e) by (apply Z.pow_pos_nonneg; lia).
    assert (Hc : 0 <= c) by nia.
    assert (Ar : cong r (a ^ (N - 1)) 1) by (apply Z.divide_trans with N; assumption).
    assert (Na : ~ (r | a)).
    { intros [k Hk]. assert (D1 : (r | 1)).
      { destruct Ar as [l Hl]. exists (k * a ^ (N - 2) - l).
        replace (N - 1) with (Z.succ (N - 2)) in Hl by lia. rewrite Z.pow_succ_r in Hl by lia.
        rewrite Hk in Hl at 1. lia. }
      apply Z.divide_1_r_nonneg in D1; lia. }
    apply (order_divides r q e (a ^ c) Pr Pp He).
    - intros D. apply Na. clear - Pr D Hc.
      revert D. pattern c. apply natlike_ind; [| |exact Hc].
      + cbn. intros D. destruct Pr as [r1 _]. apply Z.divide_1_r_nonneg in D; lia.
      + intros x Hx IH D. rewrite Z.pow_succ_r in D by exact Hx.
        apply prime_mult in D; [|exact Pr]. destruct D as [D|D]; [exact D|apply IH, D].
    - rewrite <- Z.pow_mul_r by lia. rewrite <- Ec. exact Ar.
    - intros C. specialize (Gq q e Hin).
      assert (Eq : (N - 1) / q = c * q ^ (e - 1)).
      { rewrite Ec. replace (q ^ e) with (q ^ (e - 1) * q).
        - rewrite Z.mul_assoc. apply Z.div_mul. lia.
        - rewrite <- (Z.pow_1_r q) at 2. rewrite <- Z.pow_add_r by lia. f_equal. lia. }
      rewrite Eq in Gq. rewrite Z.pow_mul_r in Gq by (try apply Z.pow_nonneg; lia).
      assert (D1 : (r | 1)).
      { rewrite <- Gq. apply Z.gcd_greatest; [exact C|exact Dr]. }
      apply Z.divide_1_r_nonneg in D1; lia.
Qed.

Lemma fprod_pos fs : fcop fs = true -> (forall q e, In (q, e) fs -> prime q) -> 0 < fprod fs.
Proof.
  induction fs as [|[q e] fs IH]; cbn [fprod fcop]; intros C H; [lia|].
  rewrite !andb_true_iff, Z.leb_le in C. destruct C as [[L _] C].
  assert (1 < q) by (destruct (H q e (or_introl eq_refl)); assumption).
  apply Z.mul_pos_pos; [apply Z.pow_pos_nonneg; lia|]. apply IH; [exact C|]. intros; eapply H; right; eassumption.
Qed.

(** if every prime divisor is 1 mod F, so is every divisor *)
Lemma all_divisors N F : (forall r, prime r -> (r | N) -> (F | r - 1)) ->
  forall d, 0 < d -> (d | N) -> (F | d - 1).
Proof.
  intros E d Hd. assert (K : 0 <= d) by lia. revert Hd. pattern d. apply Z_lt_induction; [|exact K].
  clear d K. intros d IH Hd D. destruct (Z.eq_dec d 1) as [->|N1]; [apply Z.divide_0_r|].
  destruct (has_prime_divisor d ltac:(lia)) as (r & Pr & [k Hk]).
  assert (r1 : 1 < r) by (destruct Pr; assumption).
  assert (0 < k) by nia.
  assert (Dr : (r | N)) by (apply Z.divide_trans with d; [exists k; lia|exact D]).
  assert (Dk : (k | N)) by (apply Z.divide_trans with d; [exists r; lia|exact D]).
  destruct (E r Pr Dr) as [x Ex]. destruct (IH k ltac:(nia) ltac:(lia) Dk) as [y Ey].
  exists (k * x + y). rewrite Hk. replace (k * r - 1) with (k * (r - 1) + (k - 1)) by ring. rewrite Ex, Ey. ring.
Qed.

(** c1^2 - 4 c2 for the digits of N = 1 + c1 F + c2 F^2 is not a square *)
Definition digits_not_square (N F : Z) : bool :=
  let c1 := ((N - 1) / F) mod F in
  let c2 := (N - 1) / F / F in
  let s := c1 * c1 - 4 * c2 in
  (s <? 0) || negb (Z.sqrt s * Z.sqrt s =? s).

Theorem pocklington N a fs :
  1 < N -> fcop fs = true -> (fprod fs | N - 1) ->
  (N < fprod fs * fprod fs \/ (1 < fprod fs /\ N < fprod fs * fprod fs * fprod fs /\ digits_not_square N (fprod fs) = true)) ->
  (forall q e, In (q, e) fs -> prime q) ->
  cong N (a ^ (N - 1)) 1 ->
  (forall q e, In (q, e) fs -> Z.gcd (a ^ ((N - 1) / q) - 1) N = 1) ->
  prime N.
Proof.
  intros HN Cop DF Sq Pq Ca Gq.
  pose proof (pock_each N a fs HN Cop DF Pq Ca Gq) as Each.
  pose proof (fprod_pos fs Cop Pq) as Fp. set (F := fprod fs) in *. clearbody F.
  destruct (prime_dec N) as [P|P]; [exact P|exfalso].
  destruct (not_prime_divide N HN P) as (d & Hd & [k Hk]).
  assert (Hk1 : 1 < k) by nia.
  destruct (all_divisors N F Each d ltac:(lia)) as [x Ex]; [exists k; exact Hk|].
  destruct (all_divisors N F Each k ltac:(lia)) as [y Ey]; [exists d; lia|].
  assert (x1 : 1 <= x) by nia. assert (y1 : 1 <= y) by nia.
  assert (EN : N = x * y * (F * F) + (x + y) * F + 1).
  { rewrite Hk. replace d with (x * F + 1) by lia. replace k with (y * F + 1) by lia. ring. }
  assert (xy : 1 <= x * y) by nia.
  destruct Sq as [Sq|(F1 & Sq & DS)].
  - assert (0 <= (x + y) * F) by nia. nia.
  - assert (L1 : x * y < F) by (assert (0 <= (x + y) * F) by nia; nia).
    assert (L2 : x + y <= x * y + 1) by nia.
    assert (L3 : x + y < F).
    { destruct (Z_lt_le_dec (x + y) F) as [l|l]; [exact l|]. exfalso.
      assert (x * y = F - 1) by lia. assert (x + y = F) by lia. rewrite H, H0 in EN. nia. }
    assert (E1 : (N - 1) / F = x * y * F + (x + y)).
    { symmetry. apply Z.div_unique_exact; [lia|]. rewrite EN. ring. }
    unfold digits_not_square in DS. rewrite E1 in DS. cbv zeta in DS.
    replace ((x * y * F + (x + y)) mod F) with (x + y) in DS.
    2: { apply Z.mod_unique with (x * y); [left; lia|ring]. }
    replace ((x * y * F + (x + y)) / F) with (x * y) in DS.
    2: { apply Z.div_unique with (x + y); [left; lia|ring]. }
    replace ((x + y) * (x + y) - 4 * (x * y)) with (Z.abs (x - y) * Z.abs (x - y)) in DS by (destruct (Z.abs_spec (x - y)) as [[_ ->]|[_ ->]]; ring).
    rewrite Z.sqrt_square in DS by apply Z.abs_nonneg. rewrite Z.eqb_refl in DS.
    cbn [negb] in DS. rewrite orb_false_r, Z.ltb_lt in DS. pose proof (Z.abs_nonneg (x - y)). nia.
Qed.

(** ** The checker.  [c0] is (N-1) / (product of the q's) *)
Definition qprod (fs : list (Z * Z)) : Z := fold_right (fun f p => fst f * p) 1 fs.
Definition pock_check (N a mu k1 k2 c0 : Z) (fs : list (Z * Z)) : bool :=
  match fs with
  | [] => false
  | (q, _) :: rest =>
  (1 <? N) && fcop fs && ((N - 1) mod fprod fs =? 0) &&
  ((N <? fprod fs * fprod fs) || (1 <? fprod fs) && (N <? fprod fs * fprod fs * fprod fs) && digits_not_square N (fprod fs)) && (0 <? c0) &&
  let Q := qprod fs in
  (1 <? Q) && (N - 1 =? c0 * Q) &&
  let b := pm N mu k1 k2 a (Z.to_pos c0) in
  let x := Q / q in
  (1 <? q) && (0 <? x) && (Q =? x * q) &&
  let y := pm N mu k1 k2 b (Z.to_pos x) in
  (Z.gcd (y - 1) N =? 1) &&
  ((pm N mu k1 k2 y (Z.to_pos q) - 1) mod N =? 0) &&
  forallb (fun f =>
    let x := Q / fst f in
    (1 <? fst f) && (0 <? x) && (Q =? x * fst f) &&
    (Z.gcd (pm N mu k1 k2 b (Z.to_pos x) - 1) N =? 1)) rest
  end.

Lemma cong_gcd N x y : cong N x y -> Z.gcd x N = Z.gcd y N.
Proof.
  intros [k E]. replace x with (y + k * N) by lia. rewrite Z.gcd_comm, (Z.gcd_comm y).
  apply Z.gcd_add_mult_diag_r.
Qed.

Theorem pock_check_ok N a mu k1 k2 c0 fs :
  pock_check N a mu k1 k2 c0 fs = true -> Forall (fun f => prime (fst f)) fs -> prime N.
Proof.
  unfold pock_check. destruct fs as [|[q0 e0] rest]; [discriminate|].
  set (fs := (q0, e0) :: rest) in *. cbv zeta.
  rewrite !andb_true_iff, orb_true_iff, !andb_true_iff, forallb_forall, !Z.ltb_lt, !Z.eqb_eq.
  intros (((((HN & Cop) & DF) & Sq) & Hc0) & (HQ & EN) & ((Hq0 & Hx0) & EQ0) & (G0 & Ca) & Gs) Pf.
  rewrite Forall_forall in Pf.
  set (Q := qprod fs) in *.
  pose proof (pm_ok N mu k1 k2 a (Z.to_pos c0)) as Hb. rewrite Z2Pos.id in Hb by lia.
  set (b := pm N mu k1 k2 a (Z.to_pos c0)) in *. clearbody b.
  assert (Pb : forall x, 0 < x -> cong N (pm N mu k1 k2 b (Z.to_pos x)) (a ^ (c0 * x))).
  { intros x Hx. pose proof (pm_ok N mu k1 k2 b (Z.to_pos x)) as H. rewrite Z2Pos.id in H by lia.
    apply (cong_trans _ _ _ _ H). rewrite Z.pow_mul_r by lia. apply cong_pow; [lia|exact Hb]. }
  set (x0 := Q / q0) in *.
  pose proof (Pb x0 Hx0) as Hy. set (y := pm N mu k1 k2 b (Z.to_pos x0)) in *. clearbody y x0.
  apply (pocklington N a fs); [exact HN|exact Cop| |destruct Sq as [Sq|[[? ?] ?]]; [left; exact Sq|right; tauto]| | |].
  - apply Z.mod_divide; [|exact DF].
    pose proof (fprod_pos fs Cop (fun q e Hin => Pf (q, e) Hin)). lia.
  - intros q e Hin. exact (Pf (q, e) Hin).
  - rewrite EN, EQ0. apply cong_trans with (pm N mu k1 k2 y (Z.to_pos q0)).
    + apply cong_sym. pose proof (pm_ok N mu k1 k2 y (Z.to_pos q0)) as H. rewrite Z2Pos.id in H by lia.
      apply (cong_trans _ _ _ _ H). rewrite Z.mul_assoc. rewrite Z.pow_mul_r by (try apply Z.mul_nonneg_nonneg; lia).
      apply cong_pow; [lia|exact Hy].
    + apply Z.mod_divide; [lia|exact Ca].
  - intros q e [E|Hin].
    + injection E as <- <-. assert (E : (N - 1) / q0 = c0 * x0).
      { rewrite EN, EQ0, Z.mul_assoc. apply Z.div_mul. lia. }
      rewrite E. transitivity (Z.gcd (y - 1) N); [|exact G0].
      apply cong_gcd. apply cong_sym. apply cong_sub; [exact Hy|apply cong_refl].
    + specialize (Gs (q, e) Hin). cbn [fst] in Gs.
      rewrite !andb_true_iff, !Z.ltb_lt, !Z.eqb_eq in Gs. destruct Gs as [[[Hq Hx] EQ] G].
      set (x := Q / q) in *. clearbody x.
      assert (E : (N - 1) / q = c0 * x).
      { rewrite EN, EQ, Z.mul_assoc. apply Z.div_mul. lia. }
      rewrite E. transitivity (Z.gcd (pm N mu k1 k2 b (Z.to_pos x) - 1) N); [|exact G].
      apply cong_gcd. apply cong_sym.
      apply cong_sub; [apply Pb; exact Hx|apply cong_refl].
Qed.
