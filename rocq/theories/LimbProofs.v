(** * Contracts of the word helpers. *)
From Coq Require Import ZArith Lia List Bool.
From Verif Require Import LimbBase.
Open Scope Z_scope.

Lemma W_eq : W = 18446744073709551616. Proof. reflexivity. Qed.
Lemma W_pos : 0 < W. Proof. reflexivity. Qed.

(** top bit of a word *)
Lemma shr63 x : wshr x 63 = x / 2 ^ 63.
Proof. unfold wshr. rewrite Z.shiftr_div_pow2; [reflexivity|lia]. Qed.

Definition tb (x : Z) := Z.shiftr x 63.

Lemma tb_word x : word x -> tb x = 0 /\ x < 2 ^ 63 \/ tb x = 1 /\ 2 ^ 63 <= x.
Proof.
  unfold word, tb. rewrite W_eq, Z.shiftr_div_pow2 by lia.
  change (2 ^ 63) with 9223372036854775808. intros [H1 H2].
  destruct (Z_lt_le_dec x 9223372036854775808).
  - left. split; [apply Z.div_small; lia|lia].
  - right. split; [|lia].
    symmetry. apply (Z.div_unique_pos x 9223372036854775808 1 (x - 9223372036854775808)); lia.
Qed.

Lemma wadd_word x y : word (wadd x y).
Proof. unfold word, wadd. apply Z.mod_pos_bound. reflexivity. Qed.

Lemma wadd_cases x y : word x -> word y ->
  wadd x y = x + y /\ x + y < W \/ wadd x y = x + y - W /\ W <= x + y.
Proof.
  unfold word, wadd. intros. destruct (Z_lt_le_dec (x + y) W).
  - left. split; [apply Z.mod_small; lia|lia].
  - right. split; [|lia].
    symmetry. apply (Z.mod_unique_pos (x + y) W 1); lia.
Qed.

Lemma add64_spec x y c s co : add64 x y c = (s, co) ->
  word x -> word y -> 0 <= c <= 1 -> word s /\ 0 <= co <= 1 /\ s + W * co = x + y + c.
Proof.
  unfold add64, word. intros E Hx Hy Hc. injection E as <- <-.
  assert (HW := W_pos).
  pose proof (Z.mod_pos_bound (x + y + c) W HW).
  pose proof (Z.div_mod (x + y + c) W ltac:(lia)).
  split; [lia|]. split; [|lia].
  split; [apply Z.div_pos; lia|].
  assert ((x + y + c) / W < 2); [|lia].
  apply Z.div_lt_upper_bound; lia.
Qed.

Lemma mul64_spec x y hi lo : mul64 x y = (hi, lo) ->
  word x -> word y -> word hi /\ word lo /\ lo + W * hi = x * y.
Proof.
  unfold mul64, word. intros E Hx Hy. injection E as <- <-.
  assert (HW := W_pos).
  pose proof (Z.mod_pos_bound (x * y) W HW).
  pose proof (Z.div_mod (x * y) W ltac:(lia)).
  split; [|lia].
  split; [apply Z.div_pos; nia|].
  apply Z.div_lt_upper_bound; nia.
Qed.

Lemma sub64_spec x y b d bo : sub64 x y b = (d, bo) ->
  word x -> word y -> 0 <= b <= 1 -> word d /\ 0 <= bo <= 1 /\ d - W * bo = x - y - b.
Proof.
  unfold sub64, word. intros E Hx Hy Hb. injection E as <- <-.
  assert (HW := W_pos).
  pose proof (Z.mod_pos_bound (x - y - b) W HW).
  pose proof (Z.div_mod (x - y - b) W ltac:(lia)) as D.
  set (q := (x - y - b) / W) in *. set (m := (x - y - b) mod W) in *.
  split; [lia|]. destruct (Z.ltb_spec (x - y - b) 0); split; try lia.
  - assert (q = -1) by nia. lia.
  - assert (q = 0) by nia. lia.
Qed.

Lemma mac_spec a b c d lo hi : mac a b c d = (lo, hi) ->
  word a -> word b -> word c -> word d -> word lo /\ word hi /\ lo + W * hi = a + b * c + d.
Proof.
  intros E Ha Hb Hc Hd. unfold mac in E.
  destruct (mul64 b c) as [h l] eqn:E1. apply mul64_spec in E1; auto.
  destruct (add64 a d 0) as [c2 cc] eqn:E2. apply add64_spec in E2; auto; [|lia].
  destruct E1 as (Hh & Hl & M), E2 as (Hc2 & Hcc & A1).
  destruct (add64 h 0 cc) as [h1 o1] eqn:E3. apply add64_spec in E3; auto; [|unfold word; rewrite W_eq; lia].
  destruct (add64 l c2 0) as [l1 c3] eqn:E4. apply add64_spec in E4; auto; [|lia].
  destruct E3 as (Hh1 & Ho1 & A2), E4 as (Hl1 & Hc3 & A3).
  destruct (add64 h1 0 c3) as [h2 o2] eqn:E5. apply add64_spec in E5; auto; [|unfold word; rewrite W_eq; lia].
  destruct E5 as (Hh2 & Ho2 & A4). injection E as <- <-.
  assert (T : a + b * c + d < W * W) by (unfold word in *; nia).
  split; [auto|]. split; [auto|].
  unfold word in *.
  assert (l1 + W * h2 + W * W * (o1 + o2) = a + b * c + d) by nia.
  assert (o1 + o2 = 0) by nia. nia.
Qed.

(** [adc] is a full three-operand adder as long as one operand is a bit. *)
Lemma adc_spec x y c s co : adc x y c = (s, co) ->
  word x -> word y -> word c -> (x <= 1 \/ y <= 1 \/ c <= 1) ->
  word s /\ 0 <= co <= 1 /\ s + W * co = x + y + c.
Proof.
  intros E Hx Hy Hc O. unfold adc in E.
  pose proof (wadd_cases x y Hx Hy) as C1.
  pose proof (wadd_cases (wadd x y) c (wadd_word x y) Hc) as C2.
  pose proof (wadd_word (wadd x y) c) as Hs.
  set (sum := wadd (wadd x y) c) in *.
  cbv zeta in E. apply pair_equal_spec in E. destruct E as [<- <-]. split; [exact Hs|].
  unfold wshr, wor, wand, wandnot.
  rewrite !Z.shiftr_lor, !Z.shiftr_land, !Z.shiftr_ldiff, !Z.shiftr_lor.
  fold (tb x) (tb y) (tb c) (tb sum).
  pose proof (tb_word x Hx). pose proof (tb_word y Hy).
  pose proof (tb_word c Hc). pose proof (tb_word sum Hs).
  unfold word in *. rewrite W_eq in *. change (2 ^ 63) with 9223372036854775808 in *.
  repeat match goal with
  | H : tb _ = _ /\ _ \/ _ |- _ => destruct H as [[-> ?]|[-> ?]]
  end; cbn [Z.land Z.lor Z.ldiff Pos.land Pos.lor Pos.ldiff Z.of_N]; lia.
Qed.

Lemma wnot_tb x : word x -> tb (wnot x) = 1 - tb x.
Proof.
  intros H. assert (Hn : word (wnot x)) by (unfold word, wnot in *; lia).
  pose proof (tb_word x H). pose proof (tb_word _ Hn).
  unfold wnot in *. rewrite W_eq in *. change (2 ^ 63) with 9223372036854775808 in *.
  destruct H0 as [[-> ?]|[-> ?]], H1 as [[-> ?]|[-> ?]]; lia.
Qed.

Lemma wxor_word x y : word x -> word y -> word (wxor x y).
Proof.
  unfold word, wxor. intros [Hx Lx] [Hy Ly].
  assert (0 <= Z.lxor x y) by (apply Z.lxor_nonneg; lia). split; [auto|].
  destruct (Z.eq_dec (Z.lxor x y) 0) as [->|N]; [reflexivity|].
  unfold W. apply Z.log2_lt_pow2; [lia|].
  apply Z.le_lt_trans with (Z.max (Z.log2 x) (Z.log2 y)); [apply Z.log2_lxor; lia|].
  unfold W in *.
  assert (forall t, 0 <= t -> t < 2 ^ 64 -> Z.log2 t < 64) as L.
  { intros t T0 T1. destruct (Z.eq_dec t 0) as [->|]; [reflexivity|].
    apply Z.log2_lt_pow2; lia. }
  pose proof (L x Hx Lx). pose proof (L y Hy Ly). lia.
Qed.

Lemma land_word x y : word x -> word y -> word (wand x y).
Proof.
  unfold word, wand. intros [Hx Lx] [Hy Ly].
  assert (0 <= Z.land x y) by (apply Z.land_nonneg; lia). split; [auto|].
  destruct (Z.eq_dec (Z.land x y) 0) as [->|N]; [reflexivity|].
  unfold W. apply Z.log2_lt_pow2; [lia|].
  apply Z.le_lt_trans with (Z.min (Z.log2 x) (Z.log2 y)); [apply Z.log2_land; lia|].
  unfold W in *.
  assert (forall t, 0 <= t -> t < 2 ^ 64 -> Z.log2 t < 64) as L.
  { intros t T0 T1. destruct (Z.eq_dec t 0) as [->|]; [reflexivity|].
    apply Z.log2_lt_pow2; lia. }
  pose proof (L x Hx Lx). pose proof (L y Hy Ly). lia.
Qed.

Lemma lor_word x y : word x -> word y -> word (wor x y).
Proof.
  unfold word, wor. intros [Hx Lx] [Hy Ly].
  assert (0 <= Z.lor x y) by (apply Z.lor_nonneg; lia). split; [auto|].
  destruct (Z.eq_dec (Z.lor x y) 0) as [->|N]; [reflexivity|].
  unfold W. apply Z.log2_lt_pow2; [lia|].
  rewrite Z.log2_lor by lia.
  unfold W in *.
  assert (forall t, 0 <= t -> t < 2 ^ 64 -> Z.log2 t < 64) as L.
  { intros t T0 T1. destruct (Z.eq_dec t 0) as [->|]; [reflexivity|].
    apply Z.log2_lt_pow2; lia. }
  pose proof (L x Hx Lx). pose proof (L y Hy Ly). lia.
Qed.

Lemma wsub_cases x y : word x -> word y ->
  wsub x y = x - y /\ y <= x \/ wsub x y = x - y + W /\ x < y.
Proof.
  unfold word, wsub. intros. destruct (Z_lt_le_dec x y).
  - right. split; [|lia]. symmetry. apply (Z.mod_unique_pos (x - y) W (-1)); lia.
  - left. split; [apply Z.mod_small; lia|lia].
Qed.

Lemma wsub_word x y : word (wsub x y).
Proof. unfold word, wsub. apply Z.mod_pos_bound. reflexivity. Qed.

Lemma sbb_spec x y b d bo : sbb x y b = (d, bo) ->
  word x -> word y -> 0 <= b <= 1 -> word d /\ 0 <= bo <= 1 /\ d - W * bo = x - y - b.
Proof.
  intros E Hx Hy Hb. unfold sbb in E.
  assert (Wb : word b) by (unfold word; rewrite W_eq; lia).
  pose proof (wadd_cases y b Hy Wb) as C1.
  pose proof (wsub_cases x (wadd y b) Hx (wadd_word y b)) as C2.
  pose proof (wsub_word x (wadd y b)) as Hd.
  set (dd := wsub x (wadd y b)) in *.
  cbv zeta in E. apply pair_equal_spec in E. destruct E as [<- <-]. split; [exact Hd|].
  unfold wshr, wor, wand, wxor.
  rewrite !Z.shiftr_lor, !Z.shiftr_land.
  fold (wxor x y). fold (tb (wnot x)) (tb (wnot (wxor x y))) (tb y) (tb dd).
  rewrite !wnot_tb by (auto using wxor_word).
  assert (TX : tb (wxor x y) = Z.lxor (tb x) (tb y)) by (unfold tb, wxor; apply Z.shiftr_lxor).
  rewrite TX.
  pose proof (tb_word x Hx). pose proof (tb_word y Hy). pose proof (tb_word dd Hd).
  unfold word in *. rewrite W_eq in *. change (2 ^ 63) with 9223372036854775808 in *.
  repeat match goal with
  | H : tb _ = _ /\ _ \/ _ |- _ => destruct H as [[-> ?]|[-> ?]]
  end; cbn [Z.land Z.lor Z.lxor Z.sub Z.add Z.opp Z.pos_sub Pos.land Pos.lor Pos.lxor Z.of_N]; cbn; lia.
Qed.

(** Eliminating one statement of a translated function. *)
Lemma mac_elim (T : Type) (Q : T -> Prop) (k : Z -> Z -> T) a b c d :
  word a -> word b -> word c -> word d ->
  (forall lo hi, word lo -> word hi -> lo + W * hi = a + b * c + d -> Q (k lo hi)) ->
  Q (let '(lo, hi) := mac a b c d in k lo hi).
Proof.
  intros. destruct (mac a b c d) as [lo hi] eqn:E. apply mac_spec in E; auto.
  destruct E as (? & ? & ?). auto.
Qed.

Lemma adc_elim (T : Type) (Q : T -> Prop) (k : Z -> Z -> T) x y c :
  word x -> word y -> word c -> (x <= 1 \/ y <= 1 \/ c <= 1) ->
  (forall s co, word s -> 0 <= co <= 1 -> s + W * co = x + y + c -> Q (k s co)) ->
  Q (let '(s, co) := adc x y c in k s co).
Proof.
  intros. destruct (adc x y c) as [s co] eqn:E. apply adc_spec in E; auto.
  destruct E as (? & ? & ?). auto.
Qed.

Lemma sbb_elim (T : Type) (Q : T -> Prop) (k : Z -> Z -> T) x y b :
  word x -> word y -> 0 <= b <= 1 ->
  (forall d bo, word d -> 0 <= bo <= 1 -> d - W * bo = x - y - b -> Q (k d bo)) ->
  Q (let '(d, bo) := sbb x y b in k d bo).
Proof.
  intros. destruct (sbb x y b) as [d bo] eqn:E. apply sbb_spec in E; auto.
  destruct E as (? & ? & ?). auto.
Qed.

Lemma mul64_elim (T : Type) (Q : T -> Prop) (k : Z -> Z -> T) x y :
  word x -> word y ->
  (forall hi lo, word hi -> word lo -> lo + W * hi = x * y -> Q (k hi lo)) ->
  Q (let '(hi, lo) := mul64 x y in k hi lo).
Proof.
  intros. destruct (mul64 x y) as [hi lo] eqn:E. apply mul64_spec in E; auto.
  destruct E as (? & ? & ?). auto.
Qed.

Lemma add64_elim (T : Type) (Q : T -> Prop) (k : Z -> Z -> T) x y c :
  word x -> word y -> 0 <= c <= 1 ->
  (forall s co, word s -> 0 <= co <= 1 -> s + W * co = x + y + c -> Q (k s co)) ->
  Q (let '(s, co) := add64 x y c in k s co).
Proof.
  intros. destruct (add64 x y c) as [s co] eqn:E. apply add64_spec in E; auto.
  destruct E as (? & ? & ?). auto.
Qed.

Lemma sub64_elim (T : Type) (Q : T -> Prop) (k : Z -> Z -> T) x y b :
  word x -> word y -> 0 <= b <= 1 ->
  (forall d bo, word d -> 0 <= bo <= 1 -> d - W * bo = x - y - b -> Q (k d bo)) ->
  Q (let '(d, bo) := sub64 x y b in k d bo).
Proof.
  intros. destruct (sub64 x y b) as [d bo] eqn:E. apply sub64_spec in E; auto.
  destruct E as (? & ? & ?). auto.
Qed.

Lemma bit_word b : 0 <= b <= 1 -> word b.
Proof. unfold word. rewrite W_eq. lia. Qed.

Lemma wneg_bit b : 0 <= b <= 1 -> b = 0 /\ wneg b = 0 \/ b = 1 /\ wneg b = W - 1.
Proof.
  intros. assert (b = 0 \/ b = 1) as [->| ->] by lia; [left|right]; split; reflexivity.
Qed.

Lemma wand_0 x : wand x 0 = 0. Proof. apply Z.land_0_r. Qed.
Lemma wand_ones x : word x -> wand x (W - 1) = x.
Proof.
  intros [H1 H2]. unfold wand. change (W - 1) with (Z.ones 64). rewrite Z.land_ones by lia.
  apply Z.mod_small. unfold W in *. lia.
Qed.

Lemma wxor_self x : wxor x x = 0. Proof. apply Z.lxor_nilpotent. Qed.

(** [t | -t] has its top bit set exactly when [t] is not zero. *)
Lemma nz_top t : word t -> wshr (wor t (wneg t)) 63 = if t =? 0 then 0 else 1.
Proof.
  intros H. assert (Hn : word (wneg t)) by (unfold word, wneg; apply Z.mod_pos_bound; reflexivity).
  unfold wshr, wor. rewrite Z.shiftr_lor. fold (tb t) (tb (wneg t)).
  pose proof (tb_word t H) as A. pose proof (tb_word _ Hn) as B.
  destruct (Z.eqb_spec t 0) as [->|N]; [reflexivity|].
  assert (wneg t = W - t).
  { unfold wneg. symmetry. apply (Z.mod_unique_pos (- t) W (-1)); unfold word in H; lia. }
  unfold word in *. rewrite W_eq in *. change (2 ^ 63) with 9223372036854775808 in *.
  destruct A as [[-> ?]|[-> ?]], B as [[-> ?]|[-> ?]]; cbn; lia.
Qed.

Lemma lor_zero x y : wor x y = 0 <-> x = 0 /\ y = 0.
Proof. apply Z.lor_eq_0_iff. Qed.
