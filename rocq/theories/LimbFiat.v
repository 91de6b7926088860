(** * Tactics for the translated fiat code: walk through the statements, then one [lia]. *)
From Coq Require Import ZArith Lia List Bool.
From Verif Require Import LimbBase LimbSpec LimbProofs LimbBls LimbBlsProofs.
Open Scope Z_scope.

Lemma mul64_hi_elim (T : Type) (Q : T -> Prop) (k : Z -> Z -> T) x y :
  word x -> word y ->
  (forall hi lo, word hi -> 0 <= hi <= W - 2 -> word lo -> lo + W * hi = x * y -> Q (k hi lo)) ->
  Q (let '(hi, lo) := mul64 x y in k hi lo).
Proof.
  intros Hx Hy H. apply (mul64_elim _ Q); auto. intros hi lo Hh Hl E. apply H; auto.
  unfold word in *. split; [lia|]. assert (x * y <= (W - 1) * (W - 1)) by (apply Z.mul_le_mono_nonneg; lia).
  rewrite W_eq in *. lia.
Qed.

Lemma mul64_low_elim (T : Type) (Q : T -> Prop) (k : Z -> T) x y :
  (forall lo, word lo -> lo = wmul x y -> Q (k lo)) ->
  Q (let '(_, lo) := mul64 x y in k lo).
Proof. intros H. unfold mul64. apply H; [apply wmul_word|reflexivity]. Qed.

(** the lowest word of a Montgomery round vanishes *)
Lemma add64_low_elim (T : Type) (Q : T -> Prop) (f : Z -> T) r l h k m inv :
  word r -> word l -> l + W * h = k * m -> k = wmul r inv -> (m * inv + 1) mod W = 0 ->
  (forall co, 0 <= co <= 1 -> W * co = r + l -> Q (f co)) ->
  Q (let '(_, co) := add64 r l 0 in f co).
Proof.
  intros Hr Hl D K I H. apply (add64_elim _ Q (fun _ c => f c)); auto; [lia|].
  intros s co Hs Hc E. apply H; [exact Hc|].
  assert (s = 0); [|lia].
  apply (mont_low r k m inv s (co + h)); auto. lia.
Qed.
Lemma add64_low1_elim (T : Type) (Q : T -> Prop) (f : Z -> T) r l h m :
  word r -> word l -> l + W * h = r * m -> (m + 1) mod W = 0 ->
  (forall co, 0 <= co <= 1 -> W * co = r + l -> Q (f co)) ->
  Q (let '(_, co) := add64 r l 0 in f co).
Proof.
  intros Hr Hl D I H. apply (add64_low_elim _ Q f r l h r m 1); auto.
  - unfold wmul. rewrite Z.mul_1_r, Z.mod_small; auto.
  - rewrite Z.mul_1_r. exact I.
Qed.

Lemma mul64_num_elim (T : Type) (Q : T -> Prop) (k : Z -> Z -> T) x y :
  word x -> word y -> 0 < y ->
  (forall hi lo, word hi -> 0 <= hi <= y - 1 -> word lo -> lo + W * hi = x * y -> Q (k hi lo)) ->
  Q (let '(hi, lo) := mul64 x y in k hi lo).
Proof.
  intros Hx Hy P H. apply (mul64_elim _ Q); auto. intros hi lo Hh Hl E. apply H; auto.
  unfold word in *. split; [lia|]. assert (x * y < W * y) by (apply Z.mul_lt_mono_pos_r; lia).
  assert (W * hi < W * y) by lia. apply (Z.mul_lt_mono_pos_l W) in H1; [lia|reflexivity].
Qed.

Lemma wadd_small a b : 0 <= a + b -> a + b < W -> wadd a b = a + b.
Proof. unfold wadd. intros. apply Z.mod_small. lia. Qed.
Lemma bnd_add a b m n : 0 <= a <= m -> 0 <= b <= n -> 0 <= a + b <= m + n.
Proof. lia. Qed.
Lemma bnd_wadd a b m : 0 <= a + b <= m -> m <? W = true -> wadd a b = a + b /\ word (a + b).
Proof. intros ? ?%Z.ltb_lt. unfold word. rewrite wadd_small by lia. lia. Qed.

Ltac bit := first [assumption | (split; [discriminate|discriminate]) | lia].

(** a proof of [0 <= e <= n] from the bounds in the context *)
Ltac bnd e :=
  lazymatch e with
  | ?a + ?b => let p := bnd a in let q := bnd b in constr:(bnd_add a b _ _ p q)
  | _ => match goal with
         | H : 0 <= e <= 1 |- _ => constr:(H)
         | H : 0 <= e <= _ |- _ => constr:(H)
         end
  end.
Ltac nameadd :=
  repeat match goal with
  | |- context [wadd ?a ?b] =>
     lazymatch a with context [wadd _ _] => fail | _ => idtac end;
     lazymatch b with context [wadd _ _] => fail | _ => idtac end;
     let p := bnd (a + b) in
     let E := fresh in
     destruct (bnd_wadd a b _ p eq_refl) as [E ?]; rewrite !E; clear E
  end.

Ltac fstep :=
  lazymatch goal with
  | |- ?Q (let x := ?v in @?f x) => change (Q (f v)); cbv beta
  | |- ?Q (let '(_, lo) := mul64 ?x ?y in @?f lo) =>
      apply (mul64_low_elim _ Q f); let k := fresh "dig" in intros k ? ?
  | |- ?Q (let '(_, _) := mul64 _ ?y in _) =>
      (first [ is_var y; apply (mul64_hi_elim _ Q); [wd|wd|]
             | apply (mul64_num_elim _ Q); [wd|wd|reflexivity|] ]);
      intros ? ? ? ? ? ?
  | |- ?Q (let '(_, co) := add64 ?r ?l 0 in @?f co) =>
      match goal with
      | D : l + W * ?h = ?k * ?m |- _ =>
          (first [ match goal with K : k = wmul r ?inv |- _ =>
                     apply (add64_low_elim _ Q f r l h k m inv); [wd|wd|exact D|exact K|reflexivity|]; clear K end
                 | apply (add64_low1_elim _ Q f r l h m); [wd|wd|exact D|reflexivity|] ]);
          let c := fresh "co" in intros c ? ?;
          let kk := fresh "k" in
          let Hk := fresh in
          assert (Hk : word k) by wd;
          destruct (ex_intro (fun z => word z /\ z = k) k (conj Hk eq_refl)) as (kk & ? & ?); clear Hk
      end
  | |- ?Q (let '(_, _) := add64 _ _ _ in _) =>
      apply (add64_elim _ Q); [wd|wd|bit|]; intros ? ? ? ? ?
  | |- ?Q (let '(_, _) := sub64 _ _ _ in _) =>
      apply (sub64_elim _ Q); [wd|wd|bit|]; intros ? ? ? ? ?
  end; nameadd.

(** a conditional move by a mask *)
Definition cmov_ok (f : Z -> Z -> Z -> Z) : Prop :=
  forall c x y, 0 <= c <= 1 -> word x -> word y -> f c x y = if c =? 0 then x else y.

Lemma wmul_mask c : 0 <= c <= 1 -> wmul c (W - 1) = 0 /\ c = 0 \/ wmul c (W - 1) = W - 1 /\ c = 1.
Proof. intros. assert (c = 0 \/ c = 1) as [->| ->] by lia; [left|right]; split; reflexivity. Qed.

Lemma wand_comm x y : wand x y = wand y x. Proof. apply Z.land_comm. Qed.

Lemma mask_select m x y : word x -> word y -> m = 0 \/ m = W - 1 ->
  wor (wand m y) (wand (wnot m) x) = if m =? 0 then x else y.
Proof.
  intros Hx Hy [->| ->].
  - change (wnot 0) with (W - 1). rewrite (wand_comm (W - 1)), wand_ones by assumption. reflexivity.
  - change (wnot (W - 1)) with 0. rewrite (wand_comm (W - 1)), wand_ones by assumption.
    change (W - 1 =? 0) with false. cbv iota. unfold wand, wor. rewrite Z.land_0_l, Z.lor_0_r. reflexivity.
Qed.

Lemma if_L4 (c : bool) a0 a1 a2 a3 b0 b1 b2 b3 :
  L4 (if c then a0 else b0) (if c then a1 else b1) (if c then a2 else b2) (if c then a3 else b3) =
  if c then L4 a0 a1 a2 a3 else L4 b0 b1 b2 b3.
Proof. destruct c; reflexivity. Qed.

(** the final conditional subtraction of a Montgomery reduction *)
Lemma fiat_end (Q : limbs4 -> Prop) m T d s K d4 b top :
  words4 d -> words4 s -> words4 K -> word d4 -> 0 <= b <= 1 -> 0 <= top -> 0 < m < W ^ 4 ->
  T < W ^ 4 * m ->
  (val4 s + W ^ 4 * top) * W ^ 4 = T + val4 K * m ->
  val4 d + W ^ 4 * d4 - W ^ 5 * b = val4 s + W ^ 4 * top - m ->
  (forall o, words4 o -> val4 o < m -> (exists k, val4 o * W ^ 4 = T + k * m) -> Q o) ->
  Q (if b =? 0 then d else s).
Proof.
  intros Hd Hs HK H4 Hb Ht Hm LT M D HQ.
  pose proof (val4_range d Hd). pose proof (val4_range s Hs). pose proof (val4_range K HK).
  set (S := val4 s + W ^ 4 * top) in *.
  assert (HS : S < 2 * m).
  { assert (val4 K * m < W ^ 4 * m) by (apply Z.mul_lt_mono_pos_r; lia).
    assert (S * W ^ 4 < (2 * m) * W ^ 4) by lia.
    apply (Z.mul_lt_mono_pos_r (W ^ 4)); [reflexivity|assumption]. }
  assert (b = 0 \/ b = 1) as [->| ->] by lia.
  - assert (0 <= val4 d + W ^ 4 * d4 < m) by (unfold word in H4; lia).
    assert (d4 = 0).
    { unfold word in H4. clearbody S. change (W ^ 4) with (W * W * W * W) in *. rewrite W_eq in *. lia. }
    subst d4. change (0 =? 0) with true. cbv iota. apply HQ; [assumption|lia|].
    exists (val4 K - W ^ 4). replace (val4 d) with (S - m) by lia. lia.
  - change (1 =? 0) with false. cbv iota.
    assert (S < m).
    { unfold word in H4. clearbody S. change (W ^ 5) with (W ^ 4 * W) in D.
      change (W ^ 4) with (W * W * W * W) in *. rewrite W_eq in *. lia. }
    assert (top = 0).
    { subst S. change (W ^ 4) with (W * W * W * W) in *. rewrite W_eq in *. lia. }
    subst top. subst S. rewrite Z.mul_0_r, Z.add_0_r in *.
    apply HQ; [assumption|lia|]. exists (val4 K). lia.
Qed.

Ltac clear_ineqs :=
  repeat match goal with H : word _ |- _ => clear H end;
  repeat match goal with H : 0 <= _ <= 1 |- _ => clear H end;
  repeat match goal with H : 0 <= _ <= _ |- _ => clear H end;
  repeat match goal with H : 0 <= _ < _ |- _ => clear H end;
  repeat match goal with H : _ < _ |- _ => clear H end.
Ltac numeric := unfold val4; change (W ^ 5) with (W * W * W * W * W); change (W ^ 4) with (W * W * W * W); rewrite W_eq in *; lia.

(** the walk is over and the goal is [Q (L4 (cmov b d0 s0) ...)]: conclude that the result is [T] reduced,
    given [LT : T < W ^ 4 * m] and the continuation [HQ] *)
Ltac fiat_red C m T LT HQ k k0 k1 k2 :=
  rewrite !C by assumption; rewrite if_L4;
  match goal with
  | |- ?Q (if ?b =? 0 then L4 ?d0 ?d1 ?d2 ?d3 else L4 ?s0 ?s1 ?s2 ?s3) =>
    match goal with E : ?d4 - W * b = ?top - 0 - _ |- _ =>
      apply (fiat_end Q m T (L4 d0 d1 d2 d3) (L4 s0 s1 s2 s3) (L4 k k0 k1 k2) d4 b top);
      [ cbn; tauto | cbn; tauto | cbn; tauto | assumption | assumption
      | clear E HQ LT; repeat match goal with H : _ = _ |- _ => clear H end; lia
      | split; reflexivity | exact LT
      | clear E HQ LT; clear_ineqs; repeat match goal with H : _ - W * _ = _ |- _ => clear H end; numeric
      | clear HQ LT; clear_ineqs; repeat match goal with H : _ + W * _ = _ |- _ => clear H | H : W * _ = _ |- _ => clear H end; numeric
      | exact HQ ]
    end
  end.

(** ** Addition and subtraction of the translated fiat code *)
Lemma ones_and x : word x -> wand 18446744073709551615 x = x.
Proof. intros. rewrite wand_comm. change 18446744073709551615 with (W - 1). apply wand_ones. assumption. Qed.
Lemma zero_and x : wand 0 x = 0. Proof. apply Z.land_0_l. Qed.

Ltac cmov_case C :=
  match goal with
  | |- context [if ?b =? 0 then _ else _] =>
      let H := fresh in assert (H : b = 0 \/ b = 1) by lia; destruct H as [H|H]; rewrite H in *;
      [change (0 =? 0) with true | change (1 =? 0) with false]; cbv iota
  end.

(** ** Little-endian bytes of the limbs *)
Lemma byte_mask x : wand (wbyte x) 255 = x mod 256.
Proof.
  unfold wand, wbyte. change 255 with (Z.ones 8). rewrite Z.land_ones by lia.
  change (2 ^ 8) with 256. apply Z.mod_mod. lia.
Qed.
Lemma shr8 x : wshr x 8 = x / 256.
Proof. unfold wshr. rewrite Z.shiftr_div_pow2 by lia. reflexivity. Qed.

Lemma byte_split x : 0 <= x -> 0 <= x mod 256 < 256 /\ x = x mod 256 + 256 * (x / 256) /\ 0 <= x / 256.
Proof.
  intros. pose proof (Z.mod_pos_bound x 256). pose proof (Z.div_mod x 256). 
  pose proof (Z.div_pos x 256). lia.
Qed.

Ltac bsplit x :=
  let H := fresh in
  assert (H : 0 <= x) by (unfold word in *; lia);
  destruct (byte_split x H) as (? & ? & ?); clear H.

(** the eight bytes the code extracts from one limb *)
Lemma limb_bytes x b0 b1 b2 b3 b4 b5 b6 b7 :
  word x ->
  b0 = wand (wbyte x) 255 ->
  b1 = wand (wbyte (wshr x 8)) 255 ->
  b2 = wand (wbyte (wshr (wshr x 8) 8)) 255 ->
  b3 = wand (wbyte (wshr (wshr (wshr x 8) 8) 8)) 255 ->
  b4 = wand (wbyte (wshr (wshr (wshr (wshr x 8) 8) 8) 8)) 255 ->
  b5 = wand (wbyte (wshr (wshr (wshr (wshr (wshr x 8) 8) 8) 8) 8)) 255 ->
  b6 = wand (wbyte (wshr (wshr (wshr (wshr (wshr (wshr x 8) 8) 8) 8) 8) 8)) 255 ->
  b7 = wbyte (wshr (wshr (wshr (wshr (wshr (wshr (wshr x 8) 8) 8) 8) 8) 8) 8) ->
  le_val (b0 :: b1 :: b2 :: b3 :: b4 :: b5 :: b6 :: b7 :: nil) = x /\
  is_bytes (b0 :: b1 :: b2 :: b3 :: b4 :: b5 :: b6 :: b7 :: nil).
Proof.
  intros Hx. rewrite !byte_mask, !shr8. unfold wbyte. intros -> -> -> -> -> -> -> ->.
  unfold word in Hx. rewrite W_eq in Hx.
  bsplit x. bsplit (x / 256). bsplit (x / 256 / 256). bsplit (x / 256 / 256 / 256).
  bsplit (x / 256 / 256 / 256 / 256). bsplit (x / 256 / 256 / 256 / 256 / 256).
  bsplit (x / 256 / 256 / 256 / 256 / 256 / 256). 
  rewrite (Z.mod_small (x / 256 / 256 / 256 / 256 / 256 / 256 / 256)) by lia.
  split; [cbn [le_val]; lia|].
  repeat constructor; lia.
Qed.

Lemma le_val_app a b : le_val (a ++ b) = le_val a + 256 ^ Z.of_nat (length a) * le_val b.
Proof.
  induction a as [|x a IH].
  - cbn. destruct (le_val b); reflexivity.
  - cbn [app le_val length]. rewrite IH, Nat2Z.inj_succ, Z.pow_succ_r by lia. ring.
Qed.

Lemma limbs_bytes a0 a1 a2 a3 l0 l1 l2 l3 :
  length l0 = 8%nat -> length l1 = 8%nat -> length l2 = 8%nat -> length l3 = 8%nat ->
  le_val l0 = a0 /\ is_bytes l0 -> le_val l1 = a1 /\ is_bytes l1 ->
  le_val l2 = a2 /\ is_bytes l2 -> le_val l3 = a3 /\ is_bytes l3 ->
  le_val (l0 ++ l1 ++ l2 ++ l3) = val4 (L4 a0 a1 a2 a3) /\ is_bytes (l0 ++ l1 ++ l2 ++ l3) /\
  length (l0 ++ l1 ++ l2 ++ l3) = 32%nat.
Proof.
  intros L0 L1 L2 L3 [<- ?] [<- ?] [<- ?] [<- ?].
  rewrite !le_val_app, !app_length, L0, L1, L2, L3. change (256 ^ Z.of_nat 8) with W.
  repeat split. unfold is_bytes. rewrite !Forall_app. auto.
Qed.

(** and back *)
Lemma wshl_byte b n : 0 <= b < 256 -> 0 <= n <= 56 -> wshl b n = b * 2 ^ n.
Proof.
  intros Hb Hn. unfold wshl. rewrite Z.shiftl_mul_pow2 by lia. apply Z.mod_small.
  pose proof (Z.pow_pos_nonneg 2 n ltac:(lia) ltac:(lia)).
  pose proof (Z.pow_le_mono_r 2 n 56 ltac:(lia) ltac:(lia)).
  split; [apply Z.mul_nonneg_nonneg; lia|].
  apply Z.lt_le_trans with (256 * 2 ^ n); [apply Z.mul_lt_mono_pos_r; lia|].
  change W with (256 * 2 ^ 56). lia.
Qed.

Lemma bytes_limb b0 b1 b2 b3 b4 b5 b6 b7 :
  is_bytes (b0 :: b1 :: b2 :: b3 :: b4 :: b5 :: b6 :: b7 :: nil) ->
  wadd (wshl b7 56) (wadd (wshl b6 48) (wadd (wshl b5 40) (wadd (wshl b4 32)
    (wadd (wshl b3 24) (wadd (wshl b2 16) (wadd (wshl b1 8) b0)))))) =
  le_val (b0 :: b1 :: b2 :: b3 :: b4 :: b5 :: b6 :: b7 :: nil).
Proof.
  intros H. repeat match goal with H : is_bytes (_ :: _) |- _ => inversion H; clear H; subst
                   | H : Forall _ (_ :: _) |- _ => inversion H; clear H; subst end.
  rewrite !wshl_byte by lia. cbn [le_val].
  change (2 ^ 56) with 72057594037927936. change (2 ^ 48) with 281474976710656.
  change (2 ^ 40) with 1099511627776. change (2 ^ 32) with 4294967296. change (2 ^ 24) with 16777216.
  change (2 ^ 16) with 65536. change (2 ^ 8) with 256.
  repeat match goal with |- context [wadd ?a ?b] =>
    lazymatch b with context [wadd _ _] => fail | _ => idtac end;
    rewrite (wadd_small a b) by (rewrite ?W_eq; lia) end.
  lia.
Qed.

Lemma le_val_range bs : is_bytes bs -> 0 <= le_val bs < 256 ^ Z.of_nat (length bs).
Proof.
  induction 1 as [|b bs Hb _ IH]; [cbn; lia|].
  cbn [le_val length]. rewrite Nat2Z.inj_succ, Z.pow_succ_r by lia. lia.
Qed.

Lemma from_bytes_shape (bs : list Z) : length bs = 32%nat -> is_bytes bs ->
  let g i := nth i bs 0 in
  let limb i := le_val (g i :: g (i+1)%nat :: g (i+2)%nat :: g (i+3)%nat :: g (i+4)%nat ::
                        g (i+5)%nat :: g (i+6)%nat :: g (i+7)%nat :: nil) in
  (forall i, (i <= 24)%nat ->
     is_bytes (g i :: g (i+1)%nat :: g (i+2)%nat :: g (i+3)%nat :: g (i+4)%nat ::
                        g (i+5)%nat :: g (i+6)%nat :: g (i+7)%nat :: nil)) /\
  words4 (L4 (limb 0%nat) (limb 8%nat) (limb 16%nat) (limb 24%nat)) /\
  val4 (L4 (limb 0%nat) (limb 8%nat) (limb 16%nat) (limb 24%nat)) = le_val bs.
Proof.
  intros L B g limb.
  assert (P : forall i, (i <= 24)%nat ->
     is_bytes (g i :: g (i+1)%nat :: g (i+2)%nat :: g (i+3)%nat :: g (i+4)%nat ::
                        g (i+5)%nat :: g (i+6)%nat :: g (i+7)%nat :: nil)).
  { intros i Hi. unfold is_bytes in B. rewrite Forall_forall in B. unfold g.
    repeat constructor; apply B; apply nth_In; lia. }
  split; [exact P|]. split.
  - unfold words4, limb, word. change W with (256 ^ Z.of_nat 8).
    pose proof (le_val_range _ (P 0%nat ltac:(lia))). pose proof (le_val_range _ (P 8%nat ltac:(lia))).
    pose proof (le_val_range _ (P 16%nat ltac:(lia))). pose proof (le_val_range _ (P 24%nat ltac:(lia))).
    cbn [length] in *. auto.
  - do 33 (destruct bs as [|? bs]; [try discriminate L|]); [|discriminate L].
    unfold limb, g, val4. change W with (256 ^ 8). cbn [nth Nat.add le_val]. ring.
Qed.
