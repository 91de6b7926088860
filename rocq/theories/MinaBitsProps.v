(** C105: the bit vector behaves as a list of bits.  C106: what roinput packs. *)
From Coq Require Import ZArith Lia List Bool.
From Verif Require Import LimbSpec MinaBitsModel MinaBitsSpec MinaBitsProofs.
Import ListNotations.
Local Open Scope Z_scope.

(** *** C105 *)
Theorem C105_new n : holds (new_bitvector (repeat 0 n) 0) [].
Proof. apply fresh_holds. Qed.
(** a vector holds one list only *)
Theorem C105_unique v l l' : holds v l -> holds v l' -> l = l'.
Proof.
  intros (_ & L & r & E) (_ & L' & r' & E'). assert (N : length l = length l') by lia. rewrite E in E'.
  apply (f_equal (firstn (length l))) in E'. rewrite !firstn_app, N, !Nat.sub_diag in E'. rewrite <- N in E' at 1. rewrite !firstn_all, !app_nil_r in E'. exact E'.
Qed.
Theorem C105_append v l b : holds v l -> Z.of_nat (length l) < 2 ^ 32 ->
  exists v', bv_append v b = Some v' /\ holds v' (l ++ [b =? 1]).
Proof. intros H M. destruct (append_full v l b H M) as (v' & E & H' & _). eauto. Qed.
(** Element, Set, Insert and Delete panic exactly outside the vector *)
Theorem C105_element v l i : holds v l ->
  bv_element v i = (if (0 <=? i) && (i <? Z.of_nat (length l)) then Some (bit (nth (Z.to_nat i) l false)) else None).
Proof. apply element_full. Qed.
Theorem C105_set v l b i : holds v l ->
  (0 <= i < Z.of_nat (length l) -> exists v', bv_set v b i = Some v' /\
     holds v' (firstn (Z.to_nat i) l ++ [b =? 1] ++ skipn (S (Z.to_nat i)) l)) /\
  (~ 0 <= i < Z.of_nat (length l) -> bv_set v b i = None).
Proof. intros H. split; intros R; [exact (set_full v l b i H R)|]. unfold bv_set. now rewrite (assert_out _ _ _ H R). Qed.
Theorem C105_insert v l b i : holds v l ->
  (0 <= i < Z.of_nat (length l) -> exists v', bv_insert v b i = Some v' /\
     holds v' (firstn (Z.to_nat i) l ++ [b =? 1] ++ skipn (Z.to_nat i) l)) /\
  (~ 0 <= i < Z.of_nat (length l) -> bv_insert v b i = None).
Proof. intros H. split; intros R; [exact (insert_full v l b i H R)|]. unfold bv_insert. now rewrite (assert_out _ _ _ H R). Qed.
Theorem C105_delete v l i : holds v l ->
  (0 <= i < Z.of_nat (length l) -> exists v', bv_delete v i = Some v' /\
     holds v' (firstn (Z.to_nat i) l ++ skipn (S (Z.to_nat i)) l)) /\
  (~ 0 <= i < Z.of_nat (length l) -> bv_delete v i = None).
Proof. intros H. split; intros R; [exact (delete_full v l i H R)|]. unfold bv_delete. now rewrite (assert_out _ _ _ H R). Qed.
(** the index of Append is 32 bits wide: with 2^32 bits in the vector the next one replaces the first *)
Theorem C105_append_refuted : exists v l, holds v l /\ Z.of_nat (length l) = 2 ^ 32 /\ bv_element v 0 = Some 0 /\
  exists v', bv_append v 1 = Some v' /\ bv_element v' 0 = Some 1.
Proof.
  assert (G : forall n, 0 < Z.of_nat n -> 8 * Z.of_nat n = 2 ^ 32 -> exists v l, holds v l /\ Z.of_nat (length l) = 2 ^ 32 /\ bv_element v 0 = Some 0 /\
    exists v', bv_append v 1 = Some v' /\ bv_element v' 0 = Some 1).
  2:{ apply (G (Z.to_nat (2 ^ 29))); rewrite Z2Nat.id by lia; reflexivity. }
  intros n P N. pose proof (fresh_holds n) as (B & _ & _). cbn [new_bitvector bv_data] in B.
  assert (H : holds (BitVector (repeat 0 n) (8 * Z.of_nat n)) (repeat false (8 * n))).
  { split; [exact B|]. cbn [bv_data bv_length]. split; [rewrite repeat_length; lia|]. exists []. rewrite repeat_bits, app_nil_r. reflexivity. }
  exists (BitVector (repeat 0 n) (8 * Z.of_nat n)), (repeat false (8 * n)). split; [exact H|]. split; [rewrite repeat_length; lia|]. split.
  - rewrite (element_full _ _ _ H), repeat_length.
    replace ((0 <=? 0) && (0 <? Z.of_nat (8 * n))) with true by (symmetry; rewrite andb_true_iff, Z.leb_le, Z.ltb_lt; lia).
    destruct n; [cbn in P; lia|reflexivity].
  - destruct (grow_ok _ _ H) as (B' & G & _). unfold bv_append. cbn [bv_length] in *. replace (8 * Z.of_nat n mod 2 ^ 32) with 0 by (rewrite N, Z_mod_same_full; reflexivity).
    cbv zeta. set (d := grow (8 * Z.of_nat n + 1) (bv_data (BitVector (repeat 0 n) (8 * Z.of_nat n)))) in *. clearbody d.
    rewrite repeat_length in G.
    fold (new_bit 1 (0 mod 8) (nth (Z.to_nat (Z.shiftr 0 3)) d 0)). destruct (write_bit d 0 1 B') as (d' & -> & B2 & L2 & A2); [lia|].
    eexists. split; [reflexivity|]. unfold bv_element, index_assert. cbn [bv_length bv_data].
    replace (negb ((0 <? 0) || (8 * Z.of_nat n + 1 <=? 0))) with true by (symmetry; rewrite negb_true_iff, orb_false_iff, Z.ltb_ge, Z.leb_gt; lia).
    destruct (read_bit d' 0 B2) as (x & -> & ->); [lia|]. rewrite A2. reflexivity.
Qed.

(** *** C106 *)
Theorem C106_init n : ro_holds (ro_init n) [] [].
Proof. split; [reflexivity|apply fresh_holds]. Qed.
Section Add.
  Variables (r : roinput) (fields : list Z) (l : list bool).
  Hypothesis held : ro_holds r fields l.
  Notation fits n := (Z.of_nat (length l + n) <= 2 ^ 32).
  Lemma add_bits x n : fits n -> exists r', with_bits r (append_bits x 0 n (ro_bits r)) = Some r' /\ ro_holds r' fields (l ++ int_bits x n).
  Proof.
    intros M. destruct held as [F H]. destruct (append_bits_full x n _ _ H M) as (v' & E & H'). rewrite E. eexists. split; [reflexivity|]. split; [exact F|exact H'].
  Qed.
  Theorem C106_add_fp x : ro_holds (ro_add_fp r x) (fields ++ [x]) l.
  Proof. destruct held as [F H]. split; [cbn; now rewrite F|exact H]. Qed.
  Theorem C106_add_fq x : fits 255 -> exists r', ro_add_fq r x = Some r' /\ ro_holds r' fields (l ++ int_bits x 255).
  Proof. apply add_bits. Qed.
  Theorem C106_add_uint32 x : fits 32 -> exists r', ro_add_uint32 r x = Some r' /\ ro_holds r' fields (l ++ int_bits x 32).
  Proof. apply add_bits. Qed.
  Theorem C106_add_uint64 x : fits 64 -> exists r', ro_add_uint64 r x = Some r' /\ ro_holds r' fields (l ++ int_bits x 64).
  Proof. apply add_bits. Qed.
  Theorem C106_add_bit b : fits 1 -> exists r', ro_add_bit r b = Some r' /\ ro_holds r' fields (l ++ [b]).
  Proof.
    intros M. destruct held as [F H]. destruct (append_full _ _ (bit b) H) as (v' & E & H' & _); [lia|]. rewrite is_one in H'.
    unfold ro_add_bit. fold (bit b). rewrite E. eexists. split; [reflexivity|]. split; [exact F|exact H'].
  Qed.
  Theorem C106_add_bytes bs : fits (8 * length bs) -> exists r', ro_add_bytes r bs = Some r' /\ ro_holds r' fields (l ++ all_bits bs).
  Proof.
    intros M. destruct held as [F H]. destruct (append_bytes_full bs _ _ H M) as (v' & E & H'). unfold ro_add_bytes. rewrite E.
    eexists. split; [reflexivity|]. split; [exact F|exact H'].
  Qed.
End Add.
(** Bytes: 255 bits of every field element, then the bits, then zeroes to the end of the last byte *)
Theorem C106_bytes r fields l : ro_holds r fields l -> Z.of_nat (255 * length fields + length l) <= 2 ^ 32 ->
  exists out, ro_bytes r = Some out /\ length out = (32 * length fields + (length l + 7) / 8)%nat /\
    all_bits out = flat_map (fun f => int_bits f 255) fields ++ l ++ repeat false (8 * length out - 255 * length fields - length l).
Proof. apply ro_bytes_full. Qed.
(** Fields: the field elements, then the integers written by groups of 254 bits *)
Theorem C106_fields m r fields l : 2 ^ 254 <= m -> ro_holds r fields l ->
  ro_to_fields m r = Some (fields ++ map bits_value (groups (S (length l)) l)).
Proof.
  intros M H. rewrite (ro_to_fields_full m r fields l H). do 2 f_equal. apply map_ext_in. intros g I. apply Z.mod_small.
  assert (Q : forall fuel l, In g (groups fuel l) -> (length g <= 254)%nat).
  { clear. induction fuel as [|fuel IH]; intros l I; [destruct I|]. destruct l as [|b l]; [destruct I|]. rewrite groups_step in I by discriminate.
    destruct I as [<-|I]; [apply firstn_le_length|exact (IH _ I)]. }
  apply Q in I. pose proof (bits_value_range g). split; [lia|]. apply (Z.lt_le_trans _ (2 ^ Z.of_nat (length g))); [lia|].
  apply (Z.le_trans _ (2 ^ 254)); [apply Z.pow_le_mono_r; lia|exact M].
Qed.
Lemma int_bits_inj x y n : 0 <= x < 2 ^ Z.of_nat n -> 0 <= y < 2 ^ Z.of_nat n -> int_bits x n = int_bits y n -> x = y.
Proof.
  intros X Y E. apply Z.bits_inj'. intros k K. destruct (Z.ltb_spec k (Z.of_nat n)) as [L|L].
  - apply (f_equal (fun l => nth (Z.to_nat k) l false)) in E. unfold int_bits in E.
    rewrite !(nth_indep _ false (Z.testbit 0 (Z.of_nat 0))) in E by (rewrite map_length, seq_length; lia).
    assert (G : forall z, nth (Z.to_nat k) (map (fun i => Z.testbit z (Z.of_nat i)) (seq 0 n)) (Z.testbit 0 (Z.of_nat 0)) = Z.testbit z k).
    { intros z. rewrite (nth_indep _ _ (Z.testbit z (Z.of_nat 0))) by (rewrite map_length, seq_length; lia).
      rewrite (map_nth (fun i => Z.testbit z (Z.of_nat i))), seq_nth by lia. f_equal. lia. }
    rewrite !G in E. exact E.
  - assert (T : forall z, 0 <= z < 2 ^ Z.of_nat n -> Z.testbit z k = false).
    { intros z R. destruct (Z.eq_dec z 0) as [->|]; [apply Z.bits_0|]. apply Z.bits_above_log2; [lia|]. apply Z.log2_lt_pow2; [lia|].
      apply (Z.lt_le_trans _ (2 ^ Z.of_nat n)); [lia|]. apply Z.pow_le_mono_r; lia. }
    rewrite !T by assumption. reflexivity.
Qed.
Lemma app_inj_len {A} (a b c d : list A) : length a = length c -> a ++ b = c ++ d -> a = c /\ b = d.
Proof.
  revert c. induction a as [|x a IH]; intros [|y c] L E; cbn [length] in L; try discriminate; [split; [reflexivity|exact E]|].
  cbn [app] in E. injection E as -> E. destruct (IH c) as [-> ->]; [lia|exact E|]. split; reflexivity.
Qed.
Lemma bits_value_inj a b : length a = length b -> bits_value a = bits_value b -> a = b.
Proof.
  revert b. induction a as [|x a IH]; intros [|y b] L E; cbn [length] in L; try discriminate; [reflexivity|]. cbn [bits_value] in E.
  assert (x = y /\ bits_value a = bits_value b) as [-> E2] by (destruct x, y; cbn [bit] in E; split; try reflexivity; lia). f_equal. apply IH; [lia|exact E2].
Qed.
Lemma cons_both {A} (x y : A) a b : x :: a = y :: b -> x = y /\ a = b.
Proof. intros E. injection E as -> ->. auto. Qed.
Lemma groups_inj fuel a b : length a = length b -> (length a < fuel)%nat -> map bits_value (groups fuel a) = map bits_value (groups fuel b) -> a = b.
Proof.
  revert a b. induction fuel as [|fuel IH]; intros a b L N E; [lia|].
  destruct a as [|x a]; destruct b as [|y b]; try discriminate; [reflexivity|]. rewrite !groups_step in E by discriminate. rewrite !map_cons in E. apply cons_both in E. destruct E as [E1 E2].
  apply bits_value_inj in E1; [|rewrite !firstn_length; lia]. apply IH in E2; [|rewrite !skipn_length; lia|rewrite skipn_length; cbn [length] in *; lia].
  rewrite <- (firstn_skipn 254 (x :: a)), <- (firstn_skipn 254 (y :: b)), E1, E2. reflexivity.
Qed.
(** for inputs with as many field elements and as many bits, both are injective *)
Theorem C106_fields_injective m r r' fields fields' l l' : 2 ^ 254 <= m -> ro_holds r fields l -> ro_holds r' fields' l' ->
  length fields = length fields' -> length l = length l' -> ro_to_fields m r = ro_to_fields m r' -> fields = fields' /\ l = l'.
Proof.
  intros M H H' LF LL E. rewrite (C106_fields m r fields l M H), (C106_fields m r' fields' l' M H') in E. injection E as E.
  apply app_inj_len in E; [|exact LF]. destruct E as [-> E]. split; [reflexivity|]. rewrite <- LL in E. apply (groups_inj (S (length l))); [exact LL|lia|exact E].
Qed.
Theorem C106_bytes_injective r r' fields fields' l l' : ro_holds r fields l -> ro_holds r' fields' l' ->
  Z.of_nat (255 * length fields + length l) <= 2 ^ 32 -> length fields = length fields' -> length l = length l' ->
  Forall (fun f => 0 <= f < 2 ^ 255) fields -> Forall (fun f => 0 <= f < 2 ^ 255) fields' ->
  ro_bytes r = ro_bytes r' -> fields = fields' /\ l = l'.
Proof.
  intros H H' M LF LL R R' E. destruct (C106_bytes r fields l H M) as (o & Eo & Lo & Ao). destruct (C106_bytes r' fields' l' H') as (o' & Eo' & Lo' & Ao'); [rewrite <- LF, <- LL; exact M|].
  rewrite Eo, Eo' in E. injection E as <-. rewrite Ao in Ao'. clear - LF LL R R' Ao'. apply app_inj_len in Ao'.
  - destruct Ao' as [A1 A2]. apply app_inj_len in A2; [|exact LL]. split; [|apply A2]. clear A2 LL. revert fields' LF R' A1. induction fields as [|f fs IH]; intros [|g gs] LF R' A; try discriminate; [reflexivity|].
    change (int_bits f 255 ++ flat_map (fun f => int_bits f 255) fs = int_bits g 255 ++ flat_map (fun f => int_bits f 255) gs) in A.
    apply app_inj_len in A; [|unfold int_bits; now rewrite !map_length]. destruct A as [A1 A2]. inversion R; inversion R'; subst. f_equal; [now apply (int_bits_inj f g 255)|].
    apply IH; [assumption|now injection LF|assumption|exact A2].
  - pose proof (field_bits_len fields) as P. pose proof (field_bits_len fields') as P'. unfold field_bits in P, P'. rewrite P, P', LF. reflexivity.
Qed.
(** but a message and the message followed by a zero byte give the same Fields *)
Lemma value_zeros l n : bits_value (l ++ repeat false n) = bits_value l.
Proof.
  induction l as [|b l IH]; [|cbn [app bits_value]; now rewrite IH]. cbn [app]. induction n as [|n IHn]; [reflexivity|]. cbn [repeat bits_value bit]. rewrite IHn. reflexivity.
Qed.
Lemma one_group l fuel : l <> [] -> (length l <= 254)%nat -> groups (S fuel) l = [l].
Proof. intros N L. rewrite groups_step by exact N. rewrite firstn_all2, skipn_all2 by exact L. destruct fuel; reflexivity. Qed.
Theorem C106_fields_refuted m bytes r r' : 2 ^ 254 <= m -> (1 <= length bytes <= 30)%nat ->
  ro_holds r [] (all_bits bytes) -> ro_holds r' [] (all_bits (bytes ++ [0])) -> ro_to_fields m r = ro_to_fields m r'.
Proof.
  intros M L H H'. rewrite (C106_fields m r _ _ M H), (C106_fields m r' _ _ M H').
  assert (N : forall bs, (1 <= length bs <= 31)%nat -> groups (S (length (all_bits bs))) (all_bits bs) = [all_bits bs]).
  { intros bs K. apply one_group; [|rewrite all_len; lia]. intros Q. apply (f_equal (@length bool)) in Q. rewrite all_len in Q. cbn [length] in Q. lia. }
  rewrite !N by (rewrite ?app_length; cbn [length]; lia). cbn [map app]. rewrite all_app. change (all_bits [0]) with (repeat false 8). rewrite value_zeros. reflexivity.
Qed.

(** the hypotheses are met *)
Theorem C105_applies : exists v, holds v [true; false; true; true; false; false; true; false; true] /\ Z.of_nat 9 < 2 ^ 32 /\
  bv_append v 1 <> None /\ bv_insert v 1 8 <> None /\ bv_delete v 8 <> None /\ bv_set v 0 9 = None.
Proof.
  exists (BitVector [0x4D; 0x01] 9). split; [|repeat split; try reflexivity; vm_compute; discriminate].
  split; [repeat constructor; cbn; lia|]. split; [reflexivity|]. exists (repeat false 7). reflexivity.
Qed.
Theorem C106_applies : exists r, ro_holds r [5] [true; false; true] /\ ro_bytes r <> None /\ ro_to_fields (2 ^ 254 + 1) r = Some [5; 5].
Proof.
  exists (RoInput [5] (BitVector [0x05] 3)). split; [|split; [vm_compute; discriminate|vm_compute; reflexivity]].
  split; [reflexivity|]. split; [repeat constructor; cbn; lia|]. split; [reflexivity|]. exists (repeat false 5). reflexivity.
Qed.
