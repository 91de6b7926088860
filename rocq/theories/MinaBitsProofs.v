(** Proofs about the bit vector and roinput. *)
From Coq Require Import ZArith Lia List Bool.
From Verif Require Import LimbSpec MinaBitsModel MinaBitsSpec.
Import ListNotations.
Local Open Scope Z_scope.

(** ** Facts about single bytes, by exhaustion *)
Definition bytes_all (f : Z -> bool) : bool := forallb f (map Z.of_nat (seq 0 256)).
Lemma bytes_spec f : bytes_all f = true -> forall b, 0 <= b < 256 -> f b = true.
Proof.
  unfold bytes_all. rewrite forallb_forall. intros A b H. apply A. rewrite in_map_iff. exists (Z.to_nat b). split; [lia|]. apply in_seq. lia.
Qed.
Definition offs_all (f : Z -> bool) : bool := forallb f [0; 1; 2; 3; 4; 5; 6; 7].
Lemma offs_spec f : offs_all f = true -> forall o, 0 <= o < 8 -> f o = true.
Proof.
  unfold offs_all. rewrite forallb_forall. intros A o H. apply A. cbn [In].
  assert (o = 0 \/ o = 1 \/ o = 2 \/ o = 3 \/ o = 4 \/ o = 5 \/ o = 6 \/ o = 7) by lia. intuition.
Qed.
Definition same (a b : list bool) : bool := if list_eq_dec bool_dec a b then true else false.
Lemma same_eq a b : same a b = true -> a = b.
Proof. unfold same. destruct (list_eq_dec bool_dec a b); [auto|discriminate]. Qed.
Definition isb (x : Z) : bool := (0 <=? x) && (x <? 256).
Lemma isb_ok x : isb x = true -> 0 <= x < 256.
Proof. unfold isb. rewrite andb_true_iff, Z.leb_le, Z.ltb_lt. auto. Qed.

Definition new_bit (bt o old : Z) : Z :=
  if bt =? 1 then Z.lor old (byte (Z.shiftl 1 o)) else Z.land old (255 - byte (Z.shiftl 1 o)).
Lemma new_bit_ok bt o old : 0 <= o < 8 -> 0 <= old < 256 ->
  0 <= new_bit bt o old < 256 /\ byte_bits (new_bit bt o old) = firstn (Z.to_nat o) (byte_bits old) ++ (bt =? 1) :: skipn (S (Z.to_nat o)) (byte_bits old).
Proof.
  intros O B. pose (f := fun (c : bool) o b => let n := if c then Z.lor b (byte (Z.shiftl 1 o)) else Z.land b (255 - byte (Z.shiftl 1 o)) in
    isb n && same (byte_bits n) (firstn (Z.to_nat o) (byte_bits b) ++ c :: skipn (S (Z.to_nat o)) (byte_bits b))).
  assert (A : offs_all (fun o => bytes_all (fun b => f true o b && f false o b)) = true) by (vm_compute; reflexivity).
  pose proof (bytes_spec _ (offs_spec _ A o O) old B) as H. cbv beta in H. apply andb_prop in H. destruct H as [H1 H2].
  unfold new_bit. destruct (bt =? 1); [apply andb_prop in H1; destruct H1 as [H1 H2']|apply andb_prop in H2; destruct H2 as [H1' H2']];
    (split; [apply isb_ok; assumption|apply same_eq; assumption]).
Qed.
Lemma element_ok o b : 0 <= o < 8 -> 0 <= b < 256 -> Z.land (Z.shiftr b o) 1 = bit (nth (Z.to_nat o) (byte_bits b) false).
Proof.
  intros O B. assert (A : offs_all (fun o => bytes_all (fun b => Z.land (Z.shiftr b o) 1 =? bit (nth (Z.to_nat o) (byte_bits b) false))) = true)
    by (vm_compute; reflexivity).
  apply Z.eqb_eq. exact (bytes_spec _ (offs_spec _ A o O) b B).
Qed.
Definition high (bt : bool) (x : Z) : Z := Z.lor (byte (Z.shiftl x 1)) (bit bt).
Lemma high_ok (bt : bool) x : 0 <= x < 256 ->
  0 <= high bt x < 256 /\ byte_bits (high bt x) = bt :: firstn 7 (byte_bits x) /\ Z.shiftr (Z.land x 0x80) 7 = bit (nth 7 (byte_bits x) false).
Proof.
  intros B. pose (f := fun c b => isb (high c b) && same (byte_bits (high c b)) (c :: firstn 7 (byte_bits b)) &&
    (Z.shiftr (Z.land b 0x80) 7 =? bit (nth 7 (byte_bits b) false))).
  assert (A : bytes_all (fun b => f true b && f false b) = true) by (vm_compute; reflexivity).
  pose proof (bytes_spec _ A x B) as H. cbv beta in H. apply andb_prop in H. destruct H as [H1 H2].
  assert (H : f bt x = true) by (destruct bt; assumption). unfold f in H. rewrite !andb_true_iff in H. destruct H as [[P Q] R].
  split; [apply isb_ok, P|]. split; [apply same_eq, Q|apply Z.eqb_eq, R].
Qed.
Definition low (bt : bool) (x : Z) : Z := Z.lor (Z.shiftr x 1) (byte (Z.shiftl (bit bt) 7)).
Lemma low_ok (bt : bool) x : 0 <= x < 256 ->
  0 <= low bt x < 256 /\ byte_bits (low bt x) = skipn 1 (byte_bits x) ++ [bt] /\
  Z.land x 1 = bit (nth 0 (byte_bits x) false).
Proof.
  intros B. pose (f := fun c b => isb (low c b) && same (byte_bits (low c b)) (skipn 1 (byte_bits b) ++ [c]) && (Z.land b 1 =? bit (nth 0 (byte_bits b) false))).
  assert (A : bytes_all (fun b => f true b && f false b) = true) by (vm_compute; reflexivity).
  pose proof (bytes_spec _ A x B) as H. cbv beta in H. apply andb_prop in H. destruct H as [H1 H2].
  assert (H : f bt x = true) by (destruct bt; assumption). unfold f in H. rewrite !andb_true_iff in H. destruct H as [[P Q] R].
  split; [apply isb_ok, P|]. split; [apply same_eq, Q|apply Z.eqb_eq, R].
Qed.
Definition ins_byte (bt o old : Z) : Z :=
  Z.lor (Z.lor (if bt =? 1 then byte (Z.shiftl 1 o) else 0) (Z.land old (byte (byte (Z.shiftl 1 o) - 1))))
    (byte (Z.shiftl (Z.land old (255 - byte (byte (Z.shiftl 1 o) - 1))) 1)).
Lemma ins_byte_ok bt o old : 0 <= o < 8 -> 0 <= old < 256 ->
  0 <= ins_byte bt o old < 256 /\
  byte_bits (ins_byte bt o old) = firstn (Z.to_nat o) (byte_bits old) ++ (bt =? 1) :: firstn (7 - Z.to_nat o) (skipn (Z.to_nat o) (byte_bits old)).
Proof.
  intros O B. pose (f := fun (c : bool) o b => let n := Z.lor (Z.lor (if c then byte (Z.shiftl 1 o) else 0) (Z.land b (byte (byte (Z.shiftl 1 o) - 1))))
    (byte (Z.shiftl (Z.land b (255 - byte (byte (Z.shiftl 1 o) - 1))) 1)) in
    isb n && same (byte_bits n) (firstn (Z.to_nat o) (byte_bits b) ++ c :: firstn (7 - Z.to_nat o) (skipn (Z.to_nat o) (byte_bits b)))).
  assert (A : offs_all (fun o => bytes_all (fun b => f true o b && f false o b)) = true) by (vm_compute; reflexivity).
  pose proof (bytes_spec _ (offs_spec _ A o O) old B) as H. cbv beta in H. apply andb_prop in H. destruct H as [H1 H2].
  unfold ins_byte. destruct (bt =? 1); [apply andb_prop in H1; destruct H1 as [H1 H2']|apply andb_prop in H2; destruct H2 as [H1' H2']];
    (split; [apply isb_ok; assumption|apply same_eq; assumption]).
Qed.
Definition del_byte (bt : bool) (o old : Z) : Z :=
  Z.lor (Z.land (byte (byte (Z.shiftl 1 o) - 1)) old)
    (Z.lor (Z.shiftr (Z.land old (255 - byte (byte (Z.shiftl 1 (o + 1)) - 1))) 1) (byte (Z.shiftl (bit bt) 7))).
Lemma del_byte_ok bt o old : 0 <= o < 8 -> 0 <= old < 256 ->
  0 <= del_byte bt o old < 256 /\
  byte_bits (del_byte bt o old) = firstn (Z.to_nat o) (byte_bits old) ++ skipn (S (Z.to_nat o)) (byte_bits old) ++ [bt].
Proof.
  intros O B. pose (f := fun (c : bool) o b => isb (del_byte c o b) &&
    same (byte_bits (del_byte c o b)) (firstn (Z.to_nat o) (byte_bits b) ++ skipn (S (Z.to_nat o)) (byte_bits b) ++ [c])).
  assert (A : offs_all (fun o => bytes_all (fun b => f true o b && f false o b)) = true) by (vm_compute; reflexivity).
  pose proof (bytes_spec _ (offs_spec _ A o O) old B) as H. cbv beta in H. apply andb_prop in H. destruct H as [H1 H2].
  assert (H : f bt o old = true) by (destruct bt; assumption). unfold f in H. rewrite andb_true_iff in H. destruct H as [P Q].
  split; [apply isb_ok, P|apply same_eq, Q].
Qed.

(** ** Lists of bytes *)
Lemma all_app a b : all_bits (a ++ b) = all_bits a ++ all_bits b.
Proof. apply flat_map_app. Qed.
Lemma bits8 b : length (byte_bits b) = 8%nat. Proof. reflexivity. Qed.
Lemma all_len data : length (all_bits data) = (8 * length data)%nat.
Proof. induction data as [|b r IH]; [reflexivity|]. change (all_bits (b :: r)) with (byte_bits b ++ all_bits r). rewrite app_length, IH. cbn [length byte_bits map]. lia. Qed.
Lemma byte_at {A} (l : list A) k d : (k < length l)%nat -> l = firstn k l ++ nth k l d :: skipn (S k) l.
Proof.
  revert k. induction l as [|x l IH]; intros [|k] H; cbn [length] in H; try lia; [reflexivity|]. cbn [firstn nth app]. rewrite skipn_cons. f_equal. apply IH. lia.
Qed.
Lemma firstn_mid {A} (a b c : list A) n : length a = n -> forall o, (o <= length b)%nat -> firstn (n + o) (a ++ b ++ c) = a ++ firstn o b.
Proof. intros <- o H. rewrite firstn_app_2. f_equal. rewrite firstn_app. replace (o - length b)%nat with 0%nat by lia. cbn [firstn]. now rewrite app_nil_r. Qed.
Lemma skipn_mid {A} (a b c : list A) n : length a = n -> forall o, (o <= length b)%nat -> skipn (n + o) (a ++ b ++ c) = skipn o b ++ c.
Proof.
  intros <- o H. rewrite skipn_app. replace (length a + o - length a)%nat with o by lia. rewrite skipn_all2 by lia. cbn [app].
  rewrite skipn_app. replace (o - length b)%nat with 0%nat by lia. reflexivity.
Qed.
Lemma nth_mid {A} (a b c : list A) n d : length a = n -> forall o, (o < length b)%nat -> nth (n + o) (a ++ b ++ c) d = nth o b d.
Proof. intros <- o H. rewrite app_nth2_plus, app_nth1 by exact H. reflexivity. Qed.
(** where bit i of the data is *)
Lemma locate i : 0 <= i -> exists k o, Z.to_nat (Z.shiftr i 3) = k /\ i mod 8 = o /\ 0 <= o < 8 /\ i = 8 * Z.of_nat k + o.
Proof.
  intros H. exists (Z.to_nat (i / 8)), (i mod 8). rewrite Z.shiftr_div_pow2 by lia. change (2 ^ 3) with 8. split; [reflexivity|]. split; [reflexivity|].
  pose proof (Z.mod_pos_bound i 8). pose proof (Z.div_mod i 8). assert (0 <= i / 8) by (apply Z.div_pos; lia). lia.
Qed.
Lemma split_byte data k : is_bytes data -> (k < length data)%nat ->
  exists a x c, data = a ++ x :: c /\ length a = k /\ nth k data 0 = x /\ 0 <= x < 256 /\ is_bytes a /\ is_bytes c /\
    all_bits data = all_bits a ++ byte_bits x ++ all_bits c /\ length (all_bits a) = (8 * k)%nat.
Proof.
  intros B L. pose proof (byte_at data k 0 L) as E. exists (firstn k data), (nth k data 0), (skipn (S k) data).
  assert (LA : length (firstn k data) = k) by (rewrite firstn_length; lia).
  pose proof B as B'. rewrite E in B'. unfold is_bytes in B'. rewrite Forall_app in B'. destruct B' as [BA BC]. inversion BC as [|? ? X BC']; subst.
  split; [exact E|]. split; [exact LA|]. split; [reflexivity|]. split; [exact X|]. split; [exact BA|]. split; [exact BC'|]. split.
  - rewrite E at 1. rewrite all_app. reflexivity.
  - rewrite all_len, LA. reflexivity.
Qed.
Lemma set_at_mid a x c v : set_at (a ++ x :: c) (length a) v = Some (a ++ v :: c).
Proof.
  unfold set_at. rewrite app_length. cbn [length]. replace (length a <? length a + S (length c))%nat with true by (symmetry; apply Nat.ltb_lt; lia).
  rewrite firstn_app, Nat.sub_diag, firstn_all. cbn [firstn]. rewrite app_nil_r. replace (S (length a)) with (length a + 1)%nat by lia.
  rewrite skipn_app. replace (length a + 1 - length a)%nat with 1%nat by lia. rewrite skipn_all2 by lia. reflexivity.
Qed.
(** one bit written *)
Lemma write_bit data i bt : is_bytes data -> 0 <= i < 8 * Z.of_nat (length data) ->
  exists data', set_at data (Z.to_nat (Z.shiftr i 3)) (new_bit bt (i mod 8) (nth (Z.to_nat (Z.shiftr i 3)) data 0)) = Some data' /\
    is_bytes data' /\ length data' = length data /\ all_bits data' = firstn (Z.to_nat i) (all_bits data) ++ (bt =? 1) :: skipn (S (Z.to_nat i)) (all_bits data).
Proof.
  intros B H. destruct (locate i) as (k & o & -> & -> & O & E); [lia|].
  destruct (split_byte data k B) as (a & x & c & D & LA & -> & X & BA & BC & AB & L8); [lia|].
  destruct (new_bit_ok bt o x O X) as [NB BB]. exists (a ++ new_bit bt o x :: c).
  split; [rewrite D, <- LA; apply set_at_mid|].
  split; [apply Forall_app; split; [exact BA|constructor; [exact NB|exact BC]]|]. split; [rewrite D, !app_length; reflexivity|].
  rewrite AB, all_app. change (all_bits (new_bit bt o x :: c)) with (byte_bits (new_bit bt o x) ++ all_bits c). rewrite BB.
  replace (Z.to_nat i) with (8 * k + Z.to_nat o)%nat by lia.
  rewrite (firstn_mid _ _ _ (8 * k)%nat L8) by (rewrite bits8; lia).
  replace (S (8 * k + Z.to_nat o)) with (8 * k + S (Z.to_nat o))%nat by lia.
  rewrite (skipn_mid _ _ _ (8 * k)%nat L8) by (rewrite bits8; lia).
  rewrite <- !app_assoc. reflexivity.
Qed.
Lemma read_bit data i : is_bytes data -> 0 <= i < 8 * Z.of_nat (length data) ->
  exists x, nth_error data (Z.to_nat (Z.shiftr i 3)) = Some x /\ Z.land (Z.shiftr x (i mod 8)) 1 = bit (nth (Z.to_nat i) (all_bits data) false).
Proof.
  intros B H. destruct (locate i) as (k & o & -> & -> & O & E); [lia|].
  destruct (split_byte data k B) as (a & x & c & D & LA & _ & X & BA & BC & AB & L8); [lia|].
  exists x. split; [rewrite D, nth_error_app2, LA, Nat.sub_diag by lia; reflexivity|].
  rewrite (element_ok o x O X), AB. replace (Z.to_nat i) with (8 * k + Z.to_nat o)%nat by lia. rewrite (nth_mid _ _ _ (8 * k)%nat) by (rewrite ?bits8; lia). reflexivity.
Qed.

(** ** The operations *)
Lemma bytes_length_ok n : 0 <= n -> bytes_length n = (n + 7) / 8.
Proof. intros H. unfold bytes_length. rewrite Z.shiftr_div_pow2 by lia. change (2 ^ 3) with 8. Z.to_euclidean_division_equations; lia. Qed.
Lemma room v l : holds v l -> (length l <= 8 * length (bv_data v))%nat.
Proof. intros (_ & _ & r & E). pose proof (f_equal (@length bool) E) as L. rewrite all_len, app_length in L. lia. Qed.
(** one more bit: the byte after the last is added when needed *)
Lemma grow_ok v l : holds v l -> let d := grow (bv_length v + 1) (bv_data v) in
  is_bytes d /\ (length l < 8 * length d)%nat /\
  ((all_bits d = all_bits (bv_data v) /\ length d = length (bv_data v)) \/
   (all_bits (bv_data v) = l /\ all_bits d = l ++ repeat false 8 /\ length d = S (length (bv_data v)))).
Proof.
  intros H. pose proof (room _ _ H) as R. destruct H as (B & L & r & E). unfold grow. rewrite bytes_length_ok by lia. rewrite L.
  destruct (Z.ltb_spec (Z.of_nat (length (bv_data v))) ((Z.of_nat (length l) + 1 + 7) / 8)) as [G|G].
  - assert (LE : length l = (8 * length (bv_data v))%nat) by (Z.to_euclidean_division_equations; lia).
    split; [apply Forall_app; split; [exact B|constructor; [lia|constructor]]|]. split; [rewrite app_length; cbn [length]; lia|]. right.
    assert (Er : r = []) by (apply (f_equal (@length bool)) in E; rewrite all_len, app_length in E; destruct r; [reflexivity|cbn [length] in E; lia]).
    rewrite Er, app_nil_r in E. split; [exact E|]. split; [rewrite all_app, E; reflexivity|rewrite app_length; cbn [length]; lia].
  - split; [exact B|]. split; [Z.to_euclidean_division_equations; lia|]. left. split; reflexivity.
Qed.
Lemma append_full v l bt : holds v l -> Z.of_nat (length l) < 2 ^ 32 ->
  exists v', bv_append v bt = Some v' /\ holds v' (l ++ [bt =? 1]) /\
    (forall x rest, all_bits (bv_data v) = l ++ x :: rest -> all_bits (bv_data v') = l ++ (bt =? 1) :: rest /\ length (bv_data v') = length (bv_data v)).
Proof.
  intros H M. destruct (grow_ok _ _ H) as (B & G & C). destruct H as (B0 & L & r & E). unfold bv_append. cbv zeta.
  set (d := grow (bv_length v + 1) (bv_data v)) in *. rewrite L. rewrite Z.mod_small by lia.
  fold (new_bit bt (Z.of_nat (length l) mod 8) (nth (Z.to_nat (Z.shiftr (Z.of_nat (length l)) 3)) d 0)).
  destruct (write_bit d (Z.of_nat (length l)) bt B) as (d' & -> & B' & L' & A'); [lia|]. rewrite Nat2Z.id in A'.
  assert (F : firstn (length l) (all_bits d) = l).
  { destruct C as [[-> _]|(_ & -> & _)]; [rewrite E|]; rewrite firstn_app, Nat.sub_diag, firstn_all, app_nil_r; reflexivity. }
  rewrite F in A'. eexists. split; [reflexivity|]. cbn [bv_data bv_length]. split.
  - split; [exact B'|]. cbn [bv_data bv_length]. split; [rewrite app_length; cbn [length]; lia|]. exists (skipn (S (length l)) (all_bits d)). rewrite A', <- app_assoc. reflexivity.
  - intros x rest E2. destruct C as [[ED LD]|(E3 & _)].
    + rewrite A', ED, E2, L', LD. split; [|reflexivity]. replace (S (length l)) with (length l + 1)%nat by lia. rewrite skipn_app, skipn_all2 by lia.
      replace (length l + 1 - length l)%nat with 1%nat by lia. reflexivity.
    + exfalso. rewrite E3 in E2. apply (f_equal (@length bool)) in E2. rewrite app_length in E2. cbn [length] in E2. lia.
Qed.
Lemma assert_in v l i : holds v l -> index_assert v i = true <-> 0 <= i < Z.of_nat (length l).
Proof. intros (_ & L & _). unfold index_assert. rewrite L, negb_true_iff, orb_false_iff, Z.ltb_ge, Z.leb_gt. lia. Qed.
Lemma assert_out v l i : holds v l -> ~ 0 <= i < Z.of_nat (length l) -> index_assert v i = false.
Proof. intros H N. destruct (index_assert v i) eqn:E; [|reflexivity]. apply (assert_in _ _ _ H) in E. contradiction. Qed.
Lemma element_full v l i : holds v l -> bv_element v i = if (0 <=? i) && (i <? Z.of_nat (length l)) then Some (bit (nth (Z.to_nat i) l false)) else None.
Proof.
  intros H. unfold bv_element. destruct ((0 <=? i) && (i <? Z.of_nat (length l))) eqn:C.
  - rewrite andb_true_iff, Z.leb_le, Z.ltb_lt in C. rewrite (proj2 (assert_in _ _ _ H) C). pose proof (room _ _ H). destruct H as (B & L & r & E).
    destruct (read_bit (bv_data v) i B) as (x & -> & ->); [lia|]. rewrite E, app_nth1 by lia. reflexivity.
  - rewrite (assert_out _ _ _ H); [reflexivity|]. intros C'. rewrite andb_false_iff, Z.leb_gt, Z.ltb_ge in C. lia.
Qed.
Lemma set_full v l bt i : holds v l -> 0 <= i < Z.of_nat (length l) ->
  exists v', bv_set v bt i = Some v' /\ holds v' (firstn (Z.to_nat i) l ++ (bt =? 1) :: skipn (S (Z.to_nat i)) l).
Proof.
  intros H R. unfold bv_set. rewrite (proj2 (assert_in _ _ _ H) R). pose proof (room _ _ H) as Q. destruct H as (B & L & r & E). cbv zeta.
  fold (new_bit bt (i mod 8) (nth (Z.to_nat (Z.shiftr i 3)) (bv_data v) 0)).
  destruct (write_bit (bv_data v) i bt B) as (d' & -> & B' & L' & A'); [lia|]. eexists. split; [reflexivity|]. split; [exact B'|]. cbn [bv_data bv_length]. split.
  - rewrite app_length, firstn_length. cbn [length]. rewrite skipn_length. lia.
  - exists r. rewrite A', E. rewrite firstn_app, skipn_app.
    replace (Z.to_nat i - length l)%nat with 0%nat by lia. replace (S (Z.to_nat i) - length l)%nat with 0%nat by lia. cbn [firstn skipn].
    rewrite app_nil_r, <- app_assoc. reflexivity.
Qed.
Lemma first8 b : byte_bits b = firstn 7 (byte_bits b) ++ [nth 7 (byte_bits b) false].
Proof. reflexivity. Qed.
Lemma shift_higher_ok c b : is_bytes b ->
  exists r h, shift_higher (bit c) b = (r, bit h) /\ is_bytes r /\ length r = length b /\ all_bits r ++ [h] = c :: all_bits b.
Proof.
  revert c. induction b as [|x b IH]; intros c B.
  - exists [], c. cbn. split; [reflexivity|]. split; [constructor|]. split; reflexivity.
  - inversion B as [|? ? X B']; subst. cbn [shift_higher]. cbv zeta. fold (high c x). destruct (high_ok c x X) as (HB & HX & ->).
    destruct (IH (nth 7 (byte_bits x) false) B') as (r & h & -> & BR & LR & E). exists (high c x :: r), h. split; [reflexivity|].
    split; [constructor; assumption|]. split; [cbn [length]; lia|].
    change (all_bits (high c x :: r)) with (byte_bits (high c x) ++ all_bits r). change (all_bits (x :: b)) with (byte_bits x ++ all_bits b).
    rewrite <- app_assoc, E, HX. reflexivity.
Qed.
Lemma bit_inj a b : bit a = bit b -> a = b.
Proof. destruct a, b; cbn; intros; try reflexivity; discriminate. Qed.
Lemma shift_lower_rev_ok c b : is_bytes b ->
  exists r h, shift_lower_rev (byte (Z.shiftl (bit c) 7)) b = (r, byte (Z.shiftl (bit h) 7)) /\ is_bytes r /\ length r = length b /\
    h :: all_bits (rev r) = all_bits (rev b) ++ [c].
Proof.
  revert c. induction b as [|x b IH]; intros c B.
  - exists [], c. cbn. split; [reflexivity|]. split; [constructor|]. split; reflexivity.
  - inversion B as [|? ? X B']; subst. cbn [shift_lower_rev]. cbv zeta. fold (low c x). destruct (low_ok c x X) as (HB & HX & ->).
    destruct (IH (nth 0 (byte_bits x) false) B') as (r & h & -> & BR & LR & E). exists (low c x :: r), h. split; [reflexivity|].
    split; [constructor; assumption|]. split; [cbn [length]; lia|]. cbn [rev]. rewrite !all_app. rewrite app_comm_cons, E, <- !app_assoc. f_equal.
    change (all_bits [low c x]) with (byte_bits (low c x) ++ []). rewrite HX. reflexivity.
Qed.
Lemma is_bytes_rev b : is_bytes b -> is_bytes (rev b).
Proof. unfold is_bytes. rewrite !Forall_forall. intros H x I. apply H. now apply in_rev. Qed.
Lemma shift_lower_ok c b : is_bytes b ->
  exists r h, shift_lower (bit c) b = (r, bit h) /\ is_bytes r /\ length r = length b /\ h :: all_bits r = all_bits b ++ [c].
Proof.
  intros B. destruct (shift_lower_rev_ok c (rev b) (is_bytes_rev _ B)) as (r & h & E & BR & LR & A). unfold shift_lower. rewrite E.
  exists (rev r), h. split; [f_equal; destruct h; reflexivity|]. split; [apply is_bytes_rev, BR|]. split; [rewrite !rev_length in *; exact LR|].
  rewrite rev_involutive in A. exact A.
Qed.
Lemma grow_prefix v l : holds v l -> exists r, all_bits (grow (bv_length v + 1) (bv_data v)) = l ++ r.
Proof.
  intros H. destruct (grow_ok _ _ H) as (_ & _ & [[-> _]|(_ & -> & _)]); [|now eexists]. destruct H as (_ & _ & r & ->). now eexists.
Qed.
Lemma firstn_more {A} (l r : list A) n : (length l <= n)%nat -> firstn n (l ++ r) = l ++ firstn (n - length l) r.
Proof. intros H. rewrite firstn_app, (firstn_all2 l) by exact H. reflexivity. Qed.
Lemma insert_full v l bt i : holds v l -> 0 <= i < Z.of_nat (length l) ->
  exists v', bv_insert v bt i = Some v' /\ holds v' (firstn (Z.to_nat i) l ++ (bt =? 1) :: skipn (Z.to_nat i) l).
Proof.
  intros H R. unfold bv_insert. rewrite (proj2 (assert_in _ _ _ H) R). destruct (grow_ok _ _ H) as (B & G & _). destruct (grow_prefix _ _ H) as (r & E).
  destruct H as (_ & L & _). cbv zeta. set (d := grow (bv_length v + 1) (bv_data v)) in *. clearbody d.
  destruct (locate i) as (k & o & -> & -> & O & EI); [lia|]. destruct (split_byte d k B) as (a & x & c & D & LA & -> & X & BA & BC & AB & L8); [lia|].
  fold (ins_byte bt o x). destruct (ins_byte_ok bt o x O X) as (NB & NX). rewrite (proj2 (proj2 (high_ok false x X))).
  assert (S1 : set_at d k (ins_byte bt o x) = Some (a ++ ins_byte bt o x :: c)) by (rewrite D, <- LA; apply set_at_mid). rewrite S1.
  assert (S2 : skipn (S k) d = c).
  { rewrite D, skipn_app, skipn_all2 by lia. replace (S k - length a)%nat with 1%nat by lia. reflexivity. }
  assert (S3 : skipn (S k) (a ++ ins_byte bt o x :: c) = c).
  { rewrite skipn_app, skipn_all2 by lia. replace (S k - length a)%nat with 1%nat by lia. reflexivity. }
  assert (S4 : firstn (S k) (a ++ ins_byte bt o x :: c) = a ++ [ins_byte bt o x]).
  { rewrite firstn_app, firstn_all2 by lia. replace (S k - length a)%nat with 1%nat by lia. reflexivity. }
  rewrite S3, S4. destruct (shift_higher_ok (nth 7 (byte_bits x) false) c BC) as (c' & h & -> & BC' & LC & EC). cbn [fst].
  eexists. split; [reflexivity|]. split; [cbn [bv_data]; apply Forall_app; split; [apply Forall_app; split; [exact BA|constructor; [exact NB|constructor]]|exact BC']|].
  cbn [bv_data bv_length]. split; [rewrite app_length, firstn_length; cbn [length]; rewrite skipn_length; lia|].
  rewrite <- app_assoc. rewrite !all_app. change (all_bits [ins_byte bt o x]) with (byte_bits (ins_byte bt o x) ++ []). rewrite app_nil_r, NX.
  (* everything as a prefix of the longer list *)
  assert (P : firstn (Z.to_nat i) (all_bits d) = all_bits a ++ firstn (Z.to_nat o) (byte_bits x)).
  { rewrite AB. replace (Z.to_nat i) with (8 * k + Z.to_nat o)%nat by lia. apply firstn_mid; [exact L8|rewrite bits8; lia]. }
  assert (Q : skipn (Z.to_nat i) (all_bits d) = (firstn (7 - Z.to_nat o) (skipn (Z.to_nat o) (byte_bits x)) ++ all_bits c') ++ [h]).
  { rewrite AB. replace (Z.to_nat i) with (8 * k + Z.to_nat o)%nat by lia. rewrite (skipn_mid _ _ _ (8 * k)%nat L8) by (rewrite bits8; lia).
    rewrite <- app_assoc, EC. assert (O' : o = 0 \/ o = 1 \/ o = 2 \/ o = 3 \/ o = 4 \/ o = 5 \/ o = 6 \/ o = 7) by lia.
    destruct O' as [->|[->|[->|[->|[->|[->|[->| ->]]]]]]]; reflexivity. }
  rewrite E in P, Q. rewrite firstn_app in P. rewrite skipn_app in Q. replace (Z.to_nat i - length l)%nat with 0%nat in P, Q by lia. cbn [firstn skipn] in P, Q. rewrite app_nil_r in P.
  assert (F : exists rest, firstn (7 - Z.to_nat o) (skipn (Z.to_nat o) (byte_bits x)) ++ all_bits c' = skipn (Z.to_nat i) l ++ rest).
  { assert (RN : r <> []). { intros ->. apply (f_equal (@length bool)) in E. rewrite all_len, app_nil_r in E. lia. }
    destruct (exists_last RN) as (r' & h' & ->). rewrite app_assoc in Q. apply app_inj_tail in Q. destruct Q as [Q _]. exists r'. symmetry. exact Q. }
  destruct F as (rest & F). exists rest. rewrite <- !app_assoc. cbn [app]. rewrite F. rewrite app_assoc, <- P. reflexivity.
Qed.
Lemma all_firstn n d : all_bits (firstn n d) = firstn (8 * n) (all_bits d).
Proof.
  revert d. induction n as [|n IH]; intros d; [reflexivity|]. destruct d as [|x d]; [cbn [firstn]; now rewrite firstn_nil|]. cbn [firstn].
  change (all_bits (x :: firstn n d)) with (byte_bits x ++ all_bits (firstn n d)). change (all_bits (x :: d)) with (byte_bits x ++ all_bits d).
  rewrite IH. replace (8 * S n)%nat with (8 + 8 * n)%nat by lia. reflexivity.
Qed.
Lemma delete_full v l i : holds v l -> 0 <= i < Z.of_nat (length l) ->
  exists v', bv_delete v i = Some v' /\ holds v' (firstn (Z.to_nat i) l ++ skipn (S (Z.to_nat i)) l).
Proof.
  intros H R. unfold bv_delete. rewrite (proj2 (assert_in _ _ _ H) R). pose proof (room _ _ H) as G. destruct H as (B & L & r & E). cbv zeta.
  set (d := bv_data v) in *. clearbody d.
  destruct (locate i) as (k & o & -> & -> & O & EI); [lia|]. destruct (split_byte d k B) as (a & x & c & D & LA & -> & X & BA & BC & AB & L8); [lia|].
  assert (S2 : skipn (S k) d = c).
  { rewrite D, skipn_app, skipn_all2 by lia. replace (S k - length a)%nat with 1%nat by lia. reflexivity. }
  assert (S4 : firstn (S k) d = a ++ [x]).
  { rewrite D, firstn_app, firstn_all2 by lia. replace (S k - length a)%nat with 1%nat by lia. reflexivity. }
  rewrite S2, S4. destruct (shift_lower_ok false c BC) as (c' & h & EC & BC' & LC & AC). change (bit false) with 0 in EC. rewrite EC.
  fold (del_byte h o x). destruct (del_byte_ok h o x O X) as (NB & NX).
  assert (S1 : set_at ((a ++ [x]) ++ c') k (del_byte h o x) = Some (a ++ del_byte h o x :: c')) by (rewrite <- app_assoc, <- LA; apply set_at_mid). rewrite S1.
  set (d' := a ++ del_byte h o x :: c'). assert (BD : is_bytes d') by (apply Forall_app; split; [exact BA|constructor; assumption]).
  assert (LD : length d' = length d) by (unfold d'; rewrite D, !app_length; cbn [length]; lia).
  assert (P : firstn (Z.to_nat i) (all_bits d) = all_bits a ++ firstn (Z.to_nat o) (byte_bits x)).
  { rewrite AB. replace (Z.to_nat i) with (8 * k + Z.to_nat o)%nat by lia. apply firstn_mid; [exact L8|rewrite bits8; lia]. }
  assert (Q : skipn (S (Z.to_nat i)) (all_bits d) = skipn (S (Z.to_nat o)) (byte_bits x) ++ all_bits c).
  { rewrite AB. replace (S (Z.to_nat i)) with (8 * k + S (Z.to_nat o))%nat by lia. apply skipn_mid; [exact L8|rewrite bits8; lia]. }
  assert (AD : all_bits d' = firstn (Z.to_nat i) (all_bits d) ++ skipn (S (Z.to_nat i)) (all_bits d) ++ [false]).
  { unfold d'. rewrite all_app. change (all_bits (del_byte h o x :: c')) with (byte_bits (del_byte h o x) ++ all_bits c'). rewrite NX, P, Q.
    rewrite <- !app_assoc. cbn [app]. rewrite AC. reflexivity. }
  rewrite E in AD. rewrite firstn_app, skipn_app in AD. replace (Z.to_nat i - length l)%nat with 0%nat in AD by lia.
  replace (S (Z.to_nat i) - length l)%nat with 0%nat in AD by lia. cbn [firstn skipn] in AD. rewrite app_nil_r in AD.
  set (l' := firstn (Z.to_nat i) l ++ skipn (S (Z.to_nat i)) l). assert (LL : Z.of_nat (length l') = bv_length v - 1).
  { unfold l'. rewrite app_length, firstn_length, skipn_length. lia. }
  assert (AD' : all_bits d' = l' ++ r ++ [false]) by (rewrite AD; unfold l'; rewrite <- !app_assoc; reflexivity).
  eexists. split; [reflexivity|]. rewrite bytes_length_ok by lia. destruct (Z.ltb_spec ((bv_length v - 1 + 7) / 8) (Z.of_nat (length d'))) as [T|T].
  - split; [cbn [bv_data]; unfold is_bytes in *; rewrite <- (firstn_skipn (Z.to_nat ((bv_length v - 1 + 7) / 8)) d') in BD; apply Forall_app in BD; apply BD|].
    cbn [bv_data bv_length]. split; [symmetry; exact LL|]. rewrite all_firstn, AD'.
    exists (firstn (8 * Z.to_nat ((bv_length v - 1 + 7) / 8) - length l') (r ++ [false])). apply firstn_more. clear - LL. Z.to_euclidean_division_equations; lia.
  - split; [exact BD|]. cbn [bv_data bv_length]. split; [symmetry; exact LL|]. exists (r ++ [false]). exact AD'.
Qed.

(** ** roinput *)
Fixpoint append_list (bs : list Z) (v : bitvector) : option bitvector :=
  match bs with [] => Some v | b :: bs => match bv_append v b with Some v => append_list bs v | None => None end end.
Lemma append_list_app a b v : append_list (a ++ b) v = match append_list a v with Some v => append_list b v | None => None end.
Proof. revert v. induction a as [|x a IH]; intros v; cbn [app append_list]; [reflexivity|]. destruct (bv_append v x); [apply IH|reflexivity]. Qed.
Lemma append_list_full bs v l : holds v l -> Z.of_nat (length l + length bs) <= 2 ^ 32 ->
  exists v', append_list bs v = Some v' /\ holds v' (l ++ map (fun b => b =? 1) bs) /\
    (forall rest, all_bits (bv_data v) = l ++ rest -> (length bs <= length rest)%nat ->
      all_bits (bv_data v') = l ++ map (fun b => b =? 1) bs ++ skipn (length bs) rest /\ length (bv_data v') = length (bv_data v)).
Proof.
  revert v l. induction bs as [|b bs IH]; intros v l H M.
  - exists v. cbn [map]. rewrite app_nil_r. split; [reflexivity|]. split; [exact H|]. intros rest E _. cbn [length skipn app]. split; [exact E|reflexivity].
  - cbn [length] in M. destruct (append_full v l b H) as (v1 & E1 & H1 & A1); [lia|]. cbn [append_list]. rewrite E1.
    destruct (IH v1 (l ++ [b =? 1]) H1) as (v' & E' & H' & A'); [rewrite app_length; cbn [length]; lia|]. exists v'. split; [exact E'|].
    cbn [map]. rewrite <- app_assoc in H'. split; [exact H'|]. intros rest E L. destruct rest as [|x rest]; [cbn [length] in L; lia|].
    destruct (A1 x rest E) as [E2 L2]. destruct (A' rest) as [E3 L3]; [rewrite E2, <- app_assoc; reflexivity|cbn [length] in L; lia|].
    rewrite E3, L3, L2. rewrite <- app_assoc. split; reflexivity.
Qed.
Definition bits_of (x : Z) (i n : nat) : list Z := map (fun k => byte (Z.land (Z.shiftr x (Z.of_nat k)) 1)) (seq i n).
Lemma append_bits_list x i n v : append_bits x i n v = append_list (bits_of x i n) v.
Proof. revert i v. induction n as [|n IH]; intros i v; [reflexivity|]. cbn [append_bits bits_of seq map append_list]. destruct (bv_append v _); [apply IH|reflexivity]. Qed.
Lemma byte_bit x k : byte (Z.land (Z.shiftr x (Z.of_nat k)) 1) = bit (Z.testbit x (Z.of_nat k)).
Proof.
  assert (A : Z.land (Z.shiftr x (Z.of_nat k)) 1 = Z.shiftr x (Z.of_nat k) mod 2) by (apply (Z.land_ones _ 1); lia). rewrite A. unfold byte.
  rewrite <- Z.bit0_mod, Z.shiftr_spec, Z.add_0_l by lia. destruct (Z.testbit x (Z.of_nat k)); reflexivity.
Qed.
Lemma is_one b : (bit b =? 1) = b. Proof. destruct b; reflexivity. Qed.
Lemma bits_of_ok x n : map (fun b => b =? 1) (bits_of x 0 n) = int_bits x n.
Proof. unfold bits_of, int_bits. rewrite map_map. apply map_ext. intros k. rewrite byte_bit. apply is_one. Qed.
Lemma bits_of_len x i n : length (bits_of x i n) = n.
Proof. unfold bits_of. rewrite map_length, seq_length. reflexivity. Qed.
Lemma append_bits_full x n v l : holds v l -> Z.of_nat (length l + n) <= 2 ^ 32 ->
  exists v', append_bits x 0 n v = Some v' /\ holds v' (l ++ int_bits x n).
Proof.
  intros H M. rewrite append_bits_list. destruct (append_list_full (bits_of x 0 n) v l H) as (v' & E & H' & _); [rewrite bits_of_len; exact M|].
  exists v'. rewrite bits_of_ok in H'. split; assumption.
Qed.
Lemma append_bytes_full bs v l : holds v l -> Z.of_nat (length l + 8 * length bs) <= 2 ^ 32 ->
  exists v', append_bytes bs v = Some v' /\ holds v' (l ++ all_bits bs).
Proof.
  revert v l. induction bs as [|b bs IH]; intros v l H M.
  - exists v. cbn. rewrite app_nil_r. split; [reflexivity|exact H].
  - cbn [length] in M. destruct (append_bits_full b 8 v l H) as (v1 & E1 & H1); [lia|]. cbn [append_bytes]. rewrite E1.
    destruct (IH v1 _ H1) as (v' & E' & H'); [rewrite app_length; unfold int_bits; rewrite map_length, seq_length; lia|]. exists v'. split; [exact E'|].
    rewrite <- app_assoc in H'. exact H'.
Qed.
Lemma append_fields_list fs v : append_fields fs v = append_list (flat_map (fun f => bits_of f 0 255) fs) v.
Proof.
  revert v. induction fs as [|f fs IH]; intros v; [reflexivity|]. cbn [append_fields]. change (flat_map (fun f => bits_of f 0 255) (f :: fs)) with (bits_of f 0 255 ++ flat_map (fun f => bits_of f 0 255) fs).
  rewrite append_list_app, append_bits_list. destruct (append_list (bits_of f 0 255) v); [apply IH|reflexivity].
Qed.
Lemma copy_bits_list v l n i res : holds v l -> (i + n <= length l)%nat -> copy_bits v i n res = append_list (map bit (firstn n (skipn i l))) res.
Proof.
  intros H. revert i res. induction n as [|n IH]; intros i res L; [reflexivity|]. cbn [copy_bits]. rewrite (element_full v l _ H).
  replace ((0 <=? Z.of_nat i) && (Z.of_nat i <? Z.of_nat (length l))) with true by (symmetry; rewrite andb_true_iff, Z.leb_le, Z.ltb_lt; lia).
  rewrite Nat2Z.id. assert (E : skipn i l = nth i l false :: skipn (S i) l).
  { clear - L. revert l L. induction i as [|i IH]; intros [|x l] L; cbn [length] in L; try lia; [reflexivity|]. rewrite !skipn_cons. cbn [nth]. apply IH. lia. }
  rewrite E. cbn [firstn map append_list]. destruct (bv_append res _); [apply IH; lia|reflexivity].
Qed.
Lemma repeat_bits n : all_bits (repeat 0 n) = repeat false (8 * n).
Proof. induction n as [|n IH]; [reflexivity|]. change (all_bits (repeat 0 (S n))) with (byte_bits 0 ++ all_bits (repeat 0 n)). rewrite IH. replace (8 * S n)%nat with (8 + 8 * n)%nat by lia. reflexivity. Qed.
Lemma skipn_repeat {A} (x : A) n m : skipn n (repeat x m) = repeat x (m - n).
Proof. revert m. induction n as [|n IH]; intros [|m]; [reflexivity..|]. cbn [repeat]. rewrite skipn_cons. apply IH. Qed.
Lemma fresh_holds n : holds (new_bitvector (repeat 0 n) 0) [].
Proof.
  split; [|split; [reflexivity|eexists; reflexivity]]. cbn [new_bitvector bv_data]. induction n; [constructor|constructor; [lia|assumption]].
Qed.
Definition field_bits (fs : list Z) : list bool := flat_map (fun f => int_bits f 255) fs.
Lemma field_bits_len fs : length (field_bits fs) = (255 * length fs)%nat.
Proof. induction fs as [|f fs IH]; [reflexivity|]. change (field_bits (f :: fs)) with (int_bits f 255 ++ field_bits fs). rewrite app_length, IH. unfold int_bits. rewrite map_length, seq_length. cbn [length]. lia. Qed.
Lemma map_flat {A B C} (g : B -> C) (f : A -> list B) l : map g (flat_map f l) = flat_map (fun x => map g (f x)) l.
Proof. induction l as [|x l IH]; [reflexivity|]. cbn [flat_map]. rewrite map_app, IH. reflexivity. Qed.
Lemma ro_bytes_full r fs l : ro_holds r fs l -> Z.of_nat (255 * length fs + length l) <= 2 ^ 32 ->
  exists out, ro_bytes r = Some out /\ length out = (32 * length fs + (length l + 7) / 8)%nat /\
    all_bits out = field_bits fs ++ l ++ repeat false (8 * length out - 255 * length fs - length l).
Proof.
  intros [F H] M. unfold ro_bytes. rewrite F. pose proof H as (_ & L & _). rewrite L.
  assert (N : Z.to_nat ((Z.of_nat (length l) + 7) / 8) = ((length l + 7) / 8)%nat).
  { replace (Z.of_nat (length l) + 7) with (Z.of_nat (length l + 7)) by lia. change 8 with (Z.of_nat 8) at 1. rewrite <- Nat2Z.inj_div. apply Nat2Z.id. }
  rewrite N, Nat2Z.id. set (n := ((length l + 7) / 8 + 32 * length fs)%nat). cbv zeta.
  rewrite append_fields_list. clear N.
  assert (Q : (length l <= 8 * ((length l + 7) / 8))%nat).
  { pose proof (Nat.div_mod (length l + 7) 8). pose proof (Nat.mod_upper_bound (length l + 7) 8). lia. }
  set (xs := flat_map (fun f => bits_of f 0 255) fs). assert (XL : length xs = (255 * length fs)%nat).
  { unfold xs. clear. induction fs as [|f fs IH]; [reflexivity|]. cbn [flat_map length]. rewrite app_length, bits_of_len, IH. lia. }
  destruct (append_list_full (xs ++ map bit l) _ _ (fresh_holds n)) as (v' & E & H' & A'); [cbn [length]; rewrite app_length, map_length, XL; lia|].
  rewrite append_list_app in E. destruct (append_list xs (new_bitvector (repeat 0 n) 0)) as [v1|]; [|discriminate].
  rewrite (copy_bits_list _ l _ _ _ H) by lia. cbn [skipn]. rewrite firstn_all. rewrite E.
  destruct (A' (repeat false (8 * n))) as [E3 L3]; [cbn [new_bitvector bv_data app]; apply repeat_bits|rewrite repeat_length, app_length, map_length, XL; unfold n; lia|].
  cbn [new_bitvector bv_data] in L3. rewrite L3, Nat.ltb_irrefl. eexists. split; [reflexivity|]. rewrite repeat_length in L3. split; [rewrite L3; unfold n; lia|].
  rewrite E3, L3, skipn_repeat, app_length, map_length, XL, map_app, map_map. cbn [app]. unfold xs. rewrite map_flat, <- app_assoc. f_equal.
  - unfold field_bits. apply flat_map_ext. intros f. apply bits_of_ok.
  - f_equal; [rewrite <- (map_id l) at 2; apply map_ext, is_one|]. f_equal. lia.
Qed.
(** *** Fields *)
Lemma lor_high c b i : 0 <= c < 2 ^ Z.of_nat i -> Z.lor c (Z.shiftl (bit b) (Z.of_nat i)) = c + 2 ^ Z.of_nat i * bit b.
Proof.
  intros H. rewrite Z.shiftl_mul_pow2 by lia. rewrite (Z.mul_comm (bit b)). rewrite Z.add_nocarry_lxor, Z.lxor_lor; [reflexivity|..];
    apply Z.bits_inj'; intros n Hn; rewrite Z.land_spec, Z.bits_0, (Z.mul_comm (2 ^ _)), <- Z.shiftl_mul_pow2, Z.shiftl_spec by lia;
    (destruct (Z.ltb_spec n (Z.of_nat i)) as [S|S]; [rewrite (Z.testbit_neg_r (bit b)) by lia; apply andb_false_r|]);
    (replace (Z.testbit c n) with false; [reflexivity|]); symmetry; (destruct (Z.eq_dec c 0) as [->|]; [apply Z.bits_0|]);
    apply Z.bits_above_log2; try lia; apply Z.log2_lt_pow2; try lia; apply (Z.lt_le_trans _ (2 ^ Z.of_nat i)); try lia; apply Z.pow_le_mono_r; lia.
Qed.
Lemma bits_value_range l : 0 <= bits_value l < 2 ^ Z.of_nat (length l).
Proof.
  induction l as [|b l IH]; [cbn; lia|]. cbn [length bits_value]. rewrite Nat2Z.inj_succ, Z.pow_succ_r by lia. destruct b; cbn [bit]; lia.
Qed.
Lemma chunk_bits_ok v l n i idx chunk : holds v l -> 0 <= chunk < 2 ^ Z.of_nat i -> (idx + n <= length l)%nat ->
  chunk_bits v (Z.of_nat idx) i n chunk = Some (chunk + 2 ^ Z.of_nat i * bits_value (firstn n (skipn idx l))).
Proof.
  intros H. revert i idx chunk. induction n as [|n IH]; intros i idx chunk C L; [cbn [chunk_bits firstn bits_value]; f_equal; lia|].
  cbn [chunk_bits]. rewrite (element_full v l _ H).
  replace ((0 <=? Z.of_nat idx) && (Z.of_nat idx <? Z.of_nat (length l))) with true by (symmetry; rewrite andb_true_iff, Z.leb_le, Z.ltb_lt; lia).
  rewrite Nat2Z.id, lor_high by exact C. replace (Z.of_nat idx + 1) with (Z.of_nat (S idx)) by lia.
  assert (P : 2 ^ Z.of_nat (S i) = 2 * 2 ^ Z.of_nat i) by (rewrite Nat2Z.inj_succ, Z.pow_succ_r by lia; reflexivity).
  rewrite IH; [|rewrite P; destruct (nth idx l false); cbn [bit]; lia|lia]. f_equal.
  assert (E : skipn idx l = nth idx l false :: skipn (S idx) l).
  { clear - L. revert l L. induction idx as [|i IH]; intros [|x l] L; cbn [length] in L; try lia; [reflexivity|]. rewrite !skipn_cons. cbn [nth]. apply IH. lia. }
  rewrite E. cbn [firstn bits_value]. rewrite P. ring.
Qed.
Lemma groups_step fuel l : l <> [] -> groups (S fuel) l = firstn 254 l :: groups fuel (skipn 254 l).
Proof. destruct l; [congruence|reflexivity]. Qed.
Lemma skipn_skip {A} n m (l : list A) : skipn n (skipn m l) = skipn (m + n) l.
Proof. revert l. induction m as [|m IH]; intros l; [reflexivity|]. destruct l as [|x l]; [now rewrite !skipn_nil|]. cbn [Nat.add]. rewrite !skipn_cons. apply IH. Qed.
Lemma chunks_ok m v l fuel c : holds v l -> (c <= length l)%nat ->
  chunks m fuel v (Z.of_nat c) = Some (map (fun g => bits_value g mod m) (groups fuel (skipn c l))).
Proof.
  intros H. revert c. induction fuel as [|fuel IH]; intros c L; [reflexivity|]. cbn [chunks]. pose proof H as (_ & LE & _). rewrite LE. clear LE. cbv zeta.
  destruct (Z.ltb_spec (Z.of_nat c) (Z.of_nat (length l))) as [K|K].
  - rewrite groups_step by (intros E; apply (f_equal (@length bool)) in E; rewrite skipn_length in E; cbn [length] in E; lia).
    set (s := if 254 <? Z.of_nat (length l) - Z.of_nat c then 254 else Z.of_nat (length l) - Z.of_nat c).
    assert (S : exists n, s = Z.of_nat n /\ (c + n <= length l)%nat /\ firstn n (skipn c l) = firstn 254 (skipn c l) /\ skipn n (skipn c l) = skipn 254 (skipn c l)).
    { unfold s. destruct (Z.ltb_spec 254 (Z.of_nat (length l) - Z.of_nat c)) as [B|B].
      - exists 254%nat. split; [reflexivity|]. split; [lia|]. split; reflexivity.
      - exists (length l - c)%nat. split; [lia|]. split; [lia|]. rewrite <- skipn_length, firstn_all, skipn_all.
        rewrite (@firstn_all2 _ 254 (skipn c l)), (@skipn_all2 _ 254 (skipn c l)) by (rewrite skipn_length; lia). split; reflexivity. }
    destruct S as (n & -> & B & F & K2). rewrite Nat2Z.id. rewrite (chunk_bits_ok v l _ _ _ _ H) by (cbn; lia). rewrite <- Nat2Z.inj_add, IH by lia.
    rewrite F, <- K2, skipn_skip. cbn [map]. f_equal. f_equal. f_equal. change (2 ^ Z.of_nat 0) with 1. ring.
  - rewrite skipn_all2 by lia. reflexivity.
Qed.
Lemma ro_to_fields_full m r fs l : ro_holds r fs l -> ro_to_fields m r = Some (fs ++ map (fun g => bits_value g mod m) (groups (S (length l)) l)).
Proof.
  intros [F H]. unfold ro_to_fields. pose proof H as (_ & L & _). rewrite L, Nat2Z.id.
  change 0 with (Z.of_nat 0). rewrite (chunks_ok m _ l _ _ H) by lia. rewrite F. reflexivity.
Qed.
