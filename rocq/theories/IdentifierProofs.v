From Coq Require Import List String Ascii Bool Arith NArith Lia.
From Verif Require Import IdentifierModel IdentifierSpec.
Import ListNotations.
Open Scope string_scope.

(** Denotation of regular expressions and correctness of the derivative matcher *)
Inductive mat : re -> string -> Prop :=
| m_eps : mat REps ""
| m_cls f c : f c = true -> mat (RCls f) (String c "")
| m_cat a b s t : mat a s -> mat b t -> mat (RCat a b) (s ++ t)
| m_alt1 a b s : mat a s -> mat (RAlt a b) s
| m_alt2 a b s : mat b s -> mat (RAlt a b) s
| m_star0 a : mat (RStar a) ""
| m_star a s t : mat a s -> mat (RStar a) t -> mat (RStar a) (s ++ t).

Lemma app_nil (s t : string) : s ++ t = "" -> s = "" /\ t = "".
Proof. destruct s; cbn; [auto|discriminate]. Qed.
Lemma app_assoc_s (a b c : string) : (a ++ b) ++ c = a ++ b ++ c.
Proof. induction a; cbn; congruence. Qed.

Lemma mat_cls f s : mat (RCls f) s <-> exists c, s = String c "" /\ f c = true.
Proof.
  split.
  - inversion 1; subst. eauto.
  - intros (c & -> & H). now constructor.
Qed.
Lemma mat_cat a b s : mat (RCat a b) s <-> exists u v, s = u ++ v /\ mat a u /\ mat b v.
Proof.
  split.
  - inversion 1; subst. eauto.
  - intros (u & v & -> & H1 & H2). now constructor.
Qed.
Lemma mat_alt a b s : mat (RAlt a b) s <-> mat a s \/ mat b s.
Proof.
  split; [inversion 1; auto|]. intros [H|H]; [now apply m_alt1|now apply m_alt2].
Qed.
Lemma nullable_spec r : nullable r = true <-> mat r "".
Proof.
  induction r as [| |f|a IHa b IHb|a IHa b IHb|a IHa]; cbn.
  - split; [discriminate|inversion 1].
  - split; [constructor|reflexivity].
  - split; [discriminate|inversion 1].
  - rewrite andb_true_iff, IHa, IHb. split.
    + intros [H1 H2]. exact (m_cat _ _ _ _ H1 H2).
    + intros H. inversion H as [| |? ? s t H1 H2 E1 E2| | | |]; subst.
      apply app_nil in E2 as [-> ->]. auto.
  - rewrite orb_true_iff, IHa, IHb. split.
    + intros [H|H]; [now apply m_alt1|now apply m_alt2].
    + inversion 1; auto.
  - split; [constructor|reflexivity].
Qed.

Lemma star_cons a c s : mat (RStar a) (String c s) ->
  exists u v, s = u ++ v /\ mat a (String c u) /\ mat (RStar a) v.
Proof.
  remember (RStar a) as r. remember (String c s) as w. intros H. revert Heqr s Heqw.
  induction H as [| | | | | |x s1 t1 H1 _ H2 IH]; try discriminate.
  intros E s Ew. injection E as ->. destruct s1 as [|d s1]; cbn in Ew.
  - apply IH; auto.
  - injection Ew as -> <-. exists s1, t1. auto.
Qed.

Lemma deriv_spec r : forall c s, mat (deriv r c) s <-> mat r (String c s).
Proof.
  induction r as [| |f|a IHa b IHb|a IHa b IHb|a IHa]; intros c s; cbn.
  - split; inversion 1.
  - split; inversion 1.
  - destruct (f c) eqn:E; split; inversion 1; subst; try congruence; now constructor.
  - assert (HR : mat (RCat a b) (String c s) <->
        (mat a "" /\ mat b (String c s)) \/ mat (RCat (deriv a c) b) s).
    { rewrite !mat_cat. split.
      - intros (u & v & E & H1 & H2). destruct u as [|d u]; cbn in E.
        + subst v. auto.
        + injection E as -> ->. right. exists u, v. split; [reflexivity|].
          split; [now apply IHa|assumption].
      - intros [[H1 H2]|(u & v & -> & H1 & H2)].
        + exists "", (String c s). auto.
        + exists (String c u), v. split; [reflexivity|]. split; [now apply IHa|assumption]. }
    rewrite HR, <- nullable_spec, <- IHb. destruct (nullable a).
    + rewrite mat_alt. tauto.
    + intuition discriminate.
  - rewrite !mat_alt, IHa, IHb. tauto.
  - rewrite mat_cat. split.
    + intros (u & v & -> & H1 & H2). change (String c (u ++ v)) with (String c u ++ v).
      constructor; [now apply IHa|assumption].
    + intros H. apply star_cons in H as (u & v & -> & H1 & H2).
      exists u, v. split; [reflexivity|]. split; [now apply IHa|assumption].
Qed.

Lemma rmatch_spec s : forall r, rmatch r s = true <-> mat r s.
Proof.
  induction s as [|c s IH]; intros r; cbn; [apply nullable_spec|].
  now rewrite IH, deriv_spec.
Qed.

(** Class languages *)
Fixpoint sforall (f : ascii -> bool) (s : string) : bool :=
  match s with EmptyString => true | String c s' => f c && sforall f s' end.

Lemma sforall_app f s t : sforall f (s ++ t) = sforall f s && sforall f t.
Proof. induction s; cbn; [reflexivity|]. now rewrite IHs, andb_assoc. Qed.

Lemma mat_star_cls f s : mat (RStar (RCls f)) s <-> sforall f s = true.
Proof.
  induction s as [|c s IH]; cbn.
  - split; [reflexivity|constructor].
  - rewrite andb_true_iff. split.
    + intros H. apply star_cons in H as (u & v & -> & H1 & H2).
      apply mat_cls in H1 as (d & E & Hd). injection E as -> ->. cbn in *. split; [assumption|].
      now apply IH.
    + intros [H1 H2]. change (String c s) with (String c "" ++ s). constructor.
      * now constructor.
      * now apply IH.
Qed.
Lemma mat_plus_cls f s : mat (RPlus (RCls f)) s <-> s <> "" /\ sforall f s = true.
Proof.
  unfold RPlus. rewrite mat_cat. split.
  - intros (u & v & -> & H1 & H2). apply mat_cls in H1 as (c & -> & Hc). cbn.
    split; [discriminate|]. rewrite Hc. now apply mat_star_cls.
  - intros [H1 H2]. destruct s as [|c s]; [congruence|]. cbn in H2.
    apply andb_true_iff in H2 as [H2 H3]. exists (String c ""), s. split; [reflexivity|].
    split; [now constructor|now apply mat_star_cls].
Qed.
Lemma mat_upto_cls f n : forall s, mat (RUpTo (RCls f) n) s <-> sforall f s = true /\ String.length s <= n.
Proof.
  induction n as [|n IH]; intros s; cbn [RUpTo].
  - split.
    + inversion 1; cbn; auto.
    + intros [_ H]. destruct s; [constructor|cbn in H; lia].
  - unfold ROpt. split.
    + inversion 1 as [| | |a b t H1|a b t H1| |]; subst.
      * inversion H1; subst. cbn. split; [reflexivity|lia].
      * apply mat_cat in H1 as (u & v & -> & Hu & Hv). apply mat_cls in Hu as (c & -> & Hc).
        apply IH in Hv as [Hv1 Hv2]. cbn. rewrite Hc, Hv1. split; [reflexivity|lia].
    + intros [H1 H2]. destruct s as [|c s]; [apply m_alt1; constructor|].
      apply m_alt2. apply mat_cat. exists (String c ""), s. cbn in *.
      apply andb_true_iff in H1 as [Hc Hs]. split; [reflexivity|].
      split; [now constructor|]. apply IH. split; [assumption|lia].
Qed.

(** Character classes against the spec's explicit alphabets: finite checks over 256 bytes *)
Definition all_bytes : list ascii := map ascii_of_nat (seq 0 256).
Lemma all_bytes_all c : In c all_bytes.
Proof.
  unfold all_bytes. apply in_map_iff. exists (nat_of_ascii c). split.
  - apply ascii_nat_embedding.
  - apply in_seq. split; [lia|]. cbn. pose proof (nat_ascii_bounded c). lia.
Qed.
Definition mem (cs : list ascii) (c : ascii) : bool := existsb (Ascii.eqb c) cs.
Lemma mem_spec cs c : mem cs c = true <-> In c cs.
Proof.
  unfold mem. rewrite existsb_exists. split.
  - intros (x & H & E). apply Ascii.eqb_eq in E. now subst.
  - intros H. exists c. split; [assumption|apply Ascii.eqb_refl].
Qed.
Lemma class_check (f : ascii -> bool) cs :
  forallb (fun c => Bool.eqb (f c) (mem cs c)) all_bytes = true -> forall c, f c = true <-> In c cs.
Proof.
  intros H c. rewrite forallb_forall in H. specialize (H c (all_bytes_all c)).
  apply Bool.eqb_prop in H. rewrite H. apply mem_spec.
Qed.
Lemma digit_in c : is_digit c = true <-> In c digits.
Proof. apply class_check. vm_compute. reflexivity. Qed.
Lemma nonzero_in c : is_nonzero_digit c = true <-> In c (list_ascii_of_string "123456789").
Proof. apply class_check. vm_compute. reflexivity. Qed.
Lemma letter_in c : is_letter c = true <-> In c letters.
Proof. apply class_check. vm_compute. reflexivity. Qed.
Lemma local_in c : is_local c = true <-> In c (letters ++ digits ++ list_ascii_of_string "._%+-")%list.
Proof. apply class_check. vm_compute. reflexivity. Qed.
Lemma domain_in c : is_domain c = true <-> In c (letters ++ digits ++ list_ascii_of_string ".-")%list.
Proof. apply class_check. vm_compute. reflexivity. Qed.

Lemma sforall_all_in f cs s : (forall c, f c = true <-> In c cs) -> (sforall f s = true <-> all_in cs s).
Proof.
  intros H. unfold all_in. induction s as [|c s IH]; cbn.
  - split; [intros _ c []|reflexivity].
  - rewrite andb_true_iff, IH, H. split.
    + intros [H1 H2] d [->|Hd]; auto.
    + intros Hc. split; [apply Hc; auto|]. intros d Hd. apply Hc. auto.
Qed.

Lemma is_char_eq d c : is_char d c = true <-> c = d.
Proof. unfold is_char. apply Ascii.eqb_eq. Qed.

Lemma mat_char d s : mat (RCls (is_char d)) s <-> s = String d "".
Proof.
  rewrite mat_cls. split.
  - intros (c & -> & H). apply is_char_eq in H. now subst.
  - intros ->. exists d. split; [reflexivity|]. now apply is_char_eq.
Qed.

Lemma phone_match s : rmatch phone_re s = true <-> valid_phone s.
Proof.
  rewrite rmatch_spec. unfold phone_re. rewrite mat_cat. unfold valid_phone. split.
  - intros (u & v & -> & Hu & Hv). apply mat_char in Hu as ->.
    apply mat_cat in Hv as (w & x & -> & Hw & Hx). apply mat_cls in Hw as (d & -> & Hd).
    cbn [RTimes] in Hx. apply mat_cat in Hx as (y & z & -> & Hy & Hz).
    apply mat_cls in Hy as (e & -> & He). apply mat_upto_cls in Hz as [Hz1 Hz2].
    exists d, (String e z). cbn. apply nonzero_in in Hd. split; [reflexivity|].
    split; [|split; [|split; [|lia]]].
    + cbn in *. tauto.
    + intros ->. cbn in Hd. repeat (destruct Hd as [Hd|Hd]; [discriminate|]). destruct Hd.
    + apply (sforall_all_in is_digit); [exact digit_in|]. cbn. now rewrite He, Hz1.
  - intros (d & rest & -> & Hd & Hn & Hr & Hl). exists "+", (String d rest).
    split; [reflexivity|]. split; [now apply mat_char|].
    apply mat_cat. exists (String d ""), rest. split; [reflexivity|]. split.
    + apply mat_cls. exists d. split; [reflexivity|]. apply nonzero_in.
      cbn in *. destruct Hd as [<-|Hd]; [congruence|exact Hd].
    + cbn [RTimes]. destruct rest as [|e z]; [cbn in Hl; lia|].
      apply mat_cat. exists (String e ""), z. split; [reflexivity|].
      apply (sforall_all_in is_digit _ _ digit_in) in Hr. cbn in Hr.
      apply andb_true_iff in Hr as [H1 H2]. split; [apply mat_cls; eauto|].
      apply mat_upto_cls. cbn in Hl. split; [assumption|lia].
Qed.

Lemma email_match s : rmatch email_re s = true <-> valid_email s.
Proof.
  rewrite rmatch_spec. unfold email_re. rewrite mat_cat. unfold valid_email. split.
  - intros (l & v & -> & Hl & Hv). apply mat_plus_cls in Hl as [Hl1 Hl2].
    apply mat_cat in Hv as (a & v1 & -> & Ha & Hv). apply mat_char in Ha as ->.
    apply mat_cat in Hv as (d & v2 & -> & Hd & Hv). apply mat_plus_cls in Hd as [Hd1 Hd2].
    apply mat_cat in Hv as (p & t & -> & Hp & Ht). apply mat_char in Hp as ->.
    cbn [RTimes] in Ht. apply mat_cat in Ht as (t1 & t2 & -> & H1 & H2).
    apply mat_cls in H1 as (c1 & -> & H1).
    apply mat_cat in H2 as (t3 & t4 & -> & H2 & H3). apply mat_cls in H2 as (c2 & -> & H2).
    apply mat_star_cls in H3.
    exists l, d, (String c1 (String c2 t4)). split; [reflexivity|].
    split; [exact Hl1|]. split; [now apply (sforall_all_in is_local _ _ local_in)|].
    split; [exact Hd1|]. split; [now apply (sforall_all_in is_domain _ _ domain_in)|].
    split; [cbn; lia|]. apply (sforall_all_in is_letter _ _ letter_in). cbn. now rewrite H1, H2, H3.
  - intros (l & d & t & -> & Hl1 & Hl2 & Hd1 & Hd2 & Ht1 & Ht2).
    exists l, ("@" ++ d ++ "." ++ t). split; [reflexivity|].
    split. { apply mat_plus_cls. split; [exact Hl1|]. now apply (sforall_all_in is_local _ _ local_in). }
    apply mat_cat. exists "@", (d ++ "." ++ t). split; [reflexivity|]. split; [now apply mat_char|].
    apply mat_cat. exists d, ("." ++ t). split; [reflexivity|].
    split. { apply mat_plus_cls. split; [exact Hd1|]. now apply (sforall_all_in is_domain _ _ domain_in). }
    apply mat_cat. exists ".", t. split; [reflexivity|]. split; [now apply mat_char|].
    apply (sforall_all_in is_letter _ _ letter_in) in Ht2.
    destruct t as [|c1 [|c2 t]]; cbn in Ht1; try lia. cbn in Ht2.
    apply andb_true_iff in Ht2 as [H1 H2]. apply andb_true_iff in H2 as [H2 H3].
    cbn [RTimes]. apply mat_cat. exists (String c1 ""), (String c2 t). split; [reflexivity|].
    split; [apply mat_cls; eauto|]. apply mat_cat. exists (String c2 ""), t.
    split; [reflexivity|]. split; [apply mat_cls; eauto|now apply mat_star_cls].
Qed.

(** hex *)
Lemma hex_byte_check :
  forallb (fun c => forallb (fun d =>
    implb (Ascii.eqb (hex_digit (N.div (N_of_ascii c) 16)) (hex_digit (N.div (N_of_ascii d) 16)) &&
           Ascii.eqb (hex_digit (N.modulo (N_of_ascii c) 16)) (hex_digit (N.modulo (N_of_ascii d) 16)))
          (Ascii.eqb c d)) all_bytes) all_bytes = true.
Proof. vm_compute. reflexivity. Qed.
Lemma hex_byte_inj c d :
  hex_digit (N.div (N_of_ascii c) 16) = hex_digit (N.div (N_of_ascii d) 16) ->
  hex_digit (N.modulo (N_of_ascii c) 16) = hex_digit (N.modulo (N_of_ascii d) 16) -> c = d.
Proof.
  intros H1 H2. pose proof hex_byte_check as H. rewrite forallb_forall in H.
  specialize (H c (all_bytes_all c)). rewrite forallb_forall in H.
  specialize (H d (all_bytes_all d)). rewrite H1, H2, !Ascii.eqb_refl in H. cbn in H.
  now apply Ascii.eqb_eq.
Qed.
Lemma hex_inj l : forall l', hex_encode l = hex_encode l' -> l = l'.
Proof.
  induction l as [|c l IH]; intros [|d l']; cbn; intros H; try discriminate; [reflexivity|].
  injection H as H1 H2 H3. f_equal; [now apply hex_byte_inj|now apply IH].
Qed.
Lemma hex_length l : String.length (hex_encode l) = 2 * List.length l.
Proof. induction l; cbn; [reflexivity|]. rewrite IHl. lia. Qed.
Lemma hex_lower_check : forallb (fun c =>
   Ascii.eqb (lower (hex_digit (N.div (N_of_ascii c) 16))) (hex_digit (N.div (N_of_ascii c) 16)) &&
   Ascii.eqb (lower (hex_digit (N.modulo (N_of_ascii c) 16))) (hex_digit (N.modulo (N_of_ascii c) 16)))
   all_bytes = true.
Proof. vm_compute. reflexivity. Qed.
Lemma hex_lower l : to_lower (hex_encode l) = hex_encode l.
Proof.
  induction l as [|c l IH]; cbn [hex_encode to_lower]; [reflexivity|].
  pose proof hex_lower_check as H. rewrite forallb_forall in H.
  specialize (H c (all_bytes_all c)). apply andb_true_iff in H as [H1 H2].
  apply Ascii.eqb_eq in H1, H2. now rewrite H1, H2, IH.
Qed.
Lemma get_lt s : forall i c, String.get i s = Some c -> i < String.length s.
Proof. induction s as [|d s IH]; intros [|i] c H; cbn in *; try discriminate; [lia|]. apply IH in H. lia. Qed.
Lemma hex_table h : h < 16 -> String.get h hex_digits = Some (hex_digit (N.of_nat h)).
Proof. intros H. do 16 (destruct h as [|h]; [reflexivity|]). lia. Qed.
Lemma hex_of_spec l : forall s, hex_of l s <-> s = hex_encode l.
Proof.
  induction l as [|b l IH]; intros s; split.
  - now inversion 1.
  - intros ->. constructor.
  - inversion 1 as [|b' l' hi lo ch cl s' G1 G2 E R]; subst.
    pose proof (get_lt _ _ _ G1) as L1. pose proof (get_lt _ _ _ G2) as L2.
    change (String.length hex_digits) with 16 in L1, L2.
    rewrite hex_table in G1 by exact L1. rewrite hex_table in G2 by exact L2.
    injection G1 as <-. injection G2 as <-. cbn [hex_encode].
    assert (Eb : N_of_ascii b = (16 * N.of_nat hi + N.of_nat lo)%N).
    { rewrite <- (N2Nat.id (N_of_ascii b)). fold (nat_of_ascii b). rewrite E. lia. }
    assert (Ed : N.div (N_of_ascii b) 16 = N.of_nat hi) by (symmetry; apply N.div_unique with (N.of_nat lo); lia).
    assert (Em : N.modulo (N_of_ascii b) 16 = N.of_nat lo) by (symmetry; apply N.mod_unique with (N.of_nat hi); lia).
    rewrite Ed, Em. do 2 f_equal. now apply IH.
  - intros ->. cbn [hex_encode].
    pose proof (N.div_mod (N_of_ascii b) 16 ltac:(discriminate)) as Hdm.
    pose proof (N.mod_lt (N_of_ascii b) 16 ltac:(discriminate)) as Hm.
    pose proof (N_ascii_bounded b) as Hb.
    assert (Hd : (N.div (N_of_ascii b) 16 < 16)%N) by (apply N.div_lt_upper_bound; lia).
    apply hex_of_cons with (hi := N.to_nat (N.div (N_of_ascii b) 16)) (lo := N.to_nat (N.modulo (N_of_ascii b) 16)).
    + rewrite hex_table by lia. now rewrite N2Nat.id.
    + rewrite hex_table by lia. now rewrite N2Nat.id.
    + unfold nat_of_ascii. lia.
    + now apply IH.
Qed.

Lemma lower_table i c d : String.get i lower_letters = Some c -> String.get i upper_letters = Some d ->
  lower c = c /\ lower d = c.
Proof.
  intros H1 H2. pose proof (get_lt _ _ _ H1) as L. change (String.length lower_letters) with 26 in L.
  do 26 (destruct i as [|i]; [injection H1 as <-; injection H2 as <-; split; reflexivity|]). lia.
Qed.
Lemma lower_cases c : lower c = c \/
  exists i, String.get i upper_letters = Some c /\ String.get i lower_letters = Some (lower c).
Proof.
  destruct (in_range "A" "Z" c) eqn:E; [right|left; unfold lower; now rewrite E].
  assert (H : forallb (fun c => implb (in_range "A" "Z" c)
     (match String.get (nat_of_ascii c - 65) upper_letters, String.get (nat_of_ascii c - 65) lower_letters with
      | Some x, Some y => Ascii.eqb x c && Ascii.eqb y (lower c) | _, _ => false end)) all_bytes = true)
    by (vm_compute; reflexivity).
  rewrite forallb_forall in H. specialize (H c (all_bytes_all c)). rewrite E in H. cbn [implb] in H.
  exists (nat_of_ascii c - 65).
  destruct (String.get _ upper_letters); [|discriminate]. destruct (String.get _ lower_letters); [|discriminate].
  apply andb_true_iff in H as [H1 H2]. apply Ascii.eqb_eq in H1, H2. subst. now split.
Qed.
Lemma get_inj_upper i j c : String.get i upper_letters = Some c -> String.get j upper_letters = Some c -> i = j.
Proof.
  intros H1 H2. pose proof (get_lt _ _ _ H1) as L1. pose proof (get_lt _ _ _ H2) as L2.
  change (String.length upper_letters) with 26 in L1, L2.
  assert (K : forall i c, i < 26 -> String.get i upper_letters = Some c -> nat_of_ascii c = 65 + i).
  { clear. intros i c L H. do 26 (destruct i as [|i]; [injection H as <-; reflexivity|]). lia. }
  pose proof (K _ _ L1 H1). pose proof (K _ _ L2 H2). lia.
Qed.
Lemma get_inj_lower i j c : String.get i lower_letters = Some c -> String.get j lower_letters = Some c -> i = j.
Proof.
  intros H1 H2. pose proof (get_lt _ _ _ H1) as L1. pose proof (get_lt _ _ _ H2) as L2.
  change (String.length lower_letters) with 26 in L1, L2.
  assert (K : forall i c, i < 26 -> String.get i lower_letters = Some c -> nat_of_ascii c = 97 + i).
  { clear. intros i c L H. do 26 (destruct i as [|i]; [injection H as <-; reflexivity|]). lia. }
  pose proof (K _ _ L1 H1). pose proof (K _ _ L2 H2). lia.
Qed.
Lemma same_letter_spec c d : same_letter c d <-> lower c = lower d.
Proof.
  split.
  - intros [->|(i & [[H1 H2]|[H1 H2]])]; [reflexivity| |];
      destruct (lower_table _ _ _ ltac:(eassumption) ltac:(eassumption)); congruence.
  - intros E. destruct (lower_cases c) as [Hc|(i & U1 & L1)], (lower_cases d) as [Hd|(j & U2 & L2)].
    + left. congruence.
    + right. exists j. left. split; [congruence|assumption].
    + right. exists i. right. split; [assumption|congruence].
    + left. rewrite E in L1. pose proof (get_inj_lower _ _ _ L1 L2) as ->. congruence.
Qed.
Lemma case_variant_spec s : forall t, case_variant s t <-> to_lower s = to_lower t.
Proof.
  induction s as [|c s IH]; intros [|d t]; cbn [to_lower]; split; try (now inversion 1); try discriminate.
  - constructor.
  - inversion 1; subst. f_equal; [now apply same_letter_spec|now apply IH].
  - intros E. injection E as E1 E2. constructor; [now apply same_letter_spec|now apply IH].
Qed.

Lemma to_lower_app s t : to_lower (s ++ t) = to_lower s ++ to_lower t.
Proof. induction s; cbn; congruence. Qed.

Section Did.
  Variable blake3 : string -> list ascii.
  Lemma phone_did_spec s did :
    get_phone_did blake3 s = Some did <-> valid_phone s /\ did = "did:phone:" ++ hex_encode (blake3 s).
  Proof.
    unfold get_phone_did. rewrite <- phone_match. destruct (rmatch phone_re s); cbn.
    - split; [intros H; injection H as <-; auto|intros [_ ->]; reflexivity].
    - split; [discriminate|intros [H _]; discriminate].
  Qed.
  Lemma email_did_spec s did :
    get_email_did blake3 s = Some did <-> valid_email s /\ did = "did:email:" ++ hex_encode (blake3 s).
  Proof.
    unfold get_email_did. rewrite <- email_match. destruct (rmatch email_re s); cbn.
    - split; [intros H; injection H as <-; auto|intros [_ ->]; reflexivity].
    - split; [discriminate|intros [H _]; discriminate].
  Qed.
  Lemma phone_equals_spec p s :
    phone_equals blake3 p s = true <->
    valid_phone s /\ to_lower p = "did:phone:" ++ hex_encode (blake3 s).
  Proof.
    unfold phone_equals, get_phone_did. rewrite <- phone_match.
    destruct (rmatch phone_re s); cbn [negb].
    - unfold equal_fold. rewrite to_lower_app, hex_lower.
      change (to_lower "did:phone:") with "did:phone:". rewrite String.eqb_eq. tauto.
    - split; [discriminate|intros [H _]; discriminate].
  Qed.
  Lemma email_equals_spec p s :
    email_equals blake3 p s = true <->
    valid_email s /\ to_lower p = "did:email:" ++ hex_encode (blake3 s).
  Proof.
    unfold email_equals, get_email_did. rewrite <- email_match.
    destruct (rmatch email_re s); cbn [negb].
    - unfold equal_fold. rewrite to_lower_app, hex_lower.
      change (to_lower "did:email:") with "did:email:". rewrite String.eqb_eq. tauto.
    - split; [discriminate|intros [H _]; discriminate].
  Qed.
  Lemma did_binds_hash a b d :
    (get_phone_did blake3 a = Some d /\ get_phone_did blake3 b = Some d) \/
    (get_email_did blake3 a = Some d /\ get_email_did blake3 b = Some d) ->
    blake3 a = blake3 b.
  Proof.
    rewrite !phone_did_spec, !email_did_spec. intros [[[_ H1] [_ H2]]|[[_ H1] [_ H2]]];
      subst; cbn in H2; injection H2 as H2; symmetry; now apply hex_inj.
  Qed.
  Lemma did_methods_disjoint a b d :
    get_phone_did blake3 a = Some d -> get_email_did blake3 b = Some d -> False.
  Proof. rewrite phone_did_spec, email_did_spec. intros [_ ->] [_ H]. discriminate. Qed.
End Did.
