(** Proofs about the Mina package. *)
From Coq Require Import ZArith NArith Lia List Bool Ring Field.
From Verif Require Import EcField EcSpec EcProofs PointModel PointSpec PointProofs PointMulProofs PointProps LimbSpec LimbFiat NativeField NativeArithProofs PastaProps
  MinaBitsModel MinaBitsSpec MinaBitsProofs MinaBitsProps MinaModel MinaSpec.
Import ListNotations.
Set Implicit Arguments.
Unset Strict Implicit.
Local Open Scope Z_scope.

(** ** Buffers *)
Lemma put_length lo hi src out : (lo <= hi <= length out)%nat -> length (put lo hi src out) = length out.
Proof. intros H. unfold put. rewrite !app_length, !firstn_length, skipn_length. lia. Qed.
Lemma slice_put_same lo hi src out : (lo <= hi <= length out)%nat -> length src = (hi - lo)%nat -> slice lo hi (put lo hi src out) = src.
Proof.
  intros H L. unfold put, slice. rewrite <- L, Nat.min_id. rewrite skipn_app, skipn_all2 by (rewrite firstn_length; lia).
  rewrite firstn_length. replace (lo - Nat.min lo (length out))%nat with 0%nat by lia. cbn [app skipn]. rewrite firstn_all.
  rewrite firstn_app, Nat.sub_diag, firstn_all. cbn [firstn]. apply app_nil_r.
Qed.
Lemma nth_put_other lo hi src out i : (lo <= hi <= length out)%nat -> (i < lo \/ hi <= i)%nat -> nth i (put lo hi src out) 0 = nth i out 0.
Proof.
  intros H D. unfold put. set (n := Nat.min (hi - lo) (length src)).
  destruct (Nat.lt_ge_cases i (length out)) as [I|I]; [|rewrite !nth_overflow; [reflexivity|exact I|rewrite !app_length, !firstn_length, skipn_length; lia]].
  destruct D as [D|D].
  - rewrite app_nth1 by (rewrite firstn_length; lia). replace (nth i out 0) with (nth i (firstn lo out ++ skipn lo out) 0) by now rewrite firstn_skipn. rewrite app_nth1 by (rewrite firstn_length; lia). reflexivity.
  - rewrite app_nth2 by (rewrite firstn_length; lia). rewrite firstn_length. rewrite app_nth2 by (rewrite firstn_length; lia). rewrite firstn_length.
    replace (nth i out 0) with (nth i (firstn (lo + n) out ++ skipn (lo + n) out) 0) by now rewrite firstn_skipn. rewrite app_nth2 by (rewrite firstn_length; lia). rewrite firstn_length. f_equal. lia.
Qed.
Lemma slice_nth a b l : slice a b l = map (fun i => nth i l 0) (seq a (Nat.min (b - a) (length l - a))).
Proof.
  unfold slice. generalize (b - a)%nat. intros n. revert a l. induction n as [|n IH]; intros a l; [reflexivity|].
  destruct (Nat.lt_ge_cases a (length l)) as [H|H].
  - replace (Nat.min (S n) (length l - a)) with (S (Nat.min n (length l - S a))) by lia. cbn [seq map]. rewrite <- IH.
    assert (E : skipn a l = nth a l 0 :: skipn (S a) l).
    { clear - H. revert l H. induction a as [|a IH]; intros [|x l] H; cbn [length] in H; try lia; [reflexivity|]. rewrite !skipn_cons. cbn [nth]. apply IH. lia. }
    rewrite E. reflexivity.
  - rewrite skipn_all2, firstn_nil by exact H. replace (length l - a)%nat with 0%nat by lia. rewrite Nat.min_0_r. reflexivity.
Qed.
Lemma slice_put_other lo hi src out a b : (lo <= hi <= length out)%nat -> (b <= lo \/ hi <= a)%nat -> slice a b (put lo hi src out) = slice a b out.
Proof.
  intros H D. rewrite !slice_nth, put_length by exact H. apply map_ext_in. intros i I. apply in_seq in I. apply nth_put_other; [exact H|lia].
Qed.
Lemma nth_slice i l : (i < length l)%nat -> nth i l 0 = nth 0 (slice i (S i) l) 0.
Proof. intros H. rewrite slice_nth. replace (Nat.min (S i - i) (length l - i)) with 1%nat by lia. reflexivity. Qed.
Lemma put_short lo hi src out : (length src <= hi - lo)%nat -> put lo hi src out = put lo (lo + length src) src out.
Proof. intros H. unfold put. replace (Nat.min (lo + length src - lo) (length src)) with (Nat.min (hi - lo) (length src)) by lia. reflexivity. Qed.

(** ** The point encoding *)
Section Proofs.
  Variable F : field.
  Variable C : fp_codec F.
  Variable p : Z.
  Hypothesis CK : codec_ok C p.
  Hypothesis curve : odd_order_curve (f0 : F) (five F).
  Add Field fM : (fth F).
  Local Notation raw := (fc_raw C).
  Local Notation on := (on_curve (f0 : F) (five F)).
  Local Open Scope fld_scope.

  Lemma p_odd_ge : (2 < p)%Z. Proof. pose proof (ck_p CK). lia. Qed.
  Lemma raw_zero x : raw x = 0%Z <-> x = 0.
  Proof. split; [intros E; apply (ck_inj CK); now rewrite (ck_zero CK)|intros ->; apply (ck_zero CK)]. Qed.
  Lemma raw_neg x : x <> 0 -> raw (- x) = (p - raw x)%Z.
  Proof.
    intros N. rewrite (ck_neg CK). pose proof (ck_range CK x). assert (raw x <> 0%Z) by (intros E; apply N, raw_zero, E).
    rewrite Z.mod_opp_l_nz; rewrite ?Z.mod_small; lia.
  Qed.
  Lemma odd_neg x : x <> 0 -> Z.odd (raw (- x)) = negb (Z.odd (raw x)).
  Proof. intros N. rewrite raw_neg by exact N. rewrite Z.odd_sub, (ck_p_odd CK). destruct (Z.odd (raw x)); reflexivity. Qed.
  Lemma ep_x_is (P : pt F) : ep_x P = x_of (jacobian P).
  Proof. unfold ep_x. rewrite jac_affine. destruct (jacobian P) as [[x y]|]; reflexivity. Qed.
  Lemma ep_y_is (P : pt F) : ep_y P = y_of (jacobian P).
  Proof. unfold ep_y. rewrite jac_affine. destruct (jacobian P) as [[x y]|]; reflexivity. Qed.
  Lemma y_nonzero (x y : F) : on (Some (x, y)) -> y <> 0.
  Proof. cbn. intros E ->. apply (proj2 curve x). rewrite <- E. ring. Qed.
  Lemma jac_one (x y : F) : jacobian (Pt x y 1) = Some (x, y).
  Proof. unfold jacobian. cbn [pz]. rewrite feqb_false by (intros E; now apply f_one_zero in E). cbn [px py]. do 2 f_equal; field; intros E; now apply f_one_zero in E. Qed.
  Lemma affine_id (P : pt F) : is_identity (pallas_affine P) = false.
  Proof.
    rewrite jac_affine. unfold is_identity, is_zero. destruct (jacobian P) as [[x y]|]; cbn [pz]; apply feqb_false; intros E; now apply f_one_zero in E.
  Qed.
  Lemma same_parity (u v : F) : fmul u u = fmul v v -> u <> 0 -> Z.odd (raw u) = Z.odd (raw v) -> u = v.
  Proof.
    intros E N P. assert (Q : (u - v) * (u + v) = 0) by (transitivity (u * u - v * v); [ring|rewrite E; ring]).
    destruct (f_eq_dec (u - v) 0) as [D|D]; [now apply f_sub_zero|].
    assert (S : u + v = 0) by (transitivity (1 / (u - v) * ((u - v) * (u + v))); [field; exact D|rewrite Q; ring]).
    assert (V : v = - u) by (transitivity (u + v - u); [ring|rewrite S; ring]). rewrite V in P. rewrite odd_neg in P by exact N. destruct (Z.odd (raw u)); discriminate.
  Qed.

  (** the sign bit *)
  Lemma sign_bit y : Z.land (nth 0 (fc_bytes C y) 0%Z) 1 = bit (Z.odd (raw y)).
  Proof.
    destruct (ck_bytes CK y) as (B & L & <-). destruct (fc_bytes C y) as [|b bs]; [discriminate|]. cbn [nth le_val].
    rewrite Z.odd_add_mul_even by (now exists 128%Z). assert (A : Z.land b 1 = (b mod 2)%Z) by (apply (Z.land_ones b 1); lia).
    rewrite A, Zmod_odd. destruct (Z.odd b); reflexivity.
  Qed.
  Lemma top_byte (b : Z) (c : bool) : (0 <= b < 128)%Z ->
    let d := Z.lor b (byte (Z.shiftl (bit c) 7)) in
    Z.land (Z.shiftr d 7) 1 = bit c /\ Z.land d 0x7F = b /\ (0 <= d < 256)%Z.
  Proof.
    intros B. pose (f := fun b => (128 <=? b)%Z || (let d c := Z.lor b (byte (Z.shiftl (bit c) 7)) in
      forallb (fun c => (Z.land (Z.shiftr (d c) 7) 1 =? bit c)%Z && (Z.land (d c) 0x7F =? b)%Z && isb (d c)) [true; false])).
    assert (A : bytes_all f = true) by (vm_compute; reflexivity). pose proof (@bytes_spec f A b ltac:(lia)) as H. unfold f in H.
    apply orb_prop in H. destruct H as [H|H]; [apply Z.leb_le in H; lia|]. cbv zeta in H. rewrite forallb_forall in H.
    specialize (H c ltac:(destruct c; cbn; tauto)). rewrite !andb_true_iff, !Z.eqb_eq in H. destruct H as [[H1 H2] H3]. apply isb_ok in H3. auto.
  Qed.
  Lemma split31 bs : is_bytes bs -> length bs = 32%nat -> (le_val bs < 2 ^ 255)%Z ->
    bs = firstn 31 bs ++ [nth 31 bs 0%Z] /\ (0 <= nth 31 bs 0 < 128)%Z.
  Proof.
    intros B L V. pose proof (byte_at bs 31 0%Z ltac:(lia)) as E. rewrite (skipn_all2 bs) in E by lia. split; [exact E|].
    assert (LF : length (firstn 31 bs) = 31%nat) by (rewrite firstn_length; lia).
    rewrite E in V, B. unfold is_bytes in B. rewrite Forall_app in B. destruct B as [BF BX]. inversion BX as [|? ? X _]; subst.
    rewrite le_val_app, LF in V. cbn [le_val] in V. pose proof (le_val_range _ BF). rewrite LF in *. change (256 ^ Z.of_nat 31)%Z with (2 ^ 248)%Z in *.
    change (2 ^ 255)%Z with (128 * 2 ^ 248)%Z in V. lia.
  Qed.
  Lemma rhs_is x : rhs_pallas x = curve_rhs 0 (five F) x.
  Proof. unfold rhs_pallas, curve_rhs. ring. Qed.
  Lemma on_pallas x y : on (Some (x, y)) -> pallas_on_curve (Pt x y 1) = true.
  Proof. intros H. apply C72_is_on_curve. rewrite jac_one. exact H. Qed.
  (** what is decoded from an abscissa and a sign *)
  Lemma decode_ok bs c x y : is_bytes bs -> length bs = 32%nat -> (le_val bs < 2 ^ 255)%Z -> fc_set_bytes C bs = Some x ->
    on (Some (x, y)) -> Z.odd (raw y) = c ->
    from_compressed C (or_at 31 (byte (Z.shiftl (bit c) 7)) bs) = Some (Pt x y 1).
  Proof.
    intros B L V S O P. destruct (split31 B L V) as (E & T). pose proof (top_byte c T) as TB. cbv zeta in TB. destruct TB as (T1 & T2 & T3).
    set (d := Z.lor (nth 31 bs 0%Z) (byte (Z.shiftl (bit c) 7))) in *.
    assert (LF : length (firstn 31 bs) = 31%nat) by (rewrite firstn_length; lia).
    assert (OR : or_at 31 (byte (Z.shiftl (bit c) 7)) bs = firstn 31 bs ++ [d]) by (unfold or_at; rewrite (skipn_all2 bs) by lia; reflexivity).
    rewrite OR. unfold from_compressed. rewrite app_length, LF. cbn [length Nat.add Nat.eqb negb].
    rewrite app_nth2 by lia. rewrite LF. cbn [Nat.sub nth]. rewrite T1, T2. rewrite firstn_app, LF, firstn_firstn, Nat.min_id, Nat.sub_diag, firstn_O, app_nil_r, <- E, S.
    pose proof O as O'. cbn in O'. rewrite <- rhs_is in O'. destruct (ck_sqrt CK O') as (r & -> & R). cbn [negb]. rewrite sign_bit.
    assert (NY := y_nonzero O). assert (NR : r <> 0) by (intros ->; apply NY; destruct (@f_integral F y y) as [Q|Q]; try exact Q; rewrite O', <- R; ring).
    assert (Y : (if negb (bit (Z.odd (raw r)) =? bit c)%Z then - r else r) = y).
    { destruct (Bool.bool_dec (Z.odd (raw r)) c) as [Q|Q].
      - rewrite Q, Z.eqb_refl. cbn [negb]. apply same_parity; [rewrite R, <- O'; reflexivity|exact NR|rewrite Q, P; reflexivity].
      - replace (bit (Z.odd (raw r)) =? bit c)%Z with false by (symmetry; apply Z.eqb_neq; intros Q'; apply Q; destruct (Z.odd (raw r)), c; cbn in *; congruence).
        cbn [negb]. apply same_parity; [transitivity (r * r); [ring|rewrite R, <- O'; reflexivity]| |].
        + intros Z0. apply NR. transitivity (- - r); [ring|rewrite Z0; ring].
        + rewrite odd_neg by exact NR. rewrite P. destruct (Z.odd (raw r)), c; cbn; congruence. }
    rewrite Y, (on_pallas O). reflexivity.
  Qed.
  Lemma to_compressed_is (P : pt F) : to_compressed C P = or_at 31 (byte (Z.shiftl (bit (Z.odd (raw (y_of (jacobian P))))) 7)) (fc_bytes C (x_of (jacobian P))).
  Proof. unfold to_compressed. rewrite affine_id. fold (ep_x P) (ep_y P). rewrite sign_bit, ep_x_is, ep_y_is. reflexivity. Qed.
  Lemma compressed_len (P : pt F) : length (to_compressed C P) = 32%nat.
  Proof. rewrite to_compressed_is. destruct (ck_bytes CK (x_of (jacobian P))) as (_ & L & _). unfold or_at. rewrite app_length, firstn_length. cbn [length]. rewrite skipn_length. lia. Qed.
  Lemma key_roundtrip (P : pt F) : is_key P -> (raw (x_of (jacobian P)) < 2 ^ 254)%Z ->
    exists Q, from_compressed C (to_compressed C P) = Some Q /\ jacobian Q = jacobian P.
  Proof.
    intros [O N] R. rewrite to_compressed_is. destruct (jacobian P) as [[x y]|] eqn:J; [|contradiction]. cbn [x_of y_of] in *.
    destruct (ck_bytes CK x) as (B & L & E). exists (Pt x y 1). split; [|apply jac_one].
    apply decode_ok; [exact B|exact L|rewrite E; lia|apply (ck_set_bytes CK), R|exact O|reflexivity].
  Qed.
End Proofs.
