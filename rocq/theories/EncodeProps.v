(** C89-C91: the encodings of secp256k1 and P-256 points, coordinates and comparisons, on limb arrays. *)
From Coq Require Import ZArith Lia List Bool Znumtheory.
From Verif Require Import LimbBase LimbSpec LimbProofs LimbFiat ZCong NativeField NativeInstances NativeArithProofs NativeFieldProofs NativePowProofs NativeRoots NativeProps PastaProps LimbField CurveOrder
  EncodeModel EncodeSpec EncodeProofs.
Import ListNotations.
Open Scope Z_scope.

(** the two curves and their code *)
Definition curves : list (ncurve * curve) := [(k256_curve, secp256k1); (p256_curve, nist_p256)].
Lemma curves_ok C E : In (C, E) curves -> curve_ok C E.
Proof. intros [H|[H|[]]]; injection H as <- <-; [exact k256_curve_ok|exact p256_curve_ok]. Qed.

Lemma parity01 v : v mod 2 = 0 \/ v mod 2 = 1. Proof. pose proof (Z.mod_pos_bound v 2 ltac:(lia)). lia. Qed.
Lemma lor2 b : b = 0 \/ b = 1 -> Z.lor 2 b = 2 + b. Proof. intros [-> | ->]; reflexivity. Qed.
Lemma be32_range xs x : be32 xs x -> 0 <= x < 2 ^ 256.
Proof.
  intros (B & L & <-). assert (L' : length (rev xs) = 32%nat) by (rewrite rev_length; exact L).
  assert (B' : is_bytes (rev xs)) by apply Forall_rev, B. revert L' B'. generalize (rev xs) as l. intros l L' B'.
  pose proof (LimbFiat.le_val_range l B') as H. rewrite L' in H. exact H.
Qed.

Lemma square_dec m v : 0 < m -> NativeProps.is_square m v \/ ~ NativeProps.is_square m v.
Proof.
  intros M.
  assert (D : forall n, 0 <= n -> (exists y, 0 <= y < n /\ (y * y) mod m = v) \/ ~ (exists y, 0 <= y < n /\ (y * y) mod m = v)).
  { intros n Hn. pattern n. apply natlike_ind; [right; intros (y & H & _); lia| |exact Hn]. intros k Hk [(y & R & H)|N].
    - left. exists y. split; [lia|exact H].
    - destruct (Z.eq_dec ((k * k) mod m) v) as [H|H]; [left; exists k; split; [lia|exact H]|].
      right. intros (y & R & Q). destruct (Z.eq_dec y k) as [->|]; [contradiction|]. apply N. exists y. split; [lia|exact Q]. }
  destruct (D m ltac:(lia)) as [(y & _ & H)|N]; [left; exists y; exact H|right]. intros (y & H). apply N. exists (y mod m).
  split; [apply Z.mod_pos_bound, M|]. rewrite <- Z.mul_mod by lia. exact H.
Qed.

Section Curves.
  Variables (C : ncurve) (E : curve).
  Hypothesis IN : In (C, E) curves.
  Let OK : curve_ok C E := curves_ok C E IN.
  Local Notation F := (nc_field C).
  Local Notation m := (c_p E).
  Let INF : In (F, m) native_fields := ck_in _ _ OK.
  Let M2 : 2 < m := ck_big _ _ OK.

  (** every triple of reduced coordinate arrays stands for exactly one point *)
  Theorem C91_every_triple_is_one_point P : canonical m (np_x P) -> canonical m (np_y P) -> canonical m (np_z P) ->
    exists! A, denotes E P A.
  Proof.
    intros Cx Cy Cz. destruct (denotes_total C E OK P Cx Cy Cz) as [A H]. exists A. split; [exact H|].
    intros B H'. exact (denotes_fun C E OK P A B H H').
  Qed.
  (** Equal decides equality of the points *)
  Theorem C91_equal P Q A B : denotes E P A -> denotes E Q B ->
    (A = B -> np_equal C P Q = 1) /\ (A <> B -> np_equal C P Q = 0).
  Proof.
    intros (X & Y & Z & HX & HY & HZ & HA) (X' & Y' & Z' & HX' & HY' & HZ' & HB).
    unfold np_equal. cbv zeta.
    rewrite (proj1 (C83_is_zero_is_one F m INF _ _ HZ)), (proj1 (C83_is_zero_is_one F m INF _ _ HZ')).
    rewrite (C83_equal F m INF _ _ _ _ (C80_mul F m INF _ _ _ _ HX HZ') (C80_mul F m INF _ _ _ _ HX' HZ)).
    rewrite (C83_equal F m INF _ _ _ _ (C80_mul F m INF _ _ _ _ HY HZ') (C80_mul F m INF _ _ _ _ HY' HZ)).
    destruct A as [[x y]|], B as [[x' y']|].
    - destruct HA as (NZ & Cx & Cy & Ex & Ey), HB as (NZ' & Cx' & Cy' & Ex' & Ey').
      apply Z.eqb_neq in NZ, NZ'. rewrite NZ, NZ'. apply Z.eqb_neq in NZ, NZ'.
      pose proof (rep_range E _ _ HZ) as RZ. pose proof (rep_range E _ _ HZ') as RZ'.
      assert (K : forall u u' U U', coord E u -> coord E u' -> (u * Z) mod m = U -> (u' * Z') mod m = U' ->
                  ((U * Z') mod m =? (U' * Z) mod m) = (u =? u')).
      { intros u u' U U' Hu Hu' <- <-. apply eq_true_iff_eq. rewrite !Z.eqb_eq, !Z.mul_mod_idemp_l by lia.
        split; [|intros ->; f_equal; ring].
        intros Q0. assert (D : (m | (u - u') * (Z * Z'))).
        { apply Z.mod_divide; [lia|]. replace ((u - u') * (Z * Z')) with (u * Z * Z' - u' * Z' * Z) by ring.
          rewrite Zminus_mod, Q0, Z.sub_diag. reflexivity. }
        unfold coord in *. apply prime_mult in D; [|exact (ck_prime _ _ OK)]. destruct D as [[k D]|D].
        - assert (k = 0) by nia. lia.
        - exfalso. apply prime_mult in D; [|exact (ck_prime _ _ OK)].
          destruct D as [[k D]|[k D]]; assert (k = 0) by nia; subst k; lia. }
      rewrite (K x x' X X'), (K y y' Y Y') by assumption.
      split.
      + intros Q0. injection Q0 as -> ->. rewrite !Z.eqb_refl. reflexivity.
      + intros N. destruct (Z.eqb_spec x x') as [->|]; [|reflexivity]. destruct (Z.eqb_spec y y') as [->|]; [|reflexivity]. now elim N.
    - destruct HA as (NZ & _). apply Z.eqb_neq in NZ. rewrite NZ, HB. cbn [Z.eqb].
      split; [discriminate|]. intros _. destruct (_ =? _), (_ =? _); reflexivity.
    - destruct HB as (NZ & _). apply Z.eqb_neq in NZ. rewrite NZ, HA. cbn [Z.eqb].
      split; [discriminate|]. intros _. destruct (_ =? _), (_ =? _); reflexivity.
    - rewrite HA, HB. cbn [Z.eqb]. split; [|congruence]. intros _. destruct (_ =? _), (_ =? _); reflexivity.
  Qed.
  Theorem C91_is_identity P A : denotes E P A -> (np_is_identity P = true <-> A = None).
  Proof.
    intros (X & Y & Z & HX & HY & HZ & HA). unfold np_is_identity. rewrite (proj1 (C83_is_zero_is_one F m INF _ _ HZ)).
    destruct A as [[x y]|].
    - destruct HA as (NZ & _). apply Z.eqb_neq in NZ. rewrite NZ. split; discriminate.
    - rewrite HA. split; reflexivity.
  Qed.
  Theorem C91_neg P A : denotes E P A ->
    denotes E (np_neg C P) (match A with None => None | Some (x, y) => Some (x, (- y) mod m) end).
  Proof.
    intros (X & Y & Z & HX & HY & HZ & HA).
    exists X, ((- Y) mod m), Z. cbn [np_neg np_x np_y np_z].
    pose proof (C81_neg F m _ _ INF (ck_nb _ _ OK) HY) as HN.
    split; [exact HX|]. split; [exact HN|]. split; [exact HZ|]. destruct A as [[x y]|]; [|exact HA].
    destruct HA as (NZ & Cx & Cy & Ex & Ey). split; [exact NZ|]. split; [exact Cx|].
    split; [apply Z.mod_pos_bound; lia|]. split; [exact Ex|]. rewrite <- Ey, Z.mul_mod_idemp_l by lia.
    apply cong_mod_eq; [lia|]. replace (- y * Z) with (- (y * Z)) by ring. apply cong_opp, cong_sym, cong_mod. lia.
  Qed.
  (** BigInt gives the affine coordinates *)
  Theorem C91_big_int P A : denotes E P A -> np_big_int C P = match A with None => (0, 0) | Some xy => xy end.
  Proof.
    intros H. unfold np_big_int. destruct A as [[x y]|].
    - destruct (affine_some C E OK P x y H) as (X & Y & _).
      rewrite (C82_big_int_is_the_value F m INF _ _ X), (C82_big_int_is_the_value F m INF _ _ Y). reflexivity.
    - rewrite (affine_none C E OK P H). cbn [np_identity np_x np_y].
      rewrite (C82_big_int_is_the_value F m INF _ _ (C80_zero F m INF)). reflexivity.
  Qed.
  (** IsOnCurve decides the curve equation; the identity is reported off the curve *)
  Theorem C91_is_on_curve P A : denotes E P A ->
    (np_is_on_curve C P = true <-> match A with None => False | Some (x, y) => on_curve E x y end).
  Proof.
    intros H. unfold np_is_on_curve. cbv zeta. rewrite Z.eqb_eq. destruct A as [[x y]|].
    - destruct (affine_some C E OK P x y H) as (X & Y & _).
      rewrite (C83_equal F m INF _ _ _ _ (C80_square F m INF _ _ Y) (ck_rhs _ _ OK _ _ X)).
      destruct H as (_ & _ & _ & _ & _ & _ & _ & Cx & Cy & _).
      destruct (Z.eqb_spec ((y * y) mod m) ((x * x * x + c_a E * x + c_b E) mod m)) as [Q|Q]; unfold on_curve.
      + split; auto.
      + split; [discriminate|]. tauto.
    - rewrite (affine_none C E OK P H). cbn [np_identity np_x np_y].
      pose proof (C80_zero F m INF) as H0.
      rewrite (C83_equal F m INF _ _ _ _ (C80_square F m INF _ _ H0) (ck_rhs _ _ OK _ _ H0)).
      destruct (Z.eqb_spec ((0 * 0) mod m) ((0 * 0 * 0 + c_a E * 0 + c_b E) mod m)) as [Q|Q]; [|split; [discriminate|tauto]].
      exfalso. apply (ck_noroot _ _ OK 0). unfold cong. rewrite Z.sub_0_r. apply Z.mod_divide; [lia|]. rewrite <- Q. reflexivity.
  Qed.
  (** Set(x, y): the coordinates are reduced; (0, 0) is the identity, other pairs are accepted exactly when on the curve *)
  Theorem C91_set x y :
    match np_set_big_int C x y with
    | Some P => denotes E P (if (x mod m =? 0) && (y mod m =? 0) then None else Some (x mod m, y mod m)) /\
                ((x mod m = 0 /\ y mod m = 0) \/ on_curve E (x mod m) (y mod m))
    | None => ~ (x mod m = 0 /\ y mod m = 0) /\ ~ on_curve E (x mod m) (y mod m)
    end.
  Proof.
    unfold np_set_big_int. cbv zeta.
    pose proof (C82_set_big_int_reduces F m INF nf_zero x) as HX. pose proof (C82_set_big_int_reduces F m INF nf_zero y) as HY.
    set (xx := nf_set_big_int F nf_zero x) in *. set (yy := nf_set_big_int F nf_zero y) in *. clearbody xx yy.
    rewrite (proj1 (C83_is_zero_is_one F m INF _ _ HX)), (proj1 (C83_is_zero_is_one F m INF _ _ HY)).
    pose proof (C80_zero F m INF) as H0. pose proof (C80_one F m INF) as H1.
    pose proof (rep_words E _ _ HX) as Wx. pose proof (rep_words E _ _ HY) as Wy.
    pose proof (rep_words E _ _ H0) as W0. pose proof (rep_words E _ _ H1) as W1.
    assert (G : ~ (x mod m = 0 /\ y mod m = 0) ->
      (if negb (np_is_on_curve C (NP xx yy (nf_one F))) then None else Some (NP xx yy (nf_one F))) = None /\ ~ on_curve E (x mod m) (y mod m)
      \/ (if negb (np_is_on_curve C (NP xx yy (nf_one F))) then None else Some (NP xx yy (nf_one F))) = Some (NP xx yy (nf_one F)) /\ on_curve E (x mod m) (y mod m)).
    { intros _. pose proof (C91_is_on_curve _ _ (denotes_one C E OK _ _ _ _ HX HY)) as I. cbv beta iota in I.
      destruct (np_is_on_curve C (NP xx yy (nf_one F))); cbn [negb].
      - right. split; [reflexivity|]. apply I. reflexivity.
      - left. split; [reflexivity|]. intros D. apply I in D. discriminate D. }
    destruct (Z.eqb_spec (x mod m) 0) as [X0|X0]; destruct (Z.eqb_spec (y mod m) 0) as [Y0|Y0]; cbn [andb];
      match goal with |- context [nf_cmove F xx nf_zero ?c] => first [change c with 1|change c with 0] end; cbn [Z.eqb].
    - rewrite !(proj2 (C80_cmove F m INF _ _ Wx W0)), !(proj2 (C80_cmove F m INF _ _ Wy W0)), !(proj2 (C80_cmove F m INF _ _ W1 W0)).
      rewrite andb_false_r. split; [exact (denotes_id C E OK)|]. left. tauto.
    - rewrite !(proj1 (C80_cmove F m INF _ _ Wx W0)), !(proj1 (C80_cmove F m INF _ _ Wy W0)), !(proj1 (C80_cmove F m INF _ _ W1 W0)).
      rewrite andb_true_r. destruct G as [[-> G]|[-> G]]; [tauto|split; [tauto|exact G]|]. split; [exact (denotes_one C E OK _ _ _ _ HX HY)|tauto].
    - rewrite !(proj1 (C80_cmove F m INF _ _ Wx W0)), !(proj1 (C80_cmove F m INF _ _ Wy W0)), !(proj1 (C80_cmove F m INF _ _ W1 W0)).
      rewrite andb_true_r. destruct G as [[-> G]|[-> G]]; [tauto|split; [tauto|exact G]|]. split; [exact (denotes_one C E OK _ _ _ _ HX HY)|tauto].
    - rewrite !(proj1 (C80_cmove F m INF _ _ Wx W0)), !(proj1 (C80_cmove F m INF _ _ Wy W0)), !(proj1 (C80_cmove F m INF _ _ W1 W0)).
      rewrite andb_true_r. destruct G as [[-> G]|[-> G]]; [tauto|split; [tauto|exact G]|]. split; [exact (denotes_one C E OK _ _ _ _ HX HY)|tauto].
  Qed.
  (** Set then BigInt *)
  Theorem C91_set_then_big_int x y P : 0 <= x < m -> 0 <= y < m -> np_set_big_int C x y = Some P -> np_big_int C P = (x, y).
  Proof.
    intros Hx Hy S. pose proof (C91_set x y) as H. rewrite S in H. destruct H as [H _].
    rewrite !Z.mod_small in H by assumption. rewrite (C91_big_int _ _ H).
    destruct (Z.eqb_spec x 0) as [->|]; [|reflexivity]. destruct (Z.eqb_spec y 0) as [->|]; reflexivity.
  Qed.
  Theorem C91_generator_and_identity :
    (exists x y, denotes E (np_generator C) (Some (x, y)) /\ on_curve E x y) /\ denotes E np_identity None.
  Proof.
    split; [|exact (denotes_id C E OK)]. destruct (ck_gen _ _ OK) as (x & y & X & Y & O).
    exists x, y. split; [exact (denotes_one C E OK _ _ _ _ X Y)|exact O].
  Qed.
  (** IsNegative is the parity of the Montgomery residue of y: exactly one of P and -P has it *)
  Lemma is_negative_mont P x y : denotes E P (Some (x, y)) -> np_is_negative C P = Z.odd ((y * 2 ^ 256) mod m).
  Proof.
    intros H. destruct (affine_some C E OK P x y H) as (_ & Y & _). unfold np_is_negative.
    destruct (np_y (np_to_affine C P)) as [y0 y1 y2 y3]. destruct Y as (_ & _ & V). rewrite <- V. cbn [val4].
    change 1 with (Z.ones 1). rewrite Z.land_ones by lia. change (2 ^ 1) with 2.
    assert (Q : y0 mod 2 = (y0 + W * (y1 + W * (y2 + W * y3))) mod 2).
    { replace (y0 + W * (y1 + W * (y2 + W * y3))) with (y0 + (2 ^ 63 * (y1 + W * (y2 + W * y3))) * 2)
        by (change W with (2 ^ 63 * 2); ring). rewrite Z_mod_plus_full. reflexivity. }
    change (Z.ones 1) with 1. rewrite Q. rewrite Zmod_odd. destruct (Z.odd _); reflexivity.
  Qed.
  Theorem C91_is_negative_splits_pairs P x y : denotes E P (Some (x, y)) -> on_curve E x y ->
    np_is_negative C (np_neg C P) = negb (np_is_negative C P).
  Proof.
    intros H O. pose proof (C91_neg _ _ H) as H'. cbv beta iota in H'.
    rewrite (is_negative_mont _ _ _ H), (is_negative_mont _ _ _ H').
    pose proof (on_nonzero C E OK x y O) as R.
    assert (NZ : (y * 2 ^ 256) mod m <> 0).
    { intros Z0. apply Z.mod_divide in Z0; [|lia]. apply prime_mult in Z0; [|exact (ck_prime _ _ OK)].
      destruct Z0 as [[k D]|D]; [assert (k = 0) by nia; lia|].
      assert (RP : rel_prime m (2 ^ 256)) by (apply rel_prime_pow2; [exact (ck_odd _ _ OK)|lia]).
      destruct RP as [_ _ G]. destruct (G m ltac:(exists 1; ring) D) as [k K].
      assert (m = 1 \/ m = -1) by (apply Z.divide_1_r; exists k; exact K). lia. }
    pose proof (Z.mod_pos_bound (y * 2 ^ 256) m ltac:(lia)) as B.
    assert (Q : ((- y) mod m * 2 ^ 256) mod m = (- ((y * 2 ^ 256) mod m)) mod m).
    { rewrite Z.mul_mod_idemp_l by lia. apply cong_mod_eq; [lia|].
      replace (- y * 2 ^ 256) with (- (y * 2 ^ 256)) by ring. apply cong_opp, cong_sym, cong_mod. lia. }
    rewrite Q. pose proof (neg_parity C E OK ((y * 2 ^ 256) mod m) ltac:(lia)) as N.
    set (u := (- ((y * 2 ^ 256) mod m)) mod m) in *. set (v := (y * 2 ^ 256) mod m) in *. clearbody u v.
    rewrite !Zmod_odd in N.
    destruct (Z.odd u), (Z.odd v); try reflexivity; discriminate N.
  Qed.

  (** ** C89: compressed encoding *)
  Theorem C89_encodes P x y : denotes E P (Some (x, y)) -> sec1_compressed x y (np_to_compressed C P).
  Proof.
    intros H. destruct (affine_some C E OK P x y H) as (X & Y & _). unfold np_to_compressed. cbv zeta.
    exists (reverse_scalar_bytes (nf_bytes F (np_x (np_to_affine C P)))).
    rewrite (low_bit C E OK _ _ Y), (lor2 _ (parity01 y)). split; [reflexivity|]. exact (bytes_rev C E OK _ _ X).
  Qed.
  Theorem C89_identity_encodes P : denotes E P None -> np_to_compressed C P = 2 :: repeat 0 32.
  Proof.
    intros H. unfold np_to_compressed. rewrite (affine_none C E OK P H). cbn [np_identity np_x np_y].
    rewrite (low_bit C E OK _ _ (C80_zero F m INF)). f_equal. apply (be32_inj _ _ 0); [exact (bytes_rev C E OK _ _ (C80_zero F m INF))|].
    split; [repeat constructor; lia|]. split; reflexivity.
  Qed.
  Lemma from_compressed_eq s xs : length xs = 32%nat ->
    np_from_compressed C (s :: xs) =
    if negb (s =? 2) && negb (s =? 3) then None else
    match nf_set_bytes F (reverse_scalar_bytes xs) with
    | None => None
    | Some x => let '(y, wasQr) := nf_sqrt F nf_zero (nc_rhs C x) in
        if wasQr then
          Some (NP x (if negb (Z.land (nth 0 (nf_bytes F y) 0) 1 =? Z.land s 1) then nf_neg F y else y) (nf_one F))
        else Some np_identity
    end.
  Proof.
    intros L. unfold np_from_compressed. replace (length (s :: xs)) with 33%nat by (cbn; congruence).
    change (negb (Z.of_nat 33 =? 33)) with false. cbn [nth].
    replace (slice 1 33 (s :: xs)) with xs; [reflexivity|].
    unfold slice. cbn [skipn Nat.sub]. rewrite firstn_all2; [reflexivity|lia].
  Qed.
  Theorem C89_decodes s xs x P : be32 xs x -> np_from_compressed C (s :: xs) = Some P ->
    (s = 2 \/ s = 3) /\ x < m /\
    exists A, denotes E P A /\
      match A with
      | Some (x', y) => x' = x /\ on_curve E x y /\ y mod 2 = s - 2
      | None => forall y, ~ on_curve E x y
      end.
  Proof.
    intros HX. rewrite from_compressed_eq by apply HX.
    destruct (Z.eqb_spec s 2) as [S2|S2]; [|destruct (Z.eqb_spec s 3) as [S3|S3]; [|discriminate]].
    all: cbn [negb andb]; destruct (set_bytes_be C E OK _ _ HX) as [A1 A2]; destruct (Z_lt_le_dec x m) as [LT|GE];
      [|rewrite (A2 GE); discriminate].
    all: destruct (A1 LT) as (X & -> & RX); pose proof (ck_rhs _ _ OK _ _ RX) as RR; intros HP.
    all: split; [tauto|]; split; [exact LT|].
    all: assert (SS : Z.land s 1 = s - 2 /\ (s - 2 = 0 \/ s - 2 = 1)) by (subst s; split; [reflexivity|lia]).
    all: destruct SS as [SS SR]; rewrite SS in HP; clear SS.
    all: destruct (C84_sqrt F m INF nf_zero _ _ (zero_words C E OK) RR) as [Q1 Q2].
    all: pose proof (rep_range E _ _ RX) as Rx.
    all: destruct (nf_sqrt F nf_zero (nc_rhs C X)) as [y [|]] eqn:SQ; try rewrite SQ in HP; try rewrite SQ in Q1; try rewrite SQ in Q2.
    1,3: assert (IS : NativeProps.is_square m ((x * x * x + c_a E * x + c_b E) mod m))
         by (destruct (square_dec m ((x * x * x + c_a E * x + c_b E) mod m) ltac:(lia)) as [D|D]; [exact D|specialize (Q2 D); discriminate Q2]).
    1,2: destruct (Q1 IS) as (y' & w & EQ & RY & SQw); injection EQ as <-.
    1,2: assert (O : on_curve E x w) by (split; [exact Rx|split; [exact (rep_range E _ _ RY)|exact SQw]]).
    1,2: rewrite (low_bit C E OK _ _ RY) in HP; injection HP as <-.
    1,2: destruct (Z.eqb_spec (w mod 2) (s - 2)) as [PE|PE]; cbn [negb].
    1,3: exists (Some (x, w)); split; [exact (denotes_one C E OK _ _ _ _ RX RY)|]; split; [reflexivity|]; split; [exact O|exact PE].
    1,2: exists (Some (x, (- w) mod m)); split;
         [exact (denotes_one C E OK _ _ _ _ RX (C81_neg F m _ _ INF (ck_nb _ _ OK) RY))|];
         split; [reflexivity|]; split; [exact (on_neg C E OK _ _ O)|];
         rewrite (neg_parity C E OK w (on_nonzero C E OK _ _ O)); destruct (parity01 w); lia.
    all: injection HP as <-; exists None; split; [exact (denotes_id C E OK)|].
    all: intros y' (_ & _ & O); assert (IS : NativeProps.is_square m ((x * x * x + c_a E * x + c_b E) mod m)) by (exists y'; exact O).
    all: destruct (Q1 IS) as (? & ? & D & _); discriminate D.
  Qed.
  Theorem C89_accepts bs : is_bytes bs ->
    ((exists P, np_from_compressed C bs = Some P) <->
     exists s xs x, bs = s :: xs /\ (s = 2 \/ s = 3) /\ be32 xs x /\ x < m).
  Proof.
    intros B. split.
    - intros [P H]. destruct bs as [|s xs]; [discriminate H|]. exists s, xs, (le_val (rev xs)).
      assert (L : length xs = 32%nat).
      { unfold np_from_compressed in H. destruct (Z.eqb_spec (Z.of_nat (length (s :: xs))) 33) as [L|L]; [|discriminate H].
        cbn [length] in L. lia. }
      assert (BX : be32 xs (le_val (rev xs))) by (split; [inversion B; assumption|]; split; [exact L|reflexivity]).
      destruct (C89_decodes s xs _ P BX H) as (S & X & _). tauto.
    - intros (s & xs & x & -> & S & BX & X). rewrite from_compressed_eq by apply BX.
      replace (negb (s =? 2) && negb (s =? 3)) with false by (destruct S as [-> | ->]; reflexivity).
      destruct (set_bytes_be C E OK _ _ BX) as [A _]. destruct (A X) as (x' & -> & _).
      destruct (nf_sqrt F nf_zero (nc_rhs C x')) as [y [|]]; eexists; reflexivity.
  Qed.
  Theorem C89_roundtrip P x y : denotes E P (Some (x, y)) -> on_curve E x y ->
    exists Q, np_from_compressed C (np_to_compressed C P) = Some Q /\ denotes E Q (Some (x, y)) /\ np_equal C P Q = 1.
  Proof.
    intros H O. destruct (C89_encodes P x y H) as (xs & EQ & BX).
    assert (AC : exists Q, np_from_compressed C (np_to_compressed C P) = Some Q).
    { apply C89_accepts.
      - rewrite EQ. constructor; [pose proof (parity01 y); lia|apply BX].
      - exists (2 + y mod 2), xs, x. split; [exact EQ|]. split; [pose proof (parity01 y); lia|]. split; [exact BX|apply O]. }
    destruct AC as [Q HQ]. exists Q. split; [exact HQ|]. rewrite EQ in HQ.
    destruct (C89_decodes _ _ _ _ BX HQ) as (_ & _ & [[x' y']|] & D & M).
    - destruct M as (-> & O' & PY). assert (y' = y) by (apply (same_parity_root C E OK x y y' O O'); lia). subst y'.
      split; [exact D|]. apply (proj1 (C91_equal _ _ _ _ H D)). reflexivity.
    - exfalso. exact (M y O).
  Qed.
  Theorem C89_decode_then_encode bs P : is_bytes bs -> np_from_compressed C bs = Some P -> ~ denotes E P None ->
    np_to_compressed C P = bs.
  Proof.
    intros B H N. destruct (proj1 (C89_accepts bs B) (ex_intro _ P H)) as (s & xs & x & -> & S & BX & X).
    destruct (C89_decodes _ _ _ _ BX H) as (_ & _ & [[x' y']|] & D & M); [|contradiction].
    destruct M as (-> & O & PY). destruct (C89_encodes P x y' D) as (xs' & -> & BX').
    rewrite (be32_inj _ _ _ BX' BX). f_equal. lia.
  Qed.

  (** ** C90: uncompressed encoding *)
  Theorem C90_encodes P x y : denotes E P (Some (x, y)) -> sec1_uncompressed x y (np_to_uncompressed C P).
  Proof.
    intros H. destruct (affine_some C E OK P x y H) as (X & Y & _). unfold np_to_uncompressed. cbv zeta.
    eexists _, _. split; [reflexivity|]. split; [exact (bytes_rev C E OK _ _ X)|exact (bytes_rev C E OK _ _ Y)].
  Qed.
  Lemma from_uncompressed_eq s xs ys : length xs = 32%nat -> length ys = 32%nat ->
    np_from_uncompressed C (s :: xs ++ ys) =
    if negb (s =? 4) then None else
    match nf_set_bytes F (reverse_scalar_bytes xs) with
    | None => None
    | Some x => match nf_set_bytes F (reverse_scalar_bytes ys) with
        | None => None
        | Some y => Some (NP x y (nf_one F))
        end
    end.
  Proof.
    intros L L'. unfold np_from_uncompressed.
    replace (length (s :: xs ++ ys)) with 65%nat by (cbn [length]; rewrite app_length; lia).
    change (negb (Z.of_nat 65 =? 65)) with false. cbn [nth].
    replace (slice 1 33 (s :: xs ++ ys)) with xs.
    2: { unfold slice. cbn [skipn]. rewrite firstn_app, L. change (33 - 1 - 32)%nat with 0%nat. rewrite firstn_O, app_nil_r.
         symmetry. apply firstn_all2. lia. }
    replace (slice 33 65 (s :: xs ++ ys)) with ys; [reflexivity|].
    unfold slice. change (skipn 33 (s :: xs ++ ys)) with (skipn 32 (xs ++ ys)). rewrite skipn_app, L. change (32 - 32)%nat with 0%nat.
    rewrite skipn_all2 by lia. cbn [app skipn]. symmetry. apply firstn_all2. lia.
  Qed.
  Theorem C90_accepts bs : is_bytes bs ->
    ((exists P, np_from_uncompressed C bs = Some P) <->
     exists x y, sec1_uncompressed x y bs /\ x < m /\ y < m).
  Proof.
    intros B. split.
    - intros [P H]. assert (L : length bs = 65%nat).
      { unfold np_from_uncompressed in H. destruct (Z.eqb_spec (Z.of_nat (length bs)) 65) as [L|L]; [lia|discriminate H]. }
      destruct bs as [|s r]; [discriminate L|]. cbn [length] in L.
      assert (Br : is_bytes (firstn 32 r ++ skipn 32 r)) by (rewrite firstn_skipn; inversion B; assumption).
      apply Forall_app in Br. destruct Br as [B1 B2].
      assert (L1 : length (firstn 32 r) = 32%nat) by (rewrite firstn_length; lia).
      assert (L2 : length (skipn 32 r) = 32%nat) by (rewrite skipn_length; lia).
      rewrite <- (firstn_skipn 32 r) in H |- *. set (xs := firstn 32 r) in *. set (ys := skipn 32 r) in *. clearbody xs ys.
      rewrite from_uncompressed_eq in H by assumption. destruct (Z.eqb_spec s 4) as [->|]; [|discriminate H]. cbn [negb] in H.
      assert (BX : be32 xs (le_val (rev xs))) by (split; [assumption|]; split; [assumption|reflexivity]).
      assert (BY : be32 ys (le_val (rev ys))) by (split; [assumption|]; split; [assumption|reflexivity]).
      exists (le_val (rev xs)), (le_val (rev ys)). split; [exists xs, ys; tauto|].
      destruct (set_bytes_be C E OK _ _ BX) as [_ A]. destruct (set_bytes_be C E OK _ _ BY) as [_ A'].
      split.
      + destruct (Z_lt_le_dec (le_val (rev xs)) m) as [|G]; [assumption|]. rewrite (A G) in H. discriminate H.
      + destruct (Z_lt_le_dec (le_val (rev ys)) m) as [|G]; [assumption|]. rewrite (A' G) in H.
        destruct (nf_set_bytes F (reverse_scalar_bytes xs)); discriminate H.
    - intros (x & y & (xs & ys & -> & BX & BY) & X & Y).
      rewrite from_uncompressed_eq by (apply BX || apply BY). cbn [Z.eqb Pos.eqb negb].
      destruct (set_bytes_be C E OK _ _ BX) as [A _]. destruct (set_bytes_be C E OK _ _ BY) as [A' _].
      destruct (A X) as (x' & -> & _), (A' Y) as (y' & -> & _). eexists; reflexivity.
  Qed.
  Theorem C90_decodes x y bs P : sec1_uncompressed x y bs -> np_from_uncompressed C bs = Some P -> denotes E P (Some (x, y)).
  Proof.
    intros (xs & ys & -> & BX & BY). rewrite from_uncompressed_eq by (apply BX || apply BY). cbn [Z.eqb Pos.eqb negb].
    destruct (set_bytes_be C E OK _ _ BX) as [A N]. destruct (set_bytes_be C E OK _ _ BY) as [A' N'].
    destruct (Z_lt_le_dec x m) as [X|G]; [|rewrite (N G); discriminate].
    destruct (Z_lt_le_dec y m) as [Y|G]; [|rewrite (N' G); destruct (A X) as (x' & -> & _); discriminate].
    destruct (A X) as (x' & -> & RX), (A' Y) as (y' & -> & RY). intros H. injection H as <-. exact (denotes_one C E OK _ _ _ _ RX RY).
  Qed.
  Theorem C90_roundtrip P x y : denotes E P (Some (x, y)) ->
    exists Q, np_from_uncompressed C (np_to_uncompressed C P) = Some Q /\ denotes E Q (Some (x, y)) /\ np_equal C P Q = 1.
  Proof.
    intros H. pose proof (C90_encodes P x y H) as S.
    destruct H as (X & Y & Z & HX & HY & HZ & NZ & Cx & Cy & D). assert (H : denotes E P (Some (x, y))) by (exists X, Y, Z; tauto).
    assert (AC : exists Q, np_from_uncompressed C (np_to_uncompressed C P) = Some Q).
    { apply C90_accepts; [|exists x, y; split; [exact S|]; split; [apply Cx|apply Cy]].
      destruct S as (xs & ys & -> & BX & BY). constructor; [lia|]. apply Forall_app. split; [apply BX|apply BY]. }
    destruct AC as [Q HQ]. exists Q. pose proof (C90_decodes _ _ _ _ S HQ) as HD. split; [exact HQ|]. split; [exact HD|].
    apply (proj1 (C91_equal _ _ _ _ H HD)). reflexivity.
  Qed.
  Theorem C90_decode_then_encode bs P : is_bytes bs -> np_from_uncompressed C bs = Some P -> np_to_uncompressed C P = bs.
  Proof.
    intros B H. destruct (proj1 (C90_accepts bs B) (ex_intro _ P H)) as (x & y & S & _ & _).
    pose proof (C90_encodes _ _ _ (C90_decodes _ _ _ _ S H)) as S'.
    destruct S as (xs & ys & -> & BX & BY), S' as (xs' & ys' & -> & BX' & BY').
    rewrite (be32_inj _ _ _ BX' BX), (be32_inj _ _ _ BY' BY). reflexivity.
  Qed.
  (** the identity is encoded as 04 and zeros, which decodes to the pair (0, 0): not the identity and not on the curve *)
  Theorem C90_identity_refuted P : denotes E P None ->
    exists Q, np_to_uncompressed C P = 4 :: repeat 0 64 /\ np_from_uncompressed C (np_to_uncompressed C P) = Some Q /\
      denotes E Q (Some (0, 0)) /\ ~ on_curve E 0 0 /\ np_equal C P Q = 0.
  Proof.
    intros H. assert (EQ : np_to_uncompressed C P = 4 :: repeat 0 64).
    { unfold np_to_uncompressed. rewrite (affine_none C E OK P H). cbn [np_identity np_x np_y].
      assert (Z0 : reverse_scalar_bytes (nf_bytes F nf_zero) = repeat 0 32).
      { apply (be32_inj _ _ 0); [exact (bytes_rev C E OK _ _ (C80_zero F m INF))|].
        split; [repeat constructor; lia|]. split; reflexivity. }
      rewrite Z0. reflexivity. }
    rewrite EQ. assert (S : sec1_uncompressed 0 0 (4 :: repeat 0 64)).
    { exists (repeat 0 32), (repeat 0 32). split; [reflexivity|]. split; (split; [repeat constructor; lia|]; split; reflexivity). }
    assert (AC : exists Q, np_from_uncompressed C (4 :: repeat 0 64) = Some Q).
    { apply C90_accepts; [repeat constructor; lia|]. exists 0, 0. split; [exact S|]. lia. }
    destruct AC as [Q HQ]. exists Q. pose proof (C90_decodes _ _ _ _ S HQ) as D.
    split; [reflexivity|]. split; [exact HQ|]. split; [exact D|]. split.
    - intros O. pose proof (on_nonzero C E OK 0 0 O). lia.
    - apply (proj2 (C91_equal _ _ _ _ H D)). discriminate.
  Qed.
  (** pairs that are not on the curve are accepted *)
  Theorem C90_off_curve_refuted : exists bs P x y, is_bytes bs /\ np_from_uncompressed C bs = Some P /\
    denotes E P (Some (x, y)) /\ ~ on_curve E x y /\ np_is_on_curve C P = false.
  Proof.
    set (bs := 4 :: repeat 0 64). assert (B : is_bytes bs) by (repeat constructor; lia).
    destruct (C90_identity_refuted np_identity (denotes_id C E OK)) as (Q & EQ & HQ & D & N & _). rewrite EQ in HQ.
    exists bs, Q, 0, 0. split; [exact B|]. split; [exact HQ|]. split; [exact D|]. split; [exact N|].
    pose proof (C91_is_on_curve _ _ D) as I. cbv beta iota in I.
    destruct (np_is_on_curve C Q); [exfalso; apply N, I; reflexivity|reflexivity].
  Qed.
End Curves.

(** ** C89, refuted: an x without a point is not rejected; and the identity does not survive on P-256 *)
Lemma be32_const v : 0 <= v < 256 -> be32 (repeat 0 31 ++ [v]) v.
Proof. intros H. split; [repeat (constructor; [lia|]); constructor|]. split; [reflexivity|]. cbn. lia. Qed.
Lemma no_square m v e : prime m -> 2 < m -> Zpos e * 2 = m - 1 -> cong m (pw v (Zpos e)) (-1) -> forall y, ~ cong m (y * y) v.
Proof.
  intros P M E C y H.
  assert (Q : cong m (pw y (m - 1)) (-1)).
  { apply cong_sym. apply (cong_trans _ _ _ _ (cong_sym _ _ _ C)). apply (cong_trans _ _ (pw (y * y) (Zpos e))).
    - apply pw_cong; [lia|]. apply cong_sym, H.
    - rewrite pw_mulb by lia. rewrite <- pw_add by lia. replace (Zpos e + Zpos e) with (m - 1) by lia. apply cong_refl. }
  destruct (Zdivide_dec m y) as [D|D].
  - assert (Z0 : cong m (pw y (m - 1)) 0) by (apply (cong_trans _ _ (pw 0 (m - 1))); [apply pw_cong; [lia|]; unfold cong; rewrite Z.sub_0_r; exact D|rewrite pw_zero by lia; apply cong_refl]).
    pose proof (cong_trans _ _ _ _ (cong_sym _ _ _ Q) Z0) as [k K]. assert (k = 0 \/ k <= -1 \/ 1 <= k) by lia. nia.
  - pose proof (cong_trans _ _ _ _ (cong_sym _ _ _ Q) (pw_fermat m y P D)) as [k K]. assert (k = 0 \/ k <= -1 \/ 1 <= k) by lia. nia.
Qed.
Lemma k256_no_zero y : ~ on_curve secp256k1 0 y.
Proof.
  intros (_ & _ & H). refine (no_square secp256k1_p 7 57896044618658097711785492504343953926634992332820282019728792003954417335831 _ _ _ _ y _).
  - exact (ck_prime _ _ k256_curve_ok).
  - reflexivity.
  - vm_compute; reflexivity.
  - apply (pw_const _ (2 ^ 516 / secp256k1_p) 248 268); vm_compute; reflexivity.
  - apply mod_eq_cong; [reflexivity|exact H].
Qed.
Lemma p256_no_one y : ~ on_curve nist_p256 1 y.
Proof.
  assert (EP : c_p nist_p256 = p256_p) by (vm_compute; reflexivity).
  intros (_ & _ & H). rewrite EP in H.
  refine (no_square p256_p 41058363725152142129326129780047268409114441015993725554835256314039467401289 57896044605178124381348723474703786765043071707645157097766815654433548926975 _ _ _ _ y _).
  - rewrite <- EP. exact (ck_prime _ _ p256_curve_ok).
  - reflexivity.
  - vm_compute; reflexivity.
  - apply (pw_const _ (2 ^ 516 / p256_p) 248 268); vm_compute; reflexivity.
  - apply mod_eq_cong; [reflexivity|exact H].
Qed.
Theorem C89_no_point_is_accepted_refuted : forall C E, In (C, E) curves ->
  exists bs s xs x P, is_bytes bs /\ bs = s :: xs /\ be32 xs x /\ (forall y, ~ on_curve E x y) /\
    np_from_compressed C bs = Some P /\ denotes E P None.
Proof.
  intros C E IN.
  assert (K : exists v, 0 <= v < 256 /\ v < c_p E /\ forall y, ~ on_curve E v y).
  { destruct IN as [H|[H|[]]]; injection H as <- <-; [exists 0|exists 1]; (split; [lia|split; [reflexivity|]]).
    - exact k256_no_zero. - exact p256_no_one. }
  destruct K as (v & R & RM & K). exists (2 :: repeat 0 31 ++ [v]), 2, (repeat 0 31 ++ [v]), v.
  pose proof (be32_const v R) as BX. assert (B : is_bytes (2 :: repeat 0 31 ++ [v])) by (constructor; [lia|apply BX]).
  destruct (proj2 (C89_accepts C E IN _ B)) as [P HP].
  { exists 2, (repeat 0 31 ++ [v]), v. split; [reflexivity|]. split; [tauto|]. split; [exact BX|exact RM]. }
  exists P. split; [exact B|]. split; [reflexivity|]. split; [exact BX|]. split; [exact K|]. split; [exact HP|].
  destruct (C89_decodes C E IN _ _ _ _ BX HP) as (_ & _ & [[x y]|] & D & M); [|exact D].
  exfalso. destruct M as (_ & O & _). exact (K y O).
Qed.
Theorem C89_p256_identity_refuted : exists Q y, denotes nist_p256 np_identity None /\
  np_from_compressed p256_curve (np_to_compressed p256_curve np_identity) = Some Q /\
  denotes nist_p256 Q (Some (0, y)) /\ on_curve nist_p256 0 y.
Proof.
  assert (IN : In (p256_curve, nist_p256) curves) by (right; left; reflexivity).
  pose proof (denotes_id p256_curve nist_p256 p256_curve_ok) as I.
  rewrite (C89_identity_encodes _ _ IN _ I).
  assert (AC : exists Q, np_from_compressed p256_curve (2 :: repeat 0 32) = Some Q).
  { apply (C89_accepts _ _ IN); [repeat constructor; lia|]. exists 2, (repeat 0 32), 0. split; [reflexivity|]. split; [tauto|].
    split; [apply (be32_const 0); lia|reflexivity]. }
  destruct AC as [Q HQ]. destruct (C89_decodes _ _ IN 2 (repeat 0 32) 0 Q (be32_const 0 ltac:(lia)) HQ) as (_ & _ & [[x y]|] & D & M).
  - destruct M as (-> & O & _). exists Q, y. split; [exact I|]. split; [exact HQ|]. split; [exact D|exact O].
  - exfalso. apply (M 0x66485c780e2f83d72433bd5d84a06bb6541c2af31dae871728bf856a174f93f4).
    split; [split; vm_compute; [discriminate|reflexivity]|]. split; [split; vm_compute; [discriminate|reflexivity]|]. vm_compute; reflexivity.
Qed.
(** on secp256k1 the identity survives *)
Theorem C89_k256_identity_roundtrip P : denotes secp256k1 P None ->
  exists Q, np_from_compressed k256_curve (np_to_compressed k256_curve P) = Some Q /\ denotes secp256k1 Q None.
Proof.
  intros H. assert (IN : In (k256_curve, secp256k1) curves) by (left; reflexivity).
  rewrite (C89_identity_encodes _ _ IN _ H).
  assert (B : is_bytes (2 :: repeat 0 32)) by (repeat constructor; lia).
  destruct (proj2 (C89_accepts _ _ IN _ B)) as [Q HQ].
  { exists 2, (repeat 0 32), 0. split; [reflexivity|]. split; [tauto|]. split; [apply (be32_const 0); lia|reflexivity]. }
  exists Q. split; [exact HQ|].
  destruct (C89_decodes _ _ IN 2 (repeat 0 32) 0 Q (be32_const 0 ltac:(lia)) HQ) as (_ & _ & [[x y]|] & D & M); [|exact D].
  exfalso. destruct M as (_ & O & _). exact (k256_no_zero y O).
Qed.
(** IsNegative does not agree with the sign bit of the compressed encoding *)
Theorem C91_is_negative_is_not_the_sign_refuted : forall C E, In (C, E) curves ->
  exists P x y, denotes E P (Some (x, y)) /\ on_curve E x y /\ np_is_negative C P = negb (Z.odd y).
Proof.
  intros C E IN. pose proof (curves_ok _ _ IN) as OK. pose proof (ck_in _ _ OK) as INF.
  assert (K : exists x y, on_curve E x y /\ Z.odd ((y * 2 ^ 256) mod c_p E) = negb (Z.odd y)).
  { destruct IN as [H|[H|[]]]; injection H as <- <-.
    - exists 1, 0x4218f20ae6c646b363db68605822fb14264ca8d2587fdd6fbc750d587e76a7ee.
      split; [|vm_compute; reflexivity]. split; [split; vm_compute; [discriminate|reflexivity]|].
      split; [split; vm_compute; [discriminate|reflexivity]|]. vm_compute; reflexivity.
    - exists p256_Gx, p256_Gy.
      split; [|vm_compute; reflexivity]. split; [split; vm_compute; [discriminate|reflexivity]|].
      split; [split; vm_compute; [discriminate|reflexivity]|]. vm_compute; reflexivity. }
  destruct K as (x & y & O & N). exists (NP (nf_set_big_int (nc_field C) nf_zero x) (nf_set_big_int (nc_field C) nf_zero y) (nf_one (nc_field C))), x, y.
  assert (D : denotes E (NP (nf_set_big_int (nc_field C) nf_zero x) (nf_set_big_int (nc_field C) nf_zero y) (nf_one (nc_field C))) (Some (x, y))).
  { apply (denotes_one C E OK).
    - pose proof (C82_set_big_int_reduces _ _ INF nf_zero x) as H. rewrite Z.mod_small in H by apply O. exact H.
    - pose proof (C82_set_big_int_reduces _ _ INF nf_zero y) as H. rewrite Z.mod_small in H by apply O. exact H. }
  split; [exact D|]. split; [exact O|]. rewrite (is_negative_mont C E IN _ _ _ D). exact N.
Qed.

(** the hypotheses are met: the generators *)
Theorem C89_example : forall C E, In (C, E) curves -> exists P x y Q, P = np_generator C /\ denotes E P (Some (x, y)) /\ on_curve E x y /\
  np_from_compressed C (np_to_compressed C P) = Some Q /\ np_equal C P Q = 1 /\
  np_from_uncompressed C (np_to_uncompressed C P) = Some Q.
Proof.
  intros C E IN. destruct (C91_generator_and_identity C E IN) as [(x & y & D & O) _].
  destruct (C89_roundtrip C E IN _ x y D O) as (Q & HQ & DQ & EQ).
  destruct (C90_roundtrip C E IN _ x y D) as (Q' & HQ' & DQ' & _).
  exists (np_generator C), x, y, Q. split; [reflexivity|]. split; [exact D|]. split; [exact O|]. split; [exact HQ|]. split; [exact EQ|].
  rewrite HQ'. f_equal.
  assert (K : forall bs A, np_from_compressed C bs = Some A -> ~ denotes E A None -> np_z A = nf_one (nc_field C)).
  { intros bs A. unfold np_from_compressed. destruct (negb _); [discriminate|]. destruct (_ && _); [discriminate|].
    destruct (nf_set_bytes _ _); [|discriminate]. destruct (nf_sqrt _ _ _) as [w [|]].
    - intros H _. injection H as <-. reflexivity.
    - intros H N. injection H as <-. elim N. exact (denotes_id C E (curves_ok _ _ IN)). }
  assert (K' : forall bs A, np_from_uncompressed C bs = Some A -> np_z A = nf_one (nc_field C)).
  { intros bs A. unfold np_from_uncompressed. destruct (negb _); [discriminate|]. destruct (negb _); [discriminate|].
    destruct (nf_set_bytes _ _); [|discriminate]. destruct (nf_set_bytes _ _); [|discriminate]. intros H. injection H as <-. reflexivity. }
  assert (N : ~ denotes E Q None).
  { intros H. pose proof (denotes_fun C E (curves_ok _ _ IN) _ _ _ H DQ). discriminate. }
  pose proof (K _ _ HQ N) as ZQ. pose proof (K' _ _ HQ') as ZQ'. destruct Q as [X Y Z], Q' as [X' Y' Z']. cbn [np_z] in *. subst Z Z'.
  pose proof (curves_ok _ _ IN) as OK. pose proof (C80_one _ _ (ck_in _ _ OK)) as R1.
  destruct DQ as (a & b & c & A & B & CC & _ & Cx & Cy & Ex & Ey), DQ' as (a' & b' & c' & A' & B' & CC' & _ & _ & _ & Ex' & Ey'). cbn [np_x np_y np_z] in *.
  rewrite (rep_fun C E OK _ _ _ CC R1), Z.mul_1_r, Z.mod_small in Ex, Ey by (assumption).
  rewrite (rep_fun C E OK _ _ _ CC' R1), Z.mul_1_r, Z.mod_small in Ex', Ey' by (assumption). subst a b a' b'.
  rewrite (represents_inj _ _ _ _ A A'), (represents_inj _ _ _ _ B B'). reflexivity.
Qed.
