(** Proofs about the point encodings, over any coordinate field with the stated coordinate functions. *)
From Coq Require Import Field Ring ZArith NArith Lia Bool List.
From Verif Require Import EcField EcSpec EcAlg EcProofs PointModel PointSpec PointProofs PointMulProofs PointProps LimbBase LimbSpec NativeField
  TowerModel ZcashModel ZcashSpec.
Import ListNotations.
Set Implicit Arguments.
Unset Strict Implicit.
Local Open Scope fld_scope.

Section Bits.
  Local Open Scope Z_scope.
  Lemma bits32 (f : Z -> bool) : forallb f (map Z.of_nat (seq 0 32)) = true -> forall h, 0 <= h < 32 -> f h = true.
  Proof.
    intros A h H. rewrite forallb_forall in A. apply A. rewrite in_map_iff. exists (Z.to_nat h). split; [lia|]. apply in_seq. lia.
  Qed.
  Lemma lor_head (k h : Z) : 0 <= h < 32 -> k = 64 \/ k = 128 \/ k = 192 \/ k = 160 \/ k = 0 -> Z.lor h k = k + h.
  Proof.
    intros H K. destruct K as [->|[->|[->|[->| ->]]]].
    all: match goal with |- Z.lor _ ?k = _ => apply Z.eqb_eq; apply (@bits32 (fun h => Z.lor h k =? k + h)); [vm_compute; reflexivity|exact H] end.
  Qed.
  Lemma bit_of (h n : Z) : 0 <= n -> Z.land (Z.shiftr h n) 1 = (h / 2 ^ n) mod 2.
  Proof. intros N. rewrite Z.shiftr_div_pow2 by exact N. change 1 with (Z.ones 1) at 1. rewrite Z.land_ones by lia. reflexivity. Qed.
  Lemma bit7 (h : Z) : 0 <= h < 256 -> (Z.land (Z.shiftr h 7) 1 = if 128 <=? h then 1 else 0).
  Proof. intros H. rewrite bit_of by lia. change (2 ^ 7) with 128. destruct (Z.leb_spec 128 h); Z.to_euclidean_division_equations; lia. Qed.
  Lemma bit6 (h : Z) : 0 <= h < 256 -> (Z.land (Z.shiftr h 6) 1 = if 64 <=? h mod 128 then 1 else 0).
  Proof. intros H. rewrite bit_of by lia. change (2 ^ 6) with 64. destruct (Z.leb_spec 64 (h mod 128)); Z.to_euclidean_division_equations; lia. Qed.
  Lemma bit5 (h : Z) : 0 <= h < 256 -> (Z.land (Z.shiftr h 5) 1 = if 32 <=? h mod 64 then 1 else 0).
  Proof. intros H. rewrite bit_of by lia. change (2 ^ 5) with 32. destruct (Z.leb_spec 32 (h mod 64)); Z.to_euclidean_division_equations; lia. Qed.
End Bits.

(** the first byte without its flags *)
Definition low5 (bs : list Z) : list Z := match bs with [] => [] | h :: r => (h mod 32)%Z :: r end.

Section Codec.
  Variable K : field.
  Add Field Kzc : (fth K).
  Variables (width : nat) (b : K) (m3b : K -> K).
  Variables (put : K -> list Z) (get : bool -> list Z -> option K) (sqrt : K -> K * bool) (cneg : K -> Z -> K) (lex : K -> Z).
  Variables (coord : list Z -> K -> Prop) (larger : K -> Prop) (inG : point K -> Prop).
  Hypothesis odd : odd_order_curve 0 b.
  Hypothesis Hput : forall x, coord (put x) x.
  Hypothesis Hget : forall mask bs x, is_bytes bs -> length bs = width -> (get mask bs = Some x <-> coord (if mask : bool then low5 bs else bs) x).
  Hypothesis Hfun : forall bs x y, coord bs x -> coord bs y -> x = y.
  Hypothesis Hinj : forall bs cs x, coord bs x -> coord cs x -> bs = cs.
  Hypothesis Hbytes : forall bs x, coord bs x -> is_bytes bs /\ length bs = width /\ exists h r, bs = h :: r /\ (0 <= h < 32)%Z.
  Hypothesis Hzero : coord (repeat 0%Z width) 0.
  Hypothesis Hwidth : width = S (width - 1).
  Hypothesis Hlex : forall y, (larger y /\ lex y = 1%Z) \/ (~ larger y /\ lex y = 0%Z).
  Hypothesis Hopp : forall y, y <> 0 -> (larger (- y) <-> ~ larger y).
  Hypothesis Hl0 : ~ larger 0.
  Hypothesis Hsqrt : forall a, ((exists y, y * y = a) -> snd (sqrt a) = true /\ fst (sqrt a) * fst (sqrt a) = a) /\ (~ (exists y, y * y = a) -> snd (sqrt a) = false).
  Hypothesis Hcneg0 : forall y, cneg y 0%Z = y.
  Hypothesis Hcneg1 : forall y, cneg y 1%Z = - y.
  Hypothesis HinG : forall p, bls_point b p -> (in_correct_subgroup m3b p = true <-> inG (homogeneous p)).

  Local Notation compress := (to_compressed put lex).
  Local Notation decompress := (from_compressed width b m3b get sqrt cneg lex).
  Local Notation encode := (to_uncompressed put).
  Local Notation decode := (from_uncompressed width b m3b get).

  Lemma hom1 (x y : K) : homogeneous (Pt x y 1) = Some (x, y).
  Proof. unfold homogeneous. cbn [pz PointModel.px py]. rewrite (feqb_false (@f_one_zero K)). do 2 f_equal; field; apply f_one_zero. Qed.
  Lemma point1 (x y : K) : on_curve 0 b (Some (x, y)) -> bls_point b (Pt x y 1).
  Proof. intros O. split; [rewrite hom1; exact O|]. intros Z. destruct (@f_one_zero K Z). Qed.
  Lemma rhs_eq (x : K) : x * x * x + b = curve_rhs 0 b x.
  Proof. unfold curve_rhs. ring. Qed.
  Lemma y_nz (x y : K) : on_curve 0 b (Some (x, y)) -> y <> 0.
  Proof. intros O. exact (y_neq odd O). Qed.
  Lemma roots (y z : K) : y * y = z * z -> z = y \/ z = - y.
  Proof.
    intros E. destruct (f_eq_dec z y) as [H|H]; [now left|]. right.
    assert (P : (z - y) * (z + y) = 0) by (transitivity (z * z - y * y); [ring|rewrite E; ring]).
    destruct (f_integral P) as [Q|Q]; [exfalso; apply H; transitivity (z - y + y); [ring|rewrite Q; ring]|].
    transitivity (z + y - y); [ring|]. rewrite Q. ring.
  Qed.
  Lemma head (x : K) bs : coord bs x -> exists h r, bs = h :: r /\ (0 <= h < 32)%Z /\ is_bytes (h :: r) /\ length (h :: r) = width.
  Proof. intros C. destruct (Hbytes C) as (B & L & h & r & -> & H). exists h, r. auto. Qed.
  Lemma infinity_id (p : pt K) : is_identity p = match homogeneous p with None => true | Some _ => false end.
  Proof. unfold is_identity, is_zero, homogeneous. destruct (feqb (pz p) 0); reflexivity. Qed.
  Lemma zeros : repeat 0%Z width = 0%Z :: repeat 0%Z (width - 1).
  Proof. rewrite Hwidth at 1. reflexivity. Qed.

  Lemma compress_ok p : compressed_form width coord larger (homogeneous p) (compress p).
  Proof using All.
    unfold to_compressed. cbv zeta. rewrite C75_to_affine, infinity_id. destruct (homogeneous p) as [[x y]|]; cbn [PointModel.px py compressed_form z01].
    - destruct (head (Hput x)) as (h & r & E & H & _). exists h, r. rewrite E. split; [rewrite <- E; apply Hput|].
      destruct (Hlex y) as [[L ->]|[L ->]]; [left|right]; (split; [exact L|]); unfold update; cbn [firstn skipn app nth]; apply (f_equal (fun z => z :: r)).
      + change (Z.land (Z.shiftl 1 6) (to_byte (- 0))) with 0%Z. change (to_byte (Z.shiftl 1 7)) with 128%Z.
        change (Z.land (to_byte (Z.shiftl (to_byte 1) 5)) (to_byte (0 - 1))) with 32%Z.
        rewrite Z.lor_0_r, <- Z.lor_assoc. change (Z.lor 128 32) with 160%Z. rewrite lor_head by (auto; lia). reflexivity.
      + change (Z.land (Z.shiftl 1 6) (to_byte (- 0))) with 0%Z. change (to_byte (Z.shiftl 1 7)) with 128%Z.
        change (Z.land (to_byte (Z.shiftl (to_byte 0) 5)) (to_byte (0 - 1))) with 0%Z.
        rewrite !Z.lor_0_r. apply lor_head; auto.
    - rewrite (Hinj (Hput 0) Hzero), zeros. unfold update; cbn [firstn skipn app nth].
      destruct (Hlex 0) as [[L _]|[_ ->]]; [contradiction|]. reflexivity.
  Qed.
  Lemma encode_ok p : uncompressed_form width coord (homogeneous p) (encode p).
  Proof using All.
    unfold to_uncompressed. cbv zeta. rewrite C75_to_affine, infinity_id. destruct (homogeneous p) as [[x y]|]; cbn [PointModel.px py uncompressed_form z01].
    - exists (put x), (put y). split; [apply Hput|]. split; [apply Hput|]. destruct (head (Hput x)) as (h & r & -> & _).
      unfold update; cbn [firstn skipn app nth]. change (Z.land (Z.shiftl 1 6) (to_byte (- 0))) with 0%Z. rewrite Z.lor_0_r. reflexivity.
    - rewrite (Hinj (Hput 0) Hzero), zeros. unfold update. cbn [firstn skipn app nth]. change (Z.lor 0 _) with 64%Z. apply f_equal.
      replace (2 * width - 1)%nat with ((width - 1) + width)%nat by lia. rewrite repeat_app, zeros. reflexivity.
  Qed.

  (** the decoders accept exactly ... *)
  Lemma recover (x y : K) s : on_curve 0 b (Some (x, y)) -> (larger y <-> s = 1%Z) -> s = 0%Z \/ s = 1%Z ->
    let z := fst (sqrt (x * x * x + b)) in snd (sqrt (x * x * x + b)) = true /\ cneg z (Z.lxor (lex z) s) = y.
  Proof.
    intros O L S z. pose proof (y_nz O) as NY. cbn [on_curve] in O. rewrite <- rhs_eq in O.
    destruct (proj1 (Hsqrt (x * x * x + b))) as [T Q]; [exists y; exact O|]. split; [exact T|]. fold z in Q.
    assert (E : y * y = z * z) by (rewrite O, Q; reflexivity).
    destruct (roots E) as [-> | Zy].
    - destruct (Hlex y) as [[A ->]|[A ->]].
      + destruct S as [->| ->]; [discriminate (proj1 L A)|]. apply Hcneg0.
      + destruct S as [->| ->]; [apply Hcneg0|]. elim A. now apply L.
    - assert (LZ : larger z <-> ~ larger y) by (rewrite Zy; apply Hopp; exact NY).
      assert (YZ : - z = y) by (rewrite Zy; ring).
      destruct (Hlex z) as [[A ->]|[A ->]].
      + destruct S as [->| ->]; [rewrite <- YZ; apply Hcneg1|]. exfalso. apply (proj1 LZ A). now apply L.
      + destruct S as [->| ->]; [|rewrite <- YZ; apply Hcneg1]. exfalso. apply A, LZ. intros B. apply L in B. lia.
  Qed.
  Definition compressed_accepts (h : Z) (r : list Z) (p : pt K) : Prop :=
    (128 <= h)%Z /\
    (((64 <= h mod 128)%Z /\ p = bls_id) \/
     ((h mod 128 < 64)%Z /\ exists x y, coord ((h mod 32)%Z :: r) x /\ on_curve 0 b (Some (x, y)) /\ (larger y <-> (32 <= h mod 64)%Z) /\
        inG (Some (x, y)) /\ p = Pt x y 1)).
  Lemma decompress_ok h r p : is_bytes (h :: r) -> length (h :: r) = width -> (decompress (h :: r) = Some p <-> compressed_accepts h r p).
  Proof using All.
    intros B L. assert (HH : (0 <= h < 256)%Z) by (inversion B; assumption).
    unfold from_compressed. cbv zeta. cbn [nth]. rewrite bit7, bit6, bit5 by exact HH.
    rewrite firstn_all2 by lia. unfold compressed_accepts.
    destruct (Z.leb_spec 128 h) as [H7|H7]; cbn [Z.eqb Pos.eqb negb]; [|split; [discriminate|lia]].
    destruct (Z.leb_spec 64 (h mod 128)) as [H6|H6]; cbn [Z.eqb Pos.eqb].
    { split; [intros Q; injection Q as <-; auto|]. intros (_ & [[_ ->]|[A _]]); [reflexivity|lia]. }
    set (s := if (32 <=? h mod 64)%Z then 1%Z else 0%Z).
    assert (S01 : s = 0%Z \/ s = 1%Z) by (unfold s; destruct (_ <=? _)%Z; auto).
    assert (Siff : (32 <= h mod 64)%Z <-> s = 1%Z) by (unfold s; destruct (Z.leb_spec 32 (h mod 64)); split; intros; try lia; discriminate).
    split.
    - destruct (get true (h :: r)) as [x|] eqn:G; [|discriminate]. apply (Hget true _ B L) in G. cbn [low5] in G.
      destruct (sqrt (x * x * x + b)) as [z ok] eqn:SQ. destruct ok; cbn [negb]; [|discriminate].
      set (y := cneg z (Z.lxor (lex z) s)). destruct (in_correct_subgroup m3b (Pt x y 1)) eqn:SG; cbn [negb]; [|discriminate].
      intros Q. injection Q as <-. split; [exact H7|]. right. split; [exact H6|]. exists x, y. split; [exact G|].
      assert (EZ : z * z = curve_rhs 0 b x).
      { destruct (Hsqrt (x * x * x + b)) as [A1 A2]. rewrite SQ in A1, A2. cbn [fst snd] in A1, A2. rewrite <- rhs_eq.
        destruct (feqb_case (z * z) (x * x * x + b)) as [[_ E]|[_ N]]; [exact E|exfalso].
        assert (NR : ~ (exists y, y * y = x * x * x + b)) by (intros R; exact (N (proj2 (A1 R)))). discriminate (A2 NR). }
      assert (NZ : z <> 0) by exact (@y_nz x z EZ).
      assert (O : on_curve 0 b (Some (x, y)) /\ (larger y <-> s = 1%Z)).
      { unfold y. destruct (Hlex z) as [[A ->]|[A ->]]; destruct S01 as [-> | ->]; cbn [Z.lxor Pos.lxor]; rewrite ?Hcneg0, ?Hcneg1.
        - split; [cbn [on_curve]; rewrite <- EZ; ring|]. rewrite Hopp by exact NZ. split; [tauto|discriminate].
        - split; [exact EZ|tauto].
        - split; [exact EZ|]. split; [tauto|discriminate].
        - split; [cbn [on_curve]; rewrite <- EZ; ring|]. rewrite Hopp by exact NZ. tauto. }
      destruct O as [O LS]. split; [exact O|]. split; [rewrite LS, Siff; reflexivity|]. split; [|reflexivity].
      apply (HinG (point1 O)) in SG. rewrite hom1 in SG. exact SG.
    - intros (_ & [[A _]|(_ & x & y & C & O & LY & GI & ->)]); [lia|].
      assert (G : get true (h :: r) = Some x) by (apply Hget; auto). rewrite G.
      assert (LS : larger y <-> s = 1%Z) by (rewrite LY; exact Siff).
      destruct (recover O LS S01) as [T E]. destruct (sqrt (x * x * x + b)) as [z ok]. cbn [fst snd] in T, E. subst ok. cbn [negb]. rewrite E.
      assert (SG : in_correct_subgroup m3b (Pt x y 1) = true) by (apply (HinG (point1 O)); rewrite hom1; exact GI).
      rewrite SG. reflexivity.
  Qed.
  Definition uncompressed_accepts (h : Z) (r ys : list Z) (p : pt K) : Prop :=
    ((64 <= h mod 128)%Z /\ p = bls_id) \/
    ((h mod 128 < 64)%Z /\ exists x y, coord ((h mod 32)%Z :: r) x /\ coord ys y /\ on_curve 0 b (Some (x, y)) /\ inG (Some (x, y)) /\ p = Pt x y 1).
  Lemma decode_ok h r ys p : is_bytes ((h :: r) ++ ys) -> length (h :: r) = width -> length ys = width ->
    (decode ((h :: r) ++ ys) = Some p <-> uncompressed_accepts h r ys p).
  Proof using All.
    intros BB L LY. apply Forall_app in BB. destruct BB as [B BY]. assert (HH : (0 <= h < 256)%Z) by (inversion B; assumption).
    unfold from_uncompressed. cbv zeta. rewrite firstn_app, skipn_app, L, Nat.sub_diag, firstn_all2, skipn_all2 by lia.
    cbn [firstn skipn app nth]. rewrite app_nil_r. rewrite bit6 by exact HH. unfold uncompressed_accepts.
    destruct (Z.leb_spec 64 (h mod 128)) as [H6|H6]; cbn [Z.eqb Pos.eqb].
    { split; [intros Q; injection Q as <-; auto|]. intros [[_ ->]|[A _]]; [reflexivity|lia]. }
    assert (OC : forall x y, bls_on_curve b (Pt x y 1) = true <-> on_curve 0 b (Some (x, y))).
    { intros x y. rewrite (C71_is_on_curve b), hom1; [reflexivity|]. intros Z. destruct (@f_one_zero K Z). }
    split.
    - destruct (get true (h :: r)) as [x|] eqn:G; [|discriminate]. destruct (get false ys) as [y|] eqn:G2; [|discriminate].
      apply (Hget true _ B L) in G. apply (Hget false _ BY LY) in G2. cbn [low5] in G.
      destruct (bls_on_curve b (Pt x y 1)) eqn:O; cbn [negb]; [|discriminate]. apply OC in O.
      destruct (in_correct_subgroup m3b (Pt x y 1)) eqn:SG; cbn [negb]; [|discriminate].
      apply (HinG (point1 O)) in SG. rewrite hom1 in SG. intros Q. injection Q as <-. right. split; [exact H6|]. exists x, y. auto.
    - intros [[A _]|(_ & x & y & C & C2 & O & GI & ->)]; [lia|].
      assert (G : get true (h :: r) = Some x) by (apply Hget; auto). assert (G2 : get false ys = Some y) by (apply Hget; auto).
      rewrite G, G2. assert (SG : in_correct_subgroup m3b (Pt x y 1) = true) by (apply (HinG (point1 O)); rewrite hom1; exact GI).
      apply OC in O. rewrite O, SG. reflexivity.
  Qed.

  (** compositions *)
  Lemma equal_from_hom (p q : pt K) : homogeneous p = homogeneous q -> proj_equal p q = 1%Z.
  Proof. apply C74_equal. Qed.
  Lemma id_hom : homogeneous (bls_id (F := K)) = None. Proof. unfold homogeneous, bls_id. cbn [pz]. rewrite feqb_true. reflexivity. Qed.
  Lemma compress_bytes P bs : compressed_form width coord larger P bs -> is_bytes bs /\ length bs = width.
  Proof.
    destruct P as [[x y]|]; cbn [compressed_form].
    - intros (h & r & C & D). destruct (head C) as (h' & r' & E & H & B & L). injection E as <- <-. cbn [length] in *. pose proof (Forall_inv_tail B) as BT.
      destruct D as [[_ ->]|[_ ->]]; (split; [constructor; [lia|exact BT]|exact L]).
    - intros ->. split; [constructor; [lia|]|cbn [length]; rewrite repeat_length; symmetry; exact Hwidth].
      apply Forall_forall. intros z Z. apply repeat_spec in Z. lia.
  Qed.
  Lemma roundtrip_c p : bls_point b p -> (forall x y, homogeneous p = Some (x, y) -> inG (Some (x, y))) ->
    exists q, decompress (compress p) = Some q /\ bls_point b q /\ homogeneous q = homogeneous p /\ proj_equal p q = 1%Z.
  Proof using All.
    intros BP GI. pose proof (compress_ok p) as C. destruct (compress_bytes C) as [B L].
    destruct (homogeneous p) as [[x y]|] eqn:E; cbn [compressed_form] in C.
    - destruct C as (h & r & CX & D). destruct (head CX) as (h' & r' & E' & H & _). injection E' as <- <-.
      assert (O : on_curve 0 b (Some (x, y))) by (rewrite <- E; apply BP).
      exists (Pt x y 1). split; [|split; [exact (point1 O)|split; [apply hom1|apply equal_from_hom; rewrite E, hom1; reflexivity]]].
      destruct D as [[LY D]|[LY D]]; rewrite D in B, L |- *; apply (decompress_ok _ B L).
      + split; [lia|]. right. split; [Z.to_euclidean_division_equations; lia|]. exists x, y.
        replace ((128 + 32 + h) mod 32)%Z with h by (Z.to_euclidean_division_equations; lia).
        replace ((128 + 32 + h) mod 64)%Z with (32 + h)%Z by (Z.to_euclidean_division_equations; lia).
        split; [exact CX|]. split; [exact O|]. split; [split; [lia|intros _; exact LY]|]. split; [apply GI; reflexivity|reflexivity].
      + split; [lia|]. right. split; [Z.to_euclidean_division_equations; lia|]. exists x, y.
        replace ((128 + h) mod 32)%Z with h by (Z.to_euclidean_division_equations; lia).
        replace ((128 + h) mod 64)%Z with h by (Z.to_euclidean_division_equations; lia).
        split; [exact CX|]. split; [exact O|]. split; [split; [contradiction|lia]|]. split; [apply GI; reflexivity|reflexivity].
    - exists bls_id. rewrite C in B, L |- *. split; [apply (decompress_ok _ B L); split; [lia|]; left; split; [reflexivity|reflexivity]|].
      split; [apply C71_identity|]. split; [apply id_hom|]. apply equal_from_hom. rewrite E, id_hom. reflexivity.
  Qed.
  Lemma canonical_c bs p : is_bytes bs -> length bs = width -> decompress bs = Some p -> homogeneous p <> None ->
    bls_point b p /\ inG (homogeneous p) /\ compress p = bs.
  Proof using All.
    intros B L D N. destruct bs as [|h r]; [cbn in L; lia|]. apply (decompress_ok _ B L) in D.
    destruct D as (H7 & [[_ ->]|(H6 & x & y & C & O & LY & GI & ->)]); [elim N; apply id_hom|].
    split; [exact (point1 O)|]. rewrite hom1. split; [exact GI|].
    assert (HH : (0 <= h < 256)%Z) by (inversion B; assumption).
    pose proof (compress_ok (Pt x y 1)) as F. rewrite hom1 in F. cbn [compressed_form] in F. destruct F as (h' & r' & C' & D).
    assert (E := Hinj C' C). injection E as -> ->.
    destruct D as [[LL ->]|[LL ->]]; f_equal.
    - apply LY in LL. Z.to_euclidean_division_equations; lia.
    - assert (~ (32 <= h mod 64)%Z) by (intros Q; apply LL, LY, Q). Z.to_euclidean_division_equations; lia.
  Qed.
  Lemma roundtrip_u p : bls_point b p -> (forall x y, homogeneous p = Some (x, y) -> inG (Some (x, y))) ->
    exists q, decode (encode p) = Some q /\ bls_point b q /\ homogeneous q = homogeneous p /\ proj_equal p q = 1%Z.
  Proof using All.
    intros BP GI. pose proof (encode_ok p) as C.
    destruct (homogeneous p) as [[x y]|] eqn:E; cbn [uncompressed_form] in C.
    - destruct C as (bx & ys & CX & CY & ->). destruct (head CX) as (h & r & -> & H & B & L). destruct (Hbytes CY) as (BY & LY & _).
      assert (O : on_curve 0 b (Some (x, y))) by (rewrite <- E; apply BP).
      exists (Pt x y 1). split; [|split; [exact (point1 O)|split; [apply hom1|apply equal_from_hom; rewrite E, hom1; reflexivity]]].
      apply decode_ok; [apply Forall_app; auto|exact L|exact LY|]. right. split; [Z.to_euclidean_division_equations; lia|]. exists x, y.
      rewrite Z.mod_small by lia. split; [exact CX|]. split; [exact CY|]. split; [exact O|]. split; [apply GI; reflexivity|reflexivity].
    - exists bls_id. split; [|split; [apply C71_identity|]; split; [apply id_hom|]; apply equal_from_hom; rewrite E, id_hom; reflexivity].
      rewrite C. replace (2 * width - 1)%nat with ((width - 1) + width)%nat by lia. rewrite repeat_app.
      assert (ZB : forall n, is_bytes (repeat 0%Z n)) by (intros n; apply Forall_forall; intros z Z; apply repeat_spec in Z; lia).
      change (64%Z :: repeat 0%Z (width - 1) ++ repeat 0%Z width) with ((64%Z :: repeat 0%Z (width - 1)) ++ repeat 0%Z width).
      apply decode_ok; [apply Forall_app; split; [constructor; [lia|apply ZB]|apply ZB]|cbn [length]; rewrite repeat_length; symmetry; exact Hwidth|apply repeat_length|].
      left. split; [reflexivity|reflexivity].
  Qed.
  Lemma canonical_u h r ys p : is_bytes ((h :: r) ++ ys) -> length (h :: r) = width -> length ys = width ->
    decode ((h :: r) ++ ys) = Some p -> homogeneous p <> None ->
    bls_point b p /\ inG (homogeneous p) /\ encode p = ((h mod 32)%Z :: r) ++ ys.
  Proof using All.
    intros B L LY D N. apply (decode_ok _ B L LY) in D. destruct D as [[_ ->]|(_ & x & y & C & C2 & O & GI & ->)]; [elim N; apply id_hom|].
    split; [exact (point1 O)|]. rewrite hom1. split; [exact GI|].
    pose proof (encode_ok (Pt x y 1)) as F. rewrite hom1 in F. cbn [uncompressed_form] in F. destruct F as (bx & by' & C' & C2' & ->).
    rewrite (Hinj C' C), (Hinj C2' C2). reflexivity.
  Qed.
End Codec.
