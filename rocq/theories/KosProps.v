(** C51: the correlated OT extension. *)
From mathcomp Require Import all_ssreflect all_algebra.
From Coq Require Import BinNat.
From Verif Require Import AlgBase ByteVec BinFieldModel BinFieldProofs BinFieldProps SchnorrModel SimplestOtModel SimplestOtProofs
  SimplestOtProps KosModel KosProofs.
Delimit Scope nat_scope with N.
Delimit Scope N_scope with num.
Set Implicit Arguments.
Unset Strict Implicit.
Unset Printing Implicit Defensive.
Import GRing.Theory.
Local Open Scope ring_scope.

(** Specification. Bit i of a byte string, little endian; what the two results of the 256 seed OTs must be (C50 shows
    the seed OT gives this); the share equation of one slot. *)
Definition bit_at (v : bytes) (i : nat) : bool := N.testbit (nth 0%num v (i %/ 8)%N) (N.of_nat (i %% 8)%N).
Definition seeds_ok (so : sender_output) (ro : receiver_output) : Prop :=
  [/\ ot_matched 256 so ro, block (ro_packed ro) &
      forall i, (i < 256)%N -> nth false (ro_bits ro) i = bit_at (ro_packed ro) i].
Definition slot_ok (F : fieldType) (w : bool) (input tA tB : F * F) : Prop :=
  tA.1 + tB.1 = (if w then input.1 else 0) /\ tA.2 + tB.2 = (if w then input.2 else 0).

(** C50's outputs for 256 instances satisfy the contract. *)
Lemma seed_ot_gives_seeds (F : fieldType) (V : lmodType F) (G : V) enc dec sbytes setbytes H ext sid rnd b k a so ro :
  (forall b c, setbytes b = Some c -> sbytes c = b) -> (forall P Q, dec (enc P) = Some Q -> Q = P) ->
  (forall m, size (H m) = 32%N) -> (forall i, is_byte (rnd i)) ->
  run_simplest_ot G enc dec sbytes setbytes H ext 256 sid rnd b k a = Ok (so, ro) -> seeds_ok so ro.
Proof.
  move=> C D S R E. have [M [P B]] := C50_correct C D S E. split=> //.
  - rewrite P. split; first by rewrite size_mkseq. by apply/allP => x /mapP [i _ ->].
  - move=> i L. rewrite B // /choice /bit_at P nth_mkseq //. by rewrite ltn_divLR.
Qed.

Section Props.
  Variables (F : fieldType) (sbytes : F -> bytes) (setbytes : bytes -> option F).
  Variables (H : bytes -> bytes) (shake : bytes -> bytes -> nat -> bytes).
  (** lengths in bytes of the choice vector and of its extension; 84 and 126 in the code *)
  Variables (lb eb : nat).
  Hypothesis lb_eb : (lb <= eb)%N.
  (** the digest has 32 bytes; a scalar's encoding decodes to it *)
  Hypothesis H_block : forall m, block (H m).
  Hypothesis roundtrip : forall x, setbytes (sbytes x) = Some x.

  Local Notation round1 := (kos_round1 H shake lb eb).
  Local Notation round2 := (kos_round2 setbytes H shake lb eb).
  Local Notation round3 := (kos_round3 sbytes setbytes shake lb).
  Local Notation pairs := (nth ((0, 0) : F * F)).

  Section Honest.
    Variables (so : sender_output) (ro : receiver_output) (sid choice : bytes) (gamma : nat -> N) (input : nat -> F * F).
    Hypothesis seeds : seeds_ok so ro.

    Theorem C51_round1_succeeds : exists r m, round1 so sid choice gamma = Ok (r, m).
    Proof.
      have [[S _ _ _] _ _] := seeds. rewrite /kos_round1 S ltnn. by eexists; eexists.
    Qed.

    Variables (r : kos_receiver) (m : kos_msg1).
    Hypothesis R1 : round1 so sid choice gamma = Ok (r, m).

    Lemma H_size x : size (H x) = 32%N. Proof. by have [] := H_block x. Qed.
    Lemma H_byte x : all is_byte (H x). Proof. by have [] := H_block x. Qed.

    (** The consistency check accepts the honest receiver, whatever the sender's input. *)
    Theorem C51_check_passes : round2 ro sid input m <> Err KosCheck.
    Proof.
      have [M [PS PB] B] := seeds. have := check_passes H_size H_byte M PS PB B R1.
      rewrite /kos_round2. cbv zeta. move=> ->. rewrite eqxx. cbn [negb]. by case: (traverse _ _).
    Qed.
    (** The only other failure is a 32-byte hash block that is not the encoding of a scalar. *)
    Theorem C51_completes :
      (forall j row, column setbytes shake sid j row <> None) -> exists tA tau, round2 ro sid input m = Ok (tA, tau).
    Proof.
      move=> C. have := C51_check_passes. rewrite /kos_round2. cbv zeta. case: (_ != _) => // _.
      case E: (traverse _ _) => [l|]; first by eexists; eexists.
      have [j _] := proj1 (traverse_none _ _) E.
      case E1: (column _ _ _ _ _) => [x|]; last by case: (C _ _ E1).
      case E2: (column _ _ _ _ _) => [y|]; last by case: (C _ _ E2). by [].
    Qed.
    (** If the sender's round completes then so does the receiver's, and in every slot the two shares add up to the
        sender's input where the choice bit is 1 and to zero where it is 0. *)
    Theorem C51_correct tA tau : round2 ro sid input m = Ok (tA, tau) ->
      exists tB, round3 r (pairs tau) = Ok tB /\ size tA = (8 * lb)%N /\ size tB = (8 * lb)%N /\
        forall j, (j < 8 * lb)%N -> slot_ok (bit_at choice j) (input j) (pairs tA j) (pairs tB j).
    Proof.
      have [M [PS PB] B] := seeds. rewrite /kos_round2. cbv zeta. case: (_ != _) => //.
      case E: (traverse _ _) => [l|] //. case=> <- <-.
      have [S A] := proj1 (traverse_ok (((0, 0), (0, 0)) : (F * F) * (F * F)) _ _ _) E.
      have L8 : (8 * lb <= 8 * eb)%N by rewrite leq_mul2l lb_eb.
      have ZR j (L : (j < 8 * lb)%N) := zeta_row M PB B R1 (leq_trans L L8).
      pose w j := vbit (kr_choices r) j.
      have HW j : (j < 8 * lb)%N -> w j = bit_at choice j by move=> L; rewrite /w (ext_choice lb_eb R1).
      pose tB := mkseq (fun j => let p := nth ((0, 0), (0, 0)) l j in
          let x := p.1.1 in let y := p.1.2 in
          if w j then (- x + (input j).1, - y + (input j).2) else (- x, - y)) (8 * lb).
      have R3 : round3 r (pairs (map snd l)) = Ok tB.
      { rewrite /kos_round3. set f := fun j : nat => _.
        have -> : traverse f (8 * lb) = Some tB; last by [].
        apply/(traverse_ok ((0, 0) : F * F)). rewrite size_mkseq. split=> // j L.
        have := A j L. rewrite (ZR j L) /f (sidE R1) extract_bit_cases -/(w j) nth_mkseq //.
        rewrite (nth_map (((0, 0), (0, 0)) : (F * F) * (F * F))) ?S // .
        have [PSj PBj] := psi_block R1 (leq_trans L L8).
        move: (nth _ l j) => [[a1 a2] [t1 t2]].
        case Ew: (w j).
        - have -> : mkseq (fun k => N.lxor (nth 0%num (xor_bytes (nth [::] (kr_psi r) j) (ro_packed ro)) k)
                      (nth 0%num (ro_packed ro) k)) kappa_bytes = nth [::] (kr_psi r) j.
          { exact: (xor_bytesKr (ro_packed ro) PSj). }
          case E1: (column _ _ _ _ _) => [[b1 b2]|] //. case E2: (column _ _ _ _ _) => [[c1 c2]|] //.
          cbn [fst snd]. move=> [<- <- <- <-]. rewrite /reencode eqxx !roundtrip.
          by congr (Some (_, _)); rewrite addrA addKr.
        - case E1: (column _ _ _ _ _) => [[b1 b2]|] //. case E2: (column _ _ _ _ _) => [[c1 c2]|] //.
          cbn [fst snd]. move=> [<- <- _ _]. by rewrite /reencode !roundtrip. }
      exists tB. rewrite size_map size_mkseq. do 3 split=> //. move=> j L. rewrite -HW //.
      rewrite (nth_map (((0, 0), (0, 0)) : (F * F) * (F * F))) ?S // nth_mkseq // /slot_ok.
      move: (nth _ l j) => [[a1 a2] [t1 t2]]. cbn [fst snd]. case: (w j); cbn [fst snd].
      - by rewrite !addNKr.
      - by rewrite !addrN.
    Qed.
  End Honest.

  (** Specification: slot j's mask for a matrix row is the pair of scalars in the first and second 32 bytes of the
      64-byte hash of the slot number (two bytes, big-endian) and the row. *)
  Definition slot_number (j : nat) : bytes := [:: N.of_nat (j %/ 256); N.of_nat (j %% 256)].
  Definition mask_of (sid : bytes) (j : nat) (row : bytes) (x : F * F) : Prop :=
    let h := shake sid (slot_number j ++ row) 64 in
    setbytes (take 32 h) = Some x.1 /\ setbytes (take 32 (drop 32 h)) = Some x.2.
  Lemma columnE sid j row x : (j < 65536)%N -> column setbytes shake sid j row = Some x -> mask_of sid j row x.
  Proof.
    move=> L. rewrite /column /mask_of /slot_number /be16 [(j %/ 256 %% 256)%N]modn_small; last by rewrite ltn_divLR.
    case: (setbytes _) => [y|] //. case: (setbytes _) => [z|] // [<-]. by [].
  Qed.
  (** Whoever the receiver is: the sender's share of a slot is the mask of its row, and tau is the input plus the
      difference of the masks of row + nabla and of the row. *)
  Theorem C51_sender_shares ro sid input m tA tau : (8 * lb <= 65536)%N -> round2 ro sid input m = Ok (tA, tau) ->
    let zeta := transpose eb (z_matrix shake eb ro sid (km_U m)) in
    forall j, (j < 8 * lb)%N -> exists x' : F * F,
      mask_of sid j (nth [::] zeta j) (pairs tA j) /\
      mask_of sid j (mkseq (fun k => N.lxor (nth 0%num (nth [::] zeta j) k) (nth 0%num (ro_packed ro) k)) 32) x' /\
      pairs tau j = (x'.1 - (pairs tA j).1 + (input j).1, x'.2 - (pairs tA j).2 + (input j).2).
  Proof.
    move=> L8. rewrite /kos_round2. cbv zeta. case: (_ != _) => //.
    case E: (traverse _ _) => [l|] //. case=> <- <-.
    have [S A] := proj1 (traverse_ok (((0, 0), (0, 0)) : (F * F) * (F * F)) _ _ _) E.
    move=> j L. have Lj : (j < 65536)%N by exact: leq_trans L L8.
    have := A j L.
    case E1: (column _ _ _ _ _) => [x|] //. case E2: (column _ _ _ _ _) => [x'|] // [E'].
    exists x'. rewrite !(nth_map (((0, 0), (0, 0)) : (F * F) * (F * F))) ?S // -E'.
    split; first exact: columnE. split; first exact: columnE. by [].
  Qed.
  (** Different slots never hash the same bytes. *)
  Theorem C51_slots_separate (i j : nat) (r r' : bytes) : (i < 65536)%N -> (j < 65536)%N ->
    slot_number i ++ r = slot_number j ++ r' -> i = j.
  Proof.
    move=> _ _ [/Nnat.Nat2N.inj E1 /Nnat.Nat2N.inj E2 _]. by rewrite (divn_eq i 256) (divn_eq j 256) E1 E2.
  Qed.

  (** What the check tests, for any message: in GF(2)[X] modulo the modulus of C61, the sum of zeta_j * chi_j equals
      V' + nabla * W'. [zeta] are the columns of the matrix the sender computed. *)
  Theorem C51_check_iff ro sid input (m : kos_msg1) : block (ro_packed ro) -> block (km_W m) -> block (km_V m) ->
    let zeta := transpose eb (z_matrix shake eb ro sid (km_U m)) in
    let chi j := H (be16 j ++ H (flatten (km_U m))) in
    round2 ro sid input m = Err KosCheck <->
    (\sum_(0 <= j < 8 * eb) poly_of_bytes (nth [::] zeta j) * poly_of_bytes (chi j)) %% modulus <>
    poly_of_bytes (km_V m) + (poly_of_bytes (ro_packed ro) * poly_of_bytes (km_W m)) %% modulus.
  Proof.
    move=> [SP BP] [SW BW] [SV BV] zeta ch. rewrite !poly_of_bytesE -[modulus]/fpoly.
    have Z j : (j < 8 * eb)%N -> size (nth [::] zeta j) = 32%N /\ all is_byte (nth [::] zeta j) by exact: transpose_rows.
    have [E1 S1 B1] := @xor_acc_ok (fun j => binary_field_mul (nth [::] zeta j) (ch j)) (8 * eb) (fun j _ => bfm_block _ _).
    have [Sn Bn] := bfm_block (ro_packed ro) (km_W m).
    rewrite /kos_round2. cbv zeta. rewrite -/zeta -[chi H _]/ch.
    have E2 := vpoly_mk_xor SV Sn. rewrite (bfm_ok SP SW BP BW) in E2.
    have E3 : vpoly (xor_acc (fun j => binary_field_mul (nth [::] zeta j) (ch j)) (8 * eb)) =
              (\sum_(0 <= j < 8 * eb) poly_of_bytes (nth [::] zeta j) * poly_of_bytes (ch j)) %% fpoly.
    { rewrite E1 mod_sum. apply: eq_big_nat => j /andP [_ L]. have [Sz Bz] := Z j L. have [Sc Bc] := H_block (be16 j ++ H (flatten (km_U m))).
      exact: (bfm_ok Sz Sc Bz Bc). }
    rewrite -E2 -E3. move: (bytes_mk_xor kappa_bytes BV Bn). have Sx := size_mkseq (fun k => N.lxor (nth 0%num (km_V m) k)
        (nth 0%num (binary_field_mul (ro_packed ro) (km_W m)) k)) kappa_bytes. move: Sx S1 B1.
    clear E1 E2 E3 Sn Bn.
    move: (xor_acc _ _) (mkseq _ kappa_bytes) => x y Sy Sx Bx By.
    case: eqP => [->|N]; cbn [negb].
    - split; last by case. by case: (traverse _ _).
    - split=> // _ E. apply: N. apply: vpoly_inj => //. by rewrite Sx Sy.
  Qed.

  (** Where the receiver's bit is 0 its share does not depend on the sender's message. *)
  Theorem C51_zero_bit_ignores_tau (r : kos_receiver) tau tau' tB tB' :
    round3 r tau = Ok tB -> round3 r tau' = Ok tB' ->
    forall j, (j < 8 * lb)%N -> bit_at (kr_choices r) j = false -> pairs tB j = pairs tB' j.
  Proof.
    rewrite /kos_round3. case E: (traverse _ _) => [l|] // [<-]. case E': (traverse _ _) => [l'|] // [<-] j L Hb.
    have [S A] := proj1 (traverse_ok ((0, 0) : F * F) _ _ _) E. have [S' A'] := proj1 (traverse_ok ((0, 0) : F * F) _ _ _) E'.
    move: (A j L) (A' j L). rewrite extract_bit_cases -[vbit _ _]/(bit_at (kr_choices r) j) Hb.
    case: (column _ _ _ _ _) => [[b1 b2]|] //. rewrite /reencode !roundtrip. by move=> [<-] [<-].
  Qed.
End Props.

(** the code's parameters *)
Theorem C51_code_parameters : (cot_block_bytes <= cot_ext_bytes)%N /\ (8 * cot_block_bytes = 2 * 256 + 2 * 80)%N /\
  (8 * cot_ext_bytes = 8 * cot_block_bytes + 256 + 80)%N.
Proof. by []. Qed.

(** Non-vacuity: seeds satisfying the contract, with choice bits of both values. *)
Example C51_seeds_exist : exists so ro, seeds_ok so ro /\ nth false (ro_bits ro) 0 = true /\ nth false (ro_bits ro) 1 = false.
Proof.
  pose p := nseq 32 1%num. pose k0 := nseq 32 7%num. pose k1 := nseq 32 9%num.
  exists (nseq 256 (k0, k1)), (ROut p (mkseq (bit_at p) 256) (mkseq (fun i => choose (bit_at p i) (k0, k1)) 256)).
  split; last by [].
  split; cbn [ro_packed ro_bits ro_keys].
  - split; rewrite ?size_nseq ?size_mkseq // => i L. by rewrite !nth_mkseq // nth_nseq L.
  - by split.
  - move=> i L. by rewrite nth_mkseq.
Qed.
