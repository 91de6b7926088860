(** C52, C67: the two-party multiplication. *)
From mathcomp Require Import all_ssreflect all_algebra.
From Coq Require Import BinNat Ring.
From Verif Require Import AlgBase VRing ByteVec BinFieldProps SchnorrModel SimplestOtModel SimplestOtProps KosModel KosProofs KosProps ScalarCodec
  MultiplyModel MultiplyProofs.
Delimit Scope nat_scope with N.
Delimit Scope N_scope with num.
Set Implicit Arguments.
Unset Strict Implicit.
Unset Printing Implicit Defensive.
Import GRing.Theory.
Local Open Scope ring_scope.

Section Props.
  Variables (F : fieldType) (sbytes : F -> bytes) (setbytes : bytes -> option F).
  Variables (H : bytes -> bytes) (shake : bytes -> bytes -> nat -> bytes) (ext : transcript -> bytes).
  Variable gshake : nat -> bytes.
  Variables (lb eb : nat).
  Hypothesis codec : scalar_codec sbytes setbytes.
  Hypothesis H_block : forall m, block (H m).
  Hypothesis lb32 : (32 <= lb)%N.
  Hypothesis lb_eb : (lb <= eb)%N.

  Local Notation new_s := (new_mul_sender setbytes gshake lb).
  Local Notation new_r := (new_mul_receiver setbytes gshake lb).
  Local Notation round1 := (mul_round1 sbytes setbytes H shake lb eb).
  Local Notation round2 := (mul_round2 sbytes setbytes H shake ext lb eb).
  Local Notation round3 := (mul_round3 sbytes setbytes shake ext lb).
  Local Notation pairs := (nth ((0, 0) : F * F)).

  Lemma cat_inj_l (T : Type) (a b c : seq T) : a ++ b = a ++ c -> b = c.
  Proof. by elim: a => //= x a IH [/IH]. Qed.
  (** the transcript the challenge is drawn from determines both scalars of each of the first 256 rows of Tau, and
      the whole first message *)
  Theorem C67_head_rows_bound (t : transcript) (tau tau' : seq (F * F)) :
    append_tau sbytes t tau = append_tau sbytes t tau' -> forall i, (i < 256)%N -> pairs tau i = pairs tau' i.
  Proof.
    rewrite /append_tau => /cat_inj_l.
    have inj x y : sbytes x = sbytes y -> x = y.
    { by move=> /(congr1 setbytes); rewrite !(sc_roundtrip codec) => -[]. }
    rewrite /mkseq -[kappa]/256%N. move: 256%N => n.
    suff G (f : nat -> String.string) k :
      flatten [seq [:: TAppend (f i) (sbytes (pairs tau i).1); TAppend (f i) (sbytes (pairs tau i).2)] | i <- iota k n] =
      flatten [seq [:: TAppend (f i) (sbytes (pairs tau' i).1); TAppend (f i) (sbytes (pairs tau' i).2)] | i <- iota k n] ->
               forall i, (k <= i < k + n)%N -> pairs tau i = pairs tau' i.
    { by move=> E i L; apply: (G _ 0%N E). }
    elim: n k => [|n IH] k /=; first by move=> _ i; rewrite addn0 ltnNge andbN.
    case=> /inj E1 /inj E2 /IH A i /andP [L1 L2]. case: (k =P i) => [<-|N].
    - by move: E1 E2; case: (pairs tau k); case: (pairs tau' k) => a b c d /= -> ->.
    - apply: A. by rewrite ltn_neqAle L1 (introN eqP N) addSnnS.
  Qed.
  Theorem C67_first_message_bound (t : transcript) (m m' : kos_msg1) :
    size (km_U m) = 256%N -> size (km_U m') = 256%N -> append_msg1 t m = append_msg1 t m' -> m = m'.
  Proof.
    case: m => U W V; case: m' => U' W' V' /= S S'. rewrite /append_msg1 => /cat_inj_l E0.
    have E := congr1 (take kappa) E0; have E' := congr1 (drop kappa) E0.
    rewrite !take_size_cat ?size_mkseq // in E; rewrite !drop_size_cat ?size_mkseq // in E'.
    case: E' => -> ->. congr KosMsg1.
    apply: (@eq_from_nth _ [::]); first by rewrite S S'.
    move=> i; rewrite S => L. have := congr1 (fun s => nth (TAppend String.EmptyString [::]) s i) E.
    by rewrite !nth_mkseq // => -[].
  Qed.

  (** what a successful last round means, for any message of the other party *)
  Theorem C52_accept r m r' : round3 r m = Ok r' ->
    exists (c : F * F) (tB : seq (F * F)),
      [/\ kos_round3 sbytes setbytes shake lb (mr_kos r) (pairs (mm_tau m)) = Ok tB,
          exists t, draw_chi setbytes ext (append_tau sbytes (mr_tr r) (mm_tau m)) = Ok (t, c),
          mr_share r' = \sum_(0 <= j < 8 * lb) nth 0 (mr_gadget r) j * (pairs tB j).1 &
          forall j, (j < 8 * lb)%N ->
            nth 0 (mm_R m) j + c.1 * (pairs tB j).1 + c.2 * (pairs tB j).2 = (if bit_at (mr_omega r) j then mm_U m else 0)].
  Proof.
    rewrite /mul_round3. case K: (kos_round3 _ _ _ _ _ _) => [tB| |] //. cbn [lift_err rbind].
    case D: (draw_chi _ _ _) => [[t c]| |] //. cbn [rbind]. case A: (all _ _) => //. cbn [negb]. move=> [<-].
    exists c, tB. split=> //; first by exists t.
    - by rewrite -gadget_sumE.
    - move=> j L. have /allP/(_ j) := A. rewrite mem_iota L => /(_ isT). rewrite /mul_check extract_bit_cases.
      rewrite -[vbit _ _]/(bit_at (mr_omega r) j). rewrite -(sc_zero codec).
      case: (bit_at _ _); rewrite ?eqxx => /eqP E.
      all: have := congr1 setbytes E; rewrite !(sc_roundtrip codec); by case.
  Qed.

  (** Honest run. *)
  Section Honest.
    Variables (so : sender_output) (ro : receiver_output) (sid : bytes) (alpha beta ahat : F) (rnd gamma : nat -> N).
    Hypothesis seeds : seeds_ok so ro.
    Variables (s0 : mul_sender F) (r0 : mul_receiver F).
    Hypothesis S0 : new_s ro sid = Ok s0.
    Hypothesis R0 : new_r so sid = Ok r0.

    Lemma start_inv : exists2 g, gadget_vector setbytes gshake lb = Ok g &
      s0 = MulSender ro sid g (mul_start sid) 0 /\
      r0 = MulReceiver so sid g (mul_start sid) [::] (KosReceiver [::] [::] [::]) 0.
    Proof.
      move: S0 R0. rewrite /new_mul_sender /new_mul_receiver. case: (gadget_vector _ _ _) => [g| |] // [<-] [<-].
      by exists g.
    Qed.

    (** The first round never fails; the choice vector it uses represents beta in the gadget basis. *)
    Theorem C52_round1_succeeds : exists r1 m1, round1 r0 beta rnd gamma = Ok (r1, m1) /\
      \sum_(0 <= j < 8 * lb) (bit_at (mr_omega r1) j)%:R * nth 0 (mr_gadget r1) j = beta.
    Proof.
      have [g G [_ ->]] := start_inv. rewrite /mul_round1. cbn [mr_gadget mr_seeds mr_sid].
      have [omega -> [_ SO]] := encode_ok codec lb32 beta rnd G. cbn [rbind].
      have [k [m ->]] := C51_round1_succeeds H shake lb eb sid omega gamma seeds. cbn [lift_err rbind].
      eexists; eexists; split; first by reflexivity. exact: SO.
    Qed.

    Variables (r1 : mul_receiver F) (m1 : kos_msg1).
    Hypothesis R1 : round1 r0 beta rnd gamma = Ok (r1, m1).

    Lemma round1_inv : exists g omega k,
      [/\ gadget_vector setbytes gshake lb = Ok g, s0 = MulSender ro sid g (mul_start sid) 0,
          kos_round1 H shake lb eb so sid omega gamma = Ok (k, m1),
          r1 = MulReceiver so sid g (append_msg1 (mul_start sid) m1) omega k 0 &
          \sum_(0 <= j < 8 * lb) (bit_at omega j)%:R * nth 0 g j = beta].
    Proof.
      have [g G [E1 E2]] := start_inv. move: R1. rewrite E2 /mul_round1. cbn [mr_gadget mr_seeds mr_sid].
      have [omega -> [_ SO]] := encode_ok codec lb32 beta rnd G. cbn [rbind].
      case K: (kos_round1 _ _ _ _ _ _ _ _) => [[k m]| |] //. cbn [lift_err rbind]. case=> <- <-.
      by exists g, omega, k.
    Qed.

    (** The only way for the sender's round to fail is a 32-byte string that is no scalar: a hash column of the OT
        extension or a challenge. *)
    Theorem C52_completes :
      (forall j row, column setbytes shake sid j row <> None) -> (forall t, setbytes (ext t) <> None) ->
      exists s1 m2, round2 s0 alpha ahat m1 = Ok (s1, m2).
    Proof.
      move=> C X. have [g [omega [k [G E1 K E2 _]]]] := round1_inv.
      rewrite E1 /mul_round2. cbn [ms_seeds ms_sid].
      have [tA [tau ->]] := C51_completes H_block (fun _ => (alpha, ahat)) seeds K C. cbn [lift_err rbind].
      case D: (draw_chi _ _ _) => [[t c]|e|]; first by eexists; eexists.
      - move: D. rewrite /draw_chi /extract. case D1: (setbytes _) => [c0|]; last by case: (X _ D1).
        case D2: (setbytes _) => [c1|]; last by case: (X _ D2). by [].
      - move: D. rewrite /draw_chi /extract. case D1: (setbytes _) => [c0|] //. by case D2: (setbytes _).
    Qed.

    (** If it succeeds the receiver accepts, and the two output shares add up to the product. *)
    Theorem C52_correct s1 m2 : round2 s0 alpha ahat m1 = Ok (s1, m2) ->
      exists2 r2, round3 r1 m2 = Ok r2 & ms_share s1 + mr_share r2 = alpha * beta.
    Proof.
      have [g [omega [k [G E1 K E2 SB]]]] := round1_inv. rewrite E1 /mul_round2. cbn [ms_seeds ms_sid ms_tr ms_gadget].
      case R2: (kos_round2 _ _ _ _ _ _ _ _ _) => [[tA tau]| |] //. cbn [lift_err rbind].
      case D: (draw_chi _ _ _) => [[t c]| |] //. cbn [rbind]. case=> <- <-. cbn [ms_share].
      have [tB [R3 [SA [SBz A]]]] := C51_correct lb_eb (sc_roundtrip codec) seeds K R2.
      rewrite E2 /mul_round3. cbn [mr_tr mr_kos mm_tau mr_omega mr_gadget mr_sid mr_seeds]. rewrite R3. cbn [lift_err rbind].
      rewrite D. cbn [rbind].
      have AL : all (mul_check sbytes omega c tB (MulMsg2 tau (mkseq (fun j => chi_add 0 c (pairs tA j)) (8 * lb)) (c.1 * alpha + c.2 * ahat)))
                  (iota 0 (8 * lb)).
      { apply/allP => j. rewrite mem_iota add0n => /andP [_ L]. rewrite /mul_check. cbn [mm_R mm_U].
        rewrite nth_mkseq // extract_bit_cases -[vbit _ _]/(bit_at omega j) -(sc_zero codec).
        have [A1 A2] := A j L. rewrite /chi_add add0r.
        have -> : c.1 * (pairs tA j).1 + c.2 * (pairs tA j).2 + c.1 * (pairs tB j).1 + c.2 * (pairs tB j).2
                = c.1 * ((pairs tA j).1 + (pairs tB j).1) + c.2 * ((pairs tA j).2 + (pairs tB j).2).
        { rewrite !mulrDr !addrA. by rewrite -!addrA; congr (_ + _); rewrite addrCA. }
        rewrite A1 A2. case: (bit_at omega j) => /=; rewrite ?eqxx //. by rewrite !mulr0 addr0. }
      rewrite AL. cbn [negb]. eexists; first by reflexivity. cbn [mr_share].
      rewrite !gadget_sumE -big_split -SB big_distrr. apply: eq_big_nat => j /andP [_ L].
      rewrite -[GRing.muloid _ _ _]/(alpha * (_ * _)) -[LHS]/(_ + _) -mulrDr. have [-> _] := A j L.
      case: (bit_at omega j) => /=; rewrite ?mul0r ?mulr0 // mul1r. exact: mulrC.
    Qed.

    (** C67 (refuted): the challenge chi covers only the first 256 rows of tau, so a sender that has computed it can
        change a later row; the receiver still accepts, and the shares no longer add up to the product. *)
    Theorem C67_tail_rows_unbound s1 m2 c t j delta : round2 s0 alpha ahat m1 = Ok (s1, m2) ->
      draw_chi setbytes ext (append_tau sbytes (mr_tr r1) (mm_tau m2)) = Ok (t, c) -> c.2 != 0 ->
      (256 <= j < 8 * lb)%N -> bit_at (mr_omega r1) j = true ->
      exists m2' r2', [/\ mm_R m2' = mm_R m2, mm_U m2' = mm_U m2, round3 r1 m2' = Ok r2' &
                          ms_share s1 + mr_share r2' = alpha * beta + nth 0 (mr_gadget r1) j * delta].
    Proof.
      move=> R2 D N0 /andP [J1 J2] BJ. have [r2 R3 SUM] := C52_correct R2.
      have [c' [tB [K [t' D'] SH CK]]] := C52_accept R3. rewrite D in D'. case: D' => _ E; subst c'.
      have [S A] : size tB = (8 * lb)%N /\ forall i, (i < 8 * lb)%N ->
         match column setbytes shake (kr_sid (mr_kos r1)) i (nth [::] (kr_psi (mr_kos r1)) i) with
         | Some x => pairs tB i = if bit_at (kr_choices (mr_kos r1)) i then (- x.1 + (pairs (mm_tau m2) i).1, - x.2 + (pairs (mm_tau m2) i).2)
                                  else (- x.1, - x.2)
         | None => False end.
      { move: K. rewrite /kos_round3. case E: (traverse _ _) => [l|] // [<-].
        have [S A] := proj1 (traverse_ok ((0, 0) : F * F) _ _ _) E. split=> // i L. move: (A i L).
        rewrite extract_bit_cases -[vbit _ _]/(bit_at (kr_choices (mr_kos r1)) i).
        case: (column _ _ _ _ _) => // x. rewrite /reencode. case: (bit_at _ _); rewrite ?eqxx; cbn [eq_op]; rewrite !(sc_roundtrip codec); by case. }
      pose d2 := - (c.1 / c.2 * delta).
      pose tau i := if i == j then ((pairs (mm_tau m2) i).1 + delta, (pairs (mm_tau m2) i).2 + d2) else pairs (mm_tau m2) i.
      pose tau' := mkseq tau (8 * lb).
      pose tB' := mkseq (fun i => if i == j then ((pairs tB i).1 + delta, (pairs tB i).2 + d2) else pairs tB i) (8 * lb).
      have CH : bit_at (kr_choices (mr_kos r1)) j = true.
      { have [g [omega [k [_ _ K1 E2 _]]]] := round1_inv. move: BJ. rewrite E2. cbn [mr_omega mr_kos].
        rewrite -![bit_at _ j]/(vbit _ j). by rewrite (ext_choice lb_eb K1). }
      exists (MulMsg2 tau' (mm_R m2) (mm_U m2)). rewrite /mul_round3. cbn [mm_tau mm_R mm_U].
      have -> : kos_round3 sbytes setbytes shake lb (mr_kos r1) (pairs tau') = Ok tB'.
      { rewrite /kos_round3. set f := fun i : nat => _.
        have -> : traverse f (8 * lb) = Some tB'; last by [].
        apply/(traverse_ok ((0, 0) : F * F)). rewrite size_mkseq. split=> // i L. move: (A i L). rewrite /f.
        case: (column _ _ _ _ _) => [x|] //. rewrite extract_bit_cases -[vbit _ _]/(bit_at (kr_choices (mr_kos r1)) i).
        rewrite !nth_mkseq // /reencode /tau. case: (i =P j) => [->|_].
        - rewrite CH eqxx !(sc_roundtrip codec) => ->. cbn [fst snd]. by rewrite !addrA.
        - case: (bit_at _ _) => ->; by rewrite ?eqxx !(sc_roundtrip codec). }
      cbn [lift_err rbind].
      have -> : append_tau sbytes (mr_tr r1) tau' = append_tau sbytes (mr_tr r1) (mm_tau m2).
      { rewrite /append_tau. congr (_ ++ flatten _).
        apply/eq_in_map => i. rewrite mem_iota add0n => /andP [_ L]. cbv zeta.
        have Li : (i < 256)%N := L.
        rewrite /tau' nth_mkseq; last exact: leq_trans Li (lb256 lb32).
        rewrite /tau. by case: (i =P j) => // Eij; move: Li; rewrite Eij ltnNge J1. }
      rewrite D. cbn [rbind].
      have -> : all (mul_check sbytes (mr_omega r1) c tB' (MulMsg2 tau' (mm_R m2) (mm_U m2))) (iota 0 (8 * lb)).
      { apply/allP => i. rewrite mem_iota add0n => /andP [_ L]. rewrite /mul_check. cbn [mm_R mm_U].
        rewrite extract_bit_cases -[vbit _ _]/(bit_at _ i) -(sc_zero codec) nth_mkseq //.
        have -> : chi_add (nth 0 (mm_R m2) i) c (if i == j then ((pairs tB i).1 + delta, (pairs tB i).2 + d2) else pairs tB i)
                = nth 0 (mm_R m2) i + c.1 * (pairs tB i).1 + c.2 * (pairs tB i).2.
        { rewrite /chi_add. case: (i =P j) => // _. cbn [fst snd].
          have E : c.2 * d2 = - (c.1 * delta) by rewrite /d2 mulrN [c.1 / c.2]mulrC -mulrA mulVKf.
          rewrite !mulrDr E !addrA. by rewrite [_ + c.1 * delta + _]addrAC addrK. }
        rewrite (CK i L). by case: (bit_at _ i); rewrite ?eqxx. }
      cbn [negb]. eexists. split; [by []|by []|by reflexivity|]. cbn [mr_share].
      rewrite -SUM -addrA. congr (_ + _). rewrite SH gadget_sumE.
      rewrite (bigD1_seq j) /=; [|by rewrite mem_index_iota J2|exact: iota_uniq].
      rewrite [in RHS](bigD1_seq j) /=; [|by rewrite mem_index_iota J2|exact: iota_uniq].
      rewrite nth_mkseq // eqxx /= mulrDr -!addrA. congr (_ + _). rewrite addrC. congr (_ + _).
      rewrite big_seq_cond [in RHS]big_seq_cond. apply: eq_bigr => i /andP [M N]. rewrite nth_mkseq; first by rewrite (negbTE N).
      by move: M; rewrite mem_index_iota.
    Qed.
  End Honest.
End Props.

(** Non-vacuity, with the code's lengths: scalars modulo 7 and constant hash functions. A complete run exists for all
    inputs, and the hypotheses of C67 hold in it with a non-zero gadget entry. *)
Section Example.
  Let F := [fieldType of 'F_7].
  Let three : bytes := @fp_bytes 7 3%:R.
  Let H (_ : bytes) : bytes := nseq 32 1%num.
  Let shake (_ _ : bytes) (n : nat) : bytes := nseq n 0%num.
  Let ext (_ : transcript) : bytes := three.
  Let gshake (_ : nat) : bytes := three.
  Let sb := @fp_bytes 7.
  Let ssb := @fp_setbytes 7.

  Lemma ex_codec : @scalar_codec F sb ssb.
  Proof. exact: fp_codec. Qed.
  Lemma ex_three : ssb three = Some 3%:R. Proof. exact: (sc_roundtrip ex_codec). Qed.
  Lemma ex_zero : ssb (nseq 32 0%num) = Some 0. Proof. rewrite -(sc_zero ex_codec). exact: (sc_roundtrip ex_codec). Qed.
  Lemma ex_H m : block (H m). Proof. by split. Qed.
  Lemma ex_column sid j row : column ssb shake sid j row <> None.
  Proof.
    rewrite /column. have -> : take 32 (shake sid (be16 j ++ row) 64) = nseq 32 0%num by [].
    have -> : take 32 (drop 32 (shake sid (be16 j ++ row) 64)) = nseq 32 0%num by [].
    by rewrite ex_zero.
  Qed.
  Lemma ex_gadget_gen lb k : (k < 8 * lb)%N -> (256 <= k)%N ->
    exists2 g : seq F, gadget_vector ssb gshake lb = Ok g & nth 0 g k = 3%:R.
  Proof.
    move=> L K. rewrite /gadget_vector. case E: (traverse _ _) => [g|].
    - exists g; first by []. have [_ A] := proj1 (traverse_ok (0 : F) _ _ _) E.
      have := A _ L. rewrite /gadget_entry /gshake ltnNge K. cbn [negb]. rewrite ex_three. by case.
    - have [i _] := proj1 (traverse_none _ _) E. rewrite /gadget_entry /gshake ex_three. by case: (i < kappa)%N.
  Qed.
  Lemma run_exists lb eb k (alpha beta ahat : F) : (32 <= lb)%N -> (lb <= eb)%N -> (256 <= k < 8 * lb)%N ->
   exists so ro s0 r0 r1 m1 s1 m2 r2,
    [/\ seeds_ok so ro, new_mul_sender ssb gshake lb ro [::] = Ok s0, new_mul_receiver ssb gshake lb so [::] = Ok r0 &
     [/\ mul_round1 sb ssb H shake lb eb r0 beta (fun _ => 255%num) (fun _ => 0%num) = Ok (r1, m1),
         mul_round2 sb ssb H shake ext lb eb s0 alpha ahat m1 = Ok (s1, m2),
         mul_round3 sb ssb shake ext lb r1 m2 = Ok r2, ms_share s1 + mr_share r2 = alpha * beta &
       [/\ bit_at (mr_omega r1) k = true, nth 0 (mr_gadget r1) k != 0 &
           exists t c, draw_chi ssb ext (append_tau sb (mr_tr r1) (mm_tau m2)) = Ok (t, c) /\ c.2 != 0]]].
  Proof.
    move=> L1 L2 /andP [K1 K2].
    have [so [ro [seeds _]]] := C51_seeds_exist. have [g G Gk] := ex_gadget_gen K2 K1.
    have S0 : new_mul_sender ssb gshake lb ro [::] = Ok (MulSender ro [::] g (mul_start [::]) 0).
    { by rewrite /new_mul_sender G. }
    have R0 : new_mul_receiver ssb gshake lb so [::] =
       Ok (MulReceiver so [::] g (mul_start [::]) [::] (KosReceiver [::] [::] [::]) 0) by rewrite /new_mul_receiver G.
    have [r1 [m1 [R1 _]]] := C52_round1_succeeds H shake eb ex_codec L1 beta (fun _ => 255%num) (fun _ => 0%num) seeds S0 R0.
    have NX : forall t, ssb (ext t) <> None by move=> t; rewrite /ext ex_three.
    have [s1 [m2 R2]] := C52_completes ex_codec ex_H L1 alpha ahat seeds S0 R0 R1 (@ex_column [::]) NX.
    have [r2 R3 SUM] := C52_correct ex_codec L1 L2 seeds S0 R0 R1 R2.
    exists so, ro, (MulSender ro [::] g (mul_start [::]) 0), (MulReceiver so [::] g (mul_start [::]) [::] (KosReceiver [::] [::] [::]) 0),
      r1, m1, s1, m2, r2.
    split; [exact: seeds|exact: S0|exact: R0|]. split; [exact: R1|exact: R2|exact: R3|exact: SUM|]. split.
    - have [x ->] : exists x, mr_omega r1 = take kappa_bytes (rev (sb x)) ++ mkseq (fun _ => 255%num) (lb - kappa_bytes).
      { move: R1. rewrite /mul_round1. cbn [mr_gadget mr_seeds mr_sid]. rewrite /mul_encode (encode_loop ex_codec). cbn [of_option rbind].
        move: (beta - _) => x. move: (mkseq _ _) => y. have [z Ez] : {z | z = take kappa_bytes (rev (sb x)) ++ y} by eexists. rewrite -Ez.
        case: (kos_round1 _ _ _ _ _ _ _ _) => [[kr m]|e|]; [|by []|by []]. cbn [lift_err rbind]. case=> <- _. cbn [mr_omega].
        exists x. exact: Ez. }
      have [Sx _] := sc_block ex_codec x.
      have Sz : size (take kappa_bytes (rev (sb x))) = 32%N by rewrite size_take size_rev Sx.
      rewrite bit_at_cat Sz; last exact: K1. rewrite /bit_at nth_mkseq.
      + move: ((k - 8 * 32) %% 8)%N (ltn_pmod (k - 8 * 32) (isT : (0 < 8)%N)) => r. by do 8!case: r => [|r] //.
      + rewrite ltn_divLR; last by []. rewrite mulnBl [(lb * 8)%N]mulnC. apply: ltn_sub2r; last exact: K2. exact: leq_ltn_trans K1 K2.
    - have -> : mr_gadget r1 = g.
      { move: R1. rewrite /mul_round1. case: (mul_encode _ _ _ _ _ _) => [o| |]; last by []; last by []. cbn [rbind].
        case: (kos_round1 _ _ _ _ _ _ _ _) => [[kr m]| |]; last by []; last by []. cbn [lift_err rbind]. by case=> <- _. }
      by rewrite Gk.
    - rewrite /draw_chi /extract /ext ex_three. eexists; eexists; split; first by reflexivity. by [].
  Qed.
  Example C52_run_exists (alpha beta ahat : F) := @run_exists 84 126 300 alpha beta ahat isT isT isT.
End Example.
