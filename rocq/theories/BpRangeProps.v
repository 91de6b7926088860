(** C57, C58: range proofs of crypto/bulletproof. *)
From mathcomp Require Import all_ssreflect all_algebra.
From Coq Require Import BinNat NArith Nnat Lia String Ring.
From Verif Require Import AlgBase VRing ByteVec SchnorrModel SimplestOtModel KosProps ScalarCodec BpModel BpProofs BpRangeProofs BpRangeSpec.
Delimit Scope nat_scope with N.
Delimit Scope N_scope with num.
Set Implicit Arguments.
Unset Strict Implicit.
Unset Printing Implicit Defensive.
Import GRing.Theory.
Local Open Scope ring_scope.

Section Bits.
  Variables (F : fieldType).
  Variables (sbytes : F -> bytes) (setbytes : bytes -> option F) (val : F -> N).
  Hypothesis IS : int_scalars sbytes setbytes val.

  Lemma land255 b : is_byte b -> N.land b 255 = b.
  Proof. by move=> B; apply: nbit_inj => i; rewrite nbit_and -[255%num]/(N.ones 8) /nbit; case: (ltnP i 8) => K;
    [rewrite N.ones_spec_low ?andbT //; move/ltP: K; lia | have := byte_bits B K; rewrite /nbit => ->]. Qed.

  Lemma xor_move (c d : N) : is_byte c -> is_byte d -> N.lxor c (N.land (N.lxor c d) 255) = d.
  Proof. by move=> C D; rewrite land255 ?byte_xor // N.lxor_comm N.lxor_assoc; rewrite -N.lxor_assoc N.lxor_comm -N.lxor_assoc N.lxor_nilpotent N.lxor_0_l. Qed.

  Lemma cmove_bit (b : bool) : cmove sbytes setbytes 0 1 (if b then 1%num else 0%num) = Ok (b%:R).
  Proof.
    rewrite /cmove !(is_size IS) ltnn.
    have E : [seq N.lxor c.1 (N.land (N.lxor c.1 c.2) (if (if b then 1%num else 0%num) == 0%num then 0%num else 255%num)) |
              c <- zip (sbytes 0) (sbytes 1)] = sbytes (b%:R).
      have sz : size (sbytes 0) = size (sbytes 1) by rewrite !(is_size IS).
      apply: (@eq_from_nth _ 0%num); first by rewrite size_map size_zip sz minnn !(is_size IS).
      move=> i; rewrite size_map size_zip -sz minnn => lt.
      rewrite (nth_map (0%num, 0%num)) ?size_zip -?sz ?minnn // nth_zip //=.
      have B x : is_byte (nth 0%num (sbytes x) i) by apply: (allP (is_bytes IS x)); apply: mem_nth; rewrite !(is_size IS) in lt *.
      case: b => /=; first by rewrite xor_move.
      by rewrite N.land_0_r N.lxor_0_r.
    by rewrite E (is_roundtrip IS).
  Qed.

  Lemma ith_bit_vbit v i : ith_bit v i = if vbit v i then 1%num else 0%num.
  Proof.
    rewrite /ith_bit /vbit; apply: nbit_inj => j; rewrite nbit_and nbit_shr.
    case: j => [|j]; first by rewrite add0n; case: (nbit _ _).
    have Z : nbit 1 j.+1 = false by rewrite /nbit N.testbit_odd N.shiftr_div_pow2 N.div_small //; apply: N.pow_gt_1; lia.
    by rewrite Z andbF; case: ifP; rewrite ?nbit0.
  Qed.

  (** the bit vector of the prover: the bits of the encoding read as little endian *)
  Lemma get_aL_from_eq v i n : (i + n <= 256)%N ->
    get_aL_from sbytes setbytes (sbytes v) i n = Ok [seq (nbit (n_of_le (sbytes v)) j)%:R | j <- iota i n].
  Proof.
    elim: n i => [|n IH] i le //=.
    have lt : (i %/ 8 < 32)%N by rewrite ltn_divLR //; apply: leq_trans le; rewrite addnS ltnS leq_addr.
    rewrite (is_size IS) leqNgt lt /= ith_bit_vbit cmove_bit /= IH ?addSnnS //= nbit_n_of_le ?(is_bytes IS) //.
  Qed.
  Lemma get_aL_eq v n : (n <= 256)%N ->
    get_aL sbytes setbytes v n = Ok (mkseq (fun j => (nbit (n_of_le (sbytes v)) j)%:R) n).
  Proof. by move=> le; rewrite /get_aL get_aL_from_eq. Qed.

  Lemma bit_sq (b : bool) : b%:R * (b%:R - 1) = 0 :> F.
  Proof. by case: b; rewrite /= ?subrr ?mulr0 ?mul0r. Qed.
End Bits.

Section Range.
  Variables (F : fieldType) (V : lmodType F).
  Variables (enc : V -> bytes) (wide : bytes -> option F) (ext : transcript -> bytes).
  Variables (sbytes : F -> bytes) (setbytes : bytes -> option F) (val : F -> N).
  Hypothesis IS : int_scalars sbytes setbytes val.
  Add Ring tvring5 : (tv_ring V).
  Notation prove := (range_prove enc wide ext sbytes setbytes val).
  Notation verify := (range_verify enc wide ext).

  (** what the n-bit vector of the prover encodes *)
  Definition encoded (v : F) (n : nat) : F := (N.to_nat (N.modulo (n_of_le (sbytes v)) (N.pow 2 (N.of_nat n))))%:R.

  Lemma encoded_little v n : little_endian sbytes val -> N.lt (val v) (N.pow 2 (N.of_nat n)) -> encoded v n = v.
  Proof. by move=> LE L; rewrite /encoded -LE N.mod_small // (is_natr IS). Qed.

  Section One.
    Variables (G H : seq V) (v gamma : F) (n : nat) (pg : range_gens V) (rnd : range_rnd F).
    Hypothesis sG : (n <= size G)%N.
    Hypothesis sH : (n <= size H)%N.
    Hypothesis n1 : (1 < n)%N.
    Let a := fun j => (nbit (n_of_le (sbytes v)) j)%:R : F.
    Let Q := fun z i => 2%:R ^+ i * (z * z) : F.
    Let dl := fun y z => (z - z * z) * (\sum_(i < n) y ^+ i) - z ^+ 3 * (\sum_(i < n) 2%:R ^+ i) : F.

    Lemma delta_ok y z : delta_yz y z n = Ok (dl y z).
    Proof.
      have n0 := ltnW n1; rewrite /delta_yz getkn_mk //= get1n_mk inner_mk //= get2n_mk //= inner_mk //=; congr Ok.
      by rewrite /dl; congr (_ * _ - _ * _); apply: eq_bigr => i _; rewrite mul1r.
    Qed.
    Lemma phmu_ok h' A S x y z mu : size h' = n ->
      get_phmu (take n G) h' (rg_h pg) A S x y z mu n = Ok (cphmu (take n G) pg n Q h' A S x y z mu).
    Proof.
      move=> sh; have n0 := ltnW n1; rewrite /get_phmu getkn_mk //= get2n_mk //= !scale_mk add_mk /= (msm_mk _ sh) /=.
      rewrite get1n_mk scale_mk msm_mk ?size_takel //= /cphmu; congr Ok; congr (_ + _ + _ + _ - _).
      by apply: eq_bigr => i _; rewrite mul1r.
    Qed.

    Lemma range_prove_eq t : (n <= 256)%N -> ~ (2 ^ N.of_nat n < val v)%num ->
      prove G H v gamma n pg rnd t
      = prove_core enc wide ext (take n G) (take n H) pg rnd n (mkseq a n) [:: get_capV v gamma (rg_g pg) (rg_h pg)]
           (fun z => rbind (get2n F n) (fun tn => Ok (scale_scalars (z * z) tn)))
           (fun z => Ok (v * (z * z))) (fun z => Ok (z * z * gamma))
           (fun y z => delta_yz y z n)
           (fun h' A S x y z mu => get_phmu (take n G) h' (rg_h pg) A S x y z mu n) t.
    Proof.
      move=> n256 inr; rewrite /range_prove ltnNge sG /=.
      by case: N.ltb_spec0 => // _; rewrite (get_aL_eq IS).
    Qed.

    Lemma one_ct0 y z : ct0 n a Q y z = z * z * encoded v n + dl y z.
    Proof.
      rewrite (ct0_bits V) => [|i _]; last exact: bit_sq.
      rewrite /encoded -low_bits /dl /Q -!mulr_suml; congr (_ + (_ - _)).
      - by rewrite mulr_sumr; apply: eq_bigr => i _; rewrite mulrA mulrC.
      - by rewrite mulrCA [RHS]mulrC !exprS expr0 mulr1 mulrA.
    Qed.

    (** the verifier's answer on an honest proof of v *)
    Lemma range_verdict k p t : n = (2 ^ k)%N -> (n <= 256)%N -> ~ (2 ^ N.of_nat n < val v)%num ->
      prove G H v gamma n pg rnd t = Ok p ->
      exists z w t1 t2 t3 t4, [/\ challenge wide ext t1 "getz"%string = Ok (t2, z), challenge wide ext t3 "getw"%string = Ok (t4, w) &
        verify G H p (get_capV v gamma (rg_g pg) (rg_h pg)) pg n t
        = Ok ((z * z * w * (v - encoded v n)) *: rg_u pg == 0)].
    Proof.
      move=> En n256 inr; have n0 := ltnW n1; rewrite range_prove_eq // => E.
      have k63 : (k < 63)%N by rewrite -(ltn_exp2l _ _ (isT : 1 < 2)%N) -En; apply: leq_ltn_trans n256 _.
      set sv := fun z : F => v * (z * z). set gm := fun z : F => z * z * gamma.
      set VV := fun z => (z * z) *: get_capV v gamma (rg_g pg) (rg_h pg).
      have Hq z : rbind (get2n F n) (fun tn => Ok (scale_scalars (z * z) tn)) = Ok (mkseq (Q z) n) by rewrite get2n_mk //= scale_mk.
      have HVV z : VV z = sv z *: rg_g pg + gm z *: rg_h pg.
        by rewrite /VV /sv /gm /get_capV; move: (rg_g pg) (rg_h pg) => p1 p2; vpsi V; ring.
      have sTG : size (take n G) = n by rewrite size_takel.
      have sTH : size (take n H) = n by rewrite size_takel.
      have [y [z [w [t1 [t2 [t3 [Eyz Ew y0 Ev]]]]]]] := core_verify sTG sTH n1 Hq (fun z => erefl (Ok (sv z)))
        (fun z => erefl (Ok (gm z))) delta_ok phmu_ok HVV En k63 (fun d x z => erefl _) E.
      move: Eyz; rewrite /calc_yz; set tt := t ++ _ => Eyz.
      have [[t4 y'] _ /= Eyz1] := rbind_ok Eyz; have [[t5 z'] Ez [_ _ ez]] := rbind_ok Eyz1; rewrite /= in ez; subst z'.
      exists z, w, t4, t5, t2, t3; split=> //.
      rewrite /range_verify ltnNge sG /= Ev one_ct0 -subr_eq0 /sv; congr Ok; congr (_ == 0).
      by move: (dl y z) (encoded v n) (rg_u pg) => d e u; vpsi V; ring.
    Qed.

    (** C57: the proof of a value that its bit vector encodes is accepted *)
    Theorem C57_encoded_value_verifies k p t : n = (2 ^ k)%N -> (n <= 256)%N ->
      encoded v n = v -> prove G H v gamma n pg rnd t = Ok p ->
      verify G H p (get_capV v gamma (rg_g pg) (rg_h pg)) pg n t = Ok true.
    Proof.
      move=> En n256 Ee E.
      have inr : ~ (2 ^ N.of_nat n < val v)%num.
        by move=> L; move: E; rewrite /range_prove ltnNge sG /=; case: N.ltb_spec0.
      have [z [w [? [? [? [? [_ _ ->]]]]]]] := range_verdict En n256 inr E.
      by rewrite Ee subrr mulr0 scale0r eqxx.
    Qed.

    (** and of a value that it does not encode is rejected *)
    Theorem C57_other_value_rejected k p t : usable_challenges wide ext -> rg_u pg != 0 -> n = (2 ^ k)%N -> (n <= 256)%N ->
      encoded v n <> v -> prove G H v gamma n pg rnd t = Ok p ->
      verify G H p (get_capV v gamma (rg_g pg) (rg_h pg)) pg n t = Ok false.
    Proof.
      move=> U u0 En n256 Ee E.
      have inr : ~ (2 ^ N.of_nat n < val v)%num.
        by move=> L; move: E; rewrite /range_prove ltnNge sG /=; case: N.ltb_spec0.
      have [z [w [ta [tb [tc [td [Ez Ew ->]]]]]]] := range_verdict En n256 inr E.
      have nz t' l t'' x : challenge wide ext t' l = Ok (t'', x) -> x != 0.
        by have [x' -> x0] := U t' l => -[_ <-].
      congr Ok; apply/negbTE; rewrite scaler_eq0 negb_or u0 andbT !mulf_neq0 ?(nz _ _ _ _ Ez) ?(nz _ _ _ _ Ew) //.
      by rewrite subr_eq0 eq_sym; apply/eqP.
    Qed.

    Theorem C57_prover_succeeds k t : usable_challenges wide ext -> n = (2 ^ k)%N -> (n <= 256)%N ->
      (val v <= 2 ^ N.of_nat n)%num -> exists p, prove G H v gamma n pg rnd t = Ok p.
    Proof.
      move=> U En n256 inr; have n0 := ltnW n1; rewrite range_prove_eq //; last by lia.
      have sTG : size (take n G) = n by rewrite size_takel.
      have sTH : size (take n H) = n by rewrite size_takel.
      have Hq z : rbind (get2n F n) (fun tn => Ok (scale_scalars (z * z) tn)) = Ok (mkseq (Q z) n) by rewrite get2n_mk //= scale_mk.
      exact: (core_total enc rnd a _ sTG sTH n1 Hq (fun z => erefl (Ok (v * (z * z)))) (fun z => erefl (Ok (z * z * gamma))) delta_ok phmu_ok t U En).
    Qed.
  End One.

  (** C57: on a curve with little-endian scalars every value below 2^n has an accepted proof, for n a power of two from 2 *)
  Theorem C57_range_proof_verifies (G H : seq V) (v gamma : F) (n k : nat) (pg : range_gens V) (rnd : range_rnd F) (t : transcript) :
    little_endian sbytes val -> usable_challenges wide ext ->
    n = (2 ^ k)%N -> (1 < n <= 256)%N -> (n <= size G)%N -> (n <= size H)%N -> (val v < 2 ^ N.of_nat n)%num ->
    exists2 p, prove G H v gamma n pg rnd t = Ok p &
      verify G H p (get_capV v gamma (rg_g pg) (rg_h pg)) pg n t = Ok true.
  Proof.
    move=> LE U En /andP [n1 n256] sG sH L.
    have [|p E] := C57_prover_succeeds gamma pg rnd sG sH n1 t U En n256 (v := v); first by lia.
    by exists p => //; apply: C57_encoded_value_verifies En n256 _ E => //; exact: encoded_little.
  Qed.

  (** the verdict does not depend on the randomness or the challenges being usable: any successful Prove suffices *)
  Theorem C57_any_proof_verifies (G H : seq V) (v gamma : F) (n k : nat) (pg : range_gens V) (rnd : range_rnd F) (t : transcript) p :
    little_endian sbytes val -> n = (2 ^ k)%N -> (1 < n <= 256)%N -> (n <= size G)%N -> (n <= size H)%N -> (val v < 2 ^ N.of_nat n)%num ->
    prove G H v gamma n pg rnd t = Ok p -> verify G H p (get_capV v gamma (rg_g pg) (rg_h pg)) pg n t = Ok true.
  Proof.
    move=> LE En /andP [n1 n256] sG sH L E.
    by apply: C57_encoded_value_verifies En n256 _ E => //; exact: encoded_little.
  Qed.

  Lemma encoded_big v n : big_endian sbytes val -> (n <= 128)%N -> (val v < 2 ^ N.of_nat n)%num -> encoded v n = 0.
  Proof.
    move=> BE n128 L; rewrite /encoded -low_bits; apply: big1 => i _; have li := ltn_ord i.
    have i128 : (i < 128)%N by exact: leq_trans li n128.
    have d16 : (i %/ 8 < 16)%N by rewrite ltn_divLR.
    have -> : nbit (n_of_le (sbytes v)) i = false; last by rewrite mul0r.
    rewrite nbit_n_of_le ?(is_bytes IS) // /vbit.
    have -> : nth 0%num (sbytes v) (i %/ 8) = nth 0%num (rev (sbytes v)) (31 - i %/ 8).
      rewrite nth_rev (is_size IS); last by rewrite ltnS leq_subr.
      by congr nth; rewrite -subSn ?subSS ?subKn //; apply: ltnW; exact: leq_trans d16 _.
    have -> : nbit (nth 0%num (rev (sbytes v)) (31 - i %/ 8)) (i %% 8) = vbit (rev (sbytes v)) ((31 - i %/ 8) * 8 + i %% 8).
      by rewrite /vbit divnMDl // modnMDl modn_mod (@divn_small (i %% 8)%N) ?ltn_mod // addn0.
    rewrite -nbit_n_of_le ?all_rev ?(is_bytes IS) // -BE.
    have T : N.ltb (val v) (2 ^ N.of_nat n)%num by apply/N.ltb_spec0.
    apply: (elimT (nbit_ltP (val v) n) T); apply: leq_trans n128 _; apply: leq_trans (leq_addr _ _).
    have : (16 <= 31 - i %/ 8)%N by rewrite leq_subRL; [apply: leq_trans (_ : 15 + 16 <= _)%N; rewrite ?leq_add2r | apply: ltnW; exact: leq_trans d16 _].
    by move=> K; apply: leq_trans (_ : 16 * 8 <= _)%N => //; rewrite leq_pmul2r.
  Qed.

  (** C57 fails on a curve with big-endian scalars: for n up to 128 the honest proof of every nonzero value in range is
      rejected, because the bit vector is taken from the wrong end of the encoding (range_prover.go:407) *)
  Theorem C57_big_endian_refuted (G H : seq V) (v gamma : F) (n k : nat) (pg : range_gens V) (rnd : range_rnd F) (t : transcript) :
    big_endian sbytes val -> usable_challenges wide ext -> rg_u pg != 0 ->
    n = (2 ^ k)%N -> (1 < n <= 128)%N -> (n <= size G)%N -> (n <= size H)%N -> (0 < val v < 2 ^ N.of_nat n)%num ->
    exists2 p, prove G H v gamma n pg rnd t = Ok p &
      verify G H p (get_capV v gamma (rg_g pg) (rg_h pg)) pg n t = Ok false.
  Proof.
    move=> BE U u0 En /andP [n1 n128] sG sH [P L]; have n256 : (n <= 256)%N by exact: leq_trans n128 _.
    have [|p E] := C57_prover_succeeds gamma pg rnd sG sH n1 t U En n256 (v := v); first by lia.
    exists p => //; apply: C57_other_value_rejected U u0 En n256 _ E => //; rewrite encoded_big // => e.
    by move: P; rewrite -e (is_zero IS).
  Qed.

  (** below 2 bits the prover panics *)
  Theorem C57_short_panics (G H : seq V) (v gamma : F) (n : nat) (pg : range_gens V) (rnd : range_rnd F) (t : transcript) :
    usable_challenges wide ext -> (n <= 1)%N -> (n <= size G)%N -> (n <= size H)%N -> (val v <= 2 ^ N.of_nat n)%num ->
    prove G H v gamma n pg rnd t = Panic.
  Proof.
    move=> U n1 sG sH L; rewrite /range_prove ltnNge sG /=.
    case: N.ltb_spec0 => [L'|_]; first by lia.
    rewrite (get_aL_eq IS) /=; last by apply: leq_trans n1 _.
    rewrite /prove_core get1n_mk sub_mk /= !msm_mk ?size_takel //= /calc_yz.
    set t1 := t ++ _; have [y -> y0] := U t1 "gety"%string; rewrite /=.
    have [z -> z0] := U (rcons t1 (TExtract "gety" 64)) "getz"%string; rewrite /=.
    rewrite scale_mk sub_mk /=; have [->|->] : n = 0%N \/ n = 1%N by case: (n) n1 => [|[|]]; [left|right|].
    - by [].
    - by rewrite get2n_mk //= scale_mk add_mk.
  Qed.

  (** C58: what is refused is exactly a value above 2^n *)
  Theorem C58_refuses_above_partial (G H : seq V) (v gamma : F) (n : nat) (pg : range_gens V) (rnd : range_rnd F) (t : transcript) :
    (2 ^ N.of_nat n < val v)%num -> exists e, prove G H v gamma n pg rnd t = Err e.
  Proof.
    move=> L; rewrite /range_prove; case: ifP => _; first by eexists.
    by case: N.ltb_spec0 => // _; eexists.
  Qed.
  Theorem C58_batch_refuses_above_partial (G H : seq V) (vs gs : seq F) (v : F) (n : nat) (pg : range_gens V) (rnd : range_rnd F) (t : transcript) :
    v \in vs -> (2 ^ N.of_nat n < val v)%num -> exists e, batch_prove enc wide ext sbytes setbytes val G H vs gs n pg rnd t = Err e.
  Proof.
    move=> vin L; rewrite /batch_prove; case: ifP => _; first by eexists.
    have -> : all (fun v => check_range val v n) vs = false; last by eexists.
    apply/negbTE/allPn; exists v => //; rewrite /check_range negbK N.shiftl_1_l; exact/N.ltb_spec0.
  Qed.
  (** the boundary value 2^n is out of range, and Prove accepts it: it returns a proof, which the verifier rejects *)
  Theorem C58_boundary_refuted (G H : seq V) (v gamma : F) (n k : nat) (pg : range_gens V) (rnd : range_rnd F) (t : transcript) :
    little_endian sbytes val -> usable_challenges wide ext -> rg_u pg != 0 ->
    n = (2 ^ k)%N -> (1 < n <= 256)%N -> (n <= size G)%N -> (n <= size H)%N -> val v = (2 ^ N.of_nat n)%num ->
    exists2 p, prove G H v gamma n pg rnd t = Ok p &
      verify G H p (get_capV v gamma (rg_g pg) (rg_h pg)) pg n t = Ok false.
  Proof.
    move=> LE U u0 En /andP [n1 n256] sG sH Ev.
    have [|p E] := C57_prover_succeeds gamma pg rnd sG sH n1 t U En n256 (v := v); first by lia.
    exists p => //; apply: C57_other_value_rejected U u0 En n256 _ E => //.
    rewrite /encoded -LE Ev N.mod_same; last exact: N.pow_nonzero.
    move=> e; have e0 : v = 0 by rewrite -e.
    have := is_zero IS; rewrite -e0 Ev; exact: N.pow_nonzero.
  Qed.
End Range.

(** cases: 'F_11 with both encodings, n = 2, the value 3, and the boundary value 4 *)
Section RangeExamples.
  Let F := [fieldType of 'F_11].
  Let V := [lmodType F of F^o].
  Let enc (v : V) : bytes := [::].
  Let wide (b : bytes) : option F := Some 2%:R.
  Let ext (t : transcript) : bytes := [::].
  Let G : seq V := [:: 1; 2%:R; 3%:R].
  Let H : seq V := [:: 4%:R; 5%:R; 6%:R].
  Let pg : range_gens V := RGens (1 : V) 7%:R 9%:R.
  Let rnd : range_rnd F := RRnd 1 2%:R 3%:R 4%:R (fun i => i%:R) (fun i => (i * i)%:R).
  Let U : usable_challenges wide ext. Proof. by move=> t l; exists 2%:R. Qed.
  Let P11 : prime 11. Proof. by []. Qed.
  Let L11 : N.le (N.of_nat 11) (N.pow 2 256). Proof. by []. Qed.
  Theorem C57_example : exists2 p,
    range_prove enc wide ext (@fp_bytes_le 11) (@fp_setbytes_le 11) (@fp_val 11) G H 3%:R 5%:R 2 pg rnd [::] = Ok p &
    range_verify enc wide ext G H p (get_capV (3%:R : F) 5%:R (rg_g pg) (rg_h pg)) pg 2 [::] = Ok true.
  Proof.
    have [IS LE] := fp_int_scalars_le P11 L11.
    exact: (@C57_range_proof_verifies F V enc wide ext _ _ _ IS G H 3%:R 5%:R 2 1 pg rnd [::] LE U erefl isT isT isT (erefl _)).
  Qed.
  Theorem C57_big_endian_example_refuted : exists2 p,
    range_prove enc wide ext (@fp_bytes 11) (@fp_setbytes 11) (@fp_val 11) G H 3%:R 5%:R 2 pg rnd [::] = Ok p &
    range_verify enc wide ext G H p (get_capV (3%:R : F) 5%:R (rg_g pg) (rg_h pg)) pg 2 [::] = Ok false.
  Proof.
    have [IS BE] := fp_int_scalars P11 L11.
    exact: (@C57_big_endian_refuted F V enc wide ext _ _ _ IS G H 3%:R 5%:R 2 1 pg rnd [::] BE U isT erefl isT isT isT (conj erefl erefl)).
  Qed.
  Theorem C58_example_refuted : exists2 p,
    range_prove enc wide ext (@fp_bytes_le 11) (@fp_setbytes_le 11) (@fp_val 11) G H 4%:R 5%:R 2 pg rnd [::] = Ok p &
    range_verify enc wide ext G H p (get_capV (4%:R : F) 5%:R (rg_g pg) (rg_h pg)) pg 2 [::] = Ok false.
  Proof.
    have [IS LE] := fp_int_scalars_le P11 L11.
    exact: (@C58_boundary_refuted F V enc wide ext _ _ _ IS G H 4%:R 5%:R 2 1 pg rnd [::] LE U isT erefl isT isT isT (erefl _)).
  Qed.
End RangeExamples.
