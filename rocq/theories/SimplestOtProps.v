(** C50: the seed OT. *)
From mathcomp Require Import all_ssreflect all_algebra.
From Coq Require Import BinNat String.
From Verif Require Import AlgBase ByteVec SchnorrModel SchnorrProps SimplestOtModel SimplestOtProofs.
Delimit Scope nat_scope with N.
Delimit Scope N_scope with num.
Set Implicit Arguments.
Unset Strict Implicit.
Unset Printing Implicit Defensive.
Import GRing.Theory.
Local Open Scope ring_scope.

(** Specification: the member of a pair selected by a choice bit; what the two outputs of n OT instances must be. *)
Definition choose (w : bool) (p : bytes * bytes) : bytes := if w then p.2 else p.1.
Definition ot_matched (n : nat) (so : sender_output) (ro : receiver_output) : Prop :=
  [/\ size so = n, size (ro_bits ro) = n, size (ro_keys ro) = n &
      forall i, (i < n)%N ->
        nth [::] (ro_keys ro) i = choose (nth false (ro_bits ro) i) (nth ([::], [::]) so i)
        /\ size (nth ([::], [::]) so i).1 = 32%N /\ size (nth ([::], [::]) so i).2 = 32%N].

Lemma extract_bitE v i : (extract_bit v i == 1%num) = N.testbit (nth 0%num v (i %/ 8)) (N.of_nat (i %% 8)%N).
Proof.
  rewrite /extract_bit. set x := nth _ _ _. set k := (i %% 8)%N.
  have -> : N.land (N.shiftr x (N.of_nat k)) 1 = (if N.testbit x (N.of_nat k) then 1 else 0)%num.
  { rewrite (_ : 1%num = N.ones 1) // N.land_ones N.pow_1_r -N.bit0_mod N.shiftr_spec' N.add_0_l.
    by case: (N.testbit _ _). }
  by case: (N.testbit _ _).
Qed.

Section Props.
  Variables (F : fieldType) (V : lmodType F) (G : V).
  Variables (enc : V -> bytes) (dec : bytes -> option V) (sbytes : F -> bytes) (setbytes : bytes -> option F).
  Variables (H : bytes -> bytes) (ext : transcript -> bytes).
  (** SetBytes accepts only canonical encodings; a decoded encoding is the point encoded (it need not decode:
      k256 refuses the identity); digests have 32 bytes *)
  Hypothesis canonical : forall b c, setbytes b = Some c -> sbytes c = b.
  Hypothesis dec_sound : forall P Q, dec (enc P) = Some Q -> Q = P.
  Hypothesis H_size : forall m, size (H m) = 32%N.

  Local Notation run := (run_simplest_ot G enc dec sbytes setbytes H ext).

  Section Run.
    Variables (n : nat) (sid : bytes) (rnd : nat -> N) (b k : F) (a : nat -> F).
    (** the choice bit i: bit i mod 8 of random byte i / 8; the point the receiver sends *)
    Definition choice (i : nat) : bool := N.testbit (rnd (i %/ 8)%N) (N.of_nat (i %% 8)%N).
    Definition sent (i : nat) : V := a i *: G + (if choice i then b *: G else 0).
    Definition schnorr_digest : bytes :=
      H (ext (rcons (ot_start sid) (TExtract "sender schnorr proof"%string 32)) ++ enc G ++ enc (b *: G) ++ enc (k *: G)).

    Lemma bitsE i : (i < n)%N -> (n %% 8 = 0)%N -> nth false (init_choice n (mkseq rnd (n %/ 8))) i = choice i.
    Proof.
      move=> L M. rewrite nth_mkseq // extract_bitE nth_mkseq //.
      rewrite ltn_divLR //. have := divn_eq n 8. by rewrite M addn0 => <-.
    Qed.

    (** A run between honest parties has exactly three outcomes: a wrong batch size or an unusable Schnorr digest or
        an unencodable point is an error; in every other case it completes. *)
    Theorem C50_outcomes :
      (n %% 8 <> 0 -> run n sid rnd b k a = Err OtBatch)%N /\
      ((n %% 8 = 0)%N -> setbytes schnorr_digest = None -> run n sid rnd b k a = Err (OtSchnorr SchSetBytes)) /\
      ((n %% 8 = 0)%N -> setbytes schnorr_digest <> None ->
         (exists2 i, (i < n)%N & dec (enc (sent i)) = None) -> run n sid rnd b k a = Err OtPoint) /\
      ((n %% 8 = 0)%N -> setbytes schnorr_digest <> None ->
         (forall i, (i < n)%N -> dec (enc (sent i)) <> None) -> exists so ro, run n sid rnd b k a = Ok (so, ro)).
    Proof.
      rewrite /run_simplest_ot /new_receiver /new_sender.
      have [M|/eqP M] := eqVneq (n %% 8)%N 0%N; last by split.
      have S i : (i < n)%N -> sent i = masked_choice G (nth false (init_choice n (mkseq rnd (n %/ 8))) i) (a i) (b *: G).
      { move=> L. rewrite bitsE // /sent /masked_choice. by case: (choice i) => //; rewrite addr0. }
      cbn [negb]. ots. rewrite (ot_rounds_run G ext canonical dec_sound H_size) //. cbv zeta. ots.
      rewrite /chal_digest -[X in setbytes X]/schnorr_digest. case: (setbytes _) => [c|]; last by split.
      split=> //; split=> //; split=> _ _.
      - move=> [i L E]. case: allP => // D. have := D i. rewrite mem_iota add0n L -S // E. by move/(_ isT).
      - move=> D. case: allP => [_|]; first by eexists; eexists; ots; reflexivity.
        case=> i. rewrite mem_iota add0n => /andP [_ L]. rewrite -S //. apply/eqP. exact: D.
    Qed.

    (** Whenever it completes, each of the receiver's keys is the sender's key selected by the choice bit, and the
        choice bits are the random bytes' bits. *)
    Theorem C50_correct so ro : run n sid rnd b k a = Ok (so, ro) ->
      ot_matched n so ro /\ ro_packed ro = mkseq rnd (n %/ 8) /\
      (forall i, (i < n)%N -> nth false (ro_bits ro) i = choice i).
    Proof.
      rewrite /run_simplest_ot /new_receiver /new_sender.
      have [M|/eqP M] := eqVneq (n %% 8)%N 0%N; last by [].
      cbn [negb]. ots. rewrite (ot_rounds_run G ext canonical dec_sound H_size) //. cbv zeta. ots.
      case: (setbytes _) => [c|] //. case: (all _ _) => // -[<- <-]. ots. split; last first.
      { split=> // i L. exact: bitsE. }
      split; ots; rewrite ?size_mkseq // => i L. have := bitsE L M. move: (init_choice _ _) => bs Eb.
      rewrite !nth_mkseq // Eb.
      have [E1 E2] := masked_keys G b (a i) (choice i). cbn [fst snd]. split; last by rewrite /run_key /ot_key !H_size.
      rewrite /choose. by case: (choice i) E1 E2 => E1 E2; rewrite ?E1 ?E2 ?addr0 ?subr0.
    Qed.

    (** The keys: each is the hash of the salt, the instance number modulo 256 and the instance's group element. *)
    Definition salt : bytes := ext (rcons (rcons (ot_start sid) (TExtract "sender schnorr proof"%string 32))
      (TExtract "random oracle salts"%string 32)).
    Definition instance_key (i : nat) (P : V) : bytes := H (salt ++ [:: N.of_nat (i %% 256)%N] ++ enc P).
    Theorem C50_keys so ro : run n sid rnd b k a = Ok (so, ro) -> forall i, (i < n)%N ->
      nth ([::], [::]) so i = (instance_key i (b *: sent i), instance_key i (b *: (sent i - b *: G))) /\
      nth [::] (ro_keys ro) i = instance_key i ((a i * b) *: G).
    Proof.
      rewrite /run_simplest_ot /new_receiver /new_sender.
      have [M|/eqP M] := eqVneq (n %% 8)%N 0%N; last by [].
      cbn [negb]. ots. rewrite (ot_rounds_run G ext canonical dec_sound H_size) //. cbv zeta. ots.
      case: (setbytes _) => [c|] //. case: (all _ _) => // -[<- <-]. ots. move=> i L.
      have := bitsE L M. move: (init_choice _ _) => bs Eb.
      rewrite !nth_mkseq // Eb /sent /masked_choice scalerA. by case: (choice i); rewrite ?addr0.
    Qed.
    (** Two instances of a batch of at most 256 share a key only through a hash collision. *)
    Theorem C50_instances_separate so ro i j : run n sid rnd b k a = Ok (so, ro) ->
      (n <= 256)%N -> (i < n)%N -> (j < n)%N -> i <> j ->
      forall x y, x \in [:: (nth ([::], [::]) so i).1; (nth ([::], [::]) so i).2] ->
        y \in [:: (nth ([::], [::]) so j).1; (nth ([::], [::]) so j).2] -> x = y -> collision H.
    Proof.
      move=> R Ln Li Lj Nij x y.
      have [-> _] := C50_keys R Li. have [-> _] := C50_keys R Lj.
      have D P Q : instance_key i P = instance_key j Q -> collision H.
      { move=> E. exists (salt ++ [:: N.of_nat (i %% 256)%N] ++ enc P), (salt ++ [:: N.of_nat (j %% 256)%N] ++ enc Q).
        split=> //. move/eqP. rewrite eqseq_cat // eqxx andTb /= eqseq_cons => /andP [/eqP Eq _].
        move: (f_equal N.to_nat Eq). rewrite !Nnat.Nat2N.id !modn_small //; [exact: leq_trans Lj Ln|exact: leq_trans Li Ln]. }
      rewrite !inE => /orP [] /eqP -> /orP [] /eqP ->; exact: D.
    Qed.

    (** Both parties refuse exactly the batch sizes that are not multiples of 8. *)
    Theorem C50_batch_size :
      ((exists s : sender V, new_sender V n sid = Ok s) <-> (n %% 8 = 0)%N) /\
      ((exists r : receiver V, new_receiver V n sid rnd = Ok r) <-> (n %% 8 = 0)%N).
    Proof.
      rewrite /new_sender /new_receiver.
      by case: eqP => [E|N] /=; split; split=> //; try (by case); move=> _; eexists.
    Qed.

    (** For the instance's other key the sender hashes a group element that differs from the receiver's. *)
    Theorem C50_other_key_differs i : b != 0 -> G != 0 ->
      let mine := a i *: (b *: G) in
      let k0 := b *: sent i in let k1 := b *: (sent i - b *: G) in
      (if choice i then k1 else k0) = mine /\ (if choice i then k0 else k1) <> mine.
    Proof.
      move=> b0 G0. cbv zeta. rewrite /sent. have NZ : b *: (b *: G) != 0 by rewrite !scaler_eq0 (negPf b0) (negPf G0).
      case: (choice i).
      - rewrite addrK !scalerDr !scalerA [a i * b]mulrC. split=> // /eqP. rewrite -subr_eq0 [_ + _ *: G]addrC addrK.
        by rewrite -scalerA (negPf NZ).
      - rewrite !addr0 scalerDr scalerN !scalerA [a i * b]mulrC. split=> // /eqP.
        by rewrite -subr_eq0 addrC addKr oppr_eq0 -scalerA (negPf NZ).
    Qed.
  End Run.

  (** Transfer: decrypting what the sender encrypted gives, per instance, the message the choice bit selects. *)
  Theorem C50_transfer n so ro (msgs : seq (bytes * bytes)) : ot_matched n so ro ->
    size msgs = n -> (forall i, (i < n)%N -> size (nth ([::], [::]) msgs i).1 = 32%N /\ size (nth ([::], [::]) msgs i).2 = 32%N) ->
    exists ct pt, ot_encrypt so msgs = Ok ct /\ ot_decrypt ro ct = Ok pt /\ size pt = n /\
      forall i, (i < n)%N -> nth [::] pt i = choose (nth false (ro_bits ro) i) (nth ([::], [::]) msgs i).
  Proof.
    move=> [S1 S2 S3 K] Sm Lm. rewrite /ot_encrypt Sm S1 eqxx. set ct := map _ _.
    have Sct : size ct = n by rewrite size_map size_zip S1 Sm minnn.
    exists ct. rewrite /ot_decrypt Sct S3 eqxx. eexists; split; first by []. split; first reflexivity.
    rewrite size_mkseq. split=> // i L. rewrite nth_mkseq //. cbv zeta.
    have -> : nth ([::], [::]) ct i = (xor_bytes (nth ([::], [::]) so i).1 (nth ([::], [::]) msgs i).1,
                                      xor_bytes (nth ([::], [::]) so i).2 (nth ([::], [::]) msgs i).2).
    { rewrite (nth_map (([::], [::]), ([::], [::]))) ?size_zip ?S1 ?Sm ?minnn // nth_zip ?S1 ?Sm //. }
    have [-> [K1 K2]] := K i L. have [M1 M2] := Lm i L. rewrite /choose. cbn [fst snd].
    by case: (nth false _ i); rewrite xor_bytesC xor_bytesK.
  Qed.
  (** A wrong number of messages or ciphertexts is an error. *)
  Theorem C50_counts_checked so ro (m : seq (bytes * bytes)) :
    (size m <> size so -> ot_encrypt so m = Err OtCount) /\
    (size m <> size (ro_keys ro) -> ot_decrypt ro m = Err OtCount).
  Proof. by rewrite /ot_encrypt /ot_decrypt; split=> /eqP /negbTE ->. Qed.

  (** The sender goes on exactly if every response is the double hash of its first key (whoever sent it). *)
  Theorem C50_round5_iff (s : sender V) resp : (s_batch s <= size resp)%N ->
    (exists o, ot_round5 H s resp = Ok o) <->
    (forall i, (i < s_batch s)%N -> nth [::] resp i = H (H (nth ([::], [::]) (s_out s) i).1)).
  Proof.
    move=> L. rewrite /ot_round5. set f := fun i : nat => if _ then _ else _.
    have E : for_upto (s_batch s) f = Ok tt <->
             (forall i, (i < s_batch s)%N -> nth [::] resp i = H (H (nth ([::], [::]) (s_out s) i).1)).
    { rewrite for_upto_ok. split=> A i Li; move: (A i Li); rewrite /f (leq_trans Li L).
      - by case: eqP.
      - by move=> ->; rewrite eqxx. }
    split.
    - move=> [o]. case R: (for_upto _ _) => [[]||] // _. by apply/E; rewrite R.
    - move=> A. rewrite (proj2 E A). by eexists.
  Qed.
  (** The receiver accepts exactly if every opening selected by its bit is the hash of its key and both openings match
      the challenge it was sent. *)
  Theorem C50_round6_iff (r : receiver V) openings : (r_batch r <= size openings)%N ->
    ot_round6 H r openings = Ok tt <->
    (forall i, (i < r_batch r)%N -> let o := nth ([::], [::]) openings i in
       choose (nth false (ro_bits (r_out r)) i) o = H (nth [::] (ro_keys (r_out r)) i) /\
       xor_bytes (H o.1) (H o.2) = nth [::] (r_challenge r) i).
  Proof.
    move=> L. rewrite /ot_round6 for_upto_ok. split=> A i Li; move: (A i Li); rewrite (leq_trans Li L) /choose; cbv zeta.
    - case: eqP => //= <-. by case: eqP.
    - by move=> [-> ->]; rewrite !eqxx.
  Qed.
  (** A peer's message with too few entries ends in a panic, not an error. *)
  Theorem C50_short_messages_panic (s : sender V) (r : receiver V) As msgs chal resp openings :
    (dec_all dec msgs = Some As -> (size msgs < s_batch s)%N -> ot_round3 enc dec H ext s msgs = Panic) /\
    ((size chal < r_batch r)%N -> ot_round4 H r chal = Panic) /\
    ((0 < s_batch s)%N -> resp = [::] -> ot_round5 H s resp = Panic) /\
    ((0 < r_batch r)%N -> openings = [::] -> ot_round6 H r openings = Panic).
  Proof.
    have FP E m (f : nat -> res E unit) : f 0%N = Panic -> for_upto m.+1 f = Panic.
    { move=> f0. elim: m => [|m IH]; first by rewrite /= f0. by rewrite [for_upto _ _]/= -[rbind (for_upto m f) _]/(for_upto m.+1 f) IH. }
    split; [|split; [|split]].
    - by move=> E L; rewrite /ot_round3 E /extract (size_dec_all E) L.
    - by rewrite /ot_round4 => ->.
    - case E: (s_batch s) => [//|m] _ ->. by rewrite /ot_round5 E FP.
    - case E: (r_batch r) => [//|m] _ ->. by rewrite /ot_round6 E FP.
  Qed.
  (** The receiver's message carries no information on its choice: for either value of the bit exactly one scalar gives
      the point sent. *)
  Theorem C50_choice_hidden (b a : F) (w w' : bool) : G != 0 ->
    exists a', masked_choice G w' a' (b *: G) = masked_choice G w a (b *: G) /\
      forall a'', masked_choice G w' a'' (b *: G) = masked_choice G w a (b *: G) -> a'' = a'.
  Proof.
    move=> G0. have inj x y : x *: G = y *: G -> x = y.
    { by move=> /eqP; rewrite -subr_eq0 -scalerBl scaler_eq0 (negPf G0) orbF subr_eq0 => /eqP. }
    have E v x : masked_choice G v x (b *: G) = (x + (if v then b else 0)) *: G.
    { by rewrite /masked_choice scalerDl; case: v; rewrite ?scale0r ?addr0. }
    exists (a + (if w then b else 0) - (if w' then b else 0)). rewrite !E subrK. split=> // a''.
    by rewrite E => /inj <-; rewrite addrK.
  Qed.
End Props.

(** Non-vacuity: the hypotheses are met and a run of 8 instances with both choices completes. *)
Section Example.
  Let F := [fieldType of 'F_2].
  Let V := [lmodType F of F^o].
  Let enc (v : V) : bytes := if v == 0 then [:: 0%num] else [:: 1%num].
  Let dec (x : bytes) : option V := if x == [:: 0%num] then Some 0 else if x == [:: 1%num] then Some (1 : F) else None.
  Let zero := nseq 32 0%num.
  Let st (x : bytes) : option F := if x == zero then Some 0 else None.
  Example C50_nonvacuous :
    (forall x c, st x = Some c -> (fun _ => zero) c = x) /\
    (forall P Q : V, dec (enc P) = Some Q -> Q = P) /\
    (exists so ro, run_simplest_ot (1 : V) enc dec (fun _ => zero) st (fun _ => zero) (fun _ => zero)
       8 zero (fun _ => 5%num) 1 1 (fun _ => 1) = Ok (so, ro) /\ ro_bits ro = [:: true; false; true; false; false; false; false; false]).
  Proof.
    have Hs : forall P Q : V, dec (enc P) = Some Q -> Q = P.
    { move=> P Q. rewrite /enc /dec. have [->|N0] := eqVneq P 0; first by case.
      rewrite [_ == _]/= => -[<-]. move: P N0. case=> [[|[|m]] L] N0; [by case/eqP: N0; apply: val_inj|exact: val_inj|by []]. }
    have Hc : forall x c, st x = Some c -> (fun _ => zero) c = x by move=> x c; rewrite /st; case: eqP.
    split=> //; split=> //.
    have [_ [_ [_]]] := @C50_outcomes F V 1 enc dec (fun _ => zero) st (fun _ => zero) (fun _ => zero) Hc Hs
       (fun _ => erefl) 8 zero (fun _ => 5%num) 1 1 (fun _ => 1).
    have HD : st zero <> None by rewrite /st eqxx.
    have HE i : (i < 8)%N -> dec (enc (sent (1 : V) (fun _ => 5%num) 1 (fun _ => 1) i)) <> None.
    { move=> _. rewrite /enc. by case: eqP. }
    move=> /(_ erefl HD HE). move=> [so [ro E]]. { exists so, ro. split=> //.
      have [[S1 S2 S3 K] [_ C]] := @C50_correct F V 1 enc dec (fun _ => zero) st (fun _ => zero) (fun _ => zero) Hc Hs
       (fun _ => erefl) _ _ _ _ _ _ _ _ E.
      apply: (@eq_from_nth _ false); first by rewrite S2.
      move=> i. rewrite S2 => L. rewrite C //. by case: i L => [|[|[|[|[|[|[|[|i]]]]]]]]. }
  Qed.
End Example.
