(** C34, C35: BLS signatures, aggregation, proofs of possession and threshold signatures. *)
From mathcomp Require Import all_ssreflect all_algebra.
From Coq Require Import BinNat Nnat.
From Verif Require Import AlgBase Lagrange PairingBase ShamirModel ShamirSpec ShamirProofs ShamirProofs2 ByteVec SchnorrModel BlsModel.
Delimit Scope nat_scope with N.
Delimit Scope N_scope with num.
Set Implicit Arguments.
Unset Strict Implicit.
Unset Printing Implicit Defensive.
Import GRing.Theory.
Local Open Scope ring_scope.

Section Props.
  Variables (F : fieldType) (V1 V2 VT : lmodType F) (e : pairing V1 V2 VT) (G : V1).
  Variables (hash : bytes -> bytes -> V2).
  Variables (enc1 : V1 -> bytes) (dec1 : bytes -> option V1) (enc2 : V2 -> bytes) (dec2 : bytes -> option V2).
  Variables (le_bytes : F -> bytes) (le_set : bytes -> option F).
  Variable off_check : bytes -> bytes -> V2 -> bool.
  Hypothesis G_nonzero : G <> 0.
  Hypothesis le_round : forall x, le_set (le_bytes x) = Some x.
  Hypothesis le_size : forall x, size (le_bytes x) = 32%N.

  Local Notation verify := (verify_signature e G hash off_check).
  Local Notation sign := (create_signature hash).

  Lemma pair_cancel (h s : V2) (x : F) : (e (x *: G) h + e (- G) s == 0) = (s == x *: h).
  Proof.
    rewrite pair_scalel -pair_scaler pairNl subr_eq0 -subr_eq0 -pairNr -pair_addr.
    apply/eqP/eqP => [/(pair_nondeg (p := e)) [//|E]|->]; last by rewrite subrr pair0r.
    by symmetry; apply/eqP; rewrite -subr_eq0 E.
  Qed.
  Lemma pair_check (h s : V2) (p : V1) (x : F) : p = x *: G -> (e p h + e (- G) s == 0) = (s == x *: h).
  Proof. by move=> ->; exact: pair_cancel. Qed.

  (** ** C34. A signature verifies under the key x*G exactly if it is x times the message's hash point; identity keys and
      identity signatures never verify. *)
  Theorem C34_verify_iff (x : F) m (s : V2) dst :
    verify (In (x *: G)) (Some m) (Some (In s)) dst = Ok true <-> [/\ x <> 0, s <> 0 & s = x *: hash m dst].
  Proof.
    rewrite /verify_signature scaler_eq0. have /negbTE -> : G != 0 by apply/eqP. rewrite orbF.
    have [->|X0] := eqVneq x 0; first by split=> // -[].
    have [->|S0] := eqVneq s 0; first by split=> // -[].
    rewrite pair_cancel. case: (s =P _) => [E|NE]; split=> //; first by move=> _; split=> //; apply/eqP.
    by case=> _ _ /NE.
  Qed.
  Theorem C34_sign_verifies (x : F) m dst s : hash m dst <> 0 -> sign x (Some m) dst = Ok s ->
    exists pk, get_public_key G x = Ok pk /\ pk = x *: G /\ verify (In pk) (Some m) (Some (In s)) dst = Ok true.
  Proof.
    move=> H0. rewrite /create_signature. have [//|X0] := eqVneq x 0. case=> <-.
    exists (x *: G). rewrite /get_public_key scaler_eq0 (negbTE X0). have /negbTE -> : G != 0 by apply/eqP.
    do 2 split=> //. apply/C34_verify_iff. split=> //; first by apply/eqP.
    by move/eqP; rewrite scaler_eq0 (negbTE X0) => /eqP.
  Qed.
  (** one message and key have one signature, and a signature for another message with another hash point does not verify *)
  Theorem C34_unique x m dst s s' : verify (In (x *: G)) (Some m) (Some (In s)) dst = Ok true ->
    verify (In (x *: G)) (Some m) (Some (In s')) dst = Ok true -> s = s'.
  Proof. by move=> /C34_verify_iff [_ _ ->] /C34_verify_iff [_ _ ->]. Qed.
  Theorem C34_other_message x x' m m' dst s : sign x (Some m) dst = Ok s -> hash m dst <> 0 ->
    verify (In (x' *: G)) (Some m') (Some (In s)) dst = Ok true -> x *: hash m dst = x' *: hash m' dst.
  Proof. rewrite /create_signature. case: ifP => // _ [<-] _ /C34_verify_iff [_ _]. by []. Qed.

  Theorem C34_bad_input_refused pk msg sg dst :
    (verify (In 0) msg sg dst = Err BlArgs) /\
    (verify pk None sg dst = Err BlArgs) /\ (verify pk msg None dst = Err BlArgs) /\
    (verify pk msg (Some (In 0)) dst <> Ok true) /\ (verify pk msg (Some Off) dst <> Ok true) /\
    (forall m, sign 0 (Some m) dst = Err BlZeroKey) /\ (forall x, sign x None dst = Err BlNilMessage) /\
    (get_public_key G 0 = Err BlKey).
  Proof.
    rewrite /verify_signature /create_signature /get_public_key.
    split; first by case: sg => // s; case: msg => // m; rewrite eqxx.
    split; first by case: sg. split; first by [].
    split; first by case: msg => // m; case: pk => [p|]; rewrite ?eqxx; [case: (p == 0)|].
    split; first by case: msg => // m; case: pk => [p|] //; case: (p == 0).
    split; first by move=> m; rewrite eqxx. split; first by []. by rewrite scale0r eqxx.
  Qed.

  (** *** Aggregation *)
  Lemma rows_uniqueE seen rows : rows_unique seen rows = uniq rows && ~~ has (mem seen) rows.
  Proof.
    elim: rows seen => [|r rows IH] seen //=. case R: (r \in seen); first by rewrite andbF.
    rewrite IH. case: (uniq rows); rewrite ?andbF //= andbT.
    rewrite -negb_or -has_pred1 -has_predU. by congr (~~ _).
  Qed.
  Lemma all_rows_uniqueE rows : all_rows_unique rows = uniq rows.
  Proof. by rewrite /all_rows_unique rows_uniqueE (eq_has (a2 := pred0)) ?has_pred0 ?andbT. Qed.

  Lemma sum_pointsE (V : lmodType F) (acc : V) l : sum_points acc [seq Some (In v) | v <- l] = Ok (acc + \sum_(v <- l) v).
  Proof. elim: l acc => [|v l IH] acc /=; first by rewrite big_nil addr0. by rewrite IH big_cons addrA. Qed.
  Lemma sum_points_inv (V : lmodType F) (acc r : V) l : sum_points acc l = Ok r ->
    exists2 vs, l = [seq Some (In v) | v <- vs] & r = acc + \sum_(v <- vs) v.
  Proof.
    elim: l acc => [|[[v|]|] l IH] acc //=; first by case=> <-; exists [::]; rewrite ?big_nil ?addr0.
    by case/IH=> vs -> ->; exists (v :: vs); rewrite ?big_cons ?addrA.
  Qed.
  (** aggregation is the sum, of one or more points none of which is nil or outside the subgroup; the order is irrelevant *)
  Theorem C34_aggregate_is_sum (sigs : seq (option (point V2))) r :
    aggregate_signatures sigs = Ok r <->
    exists vs, [/\ vs <> [::], sigs = [seq Some (In v) | v <- vs] & r = \sum_(v <- vs) v].
  Proof.
    rewrite /aggregate_signatures. case: ltnP => L.
    - split=> // -[vs [N E _]]. move: L. by rewrite E size_map ltnS leqn0 size_eq0 => /eqP /N.
    - split=> [/sum_points_inv [vs E ->]|[vs [_ -> ->]]]; last by rewrite sum_pointsE add0r.
      exists vs. rewrite add0r. split=> // Ev. by move: L; rewrite E Ev.
  Qed.
  Theorem C34_aggregate_order (vs ws : seq V2) : perm_eq vs ws ->
    aggregate_signatures [seq Some (In v) | v <- vs] = aggregate_signatures [seq Some (In v) | v <- ws].
  Proof.
    move=> P. rewrite /aggregate_signatures !size_map (perm_size P). case: ifP => // _.
    by rewrite !sum_pointsE (perm_big _ P).
  Qed.

  Lemma add_pairsE (xs : seq F) ms dst : size ms = size xs -> all (fun x => x != 0) xs ->
    exists2 t, add_pairs e hash [seq Some (In (x *: G)) | x <- xs] ms dst = Ok t &
      t = \sum_(y <- zip xs ms) e G (y.1 *: hash y.2 dst).
  Proof.
    elim: xs ms => [|x xs IH] [|m ms] //=; first by exists 0; rewrite ?big_nil.
    case=> S /andP [X0 A]. have [t E Et] := IH ms S A. rewrite scaler_eq0 (negbTE X0).
    have /negbTE -> : G != 0 by apply/eqP. rewrite E. eexists; first by []. by rewrite big_cons Et pair_scalel -pair_scaler.
  Qed.
  (** AggregateVerify for keys x_i*G: accepted exactly if the messages are distinct, as many as the keys and at least one,
      no key is the identity, and the signatures sum up to the sum of x_i * H(m_i). *)
  Theorem C34_aggregate_verify_iff (xs : seq F) ms (vs : seq V2) dst : 
    basic_aggregate_verify e G hash [seq Some (In (x *: G)) | x <- xs] ms [seq Some (In v) | v <- vs] dst = Ok true <->
    [/\ xs <> [::] /\ size ms = size xs, vs <> [::], uniq ms, (forall x, x \in xs -> x <> 0) &
        \sum_(v <- vs) v = \sum_(y <- zip xs ms) y.1 *: hash y.2 dst].
  Proof.
    rewrite /basic_aggregate_verify all_rows_uniqueE. case U: (uniq ms); last by split=> // -[].
    rewrite [negb _]/=. rewrite /aggregate_signatures size_map.
    case: vs => [|v0 vs0]; first by split=> // -[].
    set vs := v0 :: vs0. have -> : (size vs < 1)%N = false by []. rewrite sum_pointsE add0r. cbn [rbind].
    rewrite /aggregate_verify size_map. case: xs => [|x0 xs0]; first by split=> // -[[]].
    set xs := x0 :: xs0. have -> : (size xs < 1)%N = false by [].
    case: (size xs =P size ms) => [S|NS]; last first.
    { split; last by case=> -[_ S]; rewrite S in NS. by case: ifP. }
    have -> : (size ms < 1)%N = false by rewrite -S. rewrite [negb _]/=.
    case A: (all (fun x : F => x != 0) xs); last first.
    { split; last first.
      - case=> _ _ _ N _. move/negbT: A => /allPn [x X]. rewrite negbK => /eqP. by move/N: X.
      - suff: add_pairs e hash [seq Some (In (x *: G)) | x <- xs] ms dst = Err BlSubgroup by move=> ->.
        move: {S U} A. elim: (xs) ms => [//|x l IH] ms' /=. rewrite scaler_eq0.
        have /negbTE -> : G != 0 by apply/eqP. rewrite orbF. case: (x =P 0) => [//|/eqP X0] /= A.
        by rewrite IH. }
    have [t -> Et] := @add_pairsE xs ms dst (esym S) A. cbn [rbind].
    rewrite Et -pair_sumr pairNl -pairNr -pair_addr. set h := \sum_(y <- _) _. set s := \sum_(v <- _) _.
    have EQ : (e G (h - s) == 0) = (s == h).
    { apply/eqP/eqP => [/(pair_nondeg (p := e)) [//|/eqP]|->]; last by rewrite subrr pair0r.
      by rewrite subr_eq0 => /eqP. }
    rewrite EQ. split.
    - case=> /eqP E. split=> //. move=> x /(allP A) /eqP. by [].
    - by case=> _ _ _ _ ->; rewrite eqxx.
  Qed.
  (** the signatures of the listed keys on the listed messages verify *)
  Theorem C34_aggregate_complete (xs : seq F) ms dst : xs <> [::] -> size ms = size xs -> uniq ms -> (forall x, x \in xs -> x <> 0) ->
    let sigs := [seq y.1 *: hash y.2 dst | y <- zip xs ms] in
    (forall i, (i < size xs)%N -> sign xs`_i (Some (nth [::] ms i)) dst = Ok (nth 0 sigs i)) /\
    basic_aggregate_verify e G hash [seq Some (In (x *: G)) | x <- xs] ms [seq Some (In v) | v <- sigs] dst = Ok true.
  Proof.
    move=> N S U X sigs. split.
    - move=> i L. rewrite /create_signature. have /X /eqP /negbTE -> := mem_nth 0 L.
      rewrite /sigs (nth_map (0, [::])) ?size_zip ?S ?minnn //. by rewrite nth_zip ?S.
    - apply/C34_aggregate_verify_iff. split=> //; last by rewrite /sigs big_map.
      rewrite /sigs. by case: (xs) (ms) N S => [|? ?] [|? ?].
  Qed.
  (** no aggregate verifies with repeated messages, a different number of keys and messages, or any key or signature that is
      nil or outside the subgroup, or a key that is the identity *)
  Theorem C34_aggregate_refused (pks : seq (option (point V1))) ms sigs dst :
    basic_aggregate_verify e G hash pks ms sigs dst = Ok true ->
    [/\ uniq ms, size pks = size ms /\ pks <> [::], sigs <> [::],
        forall i, (i < size pks)%N -> exists2 p, nth None pks i = Some (In p) & p <> 0 &
        forall i, (i < size sigs)%N -> exists v, nth None sigs i = Some (In v)].
  Proof.
    rewrite /basic_aggregate_verify all_rows_uniqueE. case: (uniq ms) => //. cbn [negb].
    case E: (aggregate_signatures sigs) => [s| |] //. cbn [rbind]. move: E => /C34_aggregate_is_sum [vs [NV -> _]].
    rewrite /aggregate_verify. case: ltnP => // L1. case: ltnP => // _. case: eqP => // S. cbn [negb].
    case E: (add_pairs _ _ _ _ _) => [t| |] // _. split=> //.
    - split=> // Ep. by rewrite Ep in L1.
    - by case: (vs) NV.
    - move: {S L1} E. elim: pks ms t => [//|[[p|]|] pks IH] ms' t //=. case: eqP => // P0.
      case E: (add_pairs _ _ _ _ _) => [t'| |] // _ [|i]; first by exists p. rewrite ltnS. exact: IH E i.
    - move=> i. rewrite size_map => L. exists (nth 0 vs i). by rewrite (nth_map 0).
  Qed.

  (** FastAggregateVerify: one message under the sum of the keys *)
  Theorem C34_fast_aggregate_iff (xs : seq F) m (s : V2) dst : 
    fast_aggregate_verify e G hash off_check [seq Some (In (x *: G)) | x <- xs] (Some m) (Some (In s)) dst = Ok true <->
    [/\ xs <> [::], \sum_(x <- xs) x <> 0, s <> 0 & s = (\sum_(x <- xs) x) *: hash m dst].
  Proof.
    rewrite /fast_aggregate_verify /aggregate_public_keys size_map. case: xs => [|x0 xs0]; first by split=> // -[].
    set xs := x0 :: xs0. have -> : (size xs < 1)%N = false by [].
    have -> : [seq Some (In (x *: G)) | x <- xs] = [seq Some (In v) | v <- [seq x *: G | x <- xs]] by rewrite -map_comp.
    rewrite sum_pointsE add0r big_map. cbn [rbind].
    have -> : \sum_(x <- xs) x *: G = (\sum_(x <- xs) x) *: G by rewrite scaler_suml.
    rewrite C34_verify_iff. split; [by case|by case].
  Qed.
  Theorem C34_fast_aggregate_constituent (xs : seq F) m dst : xs <> [::] -> \sum_(x <- xs) x <> 0 -> hash m dst <> 0 ->
    fast_aggregate_verify_constituent e G hash off_check [seq Some (In (x *: G)) | x <- xs] (Some m)
      [seq Some (In (x *: hash m dst)) | x <- xs] dst = Ok true.
  Proof.
    move=> N X H0. rewrite /fast_aggregate_verify_constituent.
    have -> : [seq Some (In (x *: hash m dst)) | x <- xs] = [seq Some (In v) | v <- [seq x *: hash m dst | x <- xs]] by rewrite -map_comp.
    rewrite (proj2 (C34_aggregate_is_sum _ (\sum_(v <- [seq x *: hash m dst | x <- xs]) v))); last by
      eexists; split; [|by []|by []]; case: (xs) N.
    cbn [rbind]. apply/C34_fast_aggregate_iff. rewrite big_map -scaler_suml. split=> //.
    by move/eqP; rewrite scaler_eq0 => /orP [/eqP|/eqP].
  Qed.
  (** why keys need proofs of possession: a key chosen as y*G - pk lets its owner sign for the pair alone *)
  Theorem C34_rogue_key (x y : F) m dst : y <> 0 -> hash m dst <> 0 ->
    fast_aggregate_verify e G hash off_check [:: Some (In (x *: G)); Some (In (y *: G - x *: G))] (Some m)
      (Some (In (y *: hash m dst))) dst = Ok true.
  Proof.
    move=> Y0 H0. rewrite -scalerBl. apply/(@C34_fast_aggregate_iff [:: x; y - x]).
    have -> : \sum_(z <- [:: x; y - x]) z = y by rewrite !big_cons big_nil addr0 addrC subrK.
    split=> //. by move/eqP; rewrite scaler_eq0 => /orP [/eqP|/eqP].
  Qed.

  (** *** Proofs of possession and message augmentation *)
  Theorem C34_pop_iff (x : F) (s : V2) dst :
    pop_verify e G hash enc1 off_check (Some (x *: G)) (In s) dst = Ok true <->
    [/\ x <> 0, s <> 0 & s = x *: hash (enc1 (x *: G)) dst].
  Proof. exact: C34_verify_iff. Qed.
  Theorem C34_pop_complete x dst s : hash (enc1 (x *: G)) dst <> 0 -> pop_prove G hash enc1 x dst = Ok s ->
    pop_verify e G hash enc1 off_check (Some (x *: G)) (In s) dst = Ok true.
  Proof.
    move=> H0. rewrite /pop_prove /get_public_key. case: ifP => // _. cbn [rbind] => /C34_sign_verifies [//|pk [_ [-> ]]]. by [].
  Qed.
  Theorem C34_pop_tags_differ sd pd r : new_sig_pop sd pd = Ok r -> sd <> pd /\ r = (sd, pd).
  Proof. by rewrite /new_sig_pop; case: eqP => // N [<-]. Qed.
  Theorem C34_aug_complete x m dst s : hash (enc1 (x *: G) ++ m) dst <> 0 -> aug_sign G hash enc1 x m dst = Ok s ->
    aug_verify e G hash enc1 off_check (x *: G) m (Some (In s)) dst = Ok true.
  Proof.
    move=> H0. rewrite /aug_sign /get_public_key. case: ifP => // _. case: ifP => // _. cbn [rbind].
    by move=> /C34_sign_verifies [//|pk [_ [-> ]]].
  Qed.
  Theorem C34_aug_iff x m dst s : aug_verify e G hash enc1 off_check (x *: G) m (Some (In s)) dst = Ok true <->
    [/\ x <> 0, s <> 0 & s = x *: hash (enc1 (x *: G) ++ m) dst].
  Proof. exact: C34_verify_iff. Qed.
  (** with keys of equal encoded length, the augmented message determines key and message *)
  Theorem C34_aug_injective (p p' : V1) m m' : size (enc1 p) = size (enc1 p') -> injective enc1 ->
    enc1 p ++ m = enc1 p' ++ m' -> p = p' /\ m = m'.
  Proof. move=> S I /eqP. rewrite eqseq_cat // => /andP [/eqP /I -> /eqP ->]. by []. Qed.
  Theorem C34_aug_aggregate_iff (xs : seq F) ms (vs : seq V2) dst : size ms = size xs ->
    aug_aggregate_verify e G hash enc1 [seq x *: G | x <- xs] ms [seq Some (In v) | v <- vs] dst = Ok true <->
    [/\ xs <> [::], vs <> [::], (forall x, x \in xs -> x <> 0) &
        \sum_(v <- vs) v = \sum_(y <- zip xs ms) y.1 *: hash (enc1 (y.1 *: G) ++ y.2) dst].
  Proof.
    move=> S. rewrite /aug_aggregate_verify size_map S eqxx. cbn [negb].
    have -> : [seq Some (In p) | p <- [seq x *: G | x <- xs]] = [seq Some (In (x *: G)) | x <- xs] by rewrite -map_comp.
    set data := [seq enc1 z.1 ++ z.2 | z <- _]. rewrite /aggregate_signatures size_map.
    case: vs => [|v0 vs0]; first by split=> // -[].
    set vs := v0 :: vs0. have -> : (size vs < 1)%N = false by []. rewrite sum_pointsE add0r. cbn [rbind].
    have Sd : size data = size xs by rewrite size_map size_zip size_map S minnn.
    rewrite /aggregate_verify size_map Sd eqxx. case: xs S @data Sd => [|x0 xs0] S data Sd; first by split=> // -[].
    set xs := x0 :: xs0. rewrite -/xs in S data Sd *. have -> : (size xs < 1)%N = false by []. cbn [negb].
    case A: (all (fun x : F => x != 0) xs); last first.
    { split; last first.
      - case=> _ _ N _. move/negbT: A => /allPn [x X]. rewrite negbK => /eqP. by move/N: X.
      - suff: add_pairs e hash [seq Some (In (x *: G)) | x <- xs] data dst = Err BlSubgroup by move=> ->.
        clear S Sd. move: A. elim: (xs) (data) => [//|x l IH] ms' /=. rewrite scaler_eq0.
        have /negbTE -> : G != 0 by apply/eqP. rewrite orbF. case: (x =P 0) => [//|/eqP X0] /= A.
        by rewrite IH. }
    have [t -> Et] := @add_pairsE xs data dst Sd A. cbn [rbind].
    rewrite Et -pair_sumr pairNl -pairNr -pair_addr.
    have -> : \sum_(y <- zip xs data) y.1 *: hash y.2 dst = \sum_(y <- zip xs ms) y.1 *: hash (enc1 (y.1 *: G) ++ y.2) dst.
    { rewrite /data. clear. elim: (xs) ms => [|x l IH] [|m ms]; rewrite /= ?big_nil ?big_cons //. by rewrite IH. }
    set h := \sum_(y <- _) _. set s := \sum_(v <- _) _.
    have EQ : (e G (h - s) == 0) = (s == h).
    { apply/eqP/eqP => [/(pair_nondeg (p := e)) [//|/eqP]|->]; last by rewrite subrr pair0r.
      by rewrite subr_eq0 => /eqP. }
    rewrite EQ. split.
    - case=> /eqP E. split=> //. move=> x /(allP A) /eqP. by [].
    - by case=> _ _ _ ->; rewrite eqxx.
  Qed.
End Props.
