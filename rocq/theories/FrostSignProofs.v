From mathcomp Require Import all_ssreflect all_algebra.
From Verif Require Import AlgBase Lagrange ShamirModel ShamirSpec ShamirProofs ShamirProofs2
  FrostDkgModel FrostDkgProofs FrostSignModel.
Set Implicit Arguments.
Unset Strict Implicit.
Unset Printing Implicit Defensive.
Import GRing.Theory.
Local Open Scope ring_scope.

Lemma mem_In (T : eqType) (x : T) l : x \in l -> List.In x l.
Proof. elim: l => [|y l IH] //=; rewrite inE => /orP [/eqP ->|/IH]; by [left|right]. Qed.
Lemma In_mem (T : eqType) (x : T) l : List.In x l -> x \in l.
Proof. elim: l => [|y l IH] //= [->|/IH H]; by rewrite inE ?eqxx // H orbT. Qed.

Lemma unzip1_pairs (A : Type) (f : nat -> A) ids : unzip1 [seq (j, f j) | j <- ids] = ids.
Proof. by rewrite /unzip1 -map_comp -[RHS]map_id; apply: eq_map. Qed.

Lemma lookup_perm (A : eqType) (l : seq (nat * A)) (f : nat -> A) ids j :
  perm_eq l [seq (i, f i) | i <- ids] -> uniq ids -> j \in ids -> lookup l j = Some (f j).
Proof.
  move=> Hp U Hj; apply: lookup_in.
    by rewrite (perm_uniq (perm_map fst Hp)) -/(unzip1 _) unzip1_pairs.
  by apply: mem_In; rewrite (perm_mem Hp); apply/mapP; exists j.
Qed.

Section P.
  Variables (F : fieldType) (V : lmodType F) (G : V) (M : Type) (mempty : M -> bool).
  Variables (Hr : nat -> M -> seq (nat * V * V) -> F) (ch : M -> V -> V -> option F) (isneg : V -> bool).

  Lemma new_signer_inv (info : option (F * V * V)) id th l cos s : new_signer M info id th l cos = Ok s ->
    exists sk vks vk, info = Some (sk, vks, vk) /\
      [/\ (th <= size cos)%N, size l = size cos, {subset cos <= unzip1 l} &
          s = Signer sk vks vk id th 1 l cos None None None None 0 [::] 0].
  Proof.
    rewrite /new_signer; case: info => [[[sk vks] vk]|] //.
    case: ifP => // _; case: ltnP => // H1; case: eqP => // H2; case: ifPn => // /hasPn H3 [<-].
    by exists sk, vks, vk; split=> //; split=> // i /H3; rewrite negbK.
  Qed.

  Lemma concat_points_some input cos (bm : nat -> V * V) :
    (forall j, j \in cos -> lookup input j = Some (Some (bm j))) ->
    concat_points input cos = Some [seq ((j %% 256)%N, (bm j).1, (bm j).2) | j <- cos].
  Proof.
    elim: cos => [|j cos IH] //= Hl; rewrite (Hl j) ?inE ?eqxx //.
    case: (bm j) => D E; rewrite IH // => i Hi; by apply: Hl; rewrite inE Hi orbT.
  Qed.

  Lemma concat_points_subset (input : seq (nat * option (V * V))) cos l : concat_points input cos = Some l ->
    {subset cos <= unzip1 input}.
  Proof.
    elim: cos l => [|j cos IH] l //=.
    case E: (lookup input j) => [[[D Ei]|]|] //; case Ec: (concat_points _ _) => [l'|] // _.
    move=> i; rewrite inE => /orP [/eqP ->|]; last exact: IH Ec _.
    by apply: (In_unzip1 (a := Some (D, Ei))); exact: lookup_some.
  Qed.

  (** the loop of SignRound2 when the blob is [blob] *)
  Lemma r2_loop_run s m input (bm : nat -> V * V) blob ids ri Rs R :
    concat_points input (sg_cos s) = Some blob ->
    r2_loop Hr s m input [seq (j, Some (bm j)) | j <- ids] ri Rs R =
    Ok (if sg_id s \in ids then Some (Hr (sg_id s %% 256)%N m blob) else ri,
        Rs ++ [seq (j, Hr (j %% 256)%N m blob *: (bm j).2 + (bm j).1) | j <- ids],
        R + \sum_(j <- ids) (Hr (j %% 256)%N m blob *: (bm j).2 + (bm j).1)).
  Proof.
    move=> Hb; elim: ids ri Rs R => [|j ids IH] ri Rs R /=.
      by rewrite cats0 big_nil addr0.
    rewrite Hb; case Ebm: (bm j) => [D E] /=.
    rewrite IH -cats1 -catA big_cons Ebm /= addrA inE.
    by case: (sg_id s =P j) => [->|_] /=; case: (_ \in ids); rewrite !addrA.
  Qed.

  Lemma r3_loop_inv (s : signer V M) input z z' : r3_loop G isneg s input z = Ok z' ->
    forall id zj vkj, List.In (id, Some (zj, vkj)) input ->
    exists Lj Rj, [/\ List.In (id, Lj) (sg_l s), List.In (id, Rj) (sg_Rs s) &
      zj *: G = (sg_c s * Lj) *: vkj + (if isneg (sg_R s) then - Rj else Rj)].
  Proof.
    elim: input z => [|[id [[zj vkj]|]] input IH] z //=.
    case El: (lookup (sg_l s) id) => [Lj|] //; case Er: (lookup (sg_Rs s) id) => [Rj|] //.
    case: eqP => // E Hl id' zj' vkj' [[<- <- <-]|Hin]; last exact: IH Hl _ _ _ Hin.
    exists Lj, Rj; split=> //; exact: lookup_some.
  Qed.

  Lemma r3_loop_run (s : signer V M) ids (zz : nat -> F * V) (L : nat -> F) (Rr : nat -> V) z :
    (forall j, j \in ids -> lookup (sg_l s) j = Some (L j) /\ lookup (sg_Rs s) j = Some (Rr j) /\
       (zz j).1 *: G = (sg_c s * L j) *: (zz j).2 + (if isneg (sg_R s) then - Rr j else Rr j)) ->
    r3_loop G isneg s [seq (j, Some (zz j)) | j <- ids] z = Ok (z + \sum_(j <- ids) (zz j).1).
  Proof.
    elim: ids z => [|j ids IH] z Hl /=; first by rewrite big_nil addr0.
    have [-> [-> E]] := Hl j (mem_head _ _).
    case Ez: (zz j) E => [zj vkj] /= ->; rewrite eqxx /= IH.
      by rewrite big_cons Ez addrA.
    by move=> i Hi; apply: Hl; rewrite inE Hi orbT.
  Qed.

  Lemma sign2_inv s m input s' out : sign_round2 mempty Hr ch isneg s m input = Ok (s', out) ->
    exists d e acc c Li r, [/\ sg_d s = Some d /\ d <> 0, sg_e s = Some e /\ e <> 0,
      [/\ ~~ mempty m, sg_round s = 2%N & size input = sg_thr s],
      [/\ r2_loop Hr s m input input None [::] 0 = Ok acc,
      ch m (sg_vk s) acc.2 = Some c, acc.1.1 = Some r & lookup (sg_l s) (sg_id s) = Some Li] &
      s' = Signer (sg_sk s) (sg_vkshare s) (sg_vk s) (sg_id s) (sg_thr s) 3 (sg_l s) (sg_cos s)
                           (Some 0) (Some 0) (Some input) (Some m) c acc.1.2 acc.2 /\
      out = (Li * sg_sk s * c + (if isneg acc.2 then - e else e) * r + (if isneg acc.2 then - d else d),
             sg_vkshare s)].
  Proof.
    rewrite /sign_round2; case: (sg_d s) => [d|] //; case: eqP => // Nd.
    case: (sg_e s) => [e|] //; case: eqP => // Ne; case: ifPn => // Hm; case: eqP => // Hrd.
    case: eqP => // Hsz; case: ifP => // _; case: ifP => // _.
    case El: (r2_loop _ _ _ _ _ _ _ _) => [[[ri Rs] R]||] //=.
    case Ec: (ch _ _ _) => [c|] //; case EL: (lookup _ _) => [Li|] //; case: ri El => [r|] // El [<- <-].
    exists d, e, (Some r, Rs, R), c, Li, r; split=> //.
  Qed.

  Lemma sign3_inv s inp s' R z c : sign_round3 G mempty ch isneg s inp = Ok (s', (R, z, c)) ->
    exists m il, [/\ sg_msg s = Some m /\ ~~ mempty m, inp = Some il /\ size il = sg_thr s,
      [/\ r3_loop G isneg s il 0 = Ok z, R = sg_R s, c = sg_c s & sg_round s = 3%N],
      ch m (sg_vk s) (z *: G + (- c) *: sg_vk s) = Some c &
      s' = Signer (sg_sk s) (sg_vkshare s) (sg_vk s) (sg_id s) (sg_thr s) 4 (sg_l s) (sg_cos s)
                                (sg_d s) (sg_e s) (sg_comm s) (sg_msg s) (sg_c s) (sg_Rs s) (sg_R s)].
  Proof.
    rewrite /sign_round3; case: (sg_d s) => [d|] //; case: (sg_e s) => [e|] //; case: ifP => // _.
    case: (sg_msg s) => [m|] //; case: ifPn => // Hm; case: inp => [il|] //; case: ifP => // _.
    case: (sg_comm s) => [cm|] //; case: eqP => // _; case: eqP => // Hrd; case: eqP => // Hs.
    case El: (r3_loop _ _ _ _ _) => [z0||] //=; case Ec: (ch _ _ _) => [tc|] //.
    case: eqP => // E [<- <- <- <-]; exists m, il; split=> //; by rewrite Ec E.
  Qed.
End P.
