From Coq Require Import List String Bool ZArith Lia.
From Verif Require Import FilterModel FilterSpec.
Import ListNotations.
Open Scope list_scope.

Fixpoint msg_size (m : msg) : nat :=
  match m with
  | Plain _ => 1
  | Exec None => 1
  | Exec (Some l) => S (fold_right (fun x n => msg_size x + n) 0 l)
  end.

Lemma has_disallowed_cons b m l : has_disallowed b (m :: l) = disallowed b m || has_disallowed b l.
Proof. reflexivity. Qed.

Lemma disallowed_exec b l : disallowed b (Exec (Some l)) = has_disallowed b l || is_blocked b (Exec (Some l)).
Proof. reflexivity. Qed.

Lemma is_blocked_spec b m : is_blocked b m = true <-> In (message_name m) b.
Proof.
  unfold is_blocked. rewrite existsb_exists. split.
  - intros (x & Hx & E). apply String.eqb_eq in E. now subst.
  - intros H. exists (message_name m). split; [exact H|apply String.eqb_refl].
Qed.

Lemma has_disallowed_in b l : has_disallowed b l = true <-> exists m, In m l /\ disallowed b m = true.
Proof.
  induction l as [|x l IH].
  - cbn. split; [discriminate|intros (m & [] & _)].
  - rewrite has_disallowed_cons, orb_true_iff, IH. split.
    + intros [H|(m & Hm & Hd)]; [exists x|exists m]; cbn; auto.
    + intros (m & [->|Hm] & Hd); [left|right; exists m]; auto.
Qed.

Lemma occurs_disallowed b m l :
  (In (message_name m) b \/ m = Exec None) -> occurs m l -> has_disallowed b l = true.
Proof.
  intros Hm Ho. induction Ho as [l Hin | l inner Hin Ho IH].
  - apply has_disallowed_in. exists m. split; [exact Hin|].
    destruct Hm as [Hb| ->]; [|reflexivity].
    apply is_blocked_spec in Hb. destruct m as [n|[l'|]]; [exact Hb| |reflexivity].
    rewrite disallowed_exec, Hb. apply orb_true_r.
  - apply has_disallowed_in. exists (Exec (Some inner)). split; [exact Hin|].
    rewrite disallowed_exec, IH. reflexivity.
Qed.

Lemma in_size m l : In m l -> msg_size m <= fold_right (fun x n => msg_size x + n) 0 l.
Proof.
  induction l as [|x l IH]; cbn; [tauto|]. intros [->|H]; [|specialize (IH H)]; lia.
Qed.

Lemma disallowed_occurs b : forall n m l, msg_size m <= n -> In m l -> disallowed b m = true ->
  exists m', occurs m' l /\ (In (message_name m') b \/ m' = Exec None).
Proof.
  induction n as [|n IH]; intros m l Hs Hin Hd.
  - destruct m as [|[|]]; cbn in Hs; inversion Hs.
  - destruct m as [nm|[inner|]].
    + exists (Plain nm). split; [now constructor|]. left. now apply is_blocked_spec.
    + rewrite disallowed_exec in Hd. apply orb_true_iff in Hd as [Hd|Hd].
      * apply has_disallowed_in in Hd as (m & Hm & Hd).
        pose proof (in_size _ _ Hm) as Hz. cbn in Hs. apply le_S_n in Hs.
        destruct (IH m inner (Nat.le_trans _ _ _ Hz Hs) Hm Hd) as (m' & Ho & Hb).
        exists m'. split; [|exact Hb]. eapply occurs_in; eassumption.
      * exists (Exec (Some inner)). split; [now constructor|]. left. now apply is_blocked_spec.
    + exists (Exec None). split; [now constructor|]. now right.
Qed.

Lemma has_disallowed_iff b l :
  has_disallowed b l = true <->
  exists m, occurs m l /\ (In (message_name m) b \/ m = Exec None).
Proof.
  split.
  - intros H. apply has_disallowed_in in H as (m & Hm & Hd).
    now apply (disallowed_occurs b (msg_size m) m l).
  - intros (m & Ho & Hm). eapply occurs_disallowed; eassumption.
Qed.

Lemma ante_spec {Ctx R} b (next : Ctx -> list msg -> Ctx * R) ctx msgs :
  ((exists m, occurs m msgs /\ (In (message_name m) b \/ m = Exec None)) ->
     ante_handle b next ctx msgs = (ctx, inl tt)) /\
  ((forall m, occurs m msgs -> ~ In (message_name m) b /\ m <> Exec None) ->
     ante_handle b next ctx msgs = (fst (next ctx msgs), inr (snd (next ctx msgs)))).
Proof.
  unfold ante_handle. split.
  - intros H. apply has_disallowed_iff in H. now rewrite H.
  - intros H. destruct (has_disallowed b msgs) eqn:E.
    + apply has_disallowed_iff in E as (m & Ho & Hm). destruct (H m Ho). tauto.
    + now destruct (next ctx msgs).
Qed.

Lemma mw_module_transparent {Ctx} (app : ibc_module Ctx) :
  (forall c o h p ch cap cp v, on_open_init (mw_module app) c o h p ch cap cp v = on_open_init app c o h p ch cap cp v) /\
  (forall c o h p ch cap cp v, on_open_try (mw_module app) c o h p ch cap cp v = on_open_try app c o h p ch cap cp v) /\
  (forall c p ch cc v, on_open_ack (mw_module app) c p ch cc v = on_open_ack app c p ch cc v) /\
  (forall c p ch, on_open_confirm (mw_module app) c p ch = on_open_confirm app c p ch) /\
  (forall c p ch, on_close_init (mw_module app) c p ch = on_close_init app c p ch) /\
  (forall c p ch, on_close_confirm (mw_module app) c p ch = on_close_confirm app c p ch) /\
  (forall c pk r, on_recv (mw_module app) c pk r = on_recv app c pk r) /\
  (forall c pk a r, on_ack (mw_module app) c pk a r = on_ack app c pk a r) /\
  (forall c pk r, on_timeout (mw_module app) c pk r = on_timeout app c pk r).
Proof. repeat split. Qed.

Lemma mw_ics4_transparent {Ctx} (w : ics4 Ctx) :
  (forall c cap p a, write_ack (mw_ics4 w) c cap p a = write_ack w c cap p a) /\
  (forall c p ch, app_version (mw_ics4 w) c p ch = app_version w c p ch) /\
  (forall c cap ch th ts d, send_packet (mw_ics4 w) c cap ch ch th ts d = send_packet w c cap ch ch th ts d).
Proof. repeat split. Qed.

Lemma mw_send_port_lost {Ctx} (w : ics4 Ctx) c cap p p' ch th ts d :
  send_packet (mw_ics4 w) c cap p ch th ts d = send_packet (mw_ics4 w) c cap p' ch th ts d /\
  send_packet (mw_ics4 w) c cap p ch th ts d = send_packet w c cap ch ch th ts d.
Proof. split; reflexivity. Qed.

Lemma mw_send_refuted :
  exists (w : ics4 (list string)) c cap p ch th ts d,
    send_packet (mw_ics4 w) c cap p ch th ts d <> send_packet w c cap p ch th ts d.
Proof.
  exists (Ics4 (fun c _ port _ _ _ _ => (port :: c, Some 1%Z)) (fun c _ _ _ => (c, true)) (fun _ _ _ => None)).
  exists [], 0%Z, "transfer"%string, "channel-0"%string, 0%Z, 0%Z, []. cbn. discriminate.
Qed.
