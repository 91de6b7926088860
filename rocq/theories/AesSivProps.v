From Coq Require Import List Bool ZArith Lia.
From Verif Require Import BytesModel BytesProofs CodecModel CodecSpec CodecProofs HashSpec HashProofs AesSivModel AesSivSpec AesSivProofs.
Import ListNotations.
Open Scope Z_scope.

(** Everything below holds for every function [aes] from keys and blocks to 16-byte blocks. *)
Definition block_function (aes : list Z -> list Z -> list Z) : Prop :=
  forall k b, length (aes k b) = 16%nat /\ bytes_ok (aes k b).

(** C18: any 64-byte key, plaintext and associated data *)
Theorem C18_roundtrip aes key K pt ad : block_function aes -> new_aes_siv aes key = Some K ->
  siv_decrypt aes K (siv_encrypt aes K pt ad) ad = Some pt
  /\ length (siv_encrypt aes K pt ad) = (16 + length pt)%nat.
Proof.
  intros H N. assert (L : length key = 64%nat).
  { unfold new_aes_siv in N. destruct (Nat.eqb_spec (length key) 64); [assumption|discriminate]. }
  rewrite (new_is_K aes (fun k b => proj1 (H k b)) (fun k b => proj2 (H k b)) key L) in N. injection N as <-.
  split; [apply siv_roundtrip; intros; first [exact L | apply H]|].
  unfold siv_encrypt. cbv zeta. rewrite app_length, (s2v_len aes (fun k b => proj1 (H k b)) (fun k b => proj2 (H k b)) key L), (ctr_crypt_len aes (fun k b => proj1 (H k b)) key L); [reflexivity|..]; intros; first [exact L | apply H].
Qed.
Print Assumptions C18_roundtrip.
Theorem C18_key_size aes key : new_aes_siv aes key <> None <-> length key = 64%nat.
Proof. unfold new_aes_siv. destruct (Nat.eqb_spec (length key) 64); split; congruence. Qed.
Print Assumptions C18_key_size.
(** the output is RFC 5297's SIV-ENCRYPT with the two halves of the key *)
Theorem C18_is_rfc5297 aes key K pt ad : block_function aes -> new_aes_siv aes key = Some K ->
  siv_encrypt aes K pt ad = rfc_siv (aes (firstn 32 key)) (aes (skipn 32 key)) ad pt.
Proof.
  intros H N. assert (L : length key = 64%nat).
  { unfold new_aes_siv in N. destruct (Nat.eqb_spec (length key) 64); [assumption|discriminate]. }
  rewrite (new_is_K aes (fun k b => proj1 (H k b)) (fun k b => proj2 (H k b)) key L) in N. injection N as <-.
  apply siv_encrypt_rfc; intros; first [exact L | apply H].
Qed.
Print Assumptions C18_is_rfc5297.

(** C19 *)
Theorem C19_only_encryptions_accepted aes key K ct ad pt : block_function aes -> new_aes_siv aes key = Some K ->
  siv_decrypt aes K ct ad = Some pt -> ct = siv_encrypt aes K pt ad.
Proof.
  intros H N. assert (L : length key = 64%nat).
  { unfold new_aes_siv in N. destruct (Nat.eqb_spec (length key) 64); [assumption|discriminate]. }
  rewrite (new_is_K aes (fun k b => proj1 (H k b)) (fun k b => proj2 (H k b)) key L) in N. injection N as <-.
  apply siv_sound; intros; first [exact L | apply H].
Qed.
Print Assumptions C19_only_encryptions_accepted.
(** so a changed ciphertext never decrypts to the same plaintext, whatever was changed *)
Theorem C19_tampered_not_same_plaintext aes key K pt ad ct' : block_function aes -> new_aes_siv aes key = Some K ->
  ct' <> siv_encrypt aes K pt ad -> siv_decrypt aes K ct' ad <> Some pt.
Proof. intros H N D E. apply D. eapply C19_only_encryptions_accepted; eauto. Qed.
Print Assumptions C19_tampered_not_same_plaintext.
Theorem C19_changed_tag_rejected aes key K pt ad V' : block_function aes -> new_aes_siv aes key = Some K ->
  length V' = 16%nat ->
  forall pt', siv_decrypt aes K (V' ++ skipn 16 (siv_encrypt aes K pt ad)) ad = Some pt' ->
  V' = rfc_s2v (aes (firstn 32 key)) ad pt'.
Proof.
  intros H N LV pt' D. pose proof (C19_only_encryptions_accepted _ _ _ _ _ _ H N D) as E.
  rewrite (C18_is_rfc5297 aes key K pt' ad H N) in E. unfold rfc_siv in E.
  apply app_inj_len in E; [apply E|]. rewrite LV. symmetry. apply H.
Qed.
Print Assumptions C19_changed_tag_rejected.
Theorem C19_short_rejected aes K ct ad : (length ct < 16)%nat -> siv_decrypt aes K ct ad = None.
Proof. intros H. unfold siv_decrypt. destruct (Nat.ltb_spec (length ct) 16); [reflexivity|lia]. Qed.
Print Assumptions C19_short_rejected.

(** C20 *)
Theorem C20_cmac_is_rfc4493 aes key K M : block_function aes -> new_aes_siv aes key = Some K ->
  cmac aes K M = rfc_cmac (aes (firstn 32 key)) M.
Proof.
  intros H N. assert (L : length key = 64%nat).
  { unfold new_aes_siv in N. destruct (Nat.eqb_spec (length key) 64); [assumption|discriminate]. }
  rewrite (new_is_K aes (fun k b => proj1 (H k b)) (fun k b => proj2 (H k b)) key L) in N. injection N as <-.
  apply cmac_rfc; intros; first [exact L | apply H].
Qed.
Print Assumptions C20_cmac_is_rfc4493.
Theorem C20_cmac_long_is_cmac_of_xorend aes key K M mask : block_function aes -> new_aes_siv aes key = Some K ->
  (16 <= length M)%nat -> length mask = 16%nat ->
  cmac_long aes K M mask = cmac aes K (xorend M mask)
  /\ cmac_long aes K M mask = rfc_cmac (aes (firstn 32 key)) (xorend M mask).
Proof.
  intros H N A B. rewrite (C20_cmac_is_rfc4493 aes key K (xorend M mask) H N). assert (L : length key = 64%nat).
  { unfold new_aes_siv in N. destruct (Nat.eqb_spec (length key) 64); [assumption|discriminate]. }
  rewrite (new_is_K aes (fun k b => proj1 (H k b)) (fun k b => proj2 (H k b)) key L) in N. injection N as <-.
  split; apply cmac_long_rfc; auto; intros; first [exact L | apply H].
Qed.
Print Assumptions C20_cmac_long_is_cmac_of_xorend.
Theorem C20_doubling b : bytes_ok b -> length b = 16%nat -> multiply_by_x b = dbl b.
Proof. exact (multiply_by_x_dbl b). Qed.
Print Assumptions C20_doubling.

(** a block function and a key: the hypotheses are satisfiable *)
Definition toy (k b : list Z) : list Z := firstn 16 (map (fun x => (x * 3 + nth 0 k 0 + 7) mod 256) b ++ repeat 5 16).
Example C18_toy : block_function toy.
Proof.
  intros k b. unfold toy. split.
  - apply firstn_length_le. rewrite app_length, repeat_length. lia.
  - apply bytes_ok_firstn, bytes_ok_app.
    + apply Forall_forall. intros x Hx. apply in_map_iff in Hx. destruct Hx as (y & <- & _). apply Z.mod_pos_bound. lia.
    + apply Forall_forall. intros x Hx. apply repeat_spec in Hx. unfold byte_ok. lia.
Qed.
Example C18_case : exists K, new_aes_siv toy (map Z.of_nat (seq 0 64)) = Some K
  /\ siv_decrypt toy K (siv_encrypt toy K [1;2;3] [9]) [9] = Some [1;2;3]
  /\ siv_decrypt toy K (siv_encrypt toy K (map Z.of_nat (seq 0 20)) [9]) [8] = None.
Proof. eexists. split; [vm_compute; reflexivity|]. split; vm_compute; reflexivity. Qed.

(** C21: with lawful components (marshalling, KEM and AEAD all invert), decryption of an encryption does
    not give the message back *)
Theorem C21_roundtrip_refuted :
  exists (acc : Type) marshal unmarshal ect ess decaps seal open_,
    (forall a : acc, unmarshal (marshal a) = Some a) /\ (forall a, length (marshal a) = 60%nat) /\
    (forall a, length (ect a) = 1088%nat) /\
    (forall a, decaps a (ect a) = ess a) /\ (forall k n p, open_ k n (seal k n p) = Some p) /\
    exists a nonce msg c,
      length nonce = 12%nat /\ secret_encrypt 60 acc marshal ect ess seal a nonce msg = Some c
      /\ secret_decrypt 60 1088 12 acc unmarshal decaps open_ (fun _ => true) c = None.
Proof.
  exists unit, (fun _ => repeat 1 60), (fun b => if list_eqb b (repeat 1 60) then Some tt else None),
    (fun _ => repeat 2 1088), (fun _ => [3]), (fun _ _ => [3]), (fun _ _ p => p), (fun _ _ c => Some c).
  split; [intros []; vm_compute; reflexivity|].
  split; [intros; apply repeat_length|]. split; [intros; apply repeat_length|]. split; [reflexivity|]. split; [reflexivity|].
  exists tt, (repeat 0 12), [42]. eexists. split; [reflexivity|]. split; [vm_compute; reflexivity|]. vm_compute. reflexivity.
Qed.
Print Assumptions C21_roundtrip_refuted.
(** what Decrypt does expect: the accumulator in clear in front; and even then it returns the
    accumulator encoding prepended to the message *)
Theorem C21_expected_layout_partial (acc : Type) marshal unmarshal ect ess decaps seal open_ wok :
  (forall a : acc, unmarshal (marshal a) = Some a) -> (forall a, length (marshal a) = 60%nat) ->
  (forall a, length (ect a) = 1088%nat) ->
  (forall a, decaps a (ect a) = ess a) -> (forall k n p, open_ k n (seal k n p) = Some p) ->
  forall a nonce msg c, length nonce = 12%nat -> secret_encrypt 60 acc marshal ect ess seal a nonce msg = Some c ->
    wok a = true ->
    secret_decrypt 60 1088 12 acc unmarshal decaps open_ wok (marshal a ++ c) = Some (marshal a ++ msg).
Proof.
  intros H1 H2 H3 H4 H5 a nonce msg c Ln E W. unfold secret_encrypt in E. rewrite H2 in E. change (Nat.eqb 60 60) with true in E.
  injection E as <-. unfold secret_decrypt.
  set (c := seal (ess a) nonce (marshal a ++ msg)).
  assert (LL : length (marshal a ++ (ect a ++ nonce) ++ c) = (60 + 1088 + 12 + length c)%nat).
  { rewrite !app_length, H2, H3, Ln. lia. }
  rewrite LL. destruct (Nat.ltb_spec (60 + 1088 + 12 + length c) (1088 + 60)); [lia|].
  rewrite app_firstn_exact by apply H2. rewrite H1.
  destruct (Nat.ltb_spec (60 + 1088 + 12 + length c) (60 + 1088 + 12)); [lia|].
  rewrite app_skipn_exact by apply H2. rewrite <- app_assoc.
  rewrite app_firstn_exact by apply H3. rewrite H4.
  rewrite (app_assoc (marshal a)). rewrite app_skipn_exact by (rewrite app_length, H2, H3; reflexivity).
  rewrite app_firstn_exact by exact Ln.
  rewrite (app_assoc (marshal a ++ ect a)). rewrite app_skipn_exact by (rewrite !app_length, H2, H3, Ln; reflexivity).
  unfold c. rewrite H5, W. reflexivity.
Qed.
Print Assumptions C21_expected_layout_partial.
