(** Property theorems C09 (identifiers). *)
From Coq Require Import List String Ascii Bool Arith NArith Lia.
From Verif Require Import IdentifierModel IdentifierSpec IdentifierProofs.
Import ListNotations.
Open Scope string_scope.

(** validation accepts exactly the documented syntax and the identifier is the prefix followed
    by the lower-case hexadecimal of the digest *)
Theorem C09_phone_did : forall blake3 s did,
  get_phone_did blake3 s = Some did <->
  valid_phone s /\ exists h, hex_of (blake3 s) h /\ did = "did:phone:" ++ h.
Proof.
  intros. rewrite phone_did_spec. setoid_rewrite hex_of_spec. split; intros [H E]; split; auto.
  - eauto.
  - now destruct E as (h & -> & ->).
Qed.
Print Assumptions C09_phone_did.

Theorem C09_email_did : forall blake3 s did,
  get_email_did blake3 s = Some did <->
  valid_email s /\ exists h, hex_of (blake3 s) h /\ did = "did:email:" ++ h.
Proof.
  intros. rewrite email_did_spec. setoid_rewrite hex_of_spec. split; intros [H E]; split; auto.
  - eauto.
  - now destruct E as (h & -> & ->).
Qed.
Print Assumptions C09_email_did.

(** Equals holds exactly for the identifier of the input, in any letter case *)
Theorem C09_phone_equals : forall blake3 p s,
  phone_equals blake3 p s = true <->
  valid_phone s /\ exists h, hex_of (blake3 s) h /\ case_variant p ("did:phone:" ++ h).
Proof.
  intros. rewrite phone_equals_spec. setoid_rewrite hex_of_spec. setoid_rewrite case_variant_spec.
  split; intros [H E]; split; auto.
  - eexists. split; [reflexivity|]. rewrite to_lower_app, hex_lower. exact E.
  - destruct E as (h & -> & E). rewrite E, to_lower_app, hex_lower. reflexivity.
Qed.
Print Assumptions C09_phone_equals.

Theorem C09_email_equals : forall blake3 p s,
  email_equals blake3 p s = true <->
  valid_email s /\ exists h, hex_of (blake3 s) h /\ case_variant p ("did:email:" ++ h).
Proof.
  intros. rewrite email_equals_spec. setoid_rewrite hex_of_spec. setoid_rewrite case_variant_spec.
  split; intros [H E]; split; auto.
  - eexists. split; [reflexivity|]. rewrite to_lower_app, hex_lower. exact E.
  - destruct E as (h & -> & E). rewrite E, to_lower_app, hex_lower. reflexivity.
Qed.
Print Assumptions C09_email_equals.

(** equal identifiers mean equal digests; the two methods never collide; digests appear as
    two hex digits per byte *)
Theorem C09_did_binds_digest : forall blake3 a b d,
  (get_phone_did blake3 a = Some d /\ get_phone_did blake3 b = Some d) \/
  (get_email_did blake3 a = Some d /\ get_email_did blake3 b = Some d) ->
  blake3 a = blake3 b.
Proof. exact did_binds_hash. Qed.
Print Assumptions C09_did_binds_digest.

Theorem C09_methods_disjoint : forall blake3 a b d,
  get_phone_did blake3 a = Some d -> get_email_did blake3 b = Some d -> False.
Proof. exact did_methods_disjoint. Qed.
Print Assumptions C09_methods_disjoint.

(** every digest has exactly one lower-case hexadecimal form, of twice its length, and it
    determines the digest *)
Theorem C09_hex_injective : forall l, exists h, hex_of l h /\
  String.length h = 2 * List.length l /\ (forall h', hex_of l h' -> h' = h) /\
  (forall l', hex_of l' h -> l' = l).
Proof.
  intros l. exists (hex_encode l). setoid_rewrite hex_of_spec. repeat split.
  - apply hex_length.
  - auto.
  - intros l' E. symmetry. now apply hex_inj.
Qed.
Print Assumptions C09_hex_injective.

Example C09_example_phone :
  rmatch phone_re "+14155552671" = true /\ rmatch phone_re "+04155552671" = false /\
  rmatch phone_re "+1" = false /\ rmatch phone_re "+1234567890123456" = false /\
  phone_equals (fun _ => ["010"%char; "171"%char]) "DID:phone:0AaB" "+12" = true.
Proof. vm_compute. repeat split. Qed.
Example C09_example_email :
  rmatch email_re "a.b+c@mail.example.org" = true /\ rmatch email_re "a@b" = false /\
  rmatch email_re "a@b.c" = false.
Proof. vm_compute. repeat split. Qed.
