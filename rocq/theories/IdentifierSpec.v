(** Specification: the documented syntaxes, without regular expressions. *)
From Coq Require Import List String Ascii Bool Arith NArith.
Import ListNotations.
Open Scope string_scope.

Definition digits : list ascii := list_ascii_of_string "0123456789".
Definition letters : list ascii :=
  list_ascii_of_string "abcdefghijklmnopqrstuvwxyzABCDEFGHIJKLMNOPQRSTUVWXYZ".

Definition all_in (cs : list ascii) (s : string) : Prop :=
  forall c, In c (list_ascii_of_string s) -> In c cs.

(** '+', a non-zero digit, 1 to 14 digits *)
Definition valid_phone (s : string) : Prop :=
  exists d rest, s = "+" ++ String d rest /\ In d digits /\ d <> "0"%char /\
    all_in digits rest /\ 1 <= String.length rest <= 14.

(** local@domain.tld *)
Definition valid_email (s : string) : Prop :=
  exists local domain tld, s = local ++ "@" ++ domain ++ "." ++ tld /\
    local <> "" /\ all_in (letters ++ digits ++ list_ascii_of_string "._%+-") local /\
    domain <> "" /\ all_in (letters ++ digits ++ list_ascii_of_string ".-") domain /\
    2 <= String.length tld /\ all_in letters tld.

(** lower-case hexadecimal: two digits per byte, high nibble first *)
Definition hex_digits : string := "0123456789abcdef".
Inductive hex_of : list ascii -> string -> Prop :=
| hex_of_nil : hex_of [] ""
| hex_of_cons b l hi lo ch cl s :
    String.get hi hex_digits = Some ch -> String.get lo hex_digits = Some cl ->
    nat_of_ascii b = 16 * hi + lo -> hex_of l s -> hex_of (b :: l) (String ch (String cl s)).

(** equal up to ASCII letter case *)
Definition lower_letters : string := "abcdefghijklmnopqrstuvwxyz".
Definition upper_letters : string := "ABCDEFGHIJKLMNOPQRSTUVWXYZ".
Definition same_letter (c d : ascii) : Prop :=
  c = d \/ exists i, (String.get i lower_letters = Some c /\ String.get i upper_letters = Some d) \/
                     (String.get i upper_letters = Some c /\ String.get i lower_letters = Some d).
Inductive case_variant : string -> string -> Prop :=
| cv_nil : case_variant "" ""
| cv_cons c d s t : same_letter c d -> case_variant s t -> case_variant (String c s) (String d t).
