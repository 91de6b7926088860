(** Model of /repo/pkg/did/identifier.go: e-mail and phone identifiers.
    Go strings are byte strings: Coq [string] (lists of 8-bit [ascii]). *)
From Coq Require Import List String Ascii Bool Arith NArith.
Import ListNotations.
Open Scope string_scope.

(** Regular expressions over bytes, enough for the two patterns used; matching by Brzozowski
    derivatives models regexp.MatchString of an anchored pattern (Go's RE2 decides the same
    language).  Multi-byte UTF-8 characters are in none of the classes used, so a byte-wise
    matcher decides like Go's rune-wise one. *)
Inductive re :=
| RNone | REps | RCls (f : ascii -> bool) | RCat (a b : re) | RAlt (a b : re) | RStar (a : re).

Fixpoint nullable (r : re) : bool :=
  match r with
  | RNone => false | REps => true | RCls _ => false
  | RCat a b => nullable a && nullable b
  | RAlt a b => nullable a || nullable b
  | RStar _ => true
  end.
Fixpoint deriv (r : re) (c : ascii) : re :=
  match r with
  | RNone => RNone | REps => RNone
  | RCls f => if f c then REps else RNone
  | RCat a b => if nullable a then RAlt (RCat (deriv a c) b) (deriv b c) else RCat (deriv a c) b
  | RAlt a b => RAlt (deriv a c) (deriv b c)
  | RStar a => RCat (deriv a c) (RStar a)
  end.
Fixpoint rmatch (r : re) (s : string) : bool :=
  match s with EmptyString => nullable r | String c s' => rmatch (deriv r c) s' end.

Definition RPlus (r : re) : re := RCat r (RStar r).
Definition ROpt (r : re) : re := RAlt REps r.
(** r{m,m+n} *)
Fixpoint RUpTo (r : re) (n : nat) : re := match n with O => REps | S n' => ROpt (RCat r (RUpTo r n')) end.
Fixpoint RTimes (r : re) (m : nat) (rest : re) : re :=
  match m with O => rest | S m' => RCat r (RTimes r m' rest) end.

Definition in_range (lo hi c : ascii) : bool :=
  N.leb (N_of_ascii lo) (N_of_ascii c) && N.leb (N_of_ascii c) (N_of_ascii hi).
Definition is_digit (c : ascii) : bool := in_range "0" "9" c.
Definition is_nonzero_digit (c : ascii) : bool := in_range "1" "9" c.
Definition is_letter (c : ascii) : bool := in_range "a" "z" c || in_range "A" "Z" c.
Definition is_char (d c : ascii) : bool := Ascii.eqb c d.

(** identifier.go:53 [a-zA-Z0-9._%+\-] *)
Definition is_local (c : ascii) : bool :=
  is_letter c || is_digit c || is_char "." c || is_char "_" c || is_char "%" c
  || is_char "+" c || is_char "-" c.
(** identifier.go:53 [a-zA-Z0-9.\-] *)
Definition is_domain (c : ascii) : bool :=
  is_letter c || is_digit c || is_char "." c || is_char "-" c.

(** identifier.go:53 ^[a-zA-Z0-9._%+\-]+@[a-zA-Z0-9.\-]+\.[a-zA-Z]{2,}$ *)
Definition email_re : re :=
  RCat (RPlus (RCls is_local)) (RCat (RCls (is_char "@")) (RCat (RPlus (RCls is_domain))
    (RCat (RCls (is_char ".")) (RTimes (RCls is_letter) 2 (RStar (RCls is_letter)))))).

(** identifier.go:62 ^\+[1-9]\d{1,14}$ *)
Definition phone_re : re :=
  RCat (RCls (is_char "+")) (RCat (RCls is_nonzero_digit)
    (RTimes (RCls is_digit) 1 (RUpTo (RCls is_digit) 13))).

(** encoding/hex EncodeToString *)
Definition hex_digit (n : N) : ascii :=
  if N.ltb n 10 then ascii_of_N (48 + n) else ascii_of_N (87 + n).
Fixpoint hex_encode (l : list ascii) : string :=
  match l with
  | [] => ""
  | b :: l' => String (hex_digit (N.div (N_of_ascii b) 16))
                 (String (hex_digit (N.modulo (N_of_ascii b) 16)) (hex_encode l'))
  end.

(** ASCII case folding.  strings.EqualFold also folds non-ASCII letters; the only non-ASCII
    characters that fold to ASCII letters are U+017F (s) and U+212A (k), and neither s nor k
    occurs in an identifier "did:email:<hex>" or "did:phone:<hex>", so on the comparisons
    made here the ASCII fold gives the same answer. *)
Definition lower (c : ascii) : ascii :=
  if in_range "A" "Z" c then ascii_of_N (N_of_ascii c + 32) else c.
Fixpoint to_lower (s : string) : string :=
  match s with EmptyString => EmptyString | String c s' => String (lower c) (to_lower s') end.
Definition equal_fold (a b : string) : bool := String.eqb (to_lower a) (to_lower b).

Section Did.
  (** identifier.go:70-73 blake3Hash: any function from strings to byte lists *)
  Variable blake3 : string -> list ascii.

  (** identifier.go:52-58 GetEmailDID *)
  Definition get_email_did (email : string) : option string :=
    if negb (rmatch email_re email) then None
    else Some ("did:email:" ++ hex_encode (blake3 email)).
  (** identifier.go:61-67 GetPhoneDID *)
  Definition get_phone_did (phone : string) : option string :=
    if negb (rmatch phone_re phone) then None
    else Some ("did:phone:" ++ hex_encode (blake3 phone)).
  (** identifier.go:16-22 EmailDID.Equals *)
  Definition email_equals (e email : string) : bool :=
    match get_email_did email with None => false | Some o => equal_fold e o end.
  (** identifier.go:33-39 PhoneDID.Equals *)
  Definition phone_equals (p phone : string) : bool :=
    match get_phone_did phone with None => false | Some o => equal_fold p o end.
End Did.
