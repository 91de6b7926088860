(** crypto/core/curves/field.go: Field and Element on integers. None is a panic. *)
From Coq Require Import List ZArith Bool.
From Verif Require Import BytesModel CodecModel.
Import ListNotations.
Open Scope Z_scope.

(** field.go:27-31 Element{Modulus, Value} *)
Record element := El { el_mod : Z; el_val : Z }.

(** field.go:93-96 IsValid: value < modulus && value >= 0 *)
Definition is_valid (f v : Z) : bool := (v <? f) && (0 <=? v).
(** field.go:84-90 newElement, 98-100 NewElement *)
Definition new_element (f v : Z) : option element := if is_valid f v then Some (El f v) else None.
(** field.go:102-108 Zero, One *)
Definition fzero (f : Z) : option element := new_element f 0.
Definition fone (f : Z) : option element := new_element f 1.
(** field.go:135-137 ElementFromBytes *)
Definition element_from_bytes (f : Z) (b : list Z) : option element := new_element f (of_be b).
(** field.go:162-166 ReducedElementFromBytes *)
Definition reduced_element_from_bytes (f : Z) (b : list Z) : option element :=
  new_element f (of_be b mod f).

(** field.go:255-263 isEqualFields, validateFields *)
Definition eq_fields (x y : element) : bool := el_mod x =? el_mod y.
Definition with_fields {A} (x y : element) (k : option A) : option A :=
  if eq_fields x y then k else None.

(** field.go:173-179 Add *)
Definition f_add (x y : element) : option element :=
  with_fields x y (new_element (el_mod x) ((el_val x + el_val y) mod el_mod x)).
(** field.go:182-188 Sub *)
Definition f_sub (x y : element) : option element :=
  with_fields x y (new_element (el_mod x) ((el_val x - el_val y) mod el_mod x)).
(** field.go:191-195 Neg *)
Definition f_neg (x : element) : option element :=
  new_element (el_mod x) ((- el_val x) mod el_mod x).
(** field.go:198-204 Mul *)
Definition f_mul (x y : element) : option element :=
  with_fields x y (new_element (el_mod x) ((el_val x * el_val y) mod el_mod x)).
(** field.go:207-214 Div; a nil ModInverse makes big.Int.Mul panic *)
Definition f_div (x y : element) : option element :=
  with_fields x y
    match mod_inv (el_val y) (el_mod x) with
    | Some i => new_element (el_mod x) ((el_val x * i) mod el_mod x)
    | None => None
    end.
(** field.go:217-221 Pow *)
Definition f_pow (x y : element) : option element :=
  with_fields x y (new_element (el_mod x) (mod_exp (el_val x) (el_val y) (el_mod x))).
(** field.go:223-225 Invert; newElement of a nil integer panics *)
Definition f_invert (x : element) : option element :=
  match mod_inv (el_val x) (el_mod x) with
  | Some i => new_element (el_mod x) i
  | None => None
  end.
(** field.go:241-247 IsEqual *)
Definition f_eq (x y : element) : bool := if eq_fields x y then el_val x =? el_val y else false.
(** field.go:236-238 Bytes: minimal big-endian bytes of the value; 250-252 Clone *)
Definition f_clone (x : element) : option element :=
  element_from_bytes (el_mod x) (be_bytes (el_val x)).
