(** crypto/ot/extension/kos/kos.go:78-131 binaryFieldMul, on 64-bit words held in N. *)
From mathcomp Require Import all_ssreflect.
From Coq Require Import BinNat.
From Verif Require Import ByteVec.
Delimit Scope nat_scope with N.
Delimit Scope N_scope with num.
Set Implicit Arguments.
Unset Strict Implicit.
Unset Printing Implicit Defensive.

(** uint64 shifts (the left one drops the carried-out bits) and negation *)
Definition shl64 (x : N) (k : nat) : N := N.modulo (N.shiftl x (N.of_nat k)) (N.pow 2 (N.of_nat 64)).
Definition shr (x : N) (k : nat) : N := N.shiftr x (N.of_nat k).
Definition neg64 (x : N) : N := N.modulo (N.sub (N.pow 2 (N.of_nat 64)) x) (N.pow 2 (N.of_nat 64)).
(** l[i] := f l[i] *)
Definition upd {T : Type} (d : T) (l : seq T) (i : nat) (f : T -> T) : seq T := set_nth d l i (f (nth d l i)).

(** 89-95: condense 32 bytes into words *)
Definition condense (n : nat) (A : seq N) : seq N :=
  foldl (fun a i => upd 0%num a (i %/ 8) (fun w => N.lor w (shl64 (nth 0%num A i) (8 * (i %% 8)))))
        (nseq n 0%num) (iota 0 32).

(** 104-107: c[j+i] ^= b[i] & mask for i = 0..4 *)
Definition add_masked (c b : seq N) (j : nat) (mask : N) : seq N :=
  foldl (fun c i => upd 0%num c (j + i) (fun w => N.lxor w (N.land (nth 0%num b i) mask))) c (iota 0 5).
(** 97-108: the j loop *)
Definition comb_row (a b : seq N) (k : nat) (c : seq N) : seq N :=
  foldl (fun c j => add_masked c b j (neg64 (N.land (shr (nth 0%num a j) k) 1))) c (iota 0 4).
(** 109-112: b <<= 1, words 4 down to 1, then word 0 *)
Definition shift_words (b : seq N) : seq N :=
  let b := foldl (fun b i => set_nth 0%num b i (N.lor (shl64 (nth 0%num b i) 1) (shr (nth 0%num b i.-1) 63)))
                 b [:: 4; 3; 2; 1] in
  upd 0%num b 0 (fun w => shl64 w 1).
(** 96-113: the k loop *)
Definition comb_step (a : seq N) (s : seq N * seq N) (k : nat) : seq N * seq N :=
  (comb_row a s.2 k s.1, shift_words s.2).
Definition comb (a b : seq N) : seq N := (foldl (comb_step a) (nseq 8 0%num, b) (iota 0 64)).1.
(** 119-127: reduction, i = 7 down to 4 *)
Definition reduce_step (c : seq N) (i : nat) : seq N :=
  let x := nth 0%num c i in
  let c := upd 0%num c (i - 4) (fun w => N.lxor w (shl64 x 10)) in
  let c := upd 0%num c (i - 3) (fun w => N.lxor w (shr x 54)) in
  let c := upd 0%num c (i - 4) (fun w => N.lxor w (shl64 x 5)) in
  let c := upd 0%num c (i - 3) (fun w => N.lxor w (shr x 59)) in
  let c := upd 0%num c (i - 4) (fun w => N.lxor w (shl64 x 2)) in
  let c := upd 0%num c (i - 3) (fun w => N.lxor w (shr x 62)) in
  upd 0%num c (i - 4) (fun w => N.lxor w x).
Definition reduce (c : seq N) : seq N := foldl reduce_step c [:: 7; 6; 5; 4].
(** 128-130: back to bytes *)
Definition expand (c : seq N) : seq N :=
  mkseq (fun i => N.modulo (shr (nth 0%num c (i %/ 8)) (8 * (i %% 8))) (N.pow 2 (N.of_nat 8))) 32.
(** the whole function; A and B must have at least 32 bytes (otherwise the Go code panics) *)
Definition binary_field_mul (A B : seq N) : seq N :=
  expand (reduce (comb (condense 4 A) (condense 5 B))).
