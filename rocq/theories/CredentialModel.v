(** Model of /repo/internal/motr/models/credential.go (Credentials map) and
    /repo/internal/motr/models/authenticator.go (UpdateCounter). *)
From Coq Require Import List String Bool ZArith Lia.
Import ListNotations.
Open Scope list_scope.

(** credential.go:28-37 Credential: the ID bytes and one opaque payload for the rest. *)
Record cred := Cred { cr_id : list Z; cr_data : string }.

(** bytes.Equal *)
Fixpoint bytes_eqb (a b : list Z) : bool :=
  match a, b with
  | [], [] => true
  | x :: a', y :: b' => Z.eqb x y && bytes_eqb a' b'
  | _, _ => false
  end.

(** A Go slice: backing array and length.  Spare capacity beyond the array is never read by
    this code, so growth in [append] is modelled without it. *)
Record slice := Slice { sl_arr : list cred; sl_len : nat }.
Definition contents (s : slice) : list cred := firstn (sl_len s) (sl_arr s).

(** Go append(s, c): writes in place while the backing array has room, else reallocates. *)
Definition go_append (s : slice) (c : cred) : slice :=
  if Nat.ltb (sl_len s) (List.length (sl_arr s)) then
    Slice (firstn (sl_len s) (sl_arr s) ++ c :: skipn (S (sl_len s)) (sl_arr s)) (S (sl_len s))
  else Slice (firstn (sl_len s) (sl_arr s) ++ [c]) (S (sl_len s)).

(** Go append(s[:i], s[i+1:]...): copies within the backing array; None is the run-time
    panic "slice bounds out of range" of s[i+1:] when i+1 > len(s). *)
Definition go_delete (s : slice) (i : nat) : option slice :=
  if Nat.leb (S i) (sl_len s) then
    Some (Slice (firstn i (sl_arr s)
                 ++ firstn (sl_len s - S i) (skipn (S i) (sl_arr s))
                 ++ skipn (sl_len s - 1) (sl_arr s))
                (sl_len s - 1))
  else None.

(** credential.go:72-73 Credentials: Go map from origin to slice. *)
Definition creds := list (string * slice).
Fixpoint lookup (m : creds) (o : string) : option slice :=
  match m with
  | [] => None
  | (k, s) :: m' => if String.eqb k o then Some s else lookup m' o
  end.
Fixpoint update (m : creds) (o : string) (s : slice) : creds :=
  match m with
  | [] => [(o, s)]
  | (k, x) :: m' => if String.eqb k o then (k, s) :: m' else (k, x) :: update m' o s
  end.

(** credential.go:81-91 LinkCredential; None is the returned error *)
Definition link (m : creds) (origin : string) (c : cred) : option creds :=
  if String.eqb origin "" then None
  else let m1 := match lookup m origin with
                 | None => update m origin (Slice [] 0) | Some _ => m end in
       match lookup m1 origin with
       | Some s => Some (update m1 origin (go_append s c))
       | None => None
       end.

(** credential.go:94-104 GetCredentials: None is the nil slice for an unknown origin; a
    descriptor is the credential itself here. *)
Definition get_credentials (m : creds) (origin : string) : option (list cred) :=
  match lookup m origin with None => None | Some s => Some (contents s) end.

(** credential.go:111-115: the range loop.  The header of c[origin] is evaluated once, so the
    loop makes [n0] iterations; element i is read from the shared backing array when the
    iteration starts.  [fuel] = iterations left, starting with n0.  None = panic. *)
Fixpoint unlink_loop (id : list Z) (fuel i : nat) (s : slice) : option slice :=
  match fuel with
  | O => Some s
  | S fuel' =>
      match nth_error (sl_arr s) i with
      | None => None
      | Some c => if bytes_eqb (cr_id c) id then
                    match go_delete s i with
                    | None => None
                    | Some s' => unlink_loop id fuel' (S i) s'
                    end
                  else unlink_loop id fuel' (S i) s
      end
  end.

(** credential.go:107-116 UnlinkCredential; None = panic *)
Definition unlink (m : creds) (origin : string) (id : list Z) : option creds :=
  match lookup m origin with
  | None => Some m
  | Some s => match unlink_loop id (sl_len s) 0 s with
              | None => None
              | Some s' => Some (update m origin s')
              end
  end.

(** * Authenticator counter *)

(** authenticator.go:6-11, the two fields UpdateCounter touches; uint32 as Z *)
Record authr := Authr { sign_count : Z; clone_warning : bool }.

(** authenticator.go:36-44 UpdateCounter *)
Definition update_counter (a : authr) (c : Z) : authr :=
  if (Z.leb c (sign_count a)) && (negb (Z.eqb c 0) || negb (Z.eqb (sign_count a) 0))
  then Authr (sign_count a) true
  else Authr c (clone_warning a).
