(** crypto/ot/extension/kos/kos.go: correlated OT extension. Kappa is 256; the batch length L and the extended length
    lPrime are parameters in bytes ([lb] = COtBlockSizeBytes = 84, [eb] = cOtExtendedBlockSizeBytes = 126 in the code).
    [H] is SHA3-256; [shake sid m n] the first n bytes of cSHAKE256(N = sid, S = "Coinbase_DKLs_cOT") on m.
    Writing to a hash never fails. Arrays are sequences; a pair of scalars is one slot of OtWidth = 2. *)
From mathcomp Require Import all_ssreflect all_algebra.
From Coq Require Import BinNat.
From Verif Require Import AlgBase ByteVec BinFieldModel SchnorrModel SimplestOtModel.
Delimit Scope nat_scope with N.
Delimit Scope N_scope with num.
Set Implicit Arguments.
Unset Strict Implicit.
Unset Printing Implicit Defensive.
Import GRing.Theory.

(** kos.go:29-54 *)
Definition kappa := 256.
Definition kappa_bytes := 32.
Definition cot_block_bytes := 84.
Definition cot_ext_bytes := 126.

Inductive kos_err := KosCheck | KosSetBytes.

(** kos.go:167-169 convertBitToBitmask: ^(bit - 1) on a byte *)
Definition bitmask (b : N) : N := N.lxor 255 (N.modulo (N.add b 255) 256).
(** binary.BigEndian.PutUint16(j) *)
Definition be16 (j : nat) : bytes := [:: N.of_nat (j %/ 256 %% 256); N.of_nat (j %% 256)].
(** first n results of a call that may fail *)
Fixpoint traverse (T : Type) (f : nat -> option T) (n : nat) : option (seq T) :=
  if n is m.+1 then
    match traverse f m with
    | Some l => match f m with Some x => Some (rcons l x) | None => None end
    | None => None
    end
  else Some [::].
Definition of_option (E T : Type) (e : E) (o : option T) : res E T := if o is Some x then Ok x else Err e.

Section Kos.
  Variables (F : fieldType) (sbytes : F -> bytes) (setbytes : bytes -> option F).
  Variables (H : bytes -> bytes) (shake : bytes -> bytes -> nat -> bytes).
  Variables (lb eb : nat).

  (** kos.go:177-199 transposeBooleanMatrix: the loop indices in order, and the loop body *)
  Definition quad := ((nat * nat) * (nat * nat))%type.
  Definition transpose_indices : seq quad :=
    [seq (p, q) | p <- [seq (rB, rb) | rB <- iota 0 kappa_bytes, rb <- iota 0 8],
                  q <- [seq (cB, cb) | cB <- iota 0 eb, cb <- iota 0 8]].
  Definition transpose_step (input : seq bytes) (out : seq bytes) (x : quad) : seq bytes :=
    let: ((rB, rb), (cB, cb)) := x in
    let bit := N.land (N.shiftr (nth 0%num (nth [::] input (8 * rB + rb)) cB) (N.of_nat cb)) 1 in
    let shifted := N.modulo (N.shiftl bit (N.of_nat rb)) (N.pow 2 (N.of_nat 8)) in
    upd [::] out (8 * cB + cb) (fun row => upd 0%num row rB (fun b => N.lor b shifted)).
  Definition transpose (input : seq bytes) : seq bytes :=
    foldl (transpose_step input) (nseq (8 * eb) (nseq kappa_bytes 0%num)) transpose_indices.

  (** kos.go:56-69 Receiver, fields kept between rounds *)
  Record kos_receiver := KosReceiver { kr_sid : bytes; kr_choices : bytes; kr_psi : seq bytes }.
  (** kos.go:153-157 Round1Output *)
  Record kos_msg1 := KosMsg1 { km_U : seq bytes; km_W : bytes; km_V : bytes }.

  (** kos.go:237-244, 293-302: the coefficients chi_j *)
  Definition chi (digest : bytes) (j : nat) : bytes := H (be16 j ++ digest).
  (** kos.go:245-250: one 32-byte accumulator, xor-ed with f j for j = 0.. *)
  Definition xor_acc (f : nat -> bytes) (n : nat) : bytes :=
    foldl (fun acc j => mkseq (fun k => N.lxor (nth 0%num acc k) (nth 0%num (f j) k)) kappa_bytes)
          (nseq kappa_bytes 0%num) (iota 0 n).

  (** kos.go:203-262 Round1Initialize; [gamma] are the random bytes appended to the choice vector *)
  Definition kos_round1 (so : sender_output) (sid choice : bytes) (gamma : nat -> N)
    : res kos_err (kos_receiver * kos_msg1) :=
    if (size so < kappa) then Panic
    else
      let w := mkseq (fun j => if j < lb then nth 0%num choice j else gamma (j - lb)) eb in
      let v0 := mkseq (fun i => shake sid (nth ([::], [::]) so i).1 eb) kappa in
      let v1 := mkseq (fun i => shake sid (nth ([::], [::]) so i).2 eb) kappa in
      let U := mkseq (fun i => mkseq (fun j =>
                 N.lxor (N.lxor (nth 0%num (nth [::] v0 i) j) (nth 0%num (nth [::] v1 i) j)) (nth 0%num w j)) eb) kappa in
      let psi := transpose v0 in
      let digest := H (flatten U) in
      let W := xor_acc (fun j => let m := bitmask (extract_bit w j) in
                                 map (fun c => N.land m c) (chi digest j)) (8 * eb) in
      let V := xor_acc (fun j => binary_field_mul (nth [::] psi j) (chi digest j)) (8 * eb) in
      Ok (KosReceiver sid w psi, KosMsg1 U W V).

  (** kos.go:323-338, 342-356, 371-390: two scalars from the hash of column j with row [row] *)
  Definition column (sid : bytes) (j : nat) (row : bytes) : option (F * F) :=
    let c := shake sid (be16 j ++ row) 64 in
    match setbytes (take 32 c), setbytes (take 32 (drop 32 c)) with
    | Some x, Some y => Some (x, y)
    | _, _ => None
    end.

  (** kos.go:276-291: the matrix z *)
  Definition z_matrix (ro : receiver_output) (sid : bytes) (U : seq bytes) : seq bytes :=
    mkseq (fun i =>
      let v := shake sid (nth [::] (ro_keys ro) i) eb in
      let mask := bitmask (if nth false (ro_bits ro) i then 1%num else 0%num) in
      mkseq (fun j => N.lxor (nth 0%num v j) (N.land mask (nth 0%num (nth [::] U i) j))) eb) kappa.

  (** kos.go:269-365 Round2Transfer: the sender's shares and the message tau. [input] j is the pair of inputs of slot j *)
  Definition kos_round2 (ro : receiver_output) (sid : bytes) (input : nat -> F * F) (m : kos_msg1)
    : res kos_err (seq (F * F) * seq (F * F)) :=
    let zeta := transpose (z_matrix ro sid (km_U m)) in
    let digest := H (flatten (km_U m)) in
    let z' := xor_acc (fun j => binary_field_mul (nth [::] zeta j) (chi digest j)) (8 * eb) in
    let nw := binary_field_mul (ro_packed ro) (km_W m) in
    let rhs := mkseq (fun k => N.lxor (nth 0%num (km_V m) k) (nth 0%num nw k)) kappa_bytes in
    if z' != rhs then Err KosCheck
    else
      rbind (of_option KosSetBytes (traverse (fun j =>
               let row := nth [::] zeta j in
               let row' := mkseq (fun k => N.lxor (nth 0%num row k) (nth 0%num (ro_packed ro) k)) kappa_bytes in
               match column sid j row, column sid j row' with
               | Some tA, Some tau =>
                   Some (tA, (tau.1 - tA.1 + (input j).1, tau.2 - tA.2 + (input j).2)%R)
               | _, _ => None
               end) (8 * lb)))
        (fun l => Ok (map fst l, map snd l)).

  (** kos.go:368-400 Round3Transfer: the receiver's shares *)
  Definition reencode (bit : N) (t tau : F) : option F :=
    let x := (- t)%R in
    setbytes (if bit == 1%num then sbytes (x + tau)%R else sbytes x).
  Definition kos_round3 (r : kos_receiver) (tau : nat -> F * F) : res kos_err (seq (F * F)) :=
    of_option KosSetBytes (traverse (fun j =>
      let bit := extract_bit (kr_choices r) j in
      match column (kr_sid r) j (nth [::] (kr_psi r) j) with
      | Some t =>
          match reencode bit t.1 (tau j).1, reencode bit t.2 (tau j).2 with
          | Some x, Some y => Some (x, y)
          | _, _ => None
          end
      | None => None
      end) (8 * lb)).
End Kos.
