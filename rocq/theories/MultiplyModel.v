(** crypto/tecdsa/dklsv1/sign/multiply.go: two-party multiplication on top of the OT extension (KosModel).
    The gadget length L = 8 * lb (672 in the code, lb = 84) and the extension eb stay parameters.
    [gshake i] is the i-th block of 32 bytes read from cSHAKE256(S = "Coinbase DKLs gadget vector"); [ext] is the
    Merlin transcript output as in SimplestOtModel. Fixed-size arrays are sequences; nil scalars (a division by zero,
    a hostile caller) are not represented. *)
From mathcomp Require Import all_ssreflect all_algebra.
From Coq Require Import BinNat String DecimalString.
From Verif Require Import AlgBase ByteVec SchnorrModel SimplestOtModel KosModel.
Delimit Scope nat_scope with N.
Delimit Scope N_scope with num.
Set Implicit Arguments.
Unset Strict Implicit.
Unset Printing Implicit Defensive.
Import GRing.Theory.
Local Open Scope ring_scope.

Inductive mul_err := MulGadget | MulEncode | MulKos of kos_err | MulChi | MulCheck.

(** fmt.Sprintf("<pre>%d<post>", i) *)
Definition sprintf_d (pre : string) (i : nat) (post : string) : string :=
  (pre ++ NilEmpty.string_of_uint (Nat.to_uint i) ++ post)%string.

Section Multiply.
  Variables (F : fieldType) (sbytes : F -> bytes) (setbytes : bytes -> option F).
  Variables (H : bytes -> bytes) (shake : bytes -> bytes -> nat -> bytes) (ext : transcript -> bytes).
  Variable gshake : nat -> bytes.
  Variables (lb eb : nat).

  (** multiply.go:51-73 generateGadgetVector: powers of two, then hashed scalars *)
  Definition gadget_entry (i : nat) : option F :=
    if (i < kappa)%N then Some (2%:R ^+ i) else setbytes (gshake (i - kappa)).
  Definition gadget_vector : res mul_err (seq F) := of_option MulGadget (traverse gadget_entry (8 * lb)).

  (** multiply.go:31-38 MultiplySender, 41-49 MultiplyReceiver (curve omitted) *)
  Record mul_sender := MulSender { ms_seeds : receiver_output; ms_sid : bytes; ms_gadget : seq F;
                                   ms_tr : transcript; ms_share : F }.
  Record mul_receiver := MulReceiver { mr_seeds : sender_output; mr_sid : bytes; mr_gadget : seq F;
                                       mr_tr : transcript; mr_omega : bytes; mr_kos : kos_receiver; mr_share : F }.

  (** multiply.go:85-86, 106-107 *)
  Definition mul_start (sid : bytes) : transcript :=
    [:: TNew "Coinbase_DKLs_Multiply"%string; TAppend "session_id"%string sid].
  (** multiply.go:78-94 NewMultiplySender *)
  Definition new_mul_sender (ro : receiver_output) (sid : bytes) : res mul_err mul_sender :=
    rbind gadget_vector (fun g => Ok (MulSender ro sid g (mul_start sid) 0)).
  (** multiply.go:99-115 NewMultiplyReceiver *)
  Definition new_mul_receiver (so : sender_output) (sid : bytes) : res mul_err mul_receiver :=
    rbind gadget_vector (fun g => Ok (MulReceiver so sid g (mul_start sid) [::] (KosReceiver [::] [::] [::]) 0)).

  (** multiply.go:126-149 encode. [rnd i] is the i-th random byte. One loop iteration, on the byte form of
      beta - <gadget, gamma>; the last step copies its reverse into the first 32 bytes. *)
  Definition encode_step (g : seq F) (enc0 : bytes) (v : option bytes) (j : nat) : option bytes :=
    match v with
    | None => None
    | Some b =>
        match setbytes b with
        | None => None
        | Some x => Some (if extract_bit enc0 j == 1%num then sbytes (x - nth 0 g j) else sbytes x)
        end
    end.
  Definition mul_encode (g : seq F) (beta : F) (rnd : nat -> N) : res mul_err bytes :=
    let gamma := mkseq rnd (lb - kappa_bytes)%N in
    let enc0 := nseq kappa_bytes 0%num ++ gamma in
    rbind (of_option MulEncode (foldl (encode_step g enc0) (Some (sbytes beta)) (iota kappa (8 * lb - kappa))))
      (fun v => Ok (take kappa_bytes (rev v) ++ gamma)).

  (** multiply.go:162-168, 191-196 the first message on the transcript *)
  Definition append_msg1 (t : transcript) (m : kos_msg1) : transcript :=
    t ++ mkseq (fun i => TAppend (sprintf_d "row " i " of U") (nth [::] (km_U m) i)) kappa
      ++ [:: TAppend "wPrime"%string (km_W m); TAppend "vPrime"%string (km_V m)].
  (** multiply.go:199-204, 230-235: kos.Kappa rows of Tau, two scalars each *)
  Definition append_tau (t : transcript) (tau : seq (F * F)) : transcript :=
    t ++ flatten (mkseq (fun i => let p := nth (0, 0) tau i in let l := sprintf_d "row " i " of Tau" in
                                  [:: TAppend l (sbytes p.1); TAppend l (sbytes p.2)]) kappa).
  (** multiply.go:205-213, 240-248 *)
  Definition draw_chi (t : transcript) : res mul_err (transcript * (F * F)) :=
    let '(t1, b0) := extract ext t "draw challenge chi 0" in
    match setbytes b0 with
    | None => Err MulChi
    | Some c0 =>
        let '(t2, b1) := extract ext t1 "draw challenge chi 1" in
        match setbytes b1 with
        | None => Err MulChi
        | Some c1 => Ok (t2, (c0, c1))
        end
    end.
  (** multiply.go:215-220, 258-260 chi0 * x0 + chi1 * x1, added to [r] in this order *)
  Definition chi_add (r : F) (c : F * F) (p : F * F) : F := r + c.1 * p.1 + c.2 * p.2.
  (** multiply.go:214-221, 250-265: sum of gadget_j * t_j0 *)
  Definition gadget_sum (g : seq F) (t : seq (F * F)) : F :=
    foldl (fun acc j => acc + nth 0 g j * (nth (0, 0) t j).1) 0 (iota 0 (8 * lb)).

  (** multiply.go:152-169 Round1Initialize; [rnd] are encode's random bytes, [gamma] the OT extension's *)
  Definition mul_round1 (r : mul_receiver) (beta : F) (rnd gamma : nat -> N)
    : res mul_err (mul_receiver * kos_msg1) :=
    rbind (mul_encode (mr_gadget r) beta rnd) (fun omega =>
    rbind (lift_err MulKos (kos_round1 H shake lb eb (mr_seeds r) (mr_sid r) omega gamma)) (fun km =>
      let '(k, m) := km in
      Ok (MulReceiver (mr_seeds r) (mr_sid r) (mr_gadget r) (append_msg1 (mr_tr r) m) omega k (mr_share r), m))).

  (** multiply.go:118-122 MultiplyRound2Output *)
  Record mul_msg2 := MulMsg2 { mm_tau : seq (F * F); mm_R : seq F; mm_U : F }.

  (** multiply.go:175-222 Round2Multiply; [ahat] is the random second input *)
  Definition mul_round2 (s : mul_sender) (alpha ahat : F) (m : kos_msg1) : res mul_err (mul_sender * mul_msg2) :=
    rbind (lift_err MulKos (kos_round2 setbytes H shake lb eb (ms_seeds s) (ms_sid s) (fun _ => (alpha, ahat)) m))
      (fun tt' =>
        let '(tA, tau) := tt' in
        rbind (draw_chi (append_tau (append_msg1 (ms_tr s) m) tau)) (fun tc =>
          let '(t, c) := tc in
          let R := mkseq (fun j => chi_add 0 c (nth (0, 0) tA j)) (8 * lb) in
          Ok (MulSender (ms_seeds s) (ms_sid s) (ms_gadget s) t (gadget_sum (ms_gadget s) tA),
              MulMsg2 tau R (c.1 * alpha + c.2 * ahat)))).

  (** multiply.go:251-263 the check of slot j: 32 zero bytes, or U.Bytes() when the bit of omega is set, against the
      bytes of the left-hand side *)
  Definition mul_check (omega : bytes) (c : F * F) (tB : seq (F * F)) (m : mul_msg2) (j : nat) : bool :=
    let lhs := chi_add (nth 0 (mm_R m) j) c (nth (0, 0) tB j) in
    let rhs := if extract_bit omega j == 1%num then sbytes (mm_U m) else nseq kappa_bytes 0%num in
    rhs == sbytes lhs.
  (** multiply.go:227-267 Round3Multiply. The code interleaves checks and the sum; the share is only read after
      success *)
  Definition mul_round3 (r : mul_receiver) (m : mul_msg2) : res mul_err mul_receiver :=
    let t := append_tau (mr_tr r) (mm_tau m) in
    rbind (lift_err MulKos (kos_round3 sbytes setbytes shake lb (mr_kos r) (nth (0, 0) (mm_tau m)))) (fun tB =>
    rbind (draw_chi t) (fun tc =>
      let '(t', c) := tc in
      if ~~ all (mul_check (mr_omega r) c tB m) (iota 0 (8 * lb)) then Err MulCheck
      else Ok (MulReceiver (mr_seeds r) (mr_sid r) (mr_gadget r) t' (mr_omega r) (mr_kos r)
                           (gadget_sum (mr_gadget r) tB)))).
End Multiply.
