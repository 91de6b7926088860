(** crypto/paillier: key generation, encryption, homomorphic operations, the square-free proof.
    nil pointers are not modelled (every such call returns ErrNilArguments). big.Int values are Z;
    a result None stands for a non-nil error. big.Int.Exp(x, y, m) for y >= 0, m > 0 is [mod_exp];
    the model follows the Go code for N > 0. *)
From Coq Require Import List Bool ZArith.
From Verif Require Import BytesModel CodecModel HashModel.
Import ListNotations.
Open Scope Z_scope.

(** paillier.go:27-50 PublicKey, SecretKey *)
Record public_key := { pkN : Z; pkN2 : Z }.
Record secret_key := { skPub : public_key; skLambda : Z; skTotient : Z; skU : Z }.

(** paillier.go:168-179 lcm (big.Int.Div by a positive gcd is Z.div) *)
Definition lcm (x y : Z) : Z :=
  let g := Z.gcd x y in
  if ct_eq g 0 then 0 else Z.abs ((x / g) * y).

(** paillier.go:184-206 l *)
Definition ell (pk : public_key) (x : Z) : option Z :=
  if ct_eq (pkN pk) 0 then None
  else if negb (ct_eq (x mod pkN pk) 1) then None
  else if negb (in_zm x (pkN2 pk)) then None
  else Some ((x - 1) / pkN pk).

(** paillier.go:209-217 NewPubkey *)
Definition new_pubkey (n : Z) : public_key := {| pkN := n; pkN2 := n * n |}.

(** paillier.go:112-145 NewSecretKey; ModInverse leaves its receiver unchanged when there is no inverse *)
Definition new_secret_key (p q : Z) : option secret_key :=
  let pm1 := p - 1 in
  let qm1 := q - 1 in
  let n := p * q in
  let nn := n * n in
  let lambda := lcm pm1 qm1 in
  let totient := pm1 * qm1 in
  let pk := {| pkN := n; pkN2 := nn |} in
  let t := mod_exp (n + 1) lambda nn in
  match ell pk t with
  | None => None
  | Some u => let u' := match mod_inv u n with Some v => v | None => u end in
              Some {| skPub := pk; skLambda := lambda; skTotient := totient; skU := u' |}
  end.

(** paillier.go:79-109 keyGenerator: the loop condition compares the two pointers, which differ as
    soon as two values were received, so its body runs once; [g1], [g2] are the two results of
    genSafePrime (None: error) *)
Definition key_generator (g1 g2 : option Z) : option secret_key :=
  match g1, g2 with
  | Some p, Some q => new_secret_key p q
  | _, _ => None
  end.

(** paillier.go:220-245 Add *)
Definition padd (pk : public_key) (c d : Z) : option Z :=
  if in_zm c (pkN2 pk) && in_zm d (pkN2 pk) then Some (mod_mul c d (pkN2 pk)) else None.
(** paillier.go:248-271 Mul *)
Definition pmul (pk : public_key) (a c : Z) : option Z :=
  if in_zm a (pkN pk) && in_zm c (pkN2 pk) then Some (mod_exp c a (pkN2 pk)) else None.
(** paillier.go:287-319 encrypt (Encrypt, 274-284, is encrypt on a random nonce r) *)
Definition encrypt (pk : public_key) (msg r : Z) : option Z :=
  if negb (in_zm msg (pkN pk)) then None
  else if negb (in_zm r (pkN pk)) then None
  else if ct_eq r 0 then None
  else
    let alpha := mod_exp (pkN pk + 1) msg (pkN2 pk) in
    let beta := mod_exp r (pkN pk) (pkN2 pk) in
    Some (mod_mul alpha beta (pkN2 pk)).
(** paillier.go:322-349 Decrypt *)
Definition decrypt (sk : secret_key) (c : Z) : option Z :=
  let pk := skPub sk in
  if negb (in_zm c (pkN2 pk)) then None
  else
    let alpha := mod_exp c (skLambda sk) (pkN2 pk) in
    match ell pk alpha with
    | None => None
    | Some l => Some (mod_mul l (skU sk) (pkN pk))
    end.

(** ---- psf.go ---- *)
Section Psf.
  Variable kdf : list Z -> list Z.     (* the HKDF inside core.FiatShamir *)
  (** the curve parameters read: Gx, Gy and the subgroup order N *)
  Record curve_params := { cGx : Z; cGy : Z; cN : Z }.

  (** one candidate: psf.go:188-203, the k loop and the truncation to b/8 bytes *)
  Fixpoint ej_bytes (par : curve_params) (y : Z * Z) (pi j m : Z) (s : nat) (k : Z) : list Z :=
    match s with
    | O => []
    | S s' =>
      match fiat_shamir kdf (map Some [cGx par; cGy par; cN par; fst y; snd y; pi; j; k; m]) with
      | Some r => r ++ ej_bytes par y pi j m s' (k + 1)
      | None => []      (* unreachable: no argument is nil *)
      end
    end.
  Definition candidate (par : curve_params) (N : Z) (pi : Z) (y : Z * Z) (j m : Z) : Z :=
    let b := bit_len N in
    let s := Z.to_nat ((b + 256 - 1) / 256) in
    of_be (firstn (Z.to_nat (b / 8)) (ej_bytes par y pi j m s 1)).
  Definition psf_length : nat := 13.
  (** the unbounded loop psf.go:183-220, with [fuel] iterations; None: did not finish *)
  Fixpoint challenge_loop (fuel : nat) (par : curve_params) (N pi : Z) (y : Z * Z)
           (m : Z) (acc : list Z) : option (list Z) :=
    if Nat.leb psf_length (length acc) then Some acc
    else match fuel with
         | O => None
         | S f =>
           let xj := candidate par N pi y (Z.of_nat (length acc)) m in
           if (0 <? xj) && (xj <? N)
           then challenge_loop f par N pi y 0 (acc ++ [xj])
           else challenge_loop f par N pi y (m + 1) acc
         end.
  (** psf.go:148-222 generateChallenges; [None] is an error (or a loop longer than [fuel]) *)
  Definition generate_challenges (fuel : nat) (par : curve_params) (N pi : Z) (y : Z * Z) : option (list Z) :=
    if pi =? 0 then None
    else if bit_len N <? 8 then None
    else challenge_loop fuel par N pi y 0 [].

  (** psf.go:44-93 Prove *)
  Definition psf_prove (fuel : nat) (par : curve_params) (sk : secret_key) (pi : Z) (y : Z * Z) : option (list Z) :=
    if pi =? 0 then None
    else match mod_inv (pkN (skPub sk)) (skTotient sk) with
         | None => None
         | Some M =>
           match generate_challenges fuel par (pkN (skPub sk)) pi y with
           | None => None
           | Some x => if Nat.eqb (length x) psf_length
                       then Some (map (fun xj => mod_exp xj M (pkN (skPub sk))) x) else None
           end
         end.

  (** psf.go:97-143 Verify: accepted, refused, or an index panic on a short proof *)
  Inductive verdict := Accepted | Refused | Panicked.
  Fixpoint verify_loop (N : Z) (x proof : list Z) : verdict :=
    match x with
    | [] => Accepted
    | xj :: x' =>
      match proof with
      | [] => Panicked
      | pj :: proof' => if mod_exp pj N N =? xj then verify_loop N x' proof' else Refused
      end
    end.
  Definition psf_verify (fuel : nat) (par : curve_params) (pk : public_key) (pi : Z) (y : Z * Z)
             (proof : list Z) : verdict :=
    if pi =? 0 then Refused
    else if pkN pk mod cN par =? 0 then Refused
    else match generate_challenges fuel par (pkN pk) pi y with
         | None => Refused
         | Some x => if Nat.eqb (length x) psf_length then verify_loop (pkN pk) x proof else Refused
         end.
End Psf.
