(** crypto/sharing: polynomial.go, shamir.go, feldman.go, pedersen.go.

    Scalars of the curve are the elements of a field F, points the elements of an F-vector space V
    (a group of prime order |F| with its scalar multiplication), G is curve.NewGeneratorPoint().
    A byte string is an element of the eqType B; [enc] is Scalar.Bytes, [dec] is Scalar.SetBytes
    (None = error). Scalar.New(i) for an int i >= 0 is i%:R. The reader's random scalars are an
    explicit list. *)
From mathcomp Require Import all_ssreflect all_algebra.
From Verif Require Import AlgBase.
Set Implicit Arguments.
Unset Strict Implicit.
Unset Printing Implicit Defensive.
Import GRing.Theory.
Local Open Scope ring_scope.

Inductive serr :=
  | ELimit | EThreshold | EMax | ECurve          (* NewShamir / NewFeldman / NewPedersen *)
  | ESecret                                      (* "invalid secret" *)
  | EId | EDecode | EShare                       (* Validate *)
  | ECount | EIdLimit | EDup | EDiv              (* Combine *)
  | ENotEqual | EGenerator.

(** shamir.go:47-50 Shamir{threshold, limit, curve}; the curve is the section's *)
Record shamir := Shamir { sh_thr : nat; sh_lim : nat }.

(** shamir.go:52-66 NewShamir; feldman.go:49-63 NewFeldman has the same body *)
Definition new_shamir (threshold limit : nat) (curve_nil : bool) : res serr shamir :=
  if (limit < threshold)%N then Err ELimit
  else if (threshold < 2)%N then Err EThreshold
  else if (255 < limit)%N then Err EMax
  else if curve_nil then Err ECurve
  else Ok (Shamir threshold limit).

Section Scalars.
  Variables (F : fieldType) (B : eqType) (enc : F -> B) (dec : B -> option F).

  (** shamir.go:22-25 ShamirShare{Id, Value} *)
  Definition share := (nat * B)%type.

  (** polynomial.go:19-26 Init: [rnd] are the degree-1 values read *)
  Definition poly_init (intercept : F) (degree : nat) (rnd : seq F) : seq F :=
    intercept :: take degree.-1 rnd.

  (** polynomial.go:28-35 Evaluate: out := c[d]; for i := d-1 .. 0 { out = out*x + c[i] } *)
  Definition evaluate (c : seq F) (x : F) : F :=
    let degree := (size c).-1 in
    foldl (fun out i => out * x + c`_i) c`_degree (rev (iota 0 degree)).

  (** shamir.go:27-39 Validate *)
  Definition validate (s : share) : res serr unit :=
    if s.1 == 0%N then Err EId
    else match dec s.2 with
         | None => Err EDecode
         | Some sc => if sc == 0 then Err EShare else Ok tt
         end.

  (** shamir.go:76-87 getPolyAndShares *)
  Definition get_poly_and_shares (s : shamir) (secret : F) (rnd : seq F) : seq share * seq F :=
    let poly := poly_init secret (sh_thr s) rnd in
    ([seq (i.+1, enc (evaluate poly (i.+1)%:R)) | i <- iota 0 (sh_lim s)], poly).

  (** shamir.go:68-74 Split *)
  Definition split (s : shamir) (secret : F) (rnd : seq F) : res serr (seq share) :=
    if secret == 0 then Err ESecret else Ok (get_poly_and_shares s secret rnd).1.

  (** shamir.go:171-180 (and 191-200): num and den of node i *)
  Definition num_den (xs : seq F) (i : nat) : F * F :=
    foldl (fun nd j => if i == j then nd else (nd.1 * xs`_j, nd.2 * (xs`_j - xs`_i)))
          (1, 1) (iota 0 (size xs)).

  (** shamir.go:168-186 interpolate *)
  Definition interpolate (xs ys : seq F) : res serr F :=
    foldl (fun acc i => rbind acc (fun result =>
             let nd := num_den xs i in
             if nd.2 == 0 then Err EDiv else Ok (result + ys`_i * (nd.1 / nd.2))))
          (Ok 0) (iota 0 (size xs)).

  (** shamir.go:123-137: the loop of Combine; [dups] is the map's key set. The pairs (xs[i], ys[i])
      are returned in order. *)
  Fixpoint collect (limit : nat) (dups : seq nat) (shares : seq share) : res serr (seq (F * F)) :=
    match shares with
    | [::] => Ok [::]
    | s :: rest =>
        rbind (validate s) (fun _ =>
        if (limit < s.1)%N then Err EIdLimit
        else if s.1 \in dups then Err EDup
        else match dec s.2 with
             | None => Panic           (* unreachable: Validate decoded it; a nil scalar otherwise *)
             | Some y => rbind (collect limit (s.1 :: dups) rest)
                               (fun l => Ok (((s.1)%:R, y) :: l))
             end)
    end.

  (** shamir.go:115-139 Combine *)
  Definition combine (s : shamir) (shares : seq share) : res serr F :=
    if (size shares < sh_thr s)%N then Err ECount
    else rbind (collect (sh_lim s) [::] shares)
               (fun l => interpolate (unzip1 l) (unzip2 l)).

  (** shamir.go:89-113 LagrangeCoeffs. [outer] is the order in which "range xs" visits the keys,
      [inner i] the order of the inner range for key i (Go picks one each time). The result map is
      an association list. *)
  Definition coeff_num_den (inner : seq nat) (i : nat) : F * F :=
    foldl (fun nd j => if i == j then nd else (nd.1 * j%:R, nd.2 * (j%:R - i%:R))) (1, 1) inner.
  Definition lagrange_coeffs (outer : seq nat) (inner : nat -> seq nat) : res serr (seq (nat * F)) :=
    foldl (fun acc i => rbind acc (fun result =>
             let nd := coeff_num_den (inner i) i in
             if nd.2 == 0 then Err EDiv else Ok (rcons result (i, nd.1 / nd.2))))
          (Ok [::]) outer.

  Section Points.
    Variables (V : lmodType F) (G : V).

    (** shamir.go:188-206 interpolatePoint *)
    Definition interpolate_point (xs : seq F) (ys : seq V) : res serr V :=
      foldl (fun acc i => rbind acc (fun result =>
               let nd := num_den xs i in
               if nd.2 == 0 then Err EDiv else Ok (result + (nd.1 / nd.2) *: nth 0 ys i)))
            (Ok 0) (iota 0 (size xs)).

    (** shamir.go:141-166 CombinePoints: the loop is that of Combine with ys[i] = sc*G *)
    Definition combine_points (s : shamir) (shares : seq share) : res serr V :=
      if (size shares < sh_thr s)%N then Err ECount
      else rbind (collect (sh_lim s) [::] shares)
                 (fun l => interpolate_point (unzip1 l) [seq y *: G | y <- unzip2 l]).

    (** feldman.go:26-33 and pedersen.go:37-44: rhs = C0 + sum_{j>=1} x^j C_j.
        An empty commitment list is an index-out-of-range panic, see the callers. *)
    Definition commit_eval (c0 : V) (cs : seq V) (x : F) : V :=
      (foldl (fun st c => let i := st.1 * x in (i, st.2 + i *: c)) (1, c0) cs).2.

    (** feldman.go:20-42 FeldmanVerifier.Verify *)
    Definition feldman_verify (commitments : seq V) (s : share) : res serr unit :=
      match commitments with
      | [::] => Panic
      | c0 :: cs =>
          rbind (validate s) (fun _ =>
          let rhs := commit_eval c0 cs (s.1)%:R in
          match dec s.2 with
          | None => Panic
          | Some sc => if sc *: G == rhs then Ok tt else Err ENotEqual
          end)
      end.

    (** feldman.go:65-81 Feldman.Split *)
    Definition feldman_split (s : shamir) (secret : F) (rnd : seq F) : res serr (seq V * seq share) :=
      if secret == 0 then Err ESecret
      else let sp := get_poly_and_shares s secret rnd in
           Ok ([seq sp.2`_i *: G | i <- iota 0 (sh_thr s)], sp.1).

    (** feldman.go:96-112 Feldman.Combine/CombinePoints and pedersen.go:136-152 call the Shamir ones
        with the same threshold and limit: [combine], [combine_points]. *)

    (** pedersen.go:17-21 *)
    Record pedersen := Pedersen { pd_sh : shamir; pd_gen : V }.

    (** pedersen.go:68-89 NewPedersen; [known_curve]: GetCurveByName(generator.CurveName()) != nil.
        A nil generator panics at line 78, before the check of line 82. Every element of V is on the
        curve. *)
    Definition new_pedersen (threshold limit : nat) (generator : option V) (known_curve : bool)
      : res serr pedersen :=
      if (limit < threshold)%N then Err ELimit
      else if (threshold < 2)%N then Err EThreshold
      else if (255 < limit)%N then Err EMax
      else match generator with
           | None => Panic
           | Some g => if ~~ known_curve then Err ECurve
                       else if g == 0 then Err EGenerator
                       else Ok (Pedersen (Shamir threshold limit) g)
           end.

    (** pedersen.go:60-65; both verifiers are their commitment lists *)
    Record pedersen_result := PedersenResult {
      pr_blinding : F; pr_blind_shares : seq share; pr_secret_shares : seq share;
      pr_feldman : seq V; pr_pedersen : seq V }.

    (** pedersen.go:92-121 Pedersen.Split: the reader yields the blinding, then the coefficients of
        the secret's polynomial, then those of the blinding's *)
    Definition pedersen_split (pd : pedersen) (secret : F) (blinding : F) (rnd rndb : seq F)
      : pedersen_result :=
      let sp := get_poly_and_shares (pd_sh pd) secret rnd in
      let sb := get_poly_and_shares (pd_sh pd) blinding rndb in
      PedersenResult blinding sb.1 sp.1
        [seq c *: G | c <- sp.2]
        [seq sp.2`_i *: G + sb.2`_i *: pd_gen pd | i <- iota 0 (size sp.2)].

    (** pedersen.go:28-57 PedersenVerifier.Verify; [gen] is pv.Generator *)
    Definition pedersen_verify (gen : V) (commitments : seq V) (s bs : share) : res serr unit :=
      rbind (validate s) (fun _ => rbind (validate bs) (fun _ =>
      match commitments with
      | [::] => Panic
      | c0 :: cs =>
          let rhs := commit_eval c0 cs (s.1)%:R in
          match dec s.2, dec bs.2 with
          | Some sc, Some bsc => if sc *: G + bsc *: gen == rhs then Ok tt else Err ENotEqual
          | _, _ => Panic
          end
      end)).
  End Points.
End Scalars.
