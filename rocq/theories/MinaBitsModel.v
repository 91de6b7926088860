(** crypto/signatures/schnorr/mina/bitvector.go and roinput.go.

    A Go byte is an integer in [0, 256).  A pointer receiver that a method mutates is returned by the model's function.
    Simplifications: a panic is [None]; Go's int is unbounded ([uint32(vector.length)] in Append is taken modulo 2^32);
    a field element is the integer below the field's modulus its limbs stand for (see C85, C86: ToRaw gives the limbs of
    that integer, SetRaw reduces), so [ToRaw] is the identity and [SetRaw] is [mod]. *)
From Coq Require Import ZArith List Bool.
Import ListNotations.
Local Open Scope Z_scope.

(** a Go byte / the conversion byte(x) *)
Definition byte (x : Z) : Z := x mod 256.
(** b[i] = v on a slice; [None] when out of range *)
Definition set_at (data : list Z) (i : nat) (v : Z) : option (list Z) :=
  if (i <? length data)%nat then Some (firstn i data ++ v :: skipn (S i) data) else None.

(** bitvector.go:36-61 *)
Record bitvector := BitVector { bv_data : list Z; bv_length : Z }.
Definition new_bitvector (data : list Z) (length : Z) : bitvector := BitVector data length.

(** bitvector.go:64-74 [shiftLower]: from the last byte down; returns the bytes and the bit shifted out *)
Fixpoint shift_lower_rev (bit : Z) (b : list Z) : list Z * Z :=
  match b with
  | [] => ([], bit)
  | x :: r =>
      let newByte := Z.shiftr x 1 in
      let newByte := Z.lor newByte bit in
      let bit := byte (Z.shiftl (Z.land x 1) 7) in
      let '(r, out) := shift_lower_rev bit r in
      (newByte :: r, out)
  end.
Definition shift_lower (bit : Z) (b : list Z) : list Z * Z :=
  let '(r, out) := shift_lower_rev (byte (Z.shiftl bit 7)) (rev b) in (rev r, Z.shiftr out 7).
(** bitvector.go:79-88 [shiftHigher] *)
Fixpoint shift_higher (bit : Z) (b : list Z) : list Z * Z :=
  match b with
  | [] => ([], bit)
  | x :: r =>
      let newByte := byte (Z.shiftl x 1) in
      let newByte := Z.lor newByte bit in
      let bit := Z.shiftr (Z.land x 0x80) 7 in
      let '(r, out) := shift_higher bit r in
      (newByte :: r, out)
  end.
(** bitvector.go:90-94 *)
Definition bytes_length (length : Z) : Z :=
  let lastBitIndex := length - 1 in
  let lastByteIndex := Z.shiftr lastBitIndex 3 in
  lastByteIndex + 1.
(** bitvector.go:97-101 *)
Definition index_assert (v : bitvector) (i : Z) : bool := negb ((i <? 0) || (bv_length v <=? i)).
(** the growth by one byte in Append and Insert *)
Definition grow (length : Z) (data : list Z) : list Z :=
  if Z.of_nat (List.length data) <? bytes_length length then data ++ [0] else data.

(** bitvector.go:104-126 [Append] *)
Definition bv_append (v : bitvector) (bit : Z) : option bitvector :=
  let index := bv_length v mod 2 ^ 32 in
  let length := bv_length v + 1 in
  let data := grow length (bv_data v) in
  let byteIndex := Z.to_nat (Z.shiftr index 3) in
  let byteOffset := index mod 8 in
  let oldByte := nth byteIndex data 0 in
  let newByte :=
    if bit =? 1 then Z.lor oldByte (byte (Z.shiftl 1 byteOffset))
    else let mask := 255 - byte (Z.shiftl 1 byteOffset) in Z.land oldByte mask in
  match set_at data byteIndex newByte with
  | Some data => Some (BitVector data length)
  | None => None
  end.
(** bitvector.go:129-137 [Element] *)
Definition bv_element (v : bitvector) (i : Z) : option Z :=
  if index_assert v i then
    match nth_error (bv_data v) (Z.to_nat (Z.shiftr i 3)) with
    | Some b => Some (Z.land (Z.shiftr b (i mod 8)) 1)
    | None => None
    end
  else None.
(** bitvector.go:140-159 [Set] *)
Definition bv_set (v : bitvector) (bit index : Z) : option bitvector :=
  if index_assert v index then
    let byteIndex := Z.to_nat (Z.shiftr index 3) in
    let byteOffset := index mod 8 in
    let oldByte := nth byteIndex (bv_data v) 0 in
    let newByte :=
      if bit =? 1 then Z.lor oldByte (byte (Z.shiftl 1 byteOffset))
      else let removeMask := 255 - byte (Z.shiftl 1 byteOffset) in Z.land oldByte removeMask in
    match set_at (bv_data v) byteIndex newByte with
    | Some data => Some (BitVector data (bv_length v))
    | None => None
    end
  else None.
(** bitvector.go:162-196 [Insert] *)
Definition bv_insert (v : bitvector) (bit index : Z) : option bitvector :=
  if index_assert v index then
    let length := bv_length v + 1 in
    let data := grow length (bv_data v) in
    let byteIndex := Z.to_nat (Z.shiftr index 3) in
    let byteOffset := index mod 8 in
    let bitToInsert := if bit =? 1 then byte (Z.shiftl 1 byteOffset) else 0 in
    let oldByte := nth byteIndex data 0 in
    let leftoverBit := Z.shiftr (Z.land oldByte 0x80) 7 in
    let bottomMask := byte (byte (Z.shiftl 1 byteOffset) - 1) in
    let topMask := 255 - bottomMask in
    let top := byte (Z.shiftl (Z.land oldByte topMask) 1) in
    let newByte := Z.lor (Z.lor bitToInsert (Z.land oldByte bottomMask)) top in
    match set_at data byteIndex newByte with
    | Some data => Some (BitVector (firstn (S byteIndex) data ++ fst (shift_higher leftoverBit (skipn (S byteIndex) data))) length)
    | None => None
    end
  else None.
(** bitvector.go:198-232 [Delete] *)
Definition bv_delete (v : bitvector) (index : Z) : option bitvector :=
  if index_assert v index then
    let length := bv_length v - 1 in
    let byteIndex := Z.to_nat (Z.shiftr index 3) in
    let byteOffset := index mod 8 in
    let oldByte := nth byteIndex (bv_data v) 0 in
    let '(rest, bit) := shift_lower 0 (skipn (S byteIndex) (bv_data v)) in
    let data := firstn (S byteIndex) (bv_data v) ++ rest in
    let bottomMask := byte (byte (Z.shiftl 1 byteOffset) - 1) in
    let topMask := 255 - byte (byte (Z.shiftl 1 (byteOffset + 1)) - 1) in
    let newTop := Z.lor (Z.shiftr (Z.land oldByte topMask) 1) (byte (Z.shiftl bit 7)) in
    let newByte := Z.lor (Z.land bottomMask oldByte) newTop in
    match set_at data byteIndex newByte with
    | Some data =>
        let byteLength := bytes_length length in
        let data := if byteLength <? Z.of_nat (List.length data) then firstn (Z.to_nat byteLength) data else data in
        Some (BitVector data length)
    | None => None
    end
  else None.

(** ** roinput.go *)
Record roinput := RoInput { ro_fields : list Z; ro_bits : bitvector }.
(** roinput.go:25-29 [Init] *)
Definition ro_init (bytes : nat) : roinput := RoInput [] (new_bitvector (repeat 0 bytes) 0).
(** roinput.go:44-46 [AddFp] *)
Definition ro_add_fp (r : roinput) (fp : Z) : roinput := RoInput (ro_fields r ++ [fp]) (ro_bits r).
(** the loops "for i := 0; i < n; i++ { Append(byte((x >> i) & 1)) }" of AddFq, AddBytes, AddUint32, AddUint64 *)
Fixpoint append_bits (x : Z) (i n : nat) (v : bitvector) : option bitvector :=
  match n with
  | O => Some v
  | S n => match bv_append v (byte (Z.land (Z.shiftr x (Z.of_nat i)) 1)) with Some v => append_bits x (S i) n v | None => None end
  end.
Definition with_bits (r : roinput) (v : option bitvector) : option roinput :=
  match v with Some v => Some (RoInput (ro_fields r) v) | None => None end.
(** roinput.go:48-58 [AddFq]: bit i is bit i%64 of limb i/64, that is, bit i of the integer *)
Definition ro_add_fq (r : roinput) (fq : Z) : option roinput := with_bits r (append_bits fq 0 255 (ro_bits r)).
(** roinput.go:60-62 [AddBit] *)
Definition ro_add_bit (r : roinput) (b : bool) : option roinput := with_bits r (bv_append (ro_bits r) (if b then 1 else 0)).
(** roinput.go:64-70 [AddBytes] *)
Fixpoint append_bytes (bs : list Z) (v : bitvector) : option bitvector :=
  match bs with
  | [] => Some v
  | b :: bs => match append_bits b 0 8 v with Some v => append_bytes bs v | None => None end
  end.
Definition ro_add_bytes (r : roinput) (bs : list Z) : option roinput := with_bits r (append_bytes bs (ro_bits r)).
(** roinput.go:72-82 [AddUint32], [AddUint64] *)
Definition ro_add_uint32 (r : roinput) (x : Z) : option roinput := with_bits r (append_bits x 0 32 (ro_bits r)).
Definition ro_add_uint64 (r : roinput) (x : Z) : option roinput := with_bits r (append_bits x 0 64 (ro_bits r)).

(** roinput.go:84-102 [Bytes].  The slice [out] is returned, not [res.data]; they are the same array unless an Append
    reallocates, which the model makes visible: once the data of [res] is longer than [out], [out] is no longer written *)
Fixpoint copy_bits (v : bitvector) (i n : nat) (res : bitvector) : option bitvector :=
  match n with
  | O => Some res
  | S n => match bv_element v (Z.of_nat i) with
           | Some b => match bv_append res b with Some res => copy_bits v (S i) n res | None => None end
           | None => None
           end
  end.
Fixpoint append_fields (fs : list Z) (res : bitvector) : option bitvector :=
  match fs with
  | [] => Some res
  | f :: fs => match append_bits f 0 255 res with Some res => append_fields fs res | None => None end
  end.
Definition ro_bytes (r : roinput) : option (list Z) :=
  let out := repeat 0 (Z.to_nat ((bv_length (ro_bits r) + 7) / 8) + 32 * length (ro_fields r)) in
  match append_fields (ro_fields r) (new_bitvector out 0) with
  | None => None
  | Some res =>
      match copy_bits (ro_bits r) 0 (Z.to_nat (bv_length (ro_bits r))) res with
      | None => None
      | Some res => if (length out <? length (bv_data res))%nat then None else Some (bv_data res)
      end
  end.
(** roinput.go:104-136 [Fields]; [m] is the field's modulus *)
Fixpoint chunk_bits (v : bitvector) (bitIdx : Z) (i n : nat) (chunk : Z) : option Z :=
  match n with
  | O => Some chunk
  | S n => match bv_element v bitIdx with
           | Some b => chunk_bits v (bitIdx + 1) (S i) n (Z.lor chunk (Z.shiftl b (Z.of_nat i)))
           | None => None
           end
  end.
Fixpoint chunks (m : Z) (fuel : nat) (v : bitvector) (bitsConsumed : Z) : option (list Z) :=
  match fuel with
  | O => Some []
  | S fuel =>
      if bitsConsumed <? bv_length v then
        let remaining := bv_length v - bitsConsumed in
        let chunkSizeInBits := if 254 <? remaining then 254 else remaining in
        match chunk_bits v bitsConsumed 0 (Z.to_nat chunkSizeInBits) 0 with
        | Some chunk =>
            match chunks m fuel v (bitsConsumed + chunkSizeInBits) with
            | Some fields => Some (chunk mod m :: fields)
            | None => None
            end
        | None => None
        end
      else Some []
  end.
(** the loop ends after at most as many iterations as there are bits *)
Definition ro_to_fields (m : Z) (r : roinput) : option (list Z) :=
  match chunks m (S (Z.to_nat (bv_length (ro_bits r)))) (ro_bits r) 0 with
  | Some l => Some (ro_fields r ++ l)
  | None => None
  end.
