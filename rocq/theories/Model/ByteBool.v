(** Byte and boolean run-length codecs: orc/encoding/byte.go, bool.go. *)
From Verif.Model Require Import Go.

Definition MinRepeats : nat := 3.          (* byte.go 9 *)
Definition MaxByteRunLength : nat := 128.  (* byte.go 8 *)

(** byte.go 112-121, the inner loop of findRepeats: starting with [count] values
    equal to [v] already seen, do the following values reach [min] repeats? *)
Fixpoint repeats_from (v : Z) (count min : nat) (l : list Z) : bool :=
  match l with
  | [] => false
  | x :: t =>
      if x =? v then
        if (min <=? S count)%nat then true else repeats_from v (S count) min t
      else false
  end.

(** byte.go 108-124. *)
Fixpoint findRepeats (values : list Z) (min : nat) : nat :=
  match values with
  | [] => O
  | v :: t => if repeats_from v 1 min t then O else S (findRepeats t min)
  end.

(** byte.go 54-59: number of leading values equal to [v]. *)
Fixpoint leading (v : Z) (l : list Z) : nat :=
  match l with
  | [] => O
  | x :: t => if x =? v then S (leading v t) else O
  end.

(** byte.go 50-72: one iteration of the loop of encodeBytes: the bytes written and
    the remaining values.  On an empty slice e.values[0] panics (never reached,
    see Proofs/ByteBool.v). *)
Definition encodeGroup (values : list Z) : res (list Z * list Z) :=
  match values with
  | [] => Panic
  | v0 :: _ =>
      let index := findRepeats values MinRepeats in
      if Nat.eqb index 0 then
        let j := (MinRepeats + leading v0 (skipn MinRepeats values))%nat in
        Ok ([u8 (Z.of_nat j - Z.of_nat MinRepeats); v0], skipn j values)
      else
        Ok (u8 (- Z.of_nat index) :: firstn index values, skipn index values)
  end.

(** byte.go 48-78, encodeBytes with toEnd = true.  Fuel: each group removes at
    least one value, so [length values] iterations suffice; running out of fuel
    is reported as [Panic]. *)
Fixpoint encodeToEnd (fuel : nat) (values : list Z) : res (list Z) :=
  match values with
  | [] => Ok []
  | _ =>
      match fuel with
      | O => Panic
      | S f =>
          let! (o, rest) := encodeGroup values in
          let! o' := encodeToEnd f rest in Ok (o ++ o')
      end
  end.

(** byte.go 11-21: encoder state; position -1 means positions are not tracked. *)
Record byteEnc := { b_values : list Z; b_position : Z }.
Definition NewByteEncoder (resetPosition : bool) : byteEnc :=
  {| b_values := []; b_position := if resetPosition then 0 else -1 |}.

(** byte.go 27-39. *)
Definition byte_Encode (e : byteEnc) (v : Z) : res (byteEnc * list Z) :=
  let vs := b_values e ++ [v] in
  let! (o, vs') :=
     (if (MaxByteRunLength <=? length vs)%nat then encodeGroup vs else Ok ([], vs)) in
  Ok ({| b_values := vs';
         b_position := if b_position e =? -1 then -1 else zlen vs' |}, o).

(** byte.go 41-46. *)
Definition byte_Flush (e : byteEnc) : res (byteEnc * list Z) :=
  let! o := encodeToEnd (length (b_values e)) (b_values e) in
  Ok ({| b_values := []; b_position := b_position e |}, o).

(** byte.go 23-25. *)
Definition byte_GetPosition (e : byteEnc) : list Z := [u64 (b_position e)].

(** byte.go 91-93 / 96-102: [n] further literal bytes. *)
Fixpoint read_n (n : nat) : prog (list Z) :=
  match n with
  | O => Ret []
  | S m => RdByte (fun b => do! t := read_n m in Ret (b :: t))
  end.

(** byte.go 80-105, with an empty [values] argument to append to (stream/byte.go
    23-26 always passes one). *)
Definition DecodeByteRL : prog (list Z) :=
  RdByte (fun control =>
    if control <? 128 then
      RdByte (fun v => Ret (repeat v (Z.to_nat control + MinRepeats)))
    else
      let c := if control <? 128 then control else control - 256 in  (* int8(control) *)
      read_n (Z.to_nat (- c))).

(** bool.go 10-22. *)
Record boolEnc := { o_brl : byteEnc; o_index : Z; o_value : Z; o_position : Z }.
Definition NewBoolEncoder (resetPosition : bool) : boolEnc :=
  {| o_brl := NewByteEncoder resetPosition; o_index := -1; o_value := 0;
     o_position := if resetPosition then 0 else -1 |}.

(** bool.go 33-53. *)
Definition bool_Encode (e : boolEnc) (v : bool) : res (boolEnc * list Z) :=
  let index := o_index e + 1 in
  let value := if v then Z.lor (o_value e) (u8 (Z.shiftl 1 (7 - index))) else o_value e in
  let! (brl, index', value', o) :=
     (if 7 <=? index then
        let! (brl, o) := byte_Encode (o_brl e) value in Ok (brl, -1, 0, o)
      else Ok (o_brl e, index, value, [])) in
  Ok ({| o_brl := brl; o_index := index'; o_value := value';
         o_position := if o_position e =? -1 then -1 else index' + 1 |}, o).

(** bool.go 55-66.  e.value is not cleared. *)
Definition bool_Flush (e : boolEnc) : res (boolEnc * list Z) :=
  let! (brl, o) :=
     (if negb (o_index e =? -1) then byte_Encode (o_brl e) (o_value e)
      else Ok (o_brl e, [])) in
  let! (brl', o') := byte_Flush brl in
  Ok ({| o_brl := brl'; o_index := -1; o_value := o_value e; o_position := o_position e |},
      o ++ o').

(** bool.go 24-30. *)
Definition bool_GetPosition (e : boolEnc) : list Z :=
  [u64 (b_position (o_brl e)); u64 (o_position e)].

(** bool.go 85-92. *)
Definition DecodeBoolsFromByte (b : Z) : list bool :=
  map (fun i => Z.land (Z.shiftr b (7 - i)) 1 =? 1) [0; 1; 2; 3; 4; 5; 6; 7].

(** bool.go 68-83. *)
Definition DecodeBools : prog (list bool) :=
  do! bs := DecodeByteRL in Ret (flat_map DecodeBoolsFromByte bs).
