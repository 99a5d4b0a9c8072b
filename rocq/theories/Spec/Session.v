(** What a client of an encoder/decoder pair does: feed values, flush, and read a
    byte sequence back run by run until it is exhausted.  Nothing here models the
    library; it is the vocabulary in which the codec properties are stated. *)
From Verif.Model Require Import Go.

(** Feed the values one by one; the encoder's output is concatenated. *)
Fixpoint feed {E V} (enc : E -> V -> res (E * list Z)) (e : E) (vs : list V) : res (E * list Z) :=
  match vs with
  | [] => Ok (e, [])
  | v :: t =>
      let! (e1, o1) := enc e v in
      let! (e2, o2) := feed enc e1 t in
      Ok (e2, o1 ++ o2)
  end.

(** Feed the values, then flush: one complete encoded stream. *)
Definition segment {E V} (enc : E -> V -> res (E * list Z)) (flush : E -> res (E * list Z))
           (e : E) (vs : list V) : res (E * list Z) :=
  let! (e1, o1) := feed enc e vs in
  let! (e2, o2) := flush e1 in
  Ok (e2, o1 ++ o2).

(** Several streams written one after the other with the same encoder object. *)
Fixpoint segments {E V} (enc : E -> V -> res (E * list Z)) (flush : E -> res (E * list Z))
         (e : E) (vss : list (list V)) : res (list (list Z)) :=
  match vss with
  | [] => Ok []
  | vs :: t =>
      let! (e1, o) := segment enc flush e vs in
      let! os := segments enc flush e1 t in
      Ok (o :: os)
  end.

(** Call the decoder again and again until the input is used up. *)
Fixpoint decode_fuel {A} (dec : prog (list A)) (fuel : nat) (i : list Z) : res (list A) :=
  match i with
  | [] => Ok []
  | _ =>
      match fuel with
      | O => Err
      | S f =>
          let! (vs, rest) := run dec i in
          let! ws := decode_fuel dec f rest in
          Ok (vs ++ ws)
      end
  end.
Definition decode_all {A} (dec : prog (list A)) (i : list Z) : res (list A) :=
  decode_fuel dec (length i) i.
