(** A nullable column that is offered values it refuses. *)
From Verif.Model Require Import Go Chunk Stream Time File Column Failure.
From Verif.Spec Require Import ColumnSpec.

Section Offered.
Variable deflate : list (list Z) -> list Z -> res (list Z).
Variable F : floats.
Variable o : opts.
Variable stride : Z.
(** Write for one value after the other, going on after errors; [true] for success. *)
Inductive Offered : colW -> list (value * bool) -> colW -> Prop :=
| OfferedNil c : Offered c [] c
| OfferedTaken c v c1 l c2 : c_Write deflate F o stride c v = Ok c1 -> Offered c1 l c2 -> Offered c ((v, true) :: l) c2
| OfferedRefused c v c1 l c2 : c_Write deflate F o stride c v = Err -> c_Left deflate o c v = Some c1 ->
    Offered c1 l c2 -> Offered c ((v, false) :: l) c2.
(** The bytes and stream infos of the column. *)
Definition put_out (c : colW) : res (list Z * list strm) :=
  let! c2 := c_Flush deflate o c in
  let! (bs, _, c3) := c_WriteOut o c2 in
  Ok (bs, c_Infos c3).
End Offered.

(** The values that were taken, and whether each of those offered was there. *)
Definition taken (l : list (value * bool)) : list value := map fst (filter snd l).
Definition there (vs : list value) : list bool := map (fun v => negb (Null v)) vs.
(** A row for every bit: null, or the next of the values, until there are none left. *)
Fixpoint drawn (bits : list bool) (gs : list gval) : list (option gval) :=
  match bits, gs with
  | false :: b, _ => None :: drawn b gs
  | true :: b, g :: t => Some g :: drawn b t
  | _, _ => []
  end.
