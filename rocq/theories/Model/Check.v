(** Checks the library has but does not make, and the other numbering of columns. *)
From Verif.Model Require Import Go Chunk Schema File Column.

(** ** writer.go 96-108: CheckBatch; its call in Write (86-88) is commented out.  The
    writer's schemas are those of Flat. *)
Fixpoint checkValues (schemas : list td) (id : nat) (l : list value) : res unit :=
  match l with
  | [] => Ok tt
  | v :: r =>
      if Null v then
        match nth_error schemas id with
        | None => Panic
        | Some s => if td_hasNulls s then checkValues schemas id r else Err
        end
      else checkValues schemas id r
  end.
Fixpoint CheckBatch (schemas : list td) (v : cvec value) : res unit :=
  match v with
  | CVec id vals cs =>
      let! _ := checkValues schemas id (match vals with Some l => l | None => [] end) in
      (fix go (cs : list (cvec value)) : res unit :=
         match cs with [] => Ok tt | c :: r => let! _ := CheckBatch schemas c in go r end) cs
  end.

(** ** api/type.go 300-314: setId.  The counter is a parameter: what the children of a child
    used up is forgotten. *)
Fixpoint setId (id : Z) (t : td) : res td :=
  let (_, k, names, e, h, cs) := t in
  match k with
  | STRUCT | LIST =>
      let! cs' := (fix go (id : Z) (cs : list td) : res (list td) :=
        match cs with
        | [] => Ok []
        | c :: r => let id := u32 (id + 1) in let! c' := setId id c in let! r' := go id r in Ok (c' :: r')
        end) id cs in
      Ok (Td id k names e h cs')
  | UNION | MAP => Err
  | _ => Ok (Td id k names e h cs)
  end.

(** ** reader.go 364-382: ensureOrcFooter. *)
Fixpoint sameBytes (a b : list Z) : bool :=
  match a, b with [], [] => true | x :: a', y :: b' => (x =? y) && sameBytes a' b' | _, _ => false end.
Definition ensureOrcFooter (psLen : Z) (buf : list Z) : res unit :=
  let fullLength := zlen Magic + 1 in
  if (psLen <? fullLength) || (zlen buf <? fullLength) then Err else
  if sameBytes (zdrop (zlen buf - fullLength) buf) Magic then Ok tt else Err.
