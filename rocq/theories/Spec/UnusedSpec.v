(** What C83-C86 say. *)
From Verif.Model Require Import Go Schema.

(** The columns of a schema that are reached through children with a name. *)
Fixpoint named_path (t : td) (p : list nat) : option td :=
  match p with
  | [] => Some t
  | j :: q =>
      if (j <? length (td_names t))%nat
      then match nth_error (td_children t) j with Some c => named_path c q | None => None end
      else None
  end.
Definition Named (t s : td) : Prop := exists p, named_path t p = Some s.

(** The number that bytes stand for, most significant first. *)
Fixpoint bigEndian (bs : list Z) : Z :=
  match bs with
  | [] => 0
  | b :: r => b * 2 ^ (8 * zlen r) + bigEndian r
  end.
