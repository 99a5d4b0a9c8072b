(** How much a file writer holds in memory, and how many streams the columns of a schema
    have. *)
From Verif.Model Require Import Go Chunk Stream Schema Rows File Column.

(** The bytes in the buffers of a column's streams, compressed or not, and the strings
    collected for a dictionary. *)
Definition total (l : list Z) : Z := fold_right Z.add 0 l.
Definition col_streams (c : colW) : list (writer enc) :=
  match cw_present c with Some p => [p] | None => [] end ++ map snd (cw_data c).
Definition buffered (c : colW) : Z :=
  total (map (fun w => zlen (w_buf w) + zlen (w_cbuf w)) (col_streams c)) + total (map zlen (cw_pending c)).

(** The streams of a column as the ORC specification lists them (without the index
    streams): a PRESENT stream for nullable columns, LENGTH beside the bytes of strings,
    SECONDARY beside the seconds of timestamps and the digits of decimals, the dictionary
    of dictionary-encoded strings. *)
Definition column_streams (t : td) : Z :=
  (if td_hasNulls t then 1 else 0) +
  match td_kind t with
  | STRUCT => 0
  | STRING | CHAR | VARCHAR => if td_enc t =? 3 then 3 else 2
  | BINARY | TIMESTAMP | DECIMAL => 2
  | _ => 1
  end.
Fixpoint schema_streams (t : td) : Z :=
  column_streams t + (let (_, _, _, _, _, cs) := t in fold_right (fun c n => schema_streams c + n) 0 cs).

(** No column of the schema is a dictionary-encoded string. *)
Definition dictionary (t : td) : Prop :=
  (td_kind t = STRING \/ td_kind t = CHAR \/ td_kind t = VARCHAR) /\ td_enc t = 3.
