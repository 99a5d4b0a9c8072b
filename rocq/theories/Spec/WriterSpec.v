(** When what the writer is given can be stored as the ORC specification says: vocabulary
    for files of this library seen from outside. *)
From Verif.Model Require Import Go Codec ByteBool IntRle Chunk Stream Schema Rows Time File Column Wire Assembled.
From Verif.Spec Require Import Session IntSpec SchemaSpec FileSpec ColumnSpec EndSpec OrcColumn OrcFile.

(** No condition on runs. *)
Definition any_run : bool -> list Z -> list Z -> Prop := fun _ _ _ => True.

(** The integer codec writes [xs] as the specification's run-length encoding, version 2. *)
Definition legal_ints (signed : bool) (xs : list Z) : Prop :=
  exists e b, segment int_Encode int_Flush (NewIntRLV2 signed false) xs = Ok (e, b) /\
              bytes b /\ orc_ints any_run signed b xs.
(** The kinds of columns considered, and the values a client may put into them: the Go
    type's range, and less than a second of nanoseconds. *)
Definition written_kind (k : ckind) : bool :=
  match k with KFloat => false | KTimestamp | KDecimal => true | _ => readable k end.
Definition orc_typed (k : ckind) (g : gval) : Prop :=
  match k, g with
  | KTimestamp, GTimestamp t => is_i64 (ts_seconds t) /\ 0 <= ts_nanos t < 1000000000
  | KDecimal, GDecimal p s => is_i64 p /\ is_i64 s
  | _, _ => typed k g
  end.
(** So do the integers of a column (its values, day numbers, string lengths, seconds,
    nanoseconds, scales). *)
Definition seconds_of (g : gval) : Z := match g with GTimestamp t => ts_seconds t | _ => 0 end.
Definition nanos_of (g : gval) : Z := match g with GTimestamp t => EncodingTimestampNanos (ts_nanos t) | _ => 0 end.
Definition scale_of (g : gval) : Z := match g with GDecimal _ s => s | _ => 0 end.
Definition legal (k : ckind) (gs : list gval) : Prop :=
  match k with
  | KTimestamp => legal_ints true (map seconds_of gs) /\ legal_ints false (map nanos_of gs)
  | KDecimal => legal_ints true (map scale_of gs)
  | KShort | KInt | KLong | KDate => legal_ints true (map int_of gs)
  | KString => legal_ints false (map int_of gs)
  | _ => True
  end.

(** Conditions on the values of column [t] with the struct with nulls [par] above it, if
    any, the rows being cut into stripes [rss]: as [storable], but nothing about this
    library's decoders. *)
Definition orc_storable (t : td) (par : option Z) (rss : list (list (row value))) : Prop :=
  Forall (fun r => length (column_of (col t) [r]) = 1%nat) (concat rss) /\
  (td_hasNulls t = true -> Forall (fun rows => (length rows mod 8 = 0)%nat) (removelast rss)) /\
  (td_hasNulls t = false ->
     match par with
     | None => Forall (fun v => Null v = false) (column_of (col t) (concat rss))
     | Some p => Forall (fun rows => map Null (column_of (col t) rows) = map Null (column_of (Z.to_nat p) rows)) rss
     end) /\
  (forall k, orc_kind (td_kind t) (td_enc t) = Some k ->
     Forall (fun rows => let gs := nonnull (rows_of (column_of (col t) rows)) in Forall (orc_typed k) gs /\ legal k gs) rss) /\
  (td_kind t = BOOLEAN ->
     Forall (fun rows => (length (nonnull (rows_of (column_of (col t) rows))) mod 8 = 0)%nat) (removelast rss)).

(** The primitive columns have an encoding of the specification. *)
Definition orc_encodings (bopt : batchOption) (schema : td) : Prop :=
  forall t p, In (t, p) (columns_read bopt None schema) -> td_kind t <> STRUCT -> orc_kind (td_kind t) (td_enc t) <> None.
(** A struct that cannot be null is not. *)
Definition plain_structs (bopt : batchOption) (schema : td) (rows : list (row value)) : Prop :=
  forall t, In t (flatten schema) -> IsInclude bopt (td_id t) = true -> td_kind t = STRUCT -> td_hasNulls t = false ->
    Forall (fun v => Null v = false) (column_of (col t) rows).
