(** Whole files as the ORC specification describes them, whoever wrote them ("Stripes",
    "Column Encodings"): the layout of a stripe, and which streams hold which rows.
    Nothing of the model's writers is used; the protobuf messages are those the model's
    parsers ([unmarshalPS], [unmarshalFooter], [unmarshalSF], [unmarshalIndex]) accept. *)
From Verif.Model Require Import Go Chunk Stream Schema Rows Time File Column Wire Assembled.
From Verif.Spec Require Import ChunkSpec SchemaSpec FileSpec ColumnSpec EndSpec OrcColumn.

(** Primitive types and their encodings: DIRECT is 0, DIRECT_V2 is 2, DICTIONARY_V2 is 3. *)
Definition orc_kind (k : tkind) (e : Z) : option ckind :=
  let is z c := if e =? z then Some c else None in
  match k with
  | BOOLEAN => is 0 KBool | BYTE => is 0 KByte | FLOAT => is 0 KFloat | DOUBLE => is 0 KDouble
  | SHORT => is 2 KShort | INT => is 2 KInt | LONG => is 2 KLong | DATE => is 2 KDate
  | STRING => if e =? 3 then Some KDict else is 2 KString
  | BINARY => is 2 KBinary | TIMESTAMP => is 2 KTimestamp | DECIMAL => is 2 KDecimal
  | _ => None
  end.

(** ROW_INDEX is 6, BLOOM_FILTER 7, BLOOM_FILTER_UTF8 8. *)
Definition index_kind (k : Z) : bool := (k =? 6) || (k =? 7) || (k =? 8).

(** Column [j] is null in a row. *)
Definition null_in (j : Z) (r : row value) : bool := existsb Null (column_of (Z.to_nat j) [r]).
Definition alive (j : Z) (rows : list (row value)) : list (row value) := filter (fun r => negb (null_in j r)) rows.

Section File.
Variable P : bool -> list Z -> list Z -> Prop.
Variable Q : list Z -> Prop.
Variable inflate : list Z -> res (list Z).
Variable o : opts.
Variable file : list Z.
(** Only the columns the client asks for matter. *)
Variable bopt : batchOption.

Section Stripe.
(** The streams of a stripe, with offsets. *)
Variable l : list (strm * Z).
Definition data_streams (id : Z) : list (strm * Z) :=
  filter (fun q => (st_column (fst q) =? id) && negb (index_kind (st_kind (fst q)))) l.

(** Column [t] and those below it hold [rows].  The columns of a struct have values only
    in the rows in which the struct is not null. *)
Fixpoint stored (rows : list (row value)) (t : td) : Prop :=
  match t with
  | Td id k _ e _ cs =>
      IsInclude bopt id = true ->
      let vs := column_of (Z.to_nat id) rows in
      match k with
      | STRUCT =>
          e = 0 /\ NoDup (kinds (data_streams id)) /\ incl (kinds (data_streams id)) [0] /\
          (if in_dec Z.eq_dec 0 (kinds (data_streams id))
           then exists b, holds Q inflate o file (data_streams id) 0 b /\ orc_bits b (map (fun v => negb (Null v)) vs)
           else Forall (fun v => Null v = false) vs) /\
          (fix all (cs : list td) : Prop :=
             match cs with [] => True | c :: r => stored (alive id rows) c /\ all r end) cs
      | _ => exists c, orc_kind k e = Some c /\ orc_column P Q inflate o file (data_streams id) c (rows_of vs)
      end
  end.

(** The row indexes can be parsed. *)
Definition indexed : Prop := forall s off, In (s, off) l -> st_kind s = 6 -> IsInclude bopt (st_column s) = true ->
  exists pre enc post bs x, file = pre ++ enc ++ post /\ off = zlen pre /\ st_length s = zlen enc /\
    framed (fun _ => True) inflate o enc bs /\ unmarshalIndex bs = Ok x.
End Stripe.

Definition total_length (l : list strm) : Z := fold_right Z.add 0 (map st_length l).
(** A stripe: index streams, data streams and footer, one after the other. *)
Definition orc_stripe (schema : td) (i : stripeInfo) (x : stripeFooter * list (row value)) : Prop :=
  let (sf, rows) := x in
  rows <> [] /\ NumberOfRows i = zlen rows /\ 0 <= Offset i /\
  (exists idx data, sf_streams sf = idx ++ data /\
     Forall (fun s => index_kind (st_kind s) = true) idx /\ Forall (fun s => index_kind (st_kind s) = false) data /\
     total_length idx = IndexLength i /\ total_length data = DataLength i) /\
  Forall (fun s => 0 <= st_length s /\ 0 <= st_column s < size schema) (sf_streams sf) /\
  sf_columns sf = map td_enc (flatten schema) /\
  (exists pre enc post bs, file = pre ++ enc ++ post /\ zlen pre = Offset i + IndexLength i + DataLength i /\
     FooterLength i = zlen enc /\ framed (fun _ => True) inflate o enc bs /\ unmarshalSF bs = Ok sf) /\
  indexed (offsets (Offset i) (sf_streams sf)) /\
  stored (offsets (Offset i) (sf_streams sf)) rows schema.
End File.

(** [file], opened as [r], has the schema [schema] and the stripes [xs], with their footers.
    [td_hasNulls] of a column is what the file's statistics say. *)
Definition orc_file (P : bool -> list Z -> list Z -> Prop) (Q : list Z -> Prop) (inflate : list Z -> res (list Z))
    (bopt : batchOption) (schema : td) (xs : list (stripeFooter * list (row value))) (file : list Z) (r : fileR colstats) : Prop :=
  newFileReader inflate cs_hasNull unmarshalPS unmarshalFooter file = Ok r /\
  (forall p x, at_path schema p = Some x -> td_id x = before schema p) /\
  Forall2 (fun x n => n_kind n = td_kind x /\ n_sub n = map td_id (td_children x)) (flatten schema) (fr_nodes r) /\
  fr_hasNulls r = map td_hasNulls (flatten schema) /\
  fr_rows r = zlen (concat (map snd xs)) /\
  Forall2 (orc_stripe P Q inflate (readerOpts r) file bopt schema) (fr_stripes r) xs.

(** Every column that is read has one value in every row, and the columns of a struct are
    null where the struct is. *)
Definition well_shaped (bopt : batchOption) (schema : td) (rows : list (row value)) : Prop :=
  forall t p, In (t, p) (columns_read bopt None schema) ->
    Forall (fun r => length (column_of (col t) [r]) = 1%nat /\
                     match p with Some j => null_in j r = true -> null_in (td_id t) r = true | None => True end) rows.

(** A stripe's PRESENT streams are those of the columns with nulls. *)
Definition steady (bopt : batchOption) (schema : td) (sf : stripeFooter) : Prop :=
  forall t, In t (flatten schema) -> IsInclude bopt (td_id t) = true ->
    (td_hasNulls t = true <-> exists s, In s (sf_streams sf) /\ st_column s = td_id t /\ st_kind s = 0).
(** No column with nulls below a struct with nulls. *)
Definition shallow (bopt : batchOption) (schema : td) : Prop :=
  forall t p, In (t, Some p) (columns_read bopt None schema) -> td_hasNulls t = false.
(** No column of floats. *)
Definition no_floats (bopt : batchOption) (schema : td) : Prop :=
  forall t p, In (t, p) (columns_read bopt None schema) -> td_kind t <> FLOAT.
Definition no_bloom (sf : stripeFooter) : Prop := Forall (fun s => st_kind s <> 7 /\ st_kind s <> 8) (sf_streams sf).

(** Schemas with the kinds of columns above. *)
Definition foreign_kind (k : ckind) : bool := readable k || match k with KBinary | KDict => true | _ => false end.
Definition foreign_schema (bopt : batchOption) : td -> bool := schema_of_kinds bopt foreign_kind false.
(** The kinds of streams a reader of column [t] could know: PRESENT, DATA, LENGTH,
    SECONDARY, ROW_INDEX, and of a dictionary DICTIONARY_DATA. *)
Definition known_streams (t : td) : list Z :=
  [0; 1; 2; 5; 6] ++ match td_kind t with STRING => if td_enc t =? 3 then [3] else [] | _ => [] end.
