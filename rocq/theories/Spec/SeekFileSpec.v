(** Seek on whole files: where it leads, and sessions of Seek and Next. *)
From Verif.Model Require Import Go Chunk Stream Schema Rows Time File Column Wire Assembled.
From Verif.Spec Require Import RowsSpec SchemaSpec FileSpec ColumnSpec EndSpec OrcFile.

(** No column of dates. *)
Definition no_dates (bopt : batchOption) (schema : td) : Prop :=
  forall t p, In (t, p) (columns_read bopt None schema) -> td_kind t <> DATE.
(** The data streams of the columns that are read are not empty, if the file is compressed. *)
Definition rereadable (o : opts) (bopt : batchOption) (sf : stripeFooter) : Prop :=
  Forall (fun s => IsInclude bopt (st_column s) = true -> index_kind (st_kind s) = false ->
                   CompressionKind o = NONE \/ 0 < st_length s) (sf_streams sf).

(** The row at which the readers of the first stripe, of [n] rows, stand after Seek(row). *)
Definition lands (stride n row : Z) : Z := if row <? n then row mod stride else 0.
(** A batch shows these rows, in every column that is read. *)
Definition batch_shows (bopt : batchOption) (schema : td) (v : bvec) (rows : list (row value)) : Prop :=
  forall t p, In (t, p) (columns_read bopt None schema) -> shows t (held (td_id t) v) rows.

(** What a client can do with a batch reader. *)
Inductive move := MNext | MSeek (row : Z).
(** On the reader of Rows.v, over the rows of the stripes: the batches it hands out. *)
Inductive Moves {A} (c stride : Z) : batchR A -> list move -> list (list A) -> Prop :=
| MovesEnd y : Moves c stride y [] []
| MovesNext y y' rows e ms out : Next c y = Ok (y', rows, e) -> Moves c stride y' ms out -> Moves c stride y (MNext :: ms) (rows :: out)
| MovesSeek y y' row ms out : 0 <= row < 2 ^ 64 -> Seek stride y row = Ok y' -> Moves c stride y' ms out -> Moves c stride y (MSeek row :: ms) out.
(** On a file; the client passes the batch it got last. *)
Inductive Client (inflate : list Z -> res (list Z)) (r : fileR colstats) : batchRd -> bvec -> list move -> list bvec -> Prop :=
| ClientEnd x v : Client inflate r x v [] []
| ClientNext x v x' v' e ms out : batchNext inflate r x v = Ok (x', v', e) -> Client inflate r x' v' ms out ->
    Client inflate r x v (MNext :: ms) (v' :: out)
| ClientSeek x v x' row ms out : batchSeek inflate r x row = Ok x' -> Client inflate r x' v ms out ->
    Client inflate r x v (MSeek row :: ms) out.
