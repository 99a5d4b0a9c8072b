(** What a client's Write calls, of which some fail, put into a file. *)
From Verif.Model Require Import Go Chunk Stream Schema Rows Time File Column Wire Assembled Failure.
From Verif.Spec Require Import SchemaSpec RowsSpec FileSpec ColumnSpec AssemblySpec EndSpec.

Section Attempts.
Variable V : Type.
(** The value [x] is an error for column [id]. *)
Variable refused : nat -> V -> Prop.

(** The vectors of a batch that hold values, in the order they are written. *)
Fixpoint vectors (v : cvec V) : list (nat * list V) :=
  match v with
  | CVec id vals ch => (match vals with Some l => [(id, l)] | None => [] end) ++ flat_map vectors ch
  end.
(** [p] are the cells of row [i] in the vectors [vs]. *)
Definition across (i : nat) (vs : list (nat * list V)) (p : row V) : Prop :=
  Forall2 (fun x y => fst y = fst x /\ nth_error (snd x) i = Some (snd y)) vs p.

(** A stripe: the rows its columns were given, some of them cut short, and the number of
    rows its StripeInformation counts. *)
Record page := { pg_cells : list (row V); pg_rows : nat }.
Definition empty_page : page := {| pg_cells := []; pg_rows := 0 |}.
Definition with_row (p : row V) (g : page) : page := {| pg_cells := pg_cells g ++ [p]; pg_rows := pg_rows g |}.
Definition counting (n : nat) (g : page) : page := {| pg_cells := pg_cells g; pg_rows := pg_rows g + n |}.

(** None of the cells is refused. *)
Definition accepted (p : row V) : Prop := Forall (fun y => ~ refused (fst y) (snd y)) p.

(** One Write of the batch [v] from row [i] on, when [n] of its rows have gone into the
    stripe without being counted.  The stripes ended so far and the one under way before
    and after; the result is [true] for success.  A failing row leaves the cells in front
    of the refused one, and the rows not yet counted remain so. *)
Inductive Attempt (v : cvec V) : nat -> nat -> list page * page -> bool -> list page * page -> Prop :=
| AttemptDone n ps g : Attempt v (vlen v) n (ps, g) true (ps, counting n g)
| AttemptRow i n ps g p b q : (i < vlen v)%nat -> cells i v = Some p -> accepted p ->
    Attempt v (S i) (S n) (ps, with_row p g) b q -> Attempt v i n (ps, g) b q
| AttemptCut i n ps g p b q : (i < vlen v)%nat -> cells i v = Some p -> accepted p ->
    Attempt v (S i) 0 (ps ++ [counting (S n) (with_row p g)], empty_page) b q -> Attempt v i n (ps, g) b q
| AttemptFailed i n ps g a id l y rest p : (i < vlen v)%nat -> vectors v = a ++ (id, l) :: rest ->
    across i a p -> accepted p -> nth_error l i = Some y -> refused id y ->
    Attempt v i n (ps, g) false (ps, with_row p g).
(** A sequence of Writes with their results. *)
Inductive Attempts : list (cvec V * bool) -> list page * page -> list page * page -> Prop :=
| AttemptsNil q : Attempts [] q q
| AttemptsCons v b l q q1 q2 : Attempt v 0 0 q b q1 -> Attempts l q1 q2 -> Attempts ((v, b) :: l) q q2.

(** The rows [rows] are those read from the stripe [g]: as many as are counted, and in
    every column the first values that column was given. *)
Definition reads_as (g : page) (rows : list (row V)) : Prop :=
  length rows = pg_rows g /\ forall x, exists rest, column_of x (pg_cells g) = column_of x rows ++ rest.
End Attempts.
Arguments vectors {V}. Arguments across {V}. Arguments pg_cells {V}. Arguments pg_rows {V}. Arguments empty_page {V}.
Arguments with_row {V}. Arguments accepted {V}. Arguments counting {V}. Arguments Attempt {V}. Arguments Attempts {V}. Arguments reads_as {V}.

(** Row [k] of the batch [v] has the cells [p] in front of the refused value [y] of column [id]. *)
Definition stops {V} (refused : nat -> V -> Prop) (v : cvec V) (k : nat) (p : row V) (id : nat) (y : V) : Prop :=
  (k < vlen v)%nat /\ (exists a l rest, vectors v = a ++ (id, l) :: rest /\ across k a p /\ nth_error l k = Some y) /\
  accepted refused p /\ refused id y.
(** The very first value of the batch is refused. *)
Definition stops_at_once {V} (refused : nat -> V -> Prop) (v : cvec V) : Prop :=
  exists id y l rest, vectors v = (id, y :: l) :: rest /\ refused id y.

(** A client that goes on after an error. *)
Inductive Tries {W B} (wr : W -> B -> ending W) : W -> list (B * bool) -> W -> Prop :=
| TriesNil w : Tries wr w [] w
| TriesDone w v w1 l w2 : wr w v = Done w1 -> Tries wr w1 l w2 -> Tries wr w ((v, true) :: l) w2
| TriesFailed w v w1 l w2 : wr w v = Failed (Some w1) -> Tries wr w1 l w2 -> Tries wr w ((v, false) :: l) w2.

(** ** The concrete columns *)
(** Column [id] of the schema returns an error for the value [y]. *)
Definition refused_by (schema : td) (id : nat) (y : value) : Prop :=
  exists t k, nth_error (flatten schema) id = Some t /\ writerKind (td_kind t) (td_enc t) = Ok k /\
    Null y = false /\ refuses k (V y) = true.
(** The Go type a column takes: int16, int32, int64, uint8, bool, float32, float64, string,
    []byte, Date, Timestamp, Decimal64. *)
Definition right_type (k : ckind) (v : gval) : Prop :=
  match k, v with
  | KShort, GInt16 _ | KInt, GInt32 _ | KLong, GInt64 _ | KByte, GByte _ | KBool, GBool _ | KFloat, GFloat _
  | KDouble, GDouble _ | KString, GString _ | KDict, GString _ | KBinary, GBytes _ | KDate, GDate _
  | KTimestamp, GTimestamp _ | KDecimal, GDecimal _ _ | KStruct, _ => True
  | _, _ => False
  end.
(** The columns that return an error for values of other types; the others panic. *)
Definition returns_errors (k : ckind) : bool :=
  match k with KFloat | KDouble | KString | KDict | KBinary => true | _ => false end.
(** No column that returns errors has a PRESENT stream (whose bit is written before the
    value is refused). *)
Definition plain_refusals (schema : td) : Prop :=
  Forall (fun t => td_hasNulls t = true -> forall k y, writerKind (td_kind t) (td_enc t) = Ok k -> refuses k y = false)
    (flatten schema).
(** The values given to column [t] in the stripes are of its type and survive encoding
    (as in [storable]), and bits fill whole bytes except in the last stripe. *)
Definition given_ok (t : td) (given : list (list (row value))) : Prop :=
  (forall k, readerKind (td_kind t) (td_enc t) = Ok k -> k <> KStruct ->
     Forall (fun rows => let gs := nonnull (rows_of (column_of (col t) rows)) in Forall (typed k) gs /\ carried k gs) given) /\
  (td_hasNulls t = true -> Forall (fun rows => (length (column_of (col t) rows) mod 8 = 0)%nat) (removelast given)) /\
  (td_kind t = BOOLEAN ->
     Forall (fun rows => (length (nonnull (rows_of (column_of (col t) rows))) mod 8 = 0)%nat) (removelast given)).

Section Files.
Variable deflate : list (list Z) -> list Z -> res (list Z).
Variable F : floats.
Variable o : opts.
Variables stride StripeSize : Z.
(** Write of a file writer, with what it leaves behind when it fails. *)
Definition write_left (w : stripeW colW) (v : cvec value) : ending (stripeW colW) :=
  let I := columns deflate F o stride in
  WriteL deflate (i_Write I) (c_Left deflate o) (i_Size I) (i_Flush I) (i_Index I) (i_WriteOut I) (i_Infos I) (i_Reset I)
    (pb_SF wire) o StripeSize w v.
(** The file a client gets that makes the Writes [l], with these results, and closes. *)
Definition tried (schema : td) (l : list (cvec value * bool)) (file : list Z) : Prop :=
  exists w0 w, newFileWriter (i_New (columns deflate F o stride)) schema = Ok w0 /\ Tries write_left w0 l w /\
    closeFile deflate (columns deflate F o stride) wire o w = Ok file.
End Files.

(** What comes of the file: its stripes count the rows [ls ++ [last]] and were given the
    cells [given].  An empty stripe makes the file unreadable; otherwise a client of
    Next with vectors of capacity [c] gets the rows counted, less the last rows of the
    stripes that hold one more than a multiple of [c] (as for every file, C50). *)
Definition comes_back (inflate : list Z -> res (list Z)) (bopt : batchOption) (schema : td) (file : list Z)
    (r : fileR colstats) (ls : list (list (row value))) (last : list (row value)) (given : list (list (row value))) : Prop :=
  map NumberOfRows (fr_stripes r) = map zlen (ls ++ [last]) /\
  (~ Forall (fun l => l <> []) (ls ++ [last]) -> openBatches inflate bopt file = Err) /\
  (Forall (fun l => l <> []) (ls ++ [last]) ->
   Forall (fun q => storable (fst q) (snd q) (ls ++ [last])) (columns_read bopt None schema) ->
   Forall (fun q => given_ok (fst q) given) (columns_read bopt None schema) ->
   exists x, openBatches inflate bopt file = Ok (r, x) /\
    forall c v, 0 < c -> fits bopt c false schema v -> Cap v = c ->
    ((lost c ls = 0)%nat -> delivers inflate bopt schema r x v (concat ls ++ delivered_last c last)) /\
    ((lost c ls = 1)%nat -> delivers inflate bopt schema r x v (concat (map (delivered c) ls) ++ last)) /\
    ((lost c ls >= 2)%nat -> forall out, ~ Batches inflate r x v out) /\
    (columns_read bopt None schema <> [] ->
     (delivers inflate bopt schema r x v (concat (ls ++ [last])) <->
      Forall (fun l => zlen l = 1 \/ (zlen l - 1) mod c <> 0) ls /\ (zlen last - 1) mod c <> 0))).
(** The Writes [l] had these results, the file was closed and opened as [r]. *)
Definition tried_and_opened (deflate : list (list Z) -> list Z -> res (list Z)) (inflate : list Z -> res (list Z))
    (F : floats) (o : opts) (stride StripeSize : Z) (schema : td) (l : list (cvec value * bool)) (file : list Z)
    (r : fileR colstats) : Prop :=
  1 <= ChunkSize o < 2 ^ 23 /\
  (exists t0, size t0 <= 2 ^ 32 /\ NormalizeSchema t0 = Ok schema) /\
  tried deflate F o stride StripeSize schema l file /\
  zlen file < 2 ^ 62 /\ newFileReader inflate cs_hasNull unmarshalPS unmarshalFooter file = Ok r.
