(** What it means for a file to hold a sequence of rows cut into stripes. *)
From Verif.Model Require Import Go Chunk Stream Schema Rows File.

(** A row is the list of its cells: column number and value. *)
Section Rows.
Variable V : Type.
Definition row := list (nat * V).

(** Row [i] of a batch: the cells of all vectors present, root first; [None] when some
    vector is too short. *)
Fixpoint cells (i : nat) (v : cvec V) : option row :=
  match v with
  | CVec id vals children =>
      let rest := fold_right (fun c acc => match cells i c, acc with
                                           | Some a, Some b => Some (a ++ b) | _, _ => None end)
                             (Some []) children in
      match vals with
      | None => rest
      | Some l => match nth_error l i, rest with Some x, Some r => Some ((id, x) :: r) | _, _ => None end
      end
  end.

(** [Rows vs rows]: the batches [vs] hold the rows [rows], in order. *)
Inductive Rows : list (cvec V) -> list row -> Prop :=
| RowsNil : Rows [] []
| RowsBatch v vs rs rows :
    Forall2 (fun i r => cells i v = Some r) (seq 0 (vlen v)) rs -> Rows vs rows ->
    Rows (v :: vs) (rs ++ rows).

(** The values of column [c] in a sequence of rows. *)
Definition column_of (c : nat) (rows : list row) : list V :=
  map snd (filter (fun x => Nat.eqb (fst x) c) (concat rows)).
End Rows.
Arguments cells {V}. Arguments Rows {V}. Arguments column_of {V}.

Section Layout.
Variable deflate : list (list Z) -> list Z -> res (list Z).
Variables C V : Type.
Variable cw_Write : C -> V -> res C.
Variable cw_Size : C -> Z.
Variable cw_Flush : C -> res C.
Variable cw_Index : C -> res (list Z).
Variable cw_WriteOut : C -> res (list Z * Z * C).
Variable cw_Infos : C -> list strm.
Variable cw_Reset : C -> res C.
Variable marshalSF : stripeFooter -> res (list Z).
Variable o : opts.
Variable StripeSize : Z.
Variable encs : list Z.

(** One column: write values one after the other. *)
Fixpoint writeVals (c : C) (vs : list V) : res C :=
  match vs with
  | [] => Ok c
  | v :: t => let! c' := cw_Write c v in writeVals c' t
  end.

(** What one column contributes to a stripe: index, streams, stream descriptions. *)
Record colimage := { ci_index : list Z; ci_streams : list (list Z); ci_infos : list strm }.

(** The column writer in state [c] is given [vs] and flushed, [x] is what it then writes
    out, [c'] its state afterwards. *)
Definition ColumnImage (c : C) (vs : list V) (x : colimage) (c' : C) : Prop :=
  exists c1 c2, writeVals c vs = Ok c1 /\ cw_Flush c1 = Ok c2 /\
    (if WriteIndex o then cw_Index c2 = Ok (ci_index x) else ci_index x = []) /\
    (exists n, cw_WriteOut c2 = Ok (concat (ci_streams x), n, c')) /\ cw_Infos c' = ci_infos x /\
    map st_length (ci_infos x) = map zlen (ci_streams x).

(** A stripe: every column gets its own values, in order; the index area is the columns'
    indexes, the data area the columns' streams, the footer lists the streams. *)
Record image := { im_cols : list colimage; im_footer : list Z }.
Definition im_index (m : image) : list Z := concat (map ci_index (im_cols m)).
Definition im_streams (m : image) : list (list Z) := concat (map ci_streams (im_cols m)).
Definition im_infos (m : image) : list strm := concat (map ci_infos (im_cols m)).
Definition im_bytes (m : image) : list Z := im_index m ++ concat (im_streams m) ++ im_footer m.

Definition StripeImage (cs : list C) (rows : list (row V)) (m : image) (cs' : list C) : Prop :=
  Forall (fun x => (fst x < length cs)%nat) (concat rows) /\
  length (im_cols m) = length cs /\ length cs' = length cs /\
  (forall k c, nth_error cs k = Some c -> exists x c',
      nth_error (im_cols m) k = Some x /\ nth_error cs' k = Some c' /\
      ColumnImage c (column_of k rows) x c') /\
  (exists ft rest, marshalSF {| sf_streams := im_infos m; sf_columns := encs |} = Ok ft /\
     CompressingAllInChunks deflate (CompressionKind o) (ChunkSize o) ft = Ok (im_footer m, rest)).

(** [Level cs rows n]: the columns [cs] report [n] bytes together after the rows. *)
Definition Level (cs : list C) (rows : list (row V)) (n : Z) : Prop :=
  exists cs1, length cs1 = length cs /\
    (forall k c, nth_error cs k = Some c -> exists c1,
        nth_error cs1 k = Some c1 /\ writeVals c (column_of k rows) = Ok c1) /\
    n = fold_right Z.add 0 (map cw_Size cs1).
(** No row of the stripe completed it; the last row of the stripe, and no earlier one,
    completed it. *)
Definition Open (cs : list C) (rows : list (row V)) : Prop :=
  forall a b, rows = a ++ b -> a <> [] -> exists n, Level cs a n /\ n < StripeSize.
Definition Cut (cs : list C) (rows : list (row V)) : Prop :=
  exists before last n, rows = before ++ [last] /\ Open cs before /\ Level cs rows n /\ StripeSize <= n.

(** The stripes of a file: the first one is written by fresh column writers [cs], every
    further one by the same writers after Reset; every stripe but the last ends with the
    row that completed it; only the last stripe may be empty. *)
Inductive Stripes : list C -> list (list (row V)) -> list image -> list C -> Prop :=
| StripesLast cs rows m cs' : StripeImage cs rows m cs' -> Open cs rows -> Stripes cs [rows] [m] cs'
| StripesMore cs rows m cs' cs'' rss ms csf :
    StripeImage cs rows m cs' -> Cut cs rows -> mapM cw_Reset cs' = Ok cs'' ->
    Stripes cs'' rss ms csf -> Stripes cs (rows :: rss) (m :: ms) csf.

(** The stripe directory of stripes lying one after the other from [off] on. *)
Fixpoint directory (off : Z) (rss : list (list (row V))) (ms : list image) : list stripeInfo :=
  match rss, ms with
  | rows :: rss, m :: ms =>
      {| Offset := off; IndexLength := zlen (im_index m); DataLength := zlen (concat (im_streams m));
         FooterLength := zlen (im_footer m); NumberOfRows := zlen rows |}
        :: directory (off + zlen (im_bytes m)) rss ms
  | _, _ => []
  end.
End Layout.
Arguments writeVals {C V}. Arguments directory {V}.

(** The interface contract of a column writer: after a Flush, WriteOut reports the
    number of bytes it wrote, and these are the streams of GetStreamInfos, one after the
    other, with the lengths stated there. *)
Definition writes_streams {C} (cw_Flush : C -> res C) (cw_WriteOut : C -> res (list Z * Z * C))
           (cw_Infos : C -> list strm) : Prop :=
  forall c1 c2 bs n c', cw_Flush c1 = Ok c2 -> cw_WriteOut c2 = Ok (bs, n, c') ->
    n = zlen bs /\ exists ss, bs = concat ss /\ map st_length (cw_Infos c') = map zlen ss.

(** A client: write the batches in order. *)
Fixpoint writeBatches {W B} (wr : W -> B -> res W) (w : W) (l : list B) : res W :=
  match l with
  | [] => Ok w
  | v :: t => let! w' := wr w v in writeBatches wr w' t
  end.

(** [Consecutive file from l bs to]: the streams [l], each with the offset where the
    reader looks for it, lie one after the other from [from] to [to], and the bytes
    there are [bs]. *)
Inductive Consecutive (file : list Z) : Z -> list (strm * Z) -> list (list Z) -> Z -> Prop :=
| ConNil from : Consecutive file from [] [] from
| ConCons from s b l bs to :
    st_length s = zlen b -> ztake (zlen b) (zdrop from file) = b ->
    Consecutive file (from + zlen b) l bs to ->
    Consecutive file from ((s, from) :: l) (b :: bs) to.

(** [cw_of c i]: [c] is a writer of column [i].  It stays one, its stream descriptions
    name the column, and none is an index stream. *)
Definition keeps_id {C V} (cw_of : C -> Z -> Prop) (cw_Write : C -> V -> res C) (cw_Flush : C -> res C)
           (cw_WriteOut : C -> res (list Z * Z * C)) (cw_Infos : C -> list strm)
           (cw_Reset : C -> res C) : Prop :=
  (forall c v c' i, cw_Write c v = Ok c' -> cw_of c i -> cw_of c' i) /\
  (forall c c' i, cw_Flush c = Ok c' -> cw_of c i -> cw_of c' i) /\
  (forall c b n c' i, cw_WriteOut c = Ok (b, n, c') -> cw_of c i -> cw_of c' i) /\
  (forall c c' i, cw_Reset c = Ok c' -> cw_of c i -> cw_of c' i) /\
  (forall c s i, cw_of c i -> In s (cw_Infos c) -> st_column s = i /\ st_kind s <> 6).

(** The assumption on the protobuf library: what is marshalled unmarshals to itself. *)
Definition invertible {A} (marshal : A -> res (list Z)) (unmarshal : list Z -> res A) : Prop :=
  forall x b, marshal x = Ok b -> unmarshal b = Ok x.

(** The column writers as one object, and the protobuf library as one object. *)
Record iface (C V ST : Type) := {
  i_New : td -> res C; i_Write : C -> V -> res C; i_Size : C -> Z; i_Flush : C -> res C;
  i_Index : C -> res (list Z); i_WriteOut : C -> res (list Z * Z * C); i_Infos : C -> list strm;
  i_Stats : C -> ST; i_Reset : C -> res C; i_of : C -> Z -> Prop }.
Arguments i_New {C V ST}. Arguments i_Write {C V ST}. Arguments i_Size {C V ST}. Arguments i_Flush {C V ST}.
Arguments i_Index {C V ST}. Arguments i_WriteOut {C V ST}. Arguments i_Infos {C V ST}.
Arguments i_Stats {C V ST}. Arguments i_Reset {C V ST}. Arguments i_of {C V ST}.
Record proto (ST : Type) := {
  pb_SF : stripeFooter -> res (list Z); pb_Footer : footer ST -> res (list Z); pb_PS : postscript -> res (list Z);
  pb_unSF : list Z -> res stripeFooter; pb_unFooter : list Z -> res (footer ST); pb_unPS : list Z -> res postscript }.
Arguments pb_SF {ST}. Arguments pb_Footer {ST}. Arguments pb_PS {ST}.
Arguments pb_unSF {ST}. Arguments pb_unFooter {ST}. Arguments pb_unPS {ST}.

Definition contract {C V ST} (I : iface C V ST) : Prop :=
  writes_streams (i_Flush I) (i_WriteOut I) (i_Infos I) /\
  keeps_id (i_of I) (i_Write I) (i_Flush I) (i_WriteOut I) (i_Infos I) (i_Reset I) /\
  (forall t c, i_New I t = Ok c -> i_of I c (td_id t)).
Definition proto_ok {ST} (P : proto ST) : Prop :=
  invertible (pb_SF P) (pb_unSF P) /\ invertible (pb_Footer P) (pb_unFooter P) /\
  invertible (pb_PS P) (pb_unPS P) /\ (forall ps b, pb_PS P ps = Ok b -> zlen b < 256).

Section Files.
Variable deflate : list (list Z) -> list Z -> res (list Z).
Variables C V ST : Type.
Variable I : iface C V ST.
Variable P : proto ST.
Variable o : opts.
Variable StripeSize : Z.

Definition write1 : stripeW C -> cvec V -> res (stripeW C) :=
  Write deflate (i_Write I) (i_Size I) (i_Flush I) (i_Index I) (i_WriteOut I) (i_Infos I) (i_Reset I) (pb_SF P) o StripeSize.
Definition closeFile : stripeW C -> res (list Z) :=
  Close deflate (i_Flush I) (i_Index I) (i_WriteOut I) (i_Infos I) (i_Stats I) (pb_SF P) (pb_Footer P) (pb_PS P) o.

(** A writer for [schema] is created, the batches are written, the writer is closed, all
    without error; [file] is the result. *)
Definition closed (schema : td) (batches : list (cvec V)) (file : list Z) : Prop :=
  exists w0 w, newFileWriter (i_New I) schema = Ok w0 /\ writeBatches write1 w0 batches = Ok w /\
               closeFile w = Ok file.
End Files.
Arguments write1 deflate {C V ST}. Arguments closeFile deflate {C V ST}. Arguments closed deflate {C V ST}.

(** [Tiles from to l]: the stripes [l] lie one after the other from [from] to [to]. *)
Inductive Tiles : Z -> list stripeInfo -> Z -> Prop :=
| TilesNil from : Tiles from [] from
| TilesCons i l to : 0 <= IndexLength i -> 0 <= DataLength i -> 0 <= FooterLength i ->
    Tiles (Offset i + IndexLength i + DataLength i + FooterLength i) l to -> Tiles (Offset i) (i :: l) to.

Definition sum (l : list Z) : Z := fold_right Z.add 0 l.

(** The columns of a schema are numbered within the array of columns. *)
Definition numbered (schema : td) : Prop :=
  exists l, Flat schema = Ok l /\ Forall (fun t => td_id t < zlen l) l.
