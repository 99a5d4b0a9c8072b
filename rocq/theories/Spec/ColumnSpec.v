(** What it means for a column to store a sequence of rows and to read it back. *)
From Verif.Model Require Import Go Codec ByteBool IntRle Chunk Stream Time File Column.
From Verif.Spec Require Import Session.

(** A row of a column: nothing, or a value.  (What is left in V beside a Null flag is
    not part of the row.) *)
Definition row_of (v : value) : option gval := if Null v then None else Some (V v).
Definition rows_of (vs : list value) : list (option gval) := map row_of vs.
Definition nonnull (rows : list (option gval)) : list gval :=
  flat_map (fun r => match r with Some g => [g] | None => [] end) rows.

(** The values a client may put into a column of each kind: the Go type's range; dates
    at midnight and within the range of C35. *)
Definition typed (k : ckind) (g : gval) : Prop :=
  match k, g with
  | KShort, GInt16 x => -32768 <= x < 32768
  | KInt, GInt32 x => -2147483648 <= x < 2147483648
  | KLong, GInt64 x => is_i64 x
  | KByte, GByte x => is_u8 x
  | KBool, GBool _ => True
  | KFloat, GFloat b => is_u32 b
  | KDouble, GDouble b => is_u64 b
  | KString, GString s => bytes s /\ zlen s < W63
  | KDate, GDate t => exists n, -106751 <= n <= 106751 /\ t = n * DayNs
  | _, _ => False
  end.

(** The integer codec carries [xs]: encoded as one stream and decoded, they come back
    (when it does is the subject of C10 to C14). *)
Definition int_carried (signed : bool) (xs : list Z) : Prop :=
  exists e b, segment int_Encode int_Flush (NewIntRLV2 signed false) xs = Ok (e, b) /\
              decode_all (if signed then DecodeInt else DecodeUInt) b = Ok xs.

(** The integers a column hands to that codec: its values, day numbers, string lengths. *)
Definition int_of (g : gval) : Z :=
  match g with
  | GInt16 x | GInt32 x | GInt64 x => x
  | GDate t => t / DayNs
  | GString s => zlen s
  | _ => 0
  end.
Definition carried (k : ckind) (gs : list gval) : Prop :=
  match k with
  | KShort | KInt | KLong | KDate => int_carried true (map int_of gs)
  | KString => int_carried false (map int_of gs)
  | _ => True
  end.

(** Streams one after the other from [start] on, each with its offset. *)
Fixpoint offsets (start : Z) (l : list strm) : list (strm * Z) :=
  match l with
  | [] => []
  | s :: r => (s, start) :: offsets (start + st_length s) r
  end.

Section Session.
Variable deflate : list (list Z) -> list Z -> res (list Z).
Variable inflate : list Z -> res (list Z).
Variable F : floats.
Variable o : opts.
Variable stride : Z.

(** A client of a column writer: write the rows, flush, write out. *)
Fixpoint writeRows (c : colW) (vs : list value) : res colW :=
  match vs with
  | [] => Ok c
  | v :: t => let! c' := c_Write deflate F o stride c v in writeRows c' t
  end.
Definition writeColumn (c : colW) (vs : list value) : res (list Z * list strm * colW) :=
  let! c1 := writeRows c vs in
  let! c2 := c_Flush deflate o c1 in
  let! (bs, _, c3) := c_WriteOut o c2 in
  Ok (bs, c_Infos c3, c3).

(** Stripe after stripe with the same writer, which is reset in between (stripe.go, see
    File.v); each stripe gives its bytes and stream infos. *)
Fixpoint writeStripes (c : colW) (segs : list (list value)) : res (list (list Z * list strm)) :=
  match segs with
  | [] => Ok []
  | vs :: t =>
      let! (bs, infos, c1) := writeColumn c vs in
      match t with
      | [] => Ok [(bs, infos)]
      | _ => let! c2 := c_Reset o c1 in let! r := writeStripes c2 t in Ok ((bs, infos) :: r)
      end
  end.

(** A client of a column reader: batch after batch, each time with some batch [vec] to be
    filled. *)
Fixpoint readBatches (c : colR) (vecs : list (list value)) : res (list (list value) * colR) :=
  match vecs with
  | [] => Ok ([], c)
  | v :: t =>
      let! (x, c1) := NextBatch inflate o c v in
      let! (xs, c2) := readBatches c1 t in Ok (x :: xs, c2)
  end.
End Session.

(** Cut [l] into pieces of the lengths of [vecs]. *)
Fixpoint cut {A B} (vecs : list (list B)) (l : list A) : list (list A) :=
  match vecs with
  | [] => []
  | v :: t => firstn (length v) l :: cut t (skipn (length v) l)
  end.

(** Somewhere in a file, the stored column [bs] with stream infos [infos] gives the rows
    [rows] to a reader opened at the offsets of its streams, in batches of any sizes.
    The batches of a column without nulls come without Null flags. *)
Definition reads_back (inflate : list Z -> res (list Z)) (o : opts) (k : ckind) (hn : bool)
    (bs : list Z) (infos : list strm) (rows : list (option gval)) : Prop :=
  forall pre post, zlen (pre ++ bs ++ post) < W64 ->
  exists r, InitStreams (pre ++ bs ++ post) (newColR k hn) (offsets (zlen pre) infos) = Ok r /\
    forall vecs, (length (concat vecs) <= length rows)%nat ->
      (hn = false -> Forall (fun v => Null v = false) (concat vecs)) ->
      exists outs r', readBatches inflate o r vecs = Ok (outs, r') /\ map rows_of outs = cut vecs rows.
(** The columns that can be read back: those whose reader hands out what it decodes. *)
Definition readable (k : ckind) : bool :=
  match k with KShort | KInt | KLong | KByte | KBool | KFloat | KDouble | KString | KDate => true | _ => false end.
