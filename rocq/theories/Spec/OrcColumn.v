(** Streams and columns as the ORC specification describes them, whoever wrote them
    ("Compression", "Run Length Encoding", "Column Encodings").  Nothing of the model's
    writers is used. *)
From Verif.Model Require Import Go Chunk Stream Time File Column.
From Verif.Spec Require Import Bits ChunkSpec OrcInt ColumnSpec.

(** "Byte Run Length Encoding": a header from 0 to 127 is followed by a byte that is
    repeated header + 3 times; 128 to 255 by 256 - header literal bytes. *)
Inductive orc_bytes : list Z -> list Z -> Prop :=
| orc_bytes_nil : orc_bytes [] []
| orc_bytes_run h v i xs : 0 <= h < 128 -> orc_bytes i xs ->
    orc_bytes (h :: v :: i) (repeat v (Z.to_nat (h + 3)) ++ xs)
| orc_bytes_literals h l i xs : 128 <= h < 256 -> zlen l = 256 - h -> orc_bytes i xs ->
    orc_bytes (h :: l ++ i) (l ++ xs).

(** "Boolean Run Length Encoding": bits from most to least significant, run-length encoded
    as bytes; the last byte may be padded. *)
Definition orc_bits (i : list Z) (bits : list bool) : Prop :=
  exists bs more, orc_bytes i bs /\ bitsOfBytes bs = bits ++ more.

(** "Integer Run Length Encoding, version 2": run after run (Spec/OrcInt.v); [P] is a
    condition on each run (its bytes with what follows, and its values). *)
Inductive orc_ints (P : bool -> list Z -> list Z -> Prop) (signed : bool) : list Z -> list Z -> Prop :=
| orc_ints_nil : orc_ints P signed [] []
| orc_ints_run i vs r xs : orc_run signed i = Some (vs, r) -> P signed i vs -> orc_ints P signed r xs ->
    orc_ints P signed i (vs ++ xs).

(** "Decimal columns": the digits of each value as a signed varint of any length. *)
Inductive orc_varints : list Z -> list Z -> Prop :=
| orc_varints_nil : orc_varints [] []
| orc_varints_one i v r xs : varint i = Some (v, r) -> orc_varints r xs -> orc_varints i (unzig true v :: xs).
(** "Timestamp columns": nanoseconds "with trailing decimal zeros removed; if at least two
    were, the last three bits hold their number minus one". *)
Definition orc_nanos (e : Z) : Z := if e mod 8 =? 0 then e / 8 else e / 8 * 10 ^ (e mod 8 + 1).

(** IEEE numbers, little endian. *)
Fixpoint little (n : nat) (x : Z) : list Z := match n with O => [] | S m => x mod 256 :: little m (x / 256) end.

(** [enc] is [bs], framed as the file's compression says; [Q]: a condition on each chunk's
    contents. *)
Definition framed (Q : list Z -> Prop) (inflate : list Z -> res (list Z)) (o : opts) (enc bs : list Z) : Prop :=
  match CompressionKind o with
  | NONE => enc = bs
  | _ => exists ds, Chunked inflate (ChunkSize o) enc ds /\ Forall Q ds /\ concat ds = bs
  end.

Section Column.
Variable P : bool -> list Z -> list Z -> Prop.
Variable Q : list Z -> Prop.
Variable inflate : list Z -> res (list Z).
Variable o : opts.
Variable file : list Z.
(** The streams of the column, in any order and anywhere in the file, with offsets. *)
Variable l : list (strm * Z).

(** The stream of kind [kind] has the contents [bs]. *)
Definition holds (kind : Z) (bs : list Z) : Prop :=
  exists s off pre enc post, In (s, off) l /\ st_kind s = kind /\
    file = pre ++ enc ++ post /\ off = zlen pre /\ st_length s = zlen enc /\ framed Q inflate o enc bs /\ bytes bs.

(** The data streams of the encodings DIRECT and DIRECT_V2: DATA is 1, LENGTH 2, SECONDARY
    5; and of DICTIONARY_V2: indexes into the dictionary in DATA, its strings in
    DICTIONARY_DATA, 3.  The number of strings is a uint32 of the stripe footer.  A
    timestamp is the number of seconds since the beginning of 2015 and the nanoseconds; in
    which time zone that is, is not in the column.  A decimal is its digits and its scale. *)
Definition orc_data (k : ckind) (gs : list gval) : Prop :=
  match k with
  | KShort => exists b xs, holds 1 b /\ orc_ints P true b xs /\ Forall (fun x => -32768 <= x < 32768) xs /\ gs = map GInt16 xs
  | KInt => exists b xs, holds 1 b /\ orc_ints P true b xs /\ Forall (fun x => -2147483648 <= x < 2147483648) xs /\ gs = map GInt32 xs
  | KLong => exists b xs, holds 1 b /\ orc_ints P true b xs /\ gs = map GInt64 xs
  | KDate => exists b xs, holds 1 b /\ orc_ints P true b xs /\ Forall (fun n => -106751 <= n <= 106751) xs /\
               gs = map (fun n => GDate (n * DayNs)) xs
  | KByte => exists b xs, holds 1 b /\ orc_bytes b xs /\ gs = map GByte xs
  | KBool => exists b xs, holds 1 b /\ orc_bits b xs /\ gs = map GBool xs
  | KFloat => exists xs, holds 1 (flat_map (little 4) xs) /\ Forall is_u32 xs /\ gs = map GFloat xs
  | KDouble => exists xs, holds 1 (flat_map (little 8) xs) /\ Forall is_u64 xs /\ gs = map GDouble xs
  | KString => exists b ss, holds 1 (concat ss) /\ holds 2 b /\ orc_ints P false b (map zlen ss) /\
               Forall (fun s => zlen s < W63) ss /\ gs = map GString ss
  | KBinary => exists b ss, holds 1 (concat ss) /\ holds 2 b /\ orc_ints P false b (map zlen ss) /\
               Forall (fun s => zlen s < W63) ss /\ gs = map GBytes ss
  | KDict => exists b xs d ss, holds 1 b /\ holds 2 d /\ holds 3 (concat ss) /\
               orc_ints P false b xs /\ orc_ints P false d (map zlen ss) /\
               Forall (fun s => zlen s < W63) ss /\ zlen ss < 2 ^ 32 /\ Forall (fun x => 0 <= x < zlen ss) xs /\
               gs = map (fun x => GString (nth (Z.to_nat x) ss [])) xs
  | KTimestamp => exists b xs d ns, holds 1 b /\ holds 5 d /\ orc_ints P true b xs /\ orc_ints P false d ns /\
               length xs = length ns /\ Forall (fun n => 0 <= orc_nanos n < 1000000000) ns /\
               Forall2 (fun g q => exists loc, g = GTimestamp {| ts_loc := loc; ts_seconds := fst q; ts_nanos := orc_nanos (snd q) |}) gs (combine xs ns)
  | KDecimal => exists b xs d ss, holds 1 b /\ holds 5 d /\ orc_varints b xs /\ orc_ints P true d ss /\
               length xs = length ss /\ gs = map (fun q => GDecimal (fst q) (snd q)) (combine xs ss)
  | _ => False
  end.
Definition is_some {A} (x : option A) : bool := match x with Some _ => true | None => false end.
Definition kinds : list Z := map (fun q => st_kind (fst q)) l.
(** A column with the rows [rows]: the values of the rows that are not null are in the
    data streams; PRESENT (0) has a bit for every row, and may be left out if no row is
    null. *)
Definition orc_column (k : ckind) (rows : list (option gval)) : Prop :=
  NoDup kinds /\
  incl kinds (0 :: 1 :: match k with KString | KBinary => [2] | KDict => [2; 3] | KTimestamp | KDecimal => [5] | _ => [] end) /\
  orc_data k (nonnull rows) /\
  (if in_dec Z.eq_dec 0 kinds then exists b, holds 0 b /\ orc_bits b (map is_some rows)
   else forallb is_some rows = true).
End Column.

(** The kinds whose PRESENT stream the reader takes whatever the file's statistics say
    about nulls; the others need [hn], the column's HasNull. *)
Definition present_allowed (k : ckind) (hn : bool) (l : list (strm * Z)) : Prop :=
  In 0 (kinds l) -> hn = true \/ In k [KShort; KInt; KLong; KString].

(** A reader opened on the streams gives the rows, in batches of any sizes; the batches
    come without Null flags. *)
Definition column_reads (inflate : list Z -> res (list Z)) (o : opts) (file : list Z) (l : list (strm * Z))
    (k : ckind) (hn : bool) (rows : list (option gval)) : Prop :=
  exists r, InitStreams file (newColR k hn) l = Ok r /\
    forall vecs, (length (concat vecs) <= length rows)%nat -> Forall (fun v => Null v = false) (concat vecs) ->
      exists outs r', readBatches inflate o r vecs = Ok (outs, r') /\ map rows_of outs = cut vecs rows.

(** The same for a column with a dictionary, whose reader is another. *)
Fixpoint dict_InitStreams (file : list Z) (d : dictR) (l : list (strm * Z)) : res dictR :=
  match l with
  | [] => Ok d
  | (s, start) :: t => let! d' := dict_InitStream file d s start in dict_InitStreams file d' t
  end.
Fixpoint dict_batches (inflate : list Z -> res (list Z)) (o : opts) (d : dictR) (vecs : list (list value)) : res (list (list value) * dictR) :=
  match vecs with
  | [] => Ok ([], d)
  | v :: t => let! (x, d') := dict_NextBatch inflate o d v in
              let! (xs, d2) := dict_batches inflate o d' t in Ok (x :: xs, d2)
  end.
Definition dictionary_reads (inflate : list Z -> res (list Z)) (o : opts) (file : list Z) (l : list (strm * Z))
    (hn : bool) (rows : list (option gval)) : Prop :=
  exists r, dict_InitStreams file (newDictR hn) l = Ok r /\
    forall vecs, (length (concat vecs) <= length rows)%nat -> Forall (fun v => Null v = false) (concat vecs) ->
      exists outs r', dict_batches inflate o r vecs = Ok (outs, r') /\ map rows_of outs = cut vecs rows.
