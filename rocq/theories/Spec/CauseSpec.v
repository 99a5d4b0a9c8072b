(** What in a stream can crash the reader: the bytes a stream holds, cut into runs. *)
From Verif.Model Require Import Go Codec ByteBool IntRle Chunk Stream Schema File Column.
From Verif.Spec Require Import Bits ChunkSpec PatchSpec CrashSpec.

(** A stream: its length, and the bytes of the file from its start on. *)
Definition stretch : Type := (Z * list Z)%type.
Definition stretch_of (file : list Z) (p : strm * Z) : stretch := (st_length (fst p), zdrop (snd p) file).
(** How many bytes of it are behind, if [rest] is what comes. *)
Definition behind (f0 : stretch) (rest : list Z) : Z := zlen (snd f0) - zlen rest.

(** The stream unpacked chunk by chunk: [cont] is what the chunks so far hold, [rest] what
    comes after them.  A chunk starts inside the stream.  Without compression the bytes
    themselves, up to the length of the stream. *)
Inductive Unpacked (inflate : list Z -> res (list Z)) (o : opts) (f0 : stretch) : list Z -> list Z -> Prop :=
| U_nil : Unpacked inflate o f0 [] (snd f0)
| U_raw cont p rest : CompressionKind o = NONE -> Unpacked inflate o f0 cont (p ++ rest) -> behind f0 rest <= fst f0 ->
    Unpacked inflate o f0 (cont ++ p) rest
| U_orig cont p rest : CompressionKind o <> NONE -> Unpacked inflate o f0 cont (le24 (2 * zlen p + 1) ++ p ++ rest) ->
    behind f0 (le24 (2 * zlen p + 1) ++ p ++ rest) < fst f0 -> Unpacked inflate o f0 (cont ++ p) rest
| U_packed cont p d rest : CompressionKind o <> NONE -> Unpacked inflate o f0 cont (le24 (2 * zlen p) ++ p ++ rest) ->
    behind f0 (le24 (2 * zlen p) ++ p ++ rest) < fst f0 -> inflate p = Ok d -> Unpacked inflate o f0 (cont ++ d) rest.
(** What is unpacked starts with [bs]. *)
Definition unpacks (inflate : list Z -> res (list Z)) (o : opts) (f0 : stretch) (bs : list Z) : Prop :=
  exists more rest, Unpacked inflate o f0 (bs ++ more) rest.

(** Whole runs and their values. *)
Inductive Runs (signed : bool) : list Z -> list Z -> Prop :=
| R_nil : Runs signed [] []
| R_snoc bs us p vs : Runs signed bs us -> run (decode signed) p = Ok (vs, []) -> Runs signed (bs ++ p) (us ++ vs).

(** After some runs, one with a patch behind its values. *)
Definition stray_patch (inflate : list Z -> res (list Z)) (o : opts) (f0 : stretch) : Prop :=
  exists pre us bs, unpacks inflate o f0 (pre ++ bs) /\ Runs true pre us /\ patch_outside bs.
(** Among the lengths one that is negative as an int64. *)
Definition negative_length (inflate : list Z -> res (list Z)) (o : opts) (f0 : stretch) : Prop :=
  exists bs us, unpacks inflate o f0 bs /\ Runs false bs us /\ Exists (fun l => i64 l < 0) us.

(** The contents of the streams of a column, by the number of the kind of stream. *)
Definition clean_streams (inflate : list Z -> res (list Z)) (o : opts) (file : list Z) (k : ckind) (l : list (strm * Z)) : Prop :=
  forall s st, In (s, st) l ->
    match k with
    | KShort | KInt | KLong | KDate | KTimestamp => st_kind s = sDATA -> ~ stray_patch inflate o (stretch_of file (s, st))
    | KDecimal => st_kind s = sSECONDARY -> ~ stray_patch inflate o (stretch_of file (s, st))
    | KString | KBinary => st_kind s = sLENGTH -> ~ negative_length inflate o (stretch_of file (s, st))
    | _ => True
    end.

(** The kind of the second stream of a column that has two. *)
Definition second_kind (k : ckind) : Z := match k with KString | KBinary => sLENGTH | _ => sSECONDARY end.
(** The streams with the values are not empty. *)
Definition nonempty_streams (k : ckind) (l : list (strm * Z)) : Prop :=
  forall s st, In (s, st) l -> st_kind s = sDATA \/ st_kind s = second_kind k -> 0 < st_length s.
(** Places in a file are those of Go's uint64. *)
Definition places_ok (l : list (strm * Z)) : Prop := Forall (fun p => is_u64 (snd p)) l.

(** ** Dictionaries *)
(** All that the stream holds. *)
Definition exhausts (inflate : list Z -> res (list Z)) (o : opts) (f0 : stretch) (bs : list Z) : Prop :=
  exists rest, Unpacked inflate o f0 bs rest /\ fst f0 <= behind f0 rest.
(** With the lengths of the words in [fl] and the numbers of words in [fd]: a number that is
    that of no word. *)
Definition stray_index (inflate : list Z -> res (list Z)) (o : opts) (fl fd : stretch) : Prop :=
  exists bs us ds is, exhausts inflate o fl bs /\ Runs false bs us /\ unpacks inflate o fd ds /\ Runs false ds is /\
    Exists (fun i => ~ 0 <= i < zlen us) is.
Definition clean_dict (inflate : list Z -> res (list Z)) (o : opts) (file : list Z) (l : list (strm * Z)) : Prop :=
  forall p, In p l -> st_kind (fst p) = sLENGTH ->
    ~ negative_length inflate o (stretch_of file p) /\
    forall q, In q l -> st_kind (fst q) = sDATA -> ~ stray_index inflate o (stretch_of file p) (stretch_of file q).
(** A column of any kind that has all its streams, with nothing in them that crashes. *)
Definition clean_column (inflate : list Z -> res (list Z)) (o : opts) (file : list Z) (k : ckind) (l : list (strm * Z)) : Prop :=
  match k with
  | KDict => has_stream sDATA l /\ has_stream sDICT l /\ has_stream sLENGTH l /\ clean_dict inflate o file l
  | _ => complete k l /\ clean_streams inflate o file k l
  end.

(** ** Streams that are whole *)
(** Integers of which, after some runs, one has a patch behind its values. *)
Definition stray_run (bs : list Z) : Prop := exists p us q, bs = p ++ q /\ Runs true p us /\ patch_outside q.
(** Lengths of which one is negative as an int64, with the bytes of those before it in [data]. *)
Definition reached_length (bs data : list Z) : Prop :=
  exists p us q a l z, bs = p ++ q /\ Runs false p us /\ us = a ++ l :: z /\ i64 l < 0 /\
    Forall (fun n => 0 <= i64 n) a /\ fold_right (fun n t => i64 n + t) 0 a <= zlen data.
(** Seconds of which, after some runs, one has a patch behind its values, with as many
    nanoseconds as seconds come before it. *)
Definition reached_patch (bs nanos : list Z) : Prop :=
  exists p us q p2 us2 q2, bs = p ++ q /\ Runs true p us /\ patch_outside q /\
    nanos = p2 ++ q2 /\ Runs false p2 us2 /\ zlen us <= zlen us2.
(** At least [n] varints. *)
Inductive Varints : nat -> list Z -> Prop :=
| V_none l : Varints O l
| V_one n l v t : run DecodeVarInt64 l = Ok (v, t) -> Varints n t -> Varints (S n) l.
(** Scales of which, after some runs, one has a patch behind its values, with the digits of
    all decimals up to the one it belongs to. *)
Definition reached_scale (bs digits : list Z) : Prop :=
  exists p us q, bs = p ++ q /\ Runs true p us /\ patch_outside q /\ Varints (S (length us)) digits.
(** All lengths of the words of a dictionary can be decoded and the bytes of the words are
    there, and one of the numbers is that of no word. *)
Definition lost_word (bs data numbers : list Z) : Prop :=
  exists us p is q, Runs false bs us /\ Forall (fun n => 0 <= i64 n) us /\ fold_right (fun n t => i64 n + t) 0 us <= zlen data /\
    numbers = p ++ q /\ Runs false p is /\ Exists (fun i => nth_error us (Z.to_nat i) = None) is.
(** There are not more than 2^64 lengths. *)
Definition countable (bs : list Z) : Prop := forall p us q, bs = p ++ q -> Runs false p us -> zlen us <= 2 ^ 64.

(** ** Streams beside a PRESENT stream *)
(** The bytes a PRESENT stream holds: a byte repeated 3 to 130 times, or 1 to 128 bytes as
    they are. *)
Inductive ByteRuns : list Z -> list Z -> Prop :=
| B_nil : ByteRuns [] []
| B_repeat bs ys c v : ByteRuns bs ys -> 0 <= c < 128 -> ByteRuns (bs ++ [c; v]) (ys ++ repeat v (Z.to_nat (c + 3)))
| B_literal bs ys l : ByteRuns bs ys -> 1 <= zlen l <= 128 -> ByteRuns (bs ++ (256 - zlen l) :: l) (ys ++ l).
(** How many of the rows whose bits these bytes are have a value. *)
Definition rows_present (ys : list Z) : nat := length (filter (fun b => b) (flat_map (bitsN 8) ys)).
(** After some runs of integers, one has a patch behind its values, and PRESENT has a row with
    a value after as many rows with values as there are integers before that run. *)
Definition present_run (bs present : list Z) : Prop :=
  exists p us q p2 ys q2, bs = p ++ q /\ Runs true p us /\ patch_outside q /\
    present = p2 ++ q2 /\ ByteRuns p2 ys /\ (length us < rows_present ys)%nat.
