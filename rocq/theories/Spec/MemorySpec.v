(** Memory asked for on behalf of a file. *)
From Verif.Model Require Import Go Chunk Stream Schema File Column Wire Assembled.
From Verif.Spec Require Import OpenSpec.

(** No buffer longer than the file. *)
Definition modest (file : list Z) (l : list Z) : Prop := Forall (fun n => n <= zlen file) l.

(** What a number asked for can come from: it is no more than the file has bytes or a chunk
    can have; or it is stated in the file: *)
Inductive stated (inflate : list Z -> res (list Z)) (file : list Z) (n : Z) : Prop :=
| SSmall : n <= zlen file \/ n < 2 ^ 23 -> stated inflate file n
| STail ps : (* what postscript, footer and metadata need besides the last 16 KiB *)
    postscript_of file ps ->
    n = i64 (ps_length file + 1 + p_footerLength ps + p_metadataLength ps - Z.min (zlen file) 16384) -> stated inflate file n
| SBlock ps : (* the size of a chunk *)
    postscript_of file ps -> p_compression ps <> NONE -> n = p_blockSize ps -> stated inflate file n
| SFooter r i : (* the length of the footer of a stripe *)
    newFileReader inflate cs_hasNull unmarshalPS unmarshalFooter file = Ok r -> In i (fr_stripes r) -> n = FooterLength i -> stated inflate file n
| SIndex r i sf s : (* the length of an index *)
    newFileReader inflate cs_hasNull unmarshalPS unmarshalFooter file = Ok r -> In i (fr_stripes r) ->
    (let! x := unframe inflate (fr_kind r) (ztake (FooterLength i) (zdrop (i64 (Offset i + IndexLength i + DataLength i)) file)) in unmarshalSF x) = Ok sf ->
    In s (sf_streams sf) -> st_kind s = 6 -> n = st_length s -> stated inflate file n.

(** The PRESENT and DATA streams of the columns asked for, in the streams of a stripe
    (column numbers are unsigned). *)
Definition needed (b : batchOption) (l : list (strm * Z)) : list (strm * Z) :=
  filter (fun q => ((st_kind (fst q) =? 0) || (st_kind (fst q) =? 1)) &&
                   ((0 <=? st_column (fst q)) && IsInclude b (st_column (fst q)))) l.
