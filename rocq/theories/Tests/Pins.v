(** Single values of definitions that no claim depends on: files with the statistics and
    positions of columns that are not read back, columns with nulls only, calls out of
    order.  They are tests of the model, not claims. *)
From Verif.Model Require Import Go Codec ByteBool IntRle Chunk Stream Schema Rows Time File Column Nested Tree Wire Assembled.
From Verif.Spec Require Import Session ChunkSpec StreamSpec FileSpec ColumnSpec AssemblySpec EndSpec.
From Verif.Properties Require Import Columns File.
From Verif.Tests Require Import Encoding Columns Files.

(** A batch without vectors (CreateVector with NotCreateVector, api/vector.go 55-66) has
    no room: only a page of 0 rows can be cut. *)
Example pin_reslice : reslice 0 None = Ok None /\ reslice 1 None = Panic.
Proof. split; reflexivity. Qed.
(** string.go 566-592: the statistics of a dictionary column with nulls only. *)
Example pin_dictionary_stats :
  (let! c := writeRows toy_deflate fl zl64 10 (newColW zl64 3 KDict true) [vnull; vnull] in
   let! c := c_Flush toy_deflate zl64 c in Ok (cs_detail (cw_stats c), map (fun p => w_length (snd p)) (cw_data c))) =
  Ok (Some (DString (Some []) (Some []) 0 (Some []) (Some [])), [0; 0; 0]).
Proof. vm_compute. reflexivity. Qed.
(** stream/bool.go 49-51: not finished until the last bit of the last byte. *)
Example pin_bool_finished :
  (let! (l, r1) := next_n (bool_Next toy_inflate none60) 7 (newBoolReader (newReader [255; 128] 0 2)) in
   let! (x, r2) := bool_Next toy_inflate none60 r1 in
   Ok (bool_Finished (newBoolReader (newReader [255; 128] 0 2)), bool_Finished r1, bool_Finished r2)) = Ok (false, false, true).
Proof. vm_compute. reflexivity. Qed.
(** hasNull true is written as the varint 1; the empty DoubleStatistics of timestamps. *)
Example pin_stats : encStats {| cs_values := 2; cs_hasNull := true; cs_bytes := 3; cs_detail := None; cs_stray := false |} = Ok [8; 2; 80; 1; 88; 3] /\
  encStats {| cs_values := 2; cs_hasNull := false; cs_bytes := 3; cs_detail := None; cs_stray := true |} =
  Ok ([8; 2; 26; 27; 9; 0; 0; 0; 0; 0; 0; 0; 0; 17; 0; 0; 0; 0; 0; 0; 0; 0; 25; 0; 0; 0; 0; 0; 0; 0; 0] ++ [80; 0; 88; 3]).
Proof. vm_compute. split; reflexivity. Qed.
(** The index entries of a column: positions, HasNull, number of values, whether the empty
    DoubleStatistics is there. *)
Definition entries (k : ckind) (hn : bool) (vs : list value) : res (list (list Z * bool * Z * bool)) :=
  let! c := writeRows toy_deflate fl zindex 2 (newColW zindex 1 k hn) vs in
  Ok (map (fun e => (fst e, cs_hasNull (snd e), cs_values (snd e), cs_stray (snd e))) (cw_index c)).
(** The first entry of a timestamp column carries the empty DoubleStatistics (time.go
    289-292), those after a Reset do not (writer.go 27-44). *)
Example pin_timestamp_stats : entries KTimestamp false (map (fun i => val (some_time i)) [1; 2; 3; 4; 5; 6]) =
    Ok [([0; 0; 2; 0; 0; 2], false, 1, true); ([0; 0; 4; 0; 0; 4], false, 2, false); ([0; 0; 6; 0; 0; 6], false, 2, false)] /\
  (let! c := writeRows toy_deflate fl zindex 2 (newColW zindex 1 KTimestamp false) (map (fun i => val (some_time i)) [1; 2; 3]) in
   let! c := c_Flush toy_deflate zindex c in let! (_, _, c) := c_WriteOut zindex c in let! c := c_Reset zindex c in
   Ok (cs_stray (cw_indexStats c), cs_values (cw_indexStats c), cs_bytes (cw_indexStats c), cw_indexInRows c, cw_index c)) = Ok (false, 0, 0, 0, []).
Proof. vm_compute. split; reflexivity. Qed.
(** decimal.go 83-115: with an index, writing a decimal fails. *)
Example pin_decimal_index : entries KDecimal false [val (GDecimal 1 2)] = Err /\ entries KDecimal true [vnull] = Ok [].
Proof. vm_compute. split; reflexivity. Qed.
(** api/type.go 57-120: what a new vector holds. *)
Example pin_initial : map (fun k => V (initialValue k)) [LONG; STRING; DECIMAL; TIMESTAMP] =
  [GNil; GNil; GDecimal 0 0; GTimestamp {| ts_loc := 0; ts_seconds := 0; ts_nanos := 0 |}].
Proof. reflexivity. Qed.
(** list.go 26-44 takes a PRESENT stream whatever HasNulls says, map.go 35-56 does not. *)
Example pin_list_streams : let x := {| ls_present := None; ls_length := None |} in let s := {| st_column := 1; st_kind := 0; st_length := 2 |} in
  (match any_InitStream [255; 128] (RList x None) s 0 with Ok (RList y _) => match ls_present y with Some _ => true | None => false end | _ => false end) = true /\
  any_InitStream [255; 128] (RMap false x None) s 0 = Err.
Proof. split; reflexivity. Qed.
(** WriteOut without Flush: string.go 166, 716, binary.go 106 and time.go 112 against
    int.go 140-144. *)
Definition written_out (k : ckind) : bool := match c_WriteOut zl64 (newColW zl64 1 k false) with Ok _ => true | _ => false end.
Example pin_unflushed : map written_out [KString; KDict; KBinary; KDate] = repeat true 4 /\
  map written_out [KShort; KInt; KLong; KByte; KBool; KFloat; KDouble; KTimestamp; KDecimal; KStruct] = repeat false 10.
Proof. split; reflexivity. Qed.
(** reader.go 78-90: a stripe without rows. *)
Example pin_empty_stripe : newBatchR [[1]; []] 1 = Err /\ newBatchR [[1]] 1 = Ok {| b_stripes := [newStripeR [1]]; b_index := 0; b_total := 1; b_cursor := 0 |}.
Proof. split; reflexivity. Qed.
(** stripe.go 289-314: a map with three children. *)
Example pin_map_children : let b := {| Includes := []; RowSize := 1; NotCreateVector := false |} in
  checkChildren b MAP true 0 [1; 2; 3] = Err /\ checkChildren b MAP true 0 [1; 2] = Ok tt.
Proof. split; reflexivity. Qed.

(** time.go 318-345: index statistics of timestamps start from 0 in all four numbers. *)
Example pin_timestamp_detail :
  addIndexDetail fl KTimestamp (GTimestamp {| ts_loc := 0; ts_seconds := 0; ts_nanos := 0 |}) None = Ok (Some (DTimestamp (-1420070400000) 0 0 2840140800)) /\
  addIndexDetail fl KTimestamp (GTimestamp {| ts_loc := 0; ts_seconds := 1500000000; ts_nanos := 0 |}) None = Ok (Some (DTimestamp 0 79929600000 0 4340140800)) /\
  addIndexDetail fl KTimestamp (GTimestamp {| ts_loc := 0; ts_seconds := -4000000000; ts_nanos := 0 |}) None = Ok (Some (DTimestamp (-1159859200) 0 0 0)).
Proof. vm_compute. repeat split. Qed.
(** time.Time.Sub stops at the ends of Duration. *)
Example pin_sub : Sub W63 (-1) = W63 - 1 /\ Sub (- W63) 1 = - W63.
Proof. split; reflexivity. Qed.
(** 1 as a float64. *)
Example pin_one : ofInt 1 = (2 ^ 52, -52) /\ round 0 7 = (0, 0).
Proof. split; reflexivity. Qed.
(** int.go 705-725: the width nine tenths of the values fit into; here 18 of 20. *)
Example pin_percentile :
  match tryPatch (map Zigzag (repeat 1 16 ++ [100; 100; 5000; 0])) with Ok (Some p) => Some (p_width p, p_patches p) | _ => None end = Some (7, [39]).
Proof. vm_compute. reflexivity. Qed.
(** package.go 167-186: lists and maps have the encoding DIRECT_V2. *)
Example pin_nested_encodings : map (fun e => match newAnyR MAP e false, newAnyR LIST e false with Ok _, Ok _ => true | _, _ => false end) [0; 1; 2; 3] = [false; false; true; false].
Proof. reflexivity. Qed.
(** stripe.go 253-258: the first column that is read is the root. *)
Example pin_first : firstReader 0 [None; None; Some (RList newListR None)] = Some 2.
Proof. reflexivity. Qed.
(** Encoders without positions say so by -1 (encoding/int.go 320-324, byte.go 16-21, bool.go 17-22). *)
Example pin_positions : i_position (NewIntRLV2 true false) = -1 /\ b_position (NewByteEncoder false) = -1 /\ o_position (NewBoolEncoder false) = -1 /\
  (let! (e, _) := int_Encode (NewIntRLV2 true false) 5 in Ok (i_position e)) = Ok (-1).
Proof. repeat split. Qed.
(** list.go 112-157: PRESENT has four numbers of a position, LENGTH three. *)
Example pin_list_seek :
  let r := {| ls_present := Some (newBoolReader (newReader [5; 0; 0; 255; 224] 0 5)); ls_length := Some (newVreader (newReader [7; 0; 0; 66; 2; 168] 0 6)) |} in
  match list_SeekStride toy_inflate zl64 (Some [[0; 0; 0; 0; 0; 0; 0; 9; 9]]) 1 r with Ok _ => true | _ => false end = true.
Proof. vm_compute. reflexivity. Qed.
(** string.go 485-517: a dictionary column has four numbers for PRESENT, three for DATA. *)
Example pin_dict_seek :
  let r := {| dr_hasNulls := true; dr_present := Some (newBoolReader (newReader [5; 0; 0; 255; 224] 0 5));
              dr_data := Some (newVreader (newReader [7; 0; 0; 66; 2; 168] 0 6)); dr_dict := None; dr_length := None;
              dr_strings := []; dr_loaded := true; dr_index := Some [[0; 0; 0; 0; 0; 0; 0]; [0; 0; 0; 0; 0; 0; 0]] |} in
  match dict_SeekStride toy_inflate zl64 1 r with Ok _ => true | _ => false end = true.
Proof. vm_compute. reflexivity. Qed.
(** reader.go 199-212: the rows of the stripes are added in a uint64; here to 0. *)
Example pin_seek_overflow : let s := {| sr_rows := W63; sr_cursor := 0; sr_tree := None |} in
  seekStripes toy_inflate zl64 10 (W63 + 5) 0 [s; s] = Err /\ seekStripes toy_inflate zl64 10 (W63 + 5) 0 [s; {| sr_rows := 6; sr_cursor := 0; sr_tree := None |}] = Panic.
Proof. split; reflexivity. Qed.
