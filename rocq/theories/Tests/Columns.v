(** The tests of orc/column/column_test.go, evaluated on the model, with a stand-in for
    DEFLATE.  TestColumnDecimal64 and TestColumnTimestampWithPresents, which expect the
    values in the batch, fail in the model as they do by the text of the code (C37):
    the last two examples. *)
From Verif.Model Require Import Go Codec ByteBool IntRle Chunk Stream Time File Column.
From Verif.Spec Require Import Session ChunkSpec ColumnSpec SeekSpec.
From Verif.Properties Require Import Columns.
From Verif.Tests Require Import Encoding.

Definition zdef : opts := {| CompressionKind := ZLIB; ChunkSize := 262144; WriteIndex := false |}.
Definition zindex : opts := {| CompressionKind := ZLIB; ChunkSize := 262144; WriteIndex := true |}.

(** Write the rows as one column, open a reader with the index of the writer, do [ops],
    read [n] rows into values [old]. *)
Definition column_test (o : opts) (stride : Z) (k : ckind) (hn : bool) (vs : list value) (ops : list rop) (old : gval) (n : nat) : res (list value) :=
  let! (bs, infos, c) := writeColumn toy_deflate fl o stride (newColW o 0 k hn) vs in
  let! r := InitStreams bs (newColR k hn) (offsets 0 infos) in
  let! r1 := rops toy_inflate o (if WriteIndex o then setIndex (map fst (cw_index c)) r else r) ops in
  let! (out, _) := NextBatch toy_inflate o r1 (repeat (val old) n) in Ok out.
Definition gval_eqb (a b : gval) : bool :=
  match a, b with
  | GInt64 x, GInt64 y | GInt32 x, GInt32 y | GByte x, GByte y | GFloat x, GFloat y => x =? y
  | GBool x, GBool y => Bool.eqb x y
  | GString x, GString y => same x y
  | _, _ => false
  end.
Fixpoint rows_eqb (a b : list (option gval)) : bool :=
  match a, b with
  | [], [] => true
  | None :: s, None :: t => rows_eqb s t
  | Some x :: s, Some y :: t => gval_eqb x y && rows_eqb s t
  | _, _ => false
  end.
Definition gives (r : res (list value)) (vs : list value) : bool := match r with Ok out => rows_eqb (rows_of out) (rows_of vs) | _ => false end.
Definition null_at (l : list Z) (f : Z -> gval) (n : nat) : list value :=
  map (fun i => if existsb (Z.eqb i) l then vnull else val (f i)) (upto n).

(** TestIntV2 *)
Example int_v2 : gives (column_test zindex 200 KLong false (null_at [] GInt64 1000) [] GNil 1000) (null_at [] GInt64 1000) = true /\
  column_test zindex 200 KLong false (null_at [] GInt64 1000) [RRead (blank 1000); RSeek 1; RSkip 100] GNil 1 = Ok [val (GInt64 300)] /\
  column_test zindex 200 KLong false (null_at [] GInt64 1000) [RSeek 3] GNil 1 = Ok [val (GInt64 600)] /\
  column_test zindex 200 KLong false (null_at [] GInt64 1000) [RSeek 4; RSkip 50] GNil 1 = Ok [val (GInt64 850)].
Proof. vm_compute. repeat split. Qed.
(** TestIntV2WithPresents *)
Example int_v2_presents : gives (column_test zdef 1000 KLong true (null_at [0; 45; 102] GInt64 104) [] GNil 104) (null_at [0; 45; 102] GInt64 104) = true.
Proof. vm_compute. reflexivity. Qed.
(** TestBool *)
Definition bools : list value := map (fun i => val (GBool (negb (existsb (Z.eqb i) [0; 45; 1033])))) (upto 1034).
Example bool_column : gives (column_test zindex 130 KBool false bools [] GNil 1034) bools = true /\
  column_test zindex 130 KBool false bools [RRead (blank 1034); RSeek (1032 / 130); RSkip (1032 mod 130)] GNil 2 = Ok [val (GBool true); val (GBool false)].
Proof. vm_compute. split; reflexivity. Qed.
(** TestFloat; any bit patterns *)
Example float_column : gives (column_test zdef 1000 KFloat false (null_at [] (fun i => GFloat (1065353216 + i * 4097)) 100) [] GNil 100)
  (null_at [] (fun i => GFloat (1065353216 + i * 4097)) 100) = true.
Proof. vm_compute. reflexivity. Qed.
(** TestStringDirectV2, TestStringDirectV2Index: "string 0", "string 1", ... *)
Fixpoint digits (fuel : nat) (n : Z) : list Z :=
  match fuel with O => [] | S f => (if n <? 10 then [] else digits f (n / 10)) ++ [48 + n mod 10] end.
Definition string_n (n : Z) : gval := GString ([115; 116; 114; 105; 110; 103; 32] ++ digits 5 n).
Example string_column : gives (column_test zdef 1000 KString false (null_at [] string_n 100) [] GNil 100) (null_at [] string_n 100) = true /\
  column_test zindex 200 KString false (null_at [] string_n 1000) [RSeek 1; RSkip 100] GNil 1 = Ok [val (string_n 300)].
Proof. vm_compute. split; reflexivity. Qed.
(** TestByteWithPresents, TestByteOnIndex, TestByteOnIndexWithPresents *)
Example byte_column : gives (column_test zdef 1000 KByte true (null_at [0; 45; 98] GByte 150) [] GNil 150) (null_at [0; 45; 98] GByte 150) = true /\
  gives (column_test zindex 130 KByte false (null_at [] GByte 150) [] GNil 150) (null_at [] GByte 150) = true /\
  column_test zindex 130 KByte false (null_at [] GByte 150) [RRead (blank 150); RSeek 1] GNil 1 = Ok [val (GByte 130)] /\
  column_test zindex 130 KByte false (null_at [] GByte 150) [RSeek 1; RRead (blank 1); RSkip 9] GNil 1 = Ok [val (GByte 140)] /\
  column_test zindex 130 KByte true (null_at [0; 129] GByte 150) [RSeek 1; RSkip 10] GNil 1 = Ok [val (GByte 140)].
Proof. vm_compute. repeat split. Qed.
(** TestColumnDecimal64, TestColumnTimestampWithPresents: the batch keeps what it had. *)
Example decimal_column : column_test zdef 1000 KDecimal false (null_at [] (fun i => GDecimal i 2) 100) [] (GDecimal 0 0) 100 = Ok (repeat (val (GDecimal 0 0)) 100).
Proof. vm_compute. reflexivity. Qed.
Definition some_time (i : Z) : gval := GTimestamp {| ts_loc := 0; ts_seconds := 1000 + i; ts_nanos := 5 * i |}.
Example timestamp_column : (let! l := column_test zdef 1000 KTimestamp true (null_at [0; 45; 99] some_time 100) [] (some_time 0) 100 in Ok (rows_of l)) =
  Ok (rows_of (null_at [0; 45; 99] (fun _ => some_time 0) 100)).
Proof. vm_compute. reflexivity. Qed.
