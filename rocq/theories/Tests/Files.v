(** The tests of orc/file_test.go and orc/stripe_test.go (the latter's TestStripeBasic as
    a file, stream/stream_test.go below), evaluated on the model, with a stand-in for
    DEFLATE.  They are tests of the model, not claims. *)
From Verif.Model Require Import Go Codec ByteBool IntRle Chunk Stream Schema Rows Time File Column Wire Assembled.
From Verif.Spec Require Import Session ChunkSpec StreamSpec FileSpec ColumnSpec AssemblySpec EndSpec.
From Verif.Properties Require Import Columns File.
From Verif.Tests Require Import Encoding Columns.

Definition rows_of_size (n : Z) : batchOption := {| Includes := []; RowSize := n; NotCreateVector := false |}.
Definition fresh (b : batchOption) (s : td) : bvec :=
  match CreateVector b s with Ok (Some w) => batchOf w | _ => BVec 0 STRUCT None [] end.
(** for !end { end, err = br.Next(batch); vector = append(vector, column...) } *)
Fixpoint iterate (fuel : nat) (id : Z) (r : fileR colstats) (b : batchRd) (v : bvec) : res (list value) :=
  match fuel with
  | O => Err
  | S f => let! (b', v', e) := batchNext toy_inflate r b v in
           if (e : bool) then Ok (held id v') else let! l := iterate f id r b' v' in Ok (held id v' ++ l)
  end.
Definition file_test (o : opts) (StripeSize n : Z) (s : td) (v : cvec value) (id : Z) : res (list value) :=
  let! file := make o StripeSize s [v] in
  let! (r, b) := openBatches toy_inflate (rows_of_size n) file in
  iterate 100 id r b (fresh (rows_of_size n) s).
Definition StripeDefault : Z := 268435456.

(** TestStruct *)
Definition struct_schema : td := Td 0 STRUCT [[120]; [121]] 0 false [Td 1 INT [] 2 false []; Td 2 STRING [] 2 false []].
Definition struct_vec : cvec value :=
  CVec 0 None [CVec 1 (Some (null_at [] GInt32 150)) []; CVec 2 (Some (null_at [] string_n 150)) []].
Example file_struct : gives (file_test zdef StripeDefault 150 struct_schema struct_vec 1) (null_at [] GInt32 150) = true /\
  gives (file_test zdef StripeDefault 150 struct_schema struct_vec 2) (null_at [] string_n 150) = true.
Proof. vm_compute. split; reflexivity. Qed.
(** TestString: "string 0 Because the number of nanoseconds often has a large number of
    trailing zeros", ...; the test does not set HasNulls.  TestMultipleStripes: the same
    with other sizes. *)
Definition long_string (i : Z) : gval :=
  GString ([115; 116; 114; 105; 110; 103; 32] ++ digits 5 i ++ repeat 66 75).
Definition z5000 : opts := {| CompressionKind := ZLIB; ChunkSize := 5000; WriteIndex := false |}.
Definition z8000 : opts := {| CompressionKind := ZLIB; ChunkSize := 8000; WriteIndex := false |}.
Definition string_schema : td := Td 0 STRING [] 2 false [].
Example file_string : gives (file_test z5000 10000 100 string_schema (CVec 0 (Some (null_at [] long_string 100)) []) 0) (null_at [] long_string 100) = true.
Proof. vm_compute. reflexivity. Qed.
Example file_stripes : gives (file_test z8000 10000 1000 string_schema (CVec 0 (Some (null_at [] long_string 1000)) []) 0) (null_at [] long_string 1000) = true /\
  (let! file := make z8000 10000 string_schema [CVec 0 (Some (null_at [] long_string 1000)) []] in
   let! (r, b) := openBatches toy_inflate (rows_of_size 1000) file in Ok (map NumberOfRows (fr_stripes r))) = Ok [119; 118; 118; 118; 118; 118; 118; 118; 55].
Proof. vm_compute. split; reflexivity. Qed.
(** TestStructWithPresents *)
Definition presents_schema : td := Td 0 STRUCT [[99]] 0 true [Td 1 INT [] 2 false []].
Definition presents_vec : cvec value :=
  CVec 0 (Some (null_at [0; 45; 99] (fun _ => GNil) 100)) [CVec 1 (Some (null_at [0; 45; 99] GInt32 100)) []].
Example file_presents : gives (file_test zdef StripeDefault 100 presents_schema presents_vec 1) (null_at [0; 45; 99] GInt32 100) = true /\
  (let! l := file_test zdef StripeDefault 100 presents_schema presents_vec 0 in Ok (map Null l)) = Ok (map Null (null_at [0; 45; 99] GInt32 100)).
Proof. vm_compute. split; reflexivity. Qed.
(** TestStripeBasic *)
Example file_bytes : gives (file_test zdef StripeDefault 104 (Td 0 BYTE [] 0 false []) (CVec 0 (Some (null_at [] GByte 104)) []) 0) (null_at [] GByte 104) = true.
Proof. vm_compute. reflexivity. Qed.

(** ** stream/stream_test.go *)
Fixpoint next_n {A B} (next : A -> res (B * A)) (n : nat) (r : A) : res (list B * A) :=
  match n with O => Ok ([], r) | S m => let! (x, r1) := next r in let! (l, r2) := next_n next m r1 in Ok (x :: l, r2) end.
Definition byte_stream (o : opts) (vs : list Z) : res (list Z * bool) :=
  let! w := writeStream toy_deflate byte_Encode byte_Flush o (newWriter (NewByteEncoder false)) vs in
  let! (l, r) := next_n (v_Next toy_inflate o DecodeByteRL) (length vs) (newVreader (newReader (stored o w) 0 (w_length w))) in
  Ok (l, v_Finished r).
Definition none60 : opts := {| CompressionKind := NONE; ChunkSize := 60; WriteIndex := false |}.
Definition zlib60 : opts := {| CompressionKind := ZLIB; ChunkSize := 60; WriteIndex := false |}.
(** TestNoCompression, TestCompression, TestMultiChunkWithCompression *)
Example stream_none : byte_stream none60 (repeat 1 200) = Ok (repeat 1 200, true).
Proof. vm_compute. reflexivity. Qed.
Example stream_zlib : byte_stream zdef (repeat 1 100 ++ upto 200) = Ok (repeat 1 100 ++ upto 200, true) /\
  byte_stream zlib60 (repeat 1 100 ++ upto 200) = Ok (repeat 1 100 ++ upto 200, true).
Proof. vm_compute. split; reflexivity. Qed.
(** TestBoolWithCompression *)
Definition some_bools : list bool := map (fun i => negb (existsb (Z.eqb i) [0; 45; 98])) (upto 100).
Example stream_bool : (let! w := writeStream toy_deflate bool_Encode bool_Flush zdef (newWriter (NewBoolEncoder false)) some_bools in
  let! (l, _) := next_n (bool_Next toy_inflate zdef) 100 (newBoolReader (newReader (stored zdef w) 0 (w_length w))) in Ok l) = Ok some_bools.
Proof. vm_compute. reflexivity. Qed.
