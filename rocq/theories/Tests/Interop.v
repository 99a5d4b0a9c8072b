(** Files of /repo/testing read with the model: the tests of testing/interop_reader_test.go.
    These files were not written by this library.  For the compressed ones a table gives
    what each chunk inflates to.  TestSeek and TestProjection, on files of 1.9 MB and
    0.4 MB, are left out. *)
From Verif.Model Require Import Go Codec ByteBool IntRle Chunk Stream Schema Rows Time File Column Wire Assembled.
From Verif.Tests Require Import Encoding.

(** testing/basicLongNoCompression.orc *)
Definition long_file : list Z :=
  [79; 82; 67; 10; 20; 10; 2; 0; 0; 18; 14; 8; 90; 18; 8; 8; 2; 16; 160; 31; 24; 140; 36; 80; 0; 192; 10; 2; 0; 192; 8; 4; 2; 3; 2; 194; 7; 20; 1; 
149; 80; 2; 2; 134; 34; 6; 161; 1; 20; 2; 96; 129; 82; 96; 129; 82; 96; 129; 82; 96; 129; 82; 96; 129; 95; 16; 135; 224; 2; 2; 72; 5; 51; 133; 34; 
48; 2; 2; 10; 6; 8; 6; 16; 0; 24; 22; 10; 6; 8; 1; 16; 0; 24; 53; 18; 2; 8; 2; 10; 18; 10; 16; 8; 90; 18; 8; 8; 2; 16; 160; 31; 24; 140; 36; 80; 0; 
88; 53; 8; 3; 16; 98; 26; 10; 8; 3; 16; 22; 24; 53; 32; 20; 40; 90; 34; 2; 8; 4; 48; 90; 58; 16; 8; 90; 18; 8; 8; 2; 16; 160; 31; 24; 140; 36; 80; 0; 
88; 53; 64; 144; 78; 72; 0; 8; 45; 16; 0; 34; 2; 0; 12; 40; 20; 48; 7; 130; 244; 3; 3; 79; 82; 67; 19].
(** testing/patchBaseNegativeMin.orc *)
Definition patch1_file : list Z :=
  [79; 82; 67; 10; 23; 10; 2; 0; 0; 18; 17; 8; 226; 1; 18; 10; 8; 25; 16; 186; 142; 3; 24; 236; 245; 6; 80; 0; 144; 109; 4; 164; 141; 16; 131; 194; 
0; 240; 112; 64; 60; 84; 24; 3; 193; 201; 128; 120; 60; 33; 4; 244; 3; 193; 192; 224; 128; 56; 32; 15; 22; 131; 129; 225; 0; 112; 84; 86; 14; 8; 106; 
193; 192; 228; 160; 64; 32; 14; 213; 131; 193; 192; 240; 121; 124; 30; 18; 9; 132; 67; 0; 224; 120; 60; 28; 14; 32; 132; 65; 192; 240; 160; 56; 61; 
91; 7; 3; 193; 192; 240; 120; 76; 29; 23; 7; 3; 220; 192; 240; 152; 60; 52; 15; 7; 131; 129; 225; 0; 144; 56; 30; 14; 44; 140; 129; 194; 224; 120; 0; 
28; 15; 8; 6; 129; 198; 144; 128; 104; 36; 27; 11; 38; 131; 33; 48; 224; 152; 60; 111; 6; 183; 3; 112; 0; 2; 80; 5; 46; 1; 0; 64; 40; 208; 24; 1; 2; 
138; 22; 0; 65; 1; 4; 0; 225; 16; 209; 192; 4; 16; 8; 36; 16; 3; 48; 1; 3; 13; 33; 0; 176; 0; 2; 94; 18; 0; 136; 0; 66; 3; 30; 0; 2; 14; 186; 0; 50; 
0; 10; 0; 4; 0; 8; 0; 2; 0; 2; 0; 4; 0; 32; 0; 2; 23; 44; 0; 6; 0; 2; 0; 2; 199; 58; 0; 2; 140; 54; 0; 162; 1; 130; 0; 16; 112; 67; 66; 0; 2; 4; 0; 
0; 224; 0; 1; 0; 16; 64; 16; 91; 198; 1; 2; 0; 32; 144; 64; 0; 12; 2; 8; 24; 0; 64; 0; 1; 0; 0; 8; 48; 51; 128; 0; 2; 12; 16; 32; 32; 71; 128; 19; 
76; 10; 6; 8; 6; 16; 0; 24; 25; 10; 7; 8; 1; 16; 0; 24; 144; 2; 18; 2; 8; 2; 10; 22; 10; 20; 8; 226; 1; 18; 10; 8; 25; 16; 186; 142; 3; 24; 236; 245; 
6; 80; 0; 88; 144; 2; 8; 3; 16; 193; 2; 26; 12; 8; 3; 16; 25; 24; 144; 2; 32; 21; 40; 226; 1; 34; 2; 8; 4; 48; 226; 1; 58; 20; 8; 226; 1; 18; 10; 8; 
25; 16; 186; 142; 3; 24; 236; 245; 6; 80; 0; 88; 144; 2; 64; 144; 78; 72; 0; 8; 53; 16; 0; 34; 2; 0; 12; 40; 24; 48; 7; 130; 244; 3; 3; 79; 82; 67; 
19].
(** testing/patchBaseNegativeMin2.orc *)
Definition patch2_file : list Z :=
  [79; 82; 67; 10; 23; 10; 2; 0; 0; 18; 17; 8; 226; 1; 18; 10; 8; 1; 16; 186; 142; 3; 24; 132; 246; 6; 80; 0; 144; 109; 4; 164; 129; 10; 128; 192; 
128; 48; 16; 16; 36; 72; 18; 0; 192; 72; 192; 24; 12; 8; 248; 238; 0; 192; 64; 32; 32; 8; 8; 3; 16; 128; 128; 96; 64; 16; 36; 62; 2; 2; 103; 192; 64; 
36; 64; 16; 8; 2; 207; 128; 192; 64; 48; 25; 76; 6; 6; 3; 129; 65; 128; 32; 24; 12; 4; 2; 26; 129; 64; 64; 48; 64; 8; 37; 79; 1; 0; 192; 64; 48; 24; 
28; 5; 11; 1; 0; 219; 64; 48; 56; 12; 28; 3; 1; 128; 128; 96; 64; 48; 8; 6; 2; 38; 137; 128; 66; 32; 24; 0; 4; 3; 2; 3; 128; 69; 208; 32; 56; 12; 15; 
5; 35; 129; 160; 112; 128; 104; 60; 111; 6; 183; 3; 112; 0; 2; 80; 5; 46; 1; 0; 64; 40; 208; 24; 1; 2; 138; 22; 0; 65; 1; 4; 0; 225; 16; 209; 192; 4; 
16; 8; 36; 16; 3; 48; 1; 3; 13; 33; 0; 176; 0; 2; 94; 18; 0; 136; 0; 66; 3; 30; 0; 2; 14; 186; 0; 50; 0; 10; 0; 4; 0; 8; 0; 2; 0; 2; 0; 4; 0; 32; 0; 
2; 23; 44; 0; 6; 0; 2; 0; 2; 199; 58; 0; 2; 140; 54; 0; 162; 1; 130; 0; 16; 112; 67; 66; 0; 2; 4; 0; 0; 224; 0; 1; 0; 16; 64; 16; 91; 198; 1; 2; 0; 
32; 144; 64; 0; 12; 2; 8; 24; 0; 64; 0; 1; 0; 0; 8; 48; 51; 128; 0; 2; 12; 16; 32; 32; 71; 128; 19; 76; 10; 6; 8; 6; 16; 0; 24; 25; 10; 7; 8; 1; 16; 
0; 24; 144; 2; 18; 2; 8; 2; 10; 22; 10; 20; 8; 226; 1; 18; 10; 8; 1; 16; 186; 142; 3; 24; 132; 246; 6; 80; 0; 88; 144; 2; 8; 3; 16; 193; 2; 26; 12; 
8; 3; 16; 25; 24; 144; 2; 32; 21; 40; 226; 1; 34; 2; 8; 4; 48; 226; 1; 58; 20; 8; 226; 1; 18; 10; 8; 1; 16; 186; 142; 3; 24; 132; 246; 6; 80; 0; 88; 
144; 2; 64; 144; 78; 72; 0; 8; 53; 16; 0; 34; 2; 0; 12; 40; 24; 48; 7; 130; 244; 3; 3; 79; 82; 67; 19].
(** testing/patchBaseNegativeMin3.orc *)
Definition patch3_file : list Z :=
  [79; 82; 67; 10; 23; 10; 2; 0; 0; 18; 17; 8; 226; 1; 18; 10; 8; 0; 16; 186; 142; 3; 24; 134; 246; 6; 80; 0; 144; 109; 4; 164; 0; 10; 0; 128; 96; 
32; 8; 12; 34; 71; 17; 128; 128; 40; 176; 16; 8; 6; 247; 237; 128; 128; 32; 16; 24; 4; 6; 2; 16; 0; 64; 64; 48; 8; 32; 60; 1; 1; 231; 128; 32; 20; 
56; 12; 6; 1; 207; 0; 128; 32; 32; 17; 72; 4; 5; 3; 1; 1; 96; 16; 16; 8; 2; 1; 26; 1; 0; 32; 32; 56; 4; 35; 78; 0; 128; 128; 32; 32; 16; 24; 3; 10; 
0; 128; 155; 32; 32; 48; 8; 26; 2; 1; 0; 64; 64; 48; 40; 4; 4; 1; 38; 9; 64; 34; 16; 16; 0; 2; 2; 1; 131; 64; 37; 192; 24; 52; 10; 14; 4; 163; 65; 
128; 96; 120; 100; 60; 111; 6; 183; 3; 112; 0; 2; 80; 5; 46; 1; 0; 64; 40; 208; 24; 1; 2; 138; 22; 0; 65; 1; 4; 0; 225; 16; 209; 192; 4; 16; 8; 36; 
16; 3; 48; 1; 3; 13; 33; 0; 176; 0; 2; 94; 18; 0; 136; 0; 66; 3; 30; 0; 2; 14; 186; 0; 50; 0; 10; 0; 4; 0; 8; 0; 2; 0; 2; 0; 4; 0; 32; 0; 2; 23; 44; 
0; 6; 0; 2; 0; 2; 199; 58; 0; 2; 140; 54; 0; 162; 1; 130; 0; 16; 112; 67; 66; 0; 2; 4; 0; 0; 224; 0; 1; 0; 16; 64; 16; 91; 198; 1; 2; 0; 32; 144; 64; 
0; 12; 2; 8; 24; 0; 64; 0; 1; 0; 0; 8; 48; 51; 128; 0; 2; 12; 16; 32; 32; 71; 128; 19; 76; 10; 6; 8; 6; 16; 0; 24; 25; 10; 7; 8; 1; 16; 0; 24; 144; 
2; 18; 2; 8; 2; 10; 22; 10; 20; 8; 226; 1; 18; 10; 8; 0; 16; 186; 142; 3; 24; 134; 246; 6; 80; 0; 88; 144; 2; 8; 3; 16; 193; 2; 26; 12; 8; 3; 16; 25; 
24; 144; 2; 32; 21; 40; 226; 1; 34; 2; 8; 4; 48; 226; 1; 58; 20; 8; 226; 1; 18; 10; 8; 0; 16; 186; 142; 3; 24; 134; 246; 6; 80; 0; 88; 144; 2; 64; 
144; 78; 72; 0; 8; 53; 16; 0; 34; 2; 0; 12; 40; 24; 48; 7; 130; 244; 3; 3; 79; 82; 67; 19].
Definition patch1_values : list Z :=
  [20; 2; 3; 2; 1; 3; 17; 71; 35; 2; 1; 139; 2; 2; 3; 1783; 475; 2; 1; 1; 3; 1; 3; 2; 32; 1; 2; 3; 1; 8; 30; 1; 3; 414; 1; 1; 135; 3; 3; 1;
   414; 2; 1; 2; 2; 594; 2; 5; 6; 4; 11; 1; 2; 2; 1; 1; 52; 4; 1; 2; 7; 1; 17; 334; 1; 2; 1; 2; 2; 6; 1; 266; 1; 2; 217; 2; 6; 2; 13; 2; 2;
   1; 2; 3; 5; 1; 2; 1; 7244; 11813; 1; 33; 2; -13; 1; 2; 3; 13; 1; 92; 3; 13; 5; 14; 9; 141; 12; 6; 15; 25; 1; 1; 1; 46; 2; 1; 1; 141; 3;
   1; 1; 1; 1; 2; 1; 4; 34; 5; 78; 8; 1; 2; 2; 1; 9; 10; 2; 1; 4; 13; 1; 5; 4; 4; 19; 5; 1; 1; 1; 68; 33; 399; 1; 1885; 25; 5; 2; 4; 1; 1;
   2; 16; 1; 2966; 3; 1; 1; 25501; 1; 1; 1; 66; 1; 3; 8; 131; 14; 5; 1; 2; 2; 1; 1; 8; 1; 1; 2; 1; 5; 9; 2; 3; 112; 13; 2; 2; 1; 5; 10; 3;
   1; 1; 13; 2; 3; 4; 1; 3; 1; 1; 2; 1; 1; 2; 4; 2; 207; 1; 1; 2; 4; 3; 3; 2; 2; 16].
Definition patch2_values : list Z :=
  [20; 2; 3; 2; 1; 3; 17; 71; 35; 2; 1; 139; 2; 2; 3; 1783; 475; 2; 1; 1; 3; 1; 3; 2; 32; 1; 2; 3; 1; 8; 30; 1; 3; 414; 1; 1; 135; 3; 3; 1;
   414; 2; 1; 2; 2; 594; 2; 5; 6; 4; 11; 1; 2; 2; 1; 1; 52; 4; 1; 2; 7; 1; 17; 334; 1; 2; 1; 2; 2; 6; 1; 266; 1; 2; 217; 2; 6; 2; 13; 2; 2;
   1; 2; 3; 5; 1; 2; 1; 7244; 11813; 1; 33; 2; -1; 1; 2; 3; 13; 1; 92; 3; 13; 5; 14; 9; 141; 12; 6; 15; 25; 1; 1; 1; 46; 2; 1; 1; 141; 3; 1;
   1; 1; 1; 2; 1; 4; 34; 5; 78; 8; 1; 2; 2; 1; 9; 10; 2; 1; 4; 13; 1; 5; 4; 4; 19; 5; 1; 1; 1; 68; 33; 399; 1; 1885; 25; 5; 2; 4; 1; 1; 2;
   16; 1; 2966; 3; 1; 1; 25501; 1; 1; 1; 66; 1; 3; 8; 131; 14; 5; 1; 2; 2; 1; 1; 8; 1; 1; 2; 1; 5; 9; 2; 3; 112; 13; 2; 2; 1; 5; 10; 3; 1;
   1; 13; 2; 3; 4; 1; 3; 1; 1; 2; 1; 1; 2; 4; 2; 207; 1; 1; 2; 4; 3; 3; 2; 2; 16].
Definition patch3_values : list Z :=
  [20; 2; 3; 2; 1; 3; 17; 71; 35; 2; 1; 139; 2; 2; 3; 1783; 475; 2; 1; 1; 3; 1; 3; 2; 32; 1; 2; 3; 1; 8; 30; 1; 3; 414; 1; 1; 135; 3; 3; 1;
   414; 2; 1; 2; 2; 594; 2; 5; 6; 4; 11; 1; 2; 2; 1; 1; 52; 4; 1; 2; 7; 1; 17; 334; 1; 2; 1; 2; 2; 6; 1; 266; 1; 2; 217; 2; 6; 2; 13; 2; 2;
   1; 2; 3; 5; 1; 2; 1; 7244; 11813; 1; 33; 2; 0; 1; 2; 3; 13; 1; 92; 3; 13; 5; 14; 9; 141; 12; 6; 15; 25; 1; 1; 1; 46; 2; 1; 1; 141; 3; 1;
   1; 1; 1; 2; 1; 4; 34; 5; 78; 8; 1; 2; 2; 1; 9; 10; 2; 1; 4; 13; 1; 5; 4; 4; 19; 5; 1; 1; 1; 68; 33; 399; 1; 1885; 25; 5; 2; 4; 1; 1; 2;
   16; 1; 2966; 3; 1; 1; 25501; 1; 1; 1; 66; 1; 3; 8; 131; 14; 5; 1; 2; 2; 1; 1; 8; 1; 1; 2; 1; 5; 9; 2; 3; 112; 13; 2; 2; 1; 5; 10; 3; 1;
   1; 13; 2; 3; 4; 1; 3; 1; 1; 2; 1; 1; 2; 4; 2; 207; 1; 1; 2; 4; 3; 3; 2; 2; 16].

Definition table_inflate (t : list (list Z * list Z)) (l : list Z) : res (list Z) :=
  match find (fun x => same (fst x) l) t with Some x => Ok (snd x) | None => Err end.
Definition no_inflate : list Z -> res (list Z) := table_inflate [].
Definition all_columns : batchOption := {| Includes := []; RowSize := 10000; NotCreateVector := false |}.
Definition root_batch (k : tkind) : bvec := BVec 0 k (Some (repeat (initialValue k) (Z.to_nat 10000), [])) [].
(** The loop of the tests: Next until it says end. *)
Fixpoint read_all (fuel : nat) (r : fileR colstats) (b : batchRd) (v : bvec) : res (list value) :=
  match fuel with
  | O => Err
  | S f => let! (b', v', e) := batchNext no_inflate r b v in
           let out := match bv_vals v' with Some (l, _) => l | None => [] end in
           if (e : bool) then Ok out else let! rest := read_all f r b' v' in Ok (out ++ rest)
  end.
Definition read_file (file : list Z) : res (list value) :=
  let! (r, b) := openBatches no_inflate all_columns file in read_all 5 r b (root_batch LONG).
Definition ints_are (r : res (list value)) (l : list Z) : bool :=
  match r with
  | Ok vs => same (flat_map (fun v => match V v with GInt64 x => if Null v then [] else [x] | _ => [] end) vs) l && (length vs =? length l)%nat
  | _ => false
  end.

Definition ints_of (r : res (list value)) : list Z :=
  match r with Ok vs => flat_map (fun v => match V v with GInt64 x => [x] | _ => [] end) vs | _ => [] end.

(** TestBasicNoCompression; the test compares the number of values, the minimum and
    the maximum.  The sum differs from the one in the statistics of the file, 2310: the run 1, 2, ..., 10 is a
    fixed delta run and is read as 1, 2, 3, 3, ..., 3 (C14). *)
Example basic_no_compression : length (ints_of (read_file long_file)) = 90%nat /\
  fold_right Z.min 1 (ints_of (read_file long_file)) = 1 /\ fold_right Z.max 1 (ints_of (read_file long_file)) = 2000 /\
  fold_right Z.add 0 (ints_of (read_file long_file)) = 2282 /\
  firstn 10 (skipn 10 (ints_of (read_file long_file))) = [1; 2; 3; 3; 3; 3; 3; 3; 3; 3].
Proof. vm_compute. repeat split. Qed.
(** TestPatchBaseNegativeMinNoCompression, and 2 and 3 *)
Example patch_base_negative_min : ints_are (read_file patch1_file) patch1_values = true /\
  ints_are (read_file patch2_file) patch2_values = true /\ ints_are (read_file patch3_file) patch3_values = true.
Proof. vm_compute. repeat split. Qed.

(** testing/testStructs.0.12.orc *)
Definition structs_file : list Z :=
  [79; 82; 67; 19; 0; 0; 10; 7; 18; 5; 8; 128; 8; 80; 0; 31; 0; 0; 10; 13; 10; 4; 0; 0; 0; 0; 18; 5; 8; 144; 3; 80; 1; 53; 0; 0; 10; 24; 10;
   3; 0; 0; 0; 18; 17; 8; 144; 3; 18; 10; 8; 144; 3; 16; 190; 12; 24; 240; 177; 24; 80; 0; 21; 0; 0; 22; 0; 22; 255; 22; 0; 22; 255; 25; 0;
   32; 0; 0; 59; 223; 63; 129; 153; 137; 113; 88; 128; 147; 195; 194; 23; 140; 140; 0; 74; 0; 0; 227; 98; 227; 96; 19; 96; 144; 224; 225; 2;
   209; 140; 18; 66; 96; 154; 73; 66; 22; 72; 51; 0; 249; 188; 64; 154; 17; 200; 23; 22; 98; 226; 96; 128; 98; 38; 0; 79; 0; 0; 10; 37; 10;
   5; 8; 128; 8; 80; 0; 10; 7; 8; 144; 3; 80; 1; 88; 13; 10; 19; 8; 144; 3; 18; 10; 8; 144; 3; 16; 190; 12; 24; 240; 177; 24; 80; 0; 88; 19;
   186; 0; 0; 227; 96; 22; 104; 99; 148; 226; 230; 96; 22; 176; 150; 80; 80; 208; 208; 104; 224; 80; 226; 229; 224; 17; 98; 100; 148; 98;
   43; 46; 41; 42; 77; 46; 81; 226; 1; 113; 153; 164; 88; 51; 243; 242; 82; 139; 148; 152; 56; 88; 12; 26; 56; 172; 88; 57; 26; 56; 2; 24;
   172; 216; 57; 38; 48; 7; 48; 70; 240; 90; 9; 3; 25; 66; 92; 64; 66; 96; 31; 143; 196; 135; 141; 18; 1; 12; 17; 194; 14; 19; 252; 60; 24;
   0; 8; 96; 16; 1; 24; 128; 128; 16; 34; 2; 0; 12; 40; 42; 48; 7; 130; 244; 3; 3; 79; 82; 67; 23].
Definition structs_chunks : list (list Z * list Z) :=
  [([59; 223; 63; 129; 153; 137; 113; 88; 128; 147; 195; 194; 23; 140; 140; 0], [207; 143; 144; 3; 2; 1; 1; 1; 1; 1; 1; 1; 1; 1; 1; 1; 1; 1;
   1; 1; 1; 1; 1; 1; 1; 1; 1; 1; 1; 1; 1; 1; 1; 1; 1; 1; 1; 1; 1; 1; 1; 1; 1; 1; 1; 1; 1; 1; 1; 1; 1; 1; 1; 1; 1; 1; 1; 1; 1; 1; 1; 1; 1; 1;
   1; 1; 1; 1; 1; 1; 1; 1; 1; 1; 1; 1; 1; 1; 1; 1; 1; 1; 1; 1; 1; 1; 1; 1; 1; 1; 1; 1; 1; 1; 1; 1; 1; 1; 1; 1; 1; 1; 1; 1; 1; 1; 1; 1; 1; 1;
   1; 1; 1; 1; 1; 1; 1; 1; 1; 1; 1; 1; 1; 1; 1; 1; 1; 1; 1; 1; 1; 1; 1; 1; 1; 1; 1; 1; 1; 1; 1; 1; 1; 1; 1; 1; 1; 1; 1; 1; 1; 1; 1; 1; 1; 1;
   1; 1; 1; 1; 1; 1; 1; 1; 1; 1; 1; 1; 1; 1; 1; 1; 1; 1; 1; 1; 1; 1; 1; 1; 1; 1; 1; 1; 1; 1; 1; 1; 1; 1; 1; 1; 1; 1; 1; 1; 1; 1; 1; 1; 1; 1;
   1; 201; 1; 1; 1; 1; 1; 1; 1; 1; 1; 1; 1; 1; 1; 1; 1; 1; 1; 1; 1; 1; 1; 1; 1; 1; 1; 1; 1; 1; 1; 1; 1; 1; 1; 1; 1; 1; 1; 1; 1; 1; 1; 1; 1;
   1; 1; 1; 1; 1; 1; 1; 1; 1; 1; 1; 1; 1; 1; 1; 1; 1; 1; 1; 1; 1; 1; 1; 1; 1; 1; 1; 1; 1; 1; 1; 1; 1; 1; 1; 1; 1; 1; 1; 1; 1; 1; 1; 1; 1; 1;
   1; 1; 1; 1; 1; 1; 1; 1; 1; 1; 1; 1; 1; 1; 1; 1; 1; 1; 1; 1; 1; 1; 1; 1; 1; 1; 1; 1; 1; 1; 1; 1; 1; 1; 1; 1; 1; 1; 1; 1; 1; 1; 1; 1; 1; 1;
   1; 1; 1; 1; 1; 1; 1; 1; 1; 1; 1; 1; 1; 1; 1; 1; 1; 1; 1; 1; 1; 1; 1; 1; 1; 1; 1; 1; 1; 1; 1; 1; 1; 1; 1; 1; 1; 1; 1; 1; 1; 1; 1; 1; 1; 1;
   1; 1; 1; 1; 1; 1; 1; 1; 1; 1; 1; 1; 1; 1; 1; 1; 1; 1]); ([227; 98; 227; 96; 19; 96; 144; 224; 225; 2; 209; 140; 18; 66; 96; 154; 73; 66;
   22; 72; 51; 0; 249; 188; 64; 154; 17; 200; 23; 22; 98; 226; 96; 128; 98; 38; 0], [10; 6; 8; 6; 16; 0; 24; 12; 10; 6; 8; 6; 16; 1; 24; 18;
   10; 6; 8; 6; 16; 2; 24; 29; 10; 6; 8; 0; 16; 1; 24; 13; 10; 6; 8; 1; 16; 2; 24; 19; 18; 2; 8; 0; 18; 2; 8; 0; 18; 2; 8; 2]); ([227; 96;
   22; 104; 99; 148; 226; 230; 96; 22; 176; 150; 80; 80; 208; 208; 104; 224; 80; 226; 229; 224; 17; 98; 100; 148; 98; 43; 46; 41; 42; 77;
   46; 81; 226; 1; 113; 153; 164; 88; 51; 243; 242; 82; 139; 148; 152; 56; 88; 12; 26; 56; 172; 88; 57; 26; 56; 2; 24; 172; 216; 57; 38; 48;
   7; 48; 70; 240; 90; 9; 3; 25; 66; 92; 64; 66; 96; 31; 143; 196; 135; 141; 18; 1; 12; 17; 194; 14; 19; 252; 60; 24; 0], [8; 3; 16; 134; 1;
   26; 11; 8; 3; 16; 59; 24; 32; 32; 40; 40; 128; 8; 34; 13; 8; 12; 18; 1; 1; 26; 6; 115; 116; 114; 117; 99; 116; 34; 12; 8; 12; 18; 1; 2;
   26; 5; 105; 110; 110; 101; 114; 34; 2; 8; 4; 48; 128; 8; 58; 5; 8; 128; 8; 80; 0; 58; 7; 8; 144; 3; 80; 1; 88; 13; 58; 19; 8; 144; 3; 18;
   10; 8; 144; 3; 16; 190; 12; 24; 240; 177; 24; 80; 0; 88; 19; 64; 144; 78; 72; 0])].
(** testing/testTimestamp.0.12.orc *)
Definition times_file : list Z :=
  [79; 82; 67; 62; 0; 0; 227; 146; 227; 98; 99; 0; 3; 33; 17; 14; 30; 47; 62; 137; 7; 183; 102; 127; 254; 170; 171; 208; 208; 112; 117; 93;
   103; 117; 0; 3; 0; 101; 0; 0; 118; 11; 82; 196; 172; 0; 45; 36; 188; 255; 60; 48; 251; 255; 75; 61; 58; 255; 48; 231; 35; 255; 18; 48;
   113; 255; 37; 157; 75; 255; 33; 218; 228; 255; 45; 36; 188; 255; 69; 70; 174; 31; 60; 207; 47; 255; 23; 129; 26; 31; 118; 0; 0; 171; 224;
   102; 96; 96; 144; 183; 2; 18; 108; 31; 24; 239; 92; 243; 255; 193; 232; 81; 243; 240; 0; 144; 203; 192; 207; 192; 192; 40; 233; 1; 100;
   184; 174; 96; 92; 235; 192; 127; 131; 177; 182; 194; 193; 130; 49; 226; 172; 138; 7; 227; 140; 243; 215; 37; 64; 74; 24; 0; 76; 0; 0;
   227; 98; 227; 96; 19; 96; 144; 80; 226; 98; 227; 96; 4; 210; 166; 64; 154; 21; 72; 219; 9; 49; 113; 48; 73; 113; 133; 6; 235; 7; 36; 38;
   103; 166; 101; 38; 3; 0; 53; 0; 0; 10; 24; 10; 22; 8; 12; 74; 14; 24; 224; 218; 155; 243; 245; 45; 32; 128; 128; 213; 174; 137; 123; 80;
   0; 88; 115; 105; 0; 0; 8; 3; 16; 193; 1; 26; 10; 8; 3; 16; 34; 24; 115; 32; 41; 40; 12; 34; 2; 8; 9; 48; 12; 58; 22; 8; 12; 74; 14; 24;
   224; 218; 155; 243; 245; 45; 32; 128; 128; 213; 174; 137; 123; 80; 0; 88; 115; 64; 144; 78; 72; 0; 8; 55; 16; 1; 24; 128; 64; 34; 2; 0;
   12; 40; 29; 48; 7; 130; 244; 3; 3; 79; 82; 67; 22].
Definition times_chunks : list (list Z * list Z) :=
  [([227; 146; 227; 98; 99; 0; 3; 33; 17; 14; 30; 47; 62; 137; 7; 183; 102; 127; 254; 170; 171; 208; 208; 112; 117; 93; 103; 117; 0; 3; 0],
   [10; 30; 10; 6; 0; 0; 0; 0; 0; 0; 18; 20; 8; 12; 74; 14; 24; 224; 218; 155; 243; 245; 45; 32; 128; 128; 213; 174; 137; 123; 80; 0]);
   ([171; 224; 102; 96; 96; 144; 183; 2; 18; 108; 31; 24; 239; 92; 243; 255; 193; 232; 81; 243; 240; 0; 144; 203; 192; 207; 192; 192; 40;
   233; 1; 100; 184; 174; 96; 92; 235; 192; 127; 131; 177; 182; 194; 193; 130; 49; 226; 172; 138; 7; 227; 140; 243; 215; 37; 64; 74; 24; 0],
   [120; 11; 0; 0; 0; 31; 58; 0; 0; 0; 6; 240; 1; 220; 214; 79; 248; 1; 72; 124; 225; 192; 0; 0; 0; 0; 15; 0; 0; 1; 25; 72; 0; 0; 0; 69;
   168; 1; 173; 64; 15; 216; 1; 125; 120; 64; 56; 1; 88; 205; 36; 72; 1; 152; 207; 215; 24; 0; 0; 0; 0; 0]); ([227; 98; 227; 96; 19; 96;
   144; 80; 226; 98; 227; 96; 4; 210; 166; 64; 154; 21; 72; 219; 9; 49; 113; 48; 73; 113; 133; 6; 235; 7; 36; 38; 103; 166; 101; 38; 3; 0],
   [10; 6; 8; 6; 16; 0; 24; 34; 10; 6; 8; 1; 16; 0; 24; 53; 10; 6; 8; 5; 16; 0; 24; 62; 18; 2; 8; 2; 26; 10; 85; 83; 47; 80; 97; 99; 105;
   102; 105; 99])].
(** testing/testStringAndBinaryStatistics.0.12.orc *)
Definition strings_file : list Z :=
  [79; 82; 67; 17; 0; 0; 10; 6; 18; 4; 8; 4; 80; 0; 36; 0; 0; 227; 18; 229; 226; 100; 128; 1; 33; 14; 14; 102; 39; 38; 14; 185; 0; 70; 0;
   54; 0; 0; 227; 146; 227; 226; 100; 128; 1; 33; 65; 14; 102; 37; 110; 46; 230; 164; 196; 34; 33; 166; 140; 76; 9; 129; 0; 70; 0; 5; 0; 0;
   255; 224; 26; 0; 0; 99; 96; 100; 98; 102; 97; 0; 18; 32; 204; 194; 10; 0; 9; 0; 0; 70; 2; 84; 96; 5; 0; 0; 255; 208; 17; 0; 0; 102; 111;
   111; 98; 97; 114; 104; 105; 7; 0; 0; 66; 2; 248; 106; 0; 0; 45; 203; 193; 10; 0; 32; 8; 3; 80; 29; 100; 98; 151; 8; 2; 79; 253; 255; 103;
   182; 164; 195; 120; 108; 176; 48; 183; 41; 57; 226; 169; 185; 75; 228; 161; 194; 222; 168; 210; 73; 65; 123; 237; 248; 59; 234; 7; 106;
   11; 46; 12; 94; 46; 83; 0; 0; 10; 39; 10; 4; 8; 4; 80; 0; 10; 10; 8; 3; 66; 2; 8; 30; 80; 1; 88; 28; 10; 19; 8; 3; 34; 11; 10; 3; 98; 97;
   114; 18; 2; 104; 105; 24; 16; 80; 1; 88; 22; 188; 0; 0; 227; 96; 22; 88; 205; 40; 197; 197; 193; 44; 96; 39; 97; 164; 96; 161; 193; 162;
   36; 206; 193; 35; 196; 196; 200; 36; 197; 150; 84; 89; 146; 90; 108; 40; 197; 94; 92; 82; 148; 153; 151; 110; 168; 196; 196; 193; 1; 196;
   236; 6; 44; 86; 44; 28; 44; 1; 12; 86; 64; 77; 78; 76; 28; 114; 1; 140; 17; 50; 86; 194; 28; 204; 74; 220; 92; 204; 73; 137; 69; 66; 76;
   25; 153; 18; 2; 64; 65; 49; 135; 9; 126; 30; 12; 0; 8; 97; 16; 1; 24; 128; 32; 34; 2; 0; 12; 40; 44; 48; 7; 130; 244; 3; 3; 79; 82; 67;
   22].
Definition strings_chunks : list (list Z * list Z) :=
  [([227; 18; 229; 226; 100; 128; 1; 33; 14; 14; 102; 39; 38; 14; 185; 0; 70; 0], [10; 21; 10; 9; 0; 0; 0; 0; 0; 0; 0; 0; 0; 18; 8; 8; 3;
   66; 2; 8; 30; 80; 1]); ([227; 146; 227; 226; 100; 128; 1; 33; 65; 14; 102; 37; 110; 46; 230; 164; 196; 34; 33; 166; 140; 76; 9; 129; 0;
   70; 0], [10; 30; 10; 9; 0; 0; 0; 0; 0; 0; 0; 0; 0; 18; 17; 8; 3; 34; 11; 10; 3; 98; 97; 114; 18; 2; 104; 105; 24; 16; 80; 1]); ([99; 96;
   100; 98; 102; 97; 0; 18; 32; 204; 194; 10; 0], [0; 1; 2; 3; 4; 0; 1; 2; 3; 0; 1; 2; 3; 4; 5]); ([45; 203; 193; 10; 0; 32; 8; 3; 80; 29;
   100; 98; 151; 8; 2; 79; 253; 255; 103; 182; 164; 195; 120; 108; 176; 48; 183; 41; 57; 226; 169; 185; 75; 228; 161; 194; 222; 168; 210;
   73; 65; 123; 237; 248; 59; 234; 7; 106; 11; 46; 12; 94; 46], [10; 6; 8; 6; 16; 0; 24; 11; 10; 6; 8; 6; 16; 1; 24; 21; 10; 6; 8; 6; 16; 2;
   24; 30; 10; 6; 8; 0; 16; 1; 24; 5; 10; 6; 8; 1; 16; 1; 24; 16; 10; 6; 8; 2; 16; 1; 24; 7; 10; 6; 8; 0; 16; 2; 24; 5; 10; 6; 8; 1; 16; 2;
   24; 11; 10; 6; 8; 2; 16; 2; 24; 6; 18; 2; 8; 0; 18; 2; 8; 2; 18; 2; 8; 2]); ([227; 96; 22; 88; 205; 40; 197; 197; 193; 44; 96; 39; 97;
   164; 96; 161; 193; 162; 36; 206; 193; 35; 196; 196; 200; 36; 197; 150; 84; 89; 146; 90; 108; 40; 197; 94; 92; 82; 148; 153; 151; 110;
   168; 196; 196; 193; 1; 196; 236; 6; 44; 86; 44; 28; 44; 1; 12; 86; 64; 77; 78; 76; 28; 114; 1; 140; 17; 50; 86; 194; 28; 204; 74; 220;
   92; 204; 73; 137; 69; 66; 76; 25; 153; 18; 2; 64; 65; 49; 135; 9; 126; 30; 12; 0], [8; 3; 16; 171; 1; 26; 10; 8; 3; 16; 62; 24; 50; 32;
   56; 40; 4; 34; 23; 8; 12; 18; 2; 1; 2; 26; 6; 98; 121; 116; 101; 115; 49; 26; 7; 115; 116; 114; 105; 110; 103; 49; 34; 2; 8; 8; 34; 2; 8;
   7; 48; 4; 58; 4; 8; 4; 80; 0; 58; 10; 8; 3; 66; 2; 8; 30; 80; 1; 88; 28; 58; 19; 8; 3; 34; 11; 10; 3; 98; 97; 114; 18; 2; 104; 105; 24;
   16; 80; 1; 88; 22; 64; 144; 78; 72; 0])].

Definition read_once (t : list (list Z * list Z)) (file : list Z) (v : bvec) : res (Z * vtree * bool) :=
  let! (r, b) := openBatches (table_inflate t) all_columns file in
  let! (_, v', e) := batchNext (table_inflate t) r b v in Ok (Len v', view v', e).
Definition leaf (i : Z) (k : tkind) : bvec := BVec i k (Some (repeat (initialValue k) (Z.to_nat 10000), [])) [].
(** TestStructs *)
Definition structs_batch : bvec :=
  BVec 0 STRUCT None [BVec 1 STRUCT (Some (repeat (initialValue STRUCT) (Z.to_nat 10000), [])) [leaf 2 LONG]].
Definition structs_row (i : Z) : value :=
  if (i <? 200) || ((400 <=? i) && (i <? 600)) || (800 <=? i) then {| Null := true; V := GNil |} else {| Null := false; V := GInt64 i |}.
Example structs : match read_once structs_chunks structs_file structs_batch with
  | Ok (n, VT _ [VT _ [VT l _]], e) => n = 1024 /\ e = true /\ l = map structs_row (upto 1024)
  | _ => False
  end.
Proof. vm_compute. repeat split. Qed.
(** TestStringAndBinaryStatistics (commented out in the source), and the rows *)
Example strings : (let! r := newFileReader (table_inflate strings_chunks) cs_hasNull unmarshalPS unmarshalFooter strings_file in
    Ok (map (fun s => (cs_values s, cs_detail s)) (fr_stats r))) =
    Ok [(4, None); (3, Some (DBinary 15)); (3, Some (DString (Some [98; 97; 114]) (Some [104; 105]) 8 None None))] /\
  (let null := {| Null := true; V := GNil |} in let val g := {| Null := false; V := g |} in
   read_once strings_chunks strings_file (BVec 0 STRUCT None [leaf 1 BINARY; leaf 2 STRING]) =
   Ok (4, VT [] [VT [val (GBytes [0; 1; 2; 3; 4]); val (GBytes [0; 1; 2; 3]); val (GBytes [0; 1; 2; 3; 4; 5]); null] [];
                 VT [val (GString [102; 111; 111]); val (GString [98; 97; 114]); null; val (GString [104; 105])] []], true)).
Proof. vm_compute. split; reflexivity. Qed.
(** TestTimestamp: the batch keeps the values it had (C37), so the test's comparisons of
    the times fail. *)
Example timestamps : read_once times_chunks times_file (leaf 0 TIMESTAMP) = Ok (12, VT (repeat (initialValue TIMESTAMP) 12) [], true).
Proof. vm_compute. reflexivity. Qed.
