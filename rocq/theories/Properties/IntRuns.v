(** Integer run-length streams: single runs, whole streams, malformed input, and the
    ORC specification. *)
From Coq Require Import Sorting.Sorted.
From Verif.Model Require Import Go Codec IntRle.
From Verif.Spec Require Import Bits Session IntSpec OrcInt PatchSpec.
From Verif.Proofs Require Import IntClaimsP IntStreamP IntRunsP OrcIntP IntFaultsP PatchIffP IntNearP PatchPanicP PatchWideP.

(** ** C08: directly packed runs *)

(** Any run of 1 to 512 words, not all zero, whatever follows it in the stream. *)
Theorem C08_direct_run_partial : forall signed values rest,
  Forall is_u64 values -> 1 <= zlen values <= 512 -> ~ Forall (fun v => v = 0) values ->
  exists o, writeDirect values true = Ok o /\ bytes o /\
    run (decode signed) (o ++ rest) = Ok (values, rest).
Proof. exact direct_run. Qed.
Print Assumptions C08_direct_run_partial.

(** The same for signed integers, through the zigzag mapping. *)
Theorem C08_direct_run_signed_partial : forall values rest,
  Forall is_i64 values -> 1 <= zlen values <= 512 -> ~ Forall (fun v => v = 0) values ->
  exists o, writeDirect (map Zigzag values) true = Ok o /\
    run DecodeInt (o ++ rest) = Ok (values, rest).
Proof. exact direct_signed. Qed.
Print Assumptions C08_direct_run_signed_partial.

(** Missing case, refuted: a run of zeros is written as a bare header; whatever its
    length, decoding it reports an error. *)
Theorem C08_direct_zeros_refuted : forall signed values,
  Forall (fun v => v = 0) values -> 1 <= zlen values <= 512 ->
  exists h0 h1, writeDirect values true = Ok [h0; h1] /\ run (decode signed) [h0; h1] = Err.
Proof. exact writeDirect_zeros. Qed.
Print Assumptions C08_direct_zeros_refuted.

Example C08_case : writeDirect [23713; 57005; 43806; 48879] true = Ok [94; 3; 92; 161; 222; 173; 171; 30; 190; 239]
  /\ run (decode false) ([94; 3; 92; 161; 222; 173; 171; 30; 190; 239] ++ [7]) = Ok ([23713; 57005; 43806; 48879], [7]).
Proof. split; vm_compute; reflexivity. Qed.
Example C08_zero_case : writeDirect [0; 0] true = Ok [64; 1].
Proof. vm_compute. reflexivity. Qed.

(** ** C09: repeated runs *)

(** Exactly the values without a zero byte below their leading byte survive. *)
Theorem C09_short_repeat_iff_partial : forall signed r x, 3 <= r <= 10 -> is_u64 x ->
  (dense x -> run (decode signed) (writeShortRepeat (r - 3) x) = Ok (repeat x (Z.to_nat r), [])) /\
  (~ dense x -> run (decode signed) (writeShortRepeat (r - 3) x) = Err).
Proof. exact shortRepeat_iff. Qed.
Print Assumptions C09_short_repeat_iff_partial.

Theorem C09_short_repeat_partial : forall signed r x rest, 3 <= r <= 10 -> is_u64 x -> dense x ->
  run (decode signed) (writeShortRepeat (r - 3) x ++ rest) = Ok (repeat x (Z.to_nat r), rest).
Proof. exact short_run. Qed.
Print Assumptions C09_short_repeat_partial.

Theorem C09_short_repeat_refuted : exists r x, 3 <= r <= 10 /\ is_u64 x /\
  run (decode false) (writeShortRepeat (r - 3) x) <> Ok (repeat x (Z.to_nat r), []).
Proof.
  exists 5, 256. split; [split; discriminate|]. split; [split; [discriminate|reflexivity]|].
  vm_compute. discriminate.
Qed.
Print Assumptions C09_short_repeat_refuted.

Example C09_case : denseb 10000 = true /\ run (decode false) (writeShortRepeat 2 10000) = Ok (repeat 10000 5, []) /\
  writeShortRepeat 2 10000 = [10; 39; 16].
Proof. repeat (split; [vm_compute; reflexivity|]); vm_compute; reflexivity. Qed.

(** ** C10: monotone runs *)

(** Whenever the delta form is chosen, and the run is short enough for the header, then
    what is written decodes to exactly the covered values; and it is written iff
    [delta_ok] (Spec/IntSpec.v) holds, otherwise the write fails. *)
Theorem C10_delta_run_partial : forall signed values base ds,
  Forall is_u64 values -> tryDelta signed values = Some (base, ds) -> zlen ds <= 510 ->
  (delta_ok (hd 0 values) base ds = true <-> exists o, deltaRun signed values base ds = Ok o) /\
  (forall o, deltaRun signed values base ds = Ok o ->
     bytes o /\ run (decode signed) o = Ok (firstn (2 + length ds) values, [])).
Proof. exact delta_run. Qed.
Print Assumptions C10_delta_run_partial.

(** Increasing runs for which the write fails, each for another reason: a 12 bit step,
    equal values after the second one, a value of 56 bits. *)
Theorem C10_delta_run_refuted : exists base1 ds1 base2 ds2 base3 ds3,
  tryDelta false [1; 2; 4000; 7000] = Some (base1, ds1) /\ deltaRun false [1; 2; 4000; 7000] base1 ds1 = Err /\
  tryDelta false [1; 2; 2; 2] = Some (base2, ds2) /\ deltaRun false [1; 2; 2; 2] base2 ds2 = Err /\
  tryDelta false [2 ^ 57; 2 ^ 57 + 1; 2 ^ 57 + 3] = Some (base3, ds3) /\
  deltaRun false [2 ^ 57; 2 ^ 57 + 1; 2 ^ 57 + 3] base3 ds3 = Panic.
Proof. do 6 eexists. repeat (split; [vm_compute; reflexivity|]). vm_compute. reflexivity. Qed.
Print Assumptions C10_delta_run_refuted.

Example C10_case : tryDelta false [2; 3; 5; 7; 11; 13; 17; 19; 23; 29] = Some (1, [2; 2; 4; 2; 4; 2; 4; 6]) /\
  deltaRun false [2; 3; 5; 7; 11; 13; 17; 19; 23; 29] 1 [2; 2; 4; 2; 4; 2; 4; 6]
    = Ok [198; 9; 2; 2; 34; 66; 66; 70] /\
  delta_ok 2 1 [2; 2; 4; 2; 4; 2; 4; 6] = true.
Proof. repeat (split; [vm_compute; reflexivity|]); vm_compute; reflexivity. Qed.

(** ** C11: runs with outliers *)

(** [patch_ok] (Spec/IntSpec.v) is the missing generality. *)
Theorem C11_patched_run_partial : forall values p o,
  Forall is_u64 values -> tryPatch values = Ok (Some p) -> writePatch p = Ok o ->
  patch_ok values p = true ->
  bytes o /\ run DecodeInt o = Ok (map UnZigzag values, []).
Proof. exact patch_run. Qed.
Print Assumptions C11_patched_run_partial.

(** And [patch_ok] is exact: of the runs that are written in the patched form without
    error, precisely these decode to the values they were made from.  What is outside
    reads a wrong number of bytes, is refused, or loses the base. *)
Theorem C11_patched_run_iff_partial : forall values p o,
  Forall is_u64 values -> tryPatch values = Ok (Some p) -> writePatch p = Ok o ->
  (run DecodeInt o = Ok (map UnZigzag values, []) <-> patch_ok values p = true).
Proof. exact patch_iff. Qed.
Print Assumptions C11_patched_run_iff_partial.

(** The smallest integer as base: everything else is in order, and 9 bytes of base are
    announced as 1. *)
Example C11_iff_ex : let vs := map Zigzag ([- 2 ^ 63 + 1; - 2 ^ 63; - 2 ^ 63 + 2; - 2 ^ 63 + 1000000] ++
    repeat (- 2 ^ 63 + 3) 16) in
  exists p o, tryPatch vs = Ok (Some p) /\ writePatch p = Ok o /\ p_width p = 2 /\ p_gaps p = [3] /\
    patch_ok vs p = false /\ run DecodeInt o <> Ok (map UnZigzag vs, []).
Proof.
  cbv zeta. do 2 eexists. split; [vm_compute; reflexivity|]. split; [vm_compute; reflexivity|].
  split; [vm_compute; reflexivity|]. split; [vm_compute; reflexivity|]. split; [vm_compute; reflexivity|].
  vm_compute. discriminate.
Qed.

(** The only outlier at the first place; and most values equal to the minimum: the
    patched form is written, without error, and does not decode to the run. *)
Theorem C11_patched_run_refuted : exists v1 p1 o1 v2 p2 o2,
  tryPatch v1 = Ok (Some p1) /\ writePatch p1 = Ok o1 /\ run DecodeInt o1 <> Ok (map UnZigzag v1, []) /\
  patch_ok v1 p1 = false /\ 1 <= p_width p1 /\
  tryPatch v2 = Ok (Some p2) /\ writePatch p2 = Ok o2 /\ run DecodeInt o2 <> Ok (map UnZigzag v2, []) /\
  p_width p2 = 0.
Proof.
  exists (map Zigzag [100000; 1; 2; 1; 2; 1; 2; 1; 2; 1; 2; 1; 2]). do 2 eexists.
  exists (map Zigzag [1; 1; 1; 1; 1; 1; 1; 1; 1; 1; 1; 1; 5]). do 2 eexists.
  split; [vm_compute; reflexivity|]. split; [vm_compute; reflexivity|]. split; [vm_compute; discriminate|].
  split; [vm_compute; reflexivity|]. split; [vm_compute; discriminate|].
  split; [vm_compute; reflexivity|]. split; [vm_compute; reflexivity|]. split; [vm_compute; discriminate|].
  vm_compute. reflexivity.
Qed.
Print Assumptions C11_patched_run_refuted.

Example C11_case : exists p,
  tryPatch (map Zigzag [2030; 2000; 2020; 1000000; 2040; 2050; 2060; 2070; 2080; 2090; 2100; 2110; 2120; 2130;
     2140; 2150; 2160; 2170; 2180; 2190]) = Ok (Some p) /\
  writePatch p = Ok [142; 19; 43; 33; 7; 208; 30; 0; 20; 112; 40; 50; 60; 70; 80; 90; 100; 110; 120; 130; 140; 150;
     160; 170; 180; 190; 252; 232] /\
  patch_ok (map Zigzag [2030; 2000; 2020; 1000000; 2040; 2050; 2060; 2070; 2080; 2090; 2100; 2110; 2120; 2130;
     2140; 2150; 2160; 2170; 2180; 2190]) p = true.
Proof. eexists. repeat (split; [vm_compute; reflexivity|]); vm_compute; reflexivity. Qed.

(** ** C12: streams *)

(** Any number of sequences of any length, written with one encoder and flushed after
    each: if each round of the encoder stays within the forms it can write
    ([stream_ok], Spec/IntSpec.v), every output decodes to its sequence. *)
Theorem C12_int_stream_partial : forall signed p vss,
  Forall (Forall (is_int signed)) vss ->
  Forall (fun vs => stream_ok (NewIntRLV2 signed p) vs = true) vss ->
  exists os, segments int_Encode int_Flush (NewIntRLV2 signed p) vss = Ok os /\
    Forall2 (fun o vs => decode_all (DecodeFor signed) o = Ok vs) os vss.
Proof. exact int_lossless_all. Qed.
Print Assumptions C12_int_stream_partial.

(** Two families, of any length, where no further condition is needed. *)
Theorem C12_int_constant_partial : forall signed p v n, is_int signed v ->
  let raw := if signed then Zigzag v else v in dense raw -> raw < 2 ^ 56 ->
  exists e o, segment int_Encode int_Flush (NewIntRLV2 signed p) (repeat v n) = Ok (e, o) /\
    decode_all (DecodeFor signed) o = Ok (repeat v n).
Proof. exact int_constant. Qed.
Print Assumptions C12_int_constant_partial.

Theorem C12_int_increasing_partial : forall (signed : bool) p (vs : list Z),
  Sorted (fun a b => 0 < b - a < 2048) vs ->
  Forall (fun v => 0 < v < (if signed then 2 ^ 55 else 2 ^ 56)) vs ->
  exists e o, segment int_Encode int_Flush (NewIntRLV2 signed p) vs = Ok (e, o) /\
    decode_all (DecodeFor signed) o = Ok vs.
Proof. exact int_increasing. Qed.
Print Assumptions C12_int_increasing_partial.

(** In an unsigned stream also any values up to 512 of them, in any order, whose neighbours
    differ, and by less than 2048.  (For more than 512 see the refutation.) *)
Theorem C12_int_neighbours_partial : forall p (vs : list Z),
  Sorted (fun a b => a <> b /\ Z.abs (b - a) < 2048) vs -> Forall (fun v => 0 < v < 2 ^ 56) vs ->
  (length vs <= 512)%nat ->
  exists e o, segment int_Encode int_Flush (NewIntRLV2 false p) vs = Ok (e, o) /\
    decode_all (DecodeFor false) o = Ok vs.
Proof. exact int_apart. Qed.
Print Assumptions C12_int_neighbours_partial.
Example C12_neighbours_ex : let vs := [7; 5; 9; 1000; 2000; 3000; 2999; 2000; 1; 2; 1] in
  Sorted (fun a b => a <> b /\ Z.abs (b - a) < 2048) vs /\
  (let! (e, o) := segment int_Encode int_Flush (NewIntRLV2 false true) vs in decode_all (DecodeFor false) o) = Ok vs.
Proof. cbv zeta. split; [|vm_compute; reflexivity]. repeat constructor; discriminate. Qed.

(** Refuted.  A single zero.  In an unsigned stream, 600 small values alternating so that
    no prefix is a repeat or monotone: a run of more than 512 values is written.  In a
    signed stream, 512 of them: the writer aborts. *)
Theorem C12_int_stream_refuted :
  (forall signed, exists e o, segment int_Encode int_Flush (NewIntRLV2 signed true) [0] = Ok (e, o) /\
     decode_all (DecodeFor signed) o <> Ok [0]) /\
  (exists vs e o, length vs = 600%nat /\ Forall is_u64 vs /\
     segment int_Encode int_Flush (NewIntRLV2 false true) vs = Ok (e, o) /\
     decode_all (DecodeFor false) o <> Ok vs) /\
  (exists vs, length vs = 512%nat /\ Forall is_i64 vs /\
     feed int_Encode (NewIntRLV2 true true) vs = Panic).
Proof. exact stream_faults. Qed.
Print Assumptions C12_int_stream_refuted.

Example C12_case :
  stream_ok (NewIntRLV2 true true) ([5; 5; 5; 5] ++ [-3; -7; -12; 4; 9]) = true /\
  roundTrip true ([5; 5; 5; 5] ++ [-3; -7; -12; 4; 9]) = Ok [5; 5; 5; 5; -3; -7; -12; 4; 9].
Proof. split; vm_compute; reflexivity. Qed.

(** ** C13: malformed input *)

(** Unsigned decoding never aborts; signed decoding does not on the three forms other
    than the patched one; a result is never empty. *)
Theorem C13_decode_total_partial : forall signed i, bytes i ->
  (signed = true -> hd 0 i / 64 <> 2) ->
  run (decode signed) i = Err \/ exists vs r, vs <> [] /\ run (decode signed) i = Ok (vs, r).
Proof. exact decode_total_iff. Qed.
Print Assumptions C13_decode_total_partial.

(** No form, patched included, returns an empty list. *)
Theorem C13_decode_nonempty_partial : forall signed i vs r,
  bytes i -> run (decode signed) i = Ok (vs, r) -> vs <> [].
Proof. exact decode_nonempty. Qed.
Print Assumptions C13_decode_nonempty_partial.

(** Refuted: a patch beyond the end of the run aborts. *)
Theorem C13_decode_total_refuted : exists i, bytes i /\ run (decode true) i = Panic.
Proof.
  exists [128; 0; 0; 1; 0; 0; 255; 255]. split; [|vm_compute; reflexivity].
  repeat (constructor; [split; [discriminate|reflexivity]|]). constructor.
Qed.
Print Assumptions C13_decode_total_refuted.

(** Exactly which bytes abort: unsigned ones never, signed ones when they are a patched run
    with a patch outside the run. *)
Theorem C13_panic_iff : forall signed i, bytes i ->
  run (decode signed) i = Panic <-> signed = true /\ patch_outside i.
Proof. exact panic_all. Qed.
Print Assumptions C13_panic_iff.

(** So every other input is a list of values or an error. *)
Theorem C13_decode_exact_partial : forall signed i, bytes i -> ~ (signed = true /\ patch_outside i) ->
  run (decode signed) i = Err \/ exists vs r, vs <> [] /\ run (decode signed) i = Ok (vs, r).
Proof.
  intros signed i Hb Hn. destruct (run (decode signed) i) as [[vs r]| |] eqn:E.
  - right. exists vs, r. split; [exact (decode_nonempty signed i vs r Hb E)|reflexivity].
  - left. reflexivity.
  - exfalso. apply Hn. apply panic_all; assumption.
Qed.
Print Assumptions C13_decode_exact_partial.

(** A patched run of any width, whatever follows its header, does not abort when its gaps
    cannot add up to its length. *)
Theorem C13_patched_safe_partial : forall h h1 h2 h3 t, bytes (h :: h1 :: h2 :: h3 :: t) -> h / 64 = 2 ->
  (h3 mod 32) * (2 ^ (h3 / 32 + 1) - 1) < orc_length h h1 ->
  run (decode true) (h :: h1 :: h2 :: h3 :: t) <> Panic.
Proof. exact patched_safe. Qed.
Print Assumptions C13_patched_safe_partial.

(** A run of two values with one patch: gap 1 is inside, gap 2 is the first beyond; a cut
    patch list is an error. *)
Example C13_panic_ex :
  (exists vs, run (decode true) [128; 1; 0; 33; 0; 0; 64] = Ok (vs, []) /\ zlen vs = 2) /\
  run (decode true) [128; 1; 0; 33; 0; 0; 128] = Panic /\
  run (decode true) [128; 1; 0; 33; 0; 0] = Err /\
  position 2 1 (bitsOfBytes [64]) 0 = 1 /\ position 2 1 (bitsOfBytes [128]) 0 = 2 /\
  patch_outside [128; 1; 0; 33; 0; 0; 128].
Proof.
  split; [eexists; split; vm_compute; reflexivity|]. split; [vm_compute; reflexivity|]. split; [vm_compute; reflexivity|].
  split; [vm_compute; reflexivity|]. split; [vm_compute; reflexivity|].
  apply (panic_all true); [|vm_compute; reflexivity].
  repeat (constructor; [split; [discriminate|reflexivity]|]). constructor.
Qed.
(** Entries of 63 bits: seven of gap and 56 of patch.  The second entry ends two bits before
    the end of a byte, and one bit of its gap is lost: 64 becomes 0. *)
Example C13_wide_ex :
  position 7 56 (bitsN 7 0 ++ bitsN 56 0 ++ bitsN 7 64 ++ bitsN 56 1 ++ [false; false]) 1 = 0 /\
  position 7 56 (bitsN 7 0 ++ bitsN 56 0 ++ bitsN 7 32 ++ bitsN 56 1 ++ [false; false]) 1 = 32.
Proof. split; vm_compute; reflexivity. Qed.
(** A patch entry of two bits of gap in a run of four values cannot leave it. *)
Example C13_safe_ex : (33 mod 32) * (2 ^ (33 / 32 + 1) - 1) < orc_length 128 3 /\
  exists vs, run (decode true) [128; 3; 0; 33; 0; 0; 192] = Ok (vs, []) /\ zlen vs = 4.
Proof. split; [reflexivity|]. eexists. split; vm_compute; reflexivity. Qed.

Example C13_case : run (decode true) [192; 0; 255] = Err /\ run (decode false) [200; 1; 7; 4; 1] = Ok ([7; 9], [1]).
Proof. split; vm_compute; reflexivity. Qed.

(** ** C14: the ORC specification (Spec/OrcInt.v) *)

(** Runs of the repeat, direct and variable delta forms, and signed patched runs whose
    entries have at most 57 bits, and fixed delta runs whose values from the second on
    are equal. *)
Theorem C14_follows_spec_partial : forall signed i vs r,
  bytes i -> orc_run signed i = Some (vs, r) -> orc_supported signed i vs ->
  run (DecodeFor signed) i = Ok (vs, r).
Proof. exact orc_agrees. Qed.
Print Assumptions C14_follows_spec_partial.

(** Signed patched runs with entries of up to 63 bits, as long as no bit that is set is
    lost at the front of an entry; with at most 57 bits none is. *)
Theorem C14_wide_partial : forall h i vs r, bytes (h :: i) -> h / 64 = 2 ->
  orc_run true (h :: i) = Some (vs, r) -> patches_whole (h :: i) -> run (DecodeFor true) (h :: i) = Ok (vs, r).
Proof. exact whole_agrees. Qed.
Print Assumptions C14_wide_partial.

(** The patched runs that are always refused: unsigned ones, and entries of 64 bits. *)
Theorem C14_refused_partial : forall h i, bytes (h :: i) -> h / 64 = 2 ->
  run (DecodeFor false) (h :: i) = Err /\
  forall h1 h2 h3 t, i = h1 :: h2 :: h3 :: t -> 64 <= h3 / 32 + 1 + orc_width (h2 mod 32) ->
    run (DecodeFor true) (h :: i) = Err.
Proof. exact refused. Qed.
Print Assumptions C14_refused_partial.

(** Eight values and two entries of 63 bits, each with gap 1; the second loses a bit, which
    is 0. *)
Example C14_wide_ex :
  let i := [128; 7; 30; 194; 0; 0; 2; 0; 0; 0; 0; 0; 0; 2; 4; 0; 0; 0; 0; 0; 0; 4] in
  patches_whole i /\ exists vs, orc_run true i = Some (vs, []) /\ run (DecodeFor true) i = Ok (vs, []) /\ vs = [0; 2; 2; 0; 0; 0; 0; 0].
Proof.
  split.
  - intros h h1 h2 h3 t E _. injection E as <- <- <- <- <-. vm_compute. repeat split.
  - eexists. split; [vm_compute; reflexivity|]. split; vm_compute; reflexivity.
Qed.

(** Every fixed delta run decodes to its first value followed by copies of the second. *)
Theorem C14_fixed_delta_partial : forall signed h i vs r,
  bytes (h :: i) -> h / 64 = 3 -> (h / 2) mod 32 = 0 -> orc_run signed (h :: i) = Some (vs, r) ->
  exists a b t, vs = a :: b :: t /\
    run (DecodeFor signed) (h :: i) = Ok (a :: b :: repeat b (length t), r).
Proof. exact orc_fixed_delta. Qed.
Print Assumptions C14_fixed_delta_partial.

(** Refuted: 1, 2, 3, 4, 5 in the fixed delta form decodes to 1, 2, 2, 2, 2; the patched
    example of the specification is rejected in an unsigned stream; 64 bit patch entries
    are rejected; 63 bit patch entries are decoded to other values. *)
Theorem C14_follows_spec_refuted :
  (orc_run true [192; 4; 2; 2] = Some ([1; 2; 3; 4; 5], []) /\
   run (DecodeFor true) [192; 4; 2; 2] = Ok ([1; 2; 2; 2; 2], [])) /\
  (exists i vs, bytes i /\ orc_run false i = Some (vs, []) /\ run (DecodeFor false) i = Err) /\
  (exists i vs, bytes i /\ orc_run true i = Some (vs, []) /\ run (DecodeFor true) i = Err) /\
  (exists i vs ws, bytes i /\ orc_run true i = Some (vs, []) /\ run (DecodeFor true) i = Ok (ws, []) /\ vs <> ws).
Proof.
  assert (B : forall i, forallb (fun b => (0 <=? b) && (b <? 256)) i = true -> bytes i).
  { intros i H. rewrite forallb_forall in H. apply Forall_forall. intros b Hb. apply H in Hb.
    apply andb_prop in Hb. destruct Hb as [H1 H2]. apply Z.leb_le in H1. apply Z.ltb_lt in H2. split; assumption. }
  split; [split; vm_compute; reflexivity|]. split; [|split].
  - exists [142; 19; 43; 33; 7; 208; 30; 0; 20; 112; 40; 50; 60; 70; 80; 90; 100; 110; 120; 130; 140; 150; 160; 170;
       180; 190; 252; 232]. eexists. split; [apply B; vm_compute; reflexivity|].
    split; vm_compute; reflexivity.
  - exists ([128; 7; 30; 225; 0; 0] ++ [2; 0; 0; 0; 0; 0; 0; 1]). eexists. split; [apply B; vm_compute; reflexivity|].
    split; vm_compute; reflexivity.
  - exists [128; 79; 30; 194; 0; 0; 0; 0; 0; 0; 0; 0; 0; 0; 0; 2; 0; 0; 0; 0; 0; 0; 3; 0; 0; 0; 0; 0; 0; 0; 4].
    eexists. eexists. split; [apply B; vm_compute; reflexivity|].
    split; [vm_compute; reflexivity|]. split; [vm_compute; reflexivity|]. discriminate.
Qed.
Print Assumptions C14_follows_spec_refuted.

(** The four examples of the specification. *)
Example C14_case :
  orc_run false [10; 39; 16] = Some ([10000; 10000; 10000; 10000; 10000], []) /\
  orc_run false [94; 3; 92; 161; 171; 30; 222; 173; 190; 239] = Some ([23713; 43806; 57005; 48879], []) /\
  orc_run false [198; 9; 2; 2; 34; 66; 66; 70] = Some ([2; 3; 5; 7; 11; 13; 17; 19; 23; 29], []) /\
  orc_run true [142; 19; 43; 33; 7; 208; 30; 0; 20; 112; 40; 50; 60; 70; 80; 90; 100; 110; 120; 130; 140; 150; 160;
      170; 180; 190; 252; 232]
    = Some ([2030; 2000; 2020; 1000000; 2040; 2050; 2060; 2070; 2080; 2090; 2100; 2110; 2120; 2130; 2140; 2150; 2160;
      2170; 2180; 2190], []) /\
  run (DecodeFor false) [198; 9; 2; 2; 34; 66; 66; 70] = Ok ([2; 3; 5; 7; 11; 13; 17; 19; 23; 29], []).
Proof. repeat (split; [vm_compute; reflexivity|]); vm_compute; reflexivity. Qed.

(** ** C20: positions in integer streams *)
Theorem C20_int_position_partial : forall signed pre post, Forall (is_int signed) (pre ++ post) ->
  zlen (pre ++ post) < W64 ->
  stream_ok (NewIntRLV2 signed true) (pre ++ post) = true ->
  exists e1 o1 e2 o2 pos ws,
    feed int_Encode (NewIntRLV2 signed true) pre = Ok (e1, o1) /\
    segment int_Encode int_Flush e1 post = Ok (e2, o2) /\
    segment int_Encode int_Flush (NewIntRLV2 signed true) (pre ++ post) = Ok (e2, o1 ++ o2) /\
    int_GetPosition e1 = [pos] /\ 0 <= pos <= zlen pre /\
    decode_all (DecodeFor signed) o2 = Ok ws /\ pos <= zlen ws /\ zdrop pos ws = post.
Proof. exact int_position. Qed.
Print Assumptions C20_int_position_partial.

Example C20_int_case : exists e o, feed int_Encode (NewIntRLV2 false true) [7; 8; 10] = Ok (e, o) /\
  int_GetPosition e = [3] /\ stream_ok (NewIntRLV2 false true) ([7; 8; 10] ++ [12; 3; 3]) = true.
Proof. eexists. eexists. repeat (split; [vm_compute; reflexivity|]); vm_compute; reflexivity. Qed.
