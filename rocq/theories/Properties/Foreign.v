(** C57: columns of files that other writers made, as the ORC specification describes them
    (Spec/OrcColumn.v, Spec/OrcInt.v). *)
From Coq Require Import ZifyBool ZifyNat.
From Verif.Model Require Import Go Codec ByteBool IntRle Chunk Stream Time File Column.
From Verif.Spec Require Import BoolSpec Session Bits ChunkSpec StreamSpec IntSpec OrcInt ColumnSpec OrcColumn OrcFile.
From Verif.Proofs Require Import Base OrcIntP ChunkP StreamP ReadP ColumnReadP OrcColumnP.
From Verif.Properties Require Import Columns.

Notation anything := (fun _ _ _ => True) (only parsing).
Notation any_chunk := (fun _ => True) (only parsing).
Notation nonempty := (fun d => d <> []) (only parsing).

(** A column of short, int, bigint, date, tinyint, boolean, double, string or binary values
    is read back, row by row, in batches of any sizes: the streams may lie anywhere and in
    any order, cut into chunks in any way and run-length encoded in any way.
    Missing, each refuted below: floats; timestamps and decimals; integer runs outside [orc_supported] (fixed deltas
    other than 0, and patched bases in unsigned streams or of more than 57 bits); empty
    chunks; PRESENT streams in columns without nulls. *)
Theorem C57_column_reads_partial : forall inflate o, supported o -> forall file, zlen file < W64 ->
  forall l k hn rows, foreign_kind k = true -> k <> KFloat -> k <> KDict -> present_allowed k hn l ->
  orc_column orc_supported nonempty inflate o file l k rows ->
  column_reads inflate o file l k hn rows.
Proof.
  intros inflate o Ho file Hf l k hn rows Hfk Hk Hd Hp Hc.
  destruct k; try discriminate Hfk; try (apply (orc_reads inflate o Ho file Hf); [reflexivity|exact Hk|exact Hp|exact Hc]);
    try contradiction; try (apply (orc_reads_binary inflate o Ho file Hf); assumption); destruct Hc as (_ & _ & [] & _).
Qed.
Print Assumptions C57_column_reads_partial.
(** So is a string column with a dictionary (an example is C43_case). *)
Theorem C57_dictionary_reads_partial : forall inflate o, supported o -> forall file, zlen file < W64 ->
  forall l hn rows, (In 0 (kinds l) -> hn = true) ->
  orc_column orc_supported nonempty inflate o file l KDict rows ->
  dictionary_reads inflate o file l hn rows.
Proof. exact C43_reader_partial. Qed.
Print Assumptions C57_dictionary_reads_partial.

(** A string column of four rows, one of them null, in a compressed file: PRESENT last,
    lengths as a short repeat, the data in two chunks, one of them stored as it is. *)
Definition at_ (kind len off : Z) : strm * Z := ({| st_kind := kind; st_column := 1; st_length := len |}, off).
Definition words : list (option gval) := [Some (GString [97; 98]); None; Some (GString [99; 100]); Some (GString [101; 102])].
Definition words_file : list Z :=
  [79; 82; 67] ++ (le24 (2 * 4 + 1) ++ [97; 98; 99; 100]) ++ (le24 (2 * 3) ++ [2; 101; 102])
  ++ (le24 (2 * 2 + 1) ++ [0; 2]) ++ (le24 (2 * 2 + 1) ++ [255; 176]) ++ [9].
(** A DEFLATE of which these blocks are known. *)
Definition some_inflate (p : list Z) : res (list Z) :=
  match p with 2 :: d => Ok d | _ => Err end.
Definition words_streams := [at_ 1 13 3; at_ 2 5 16; at_ 0 5 21].
Example C57_words : orc_column orc_supported nonempty some_inflate zl64 words_file words_streams KString words /\
  present_allowed KString false words_streams.
Proof.
  split; [|intros _; right; cbn; auto].
  split; [cbn; repeat constructor; cbn; lia|].
  split; [intros x; cbn; lia|].
  split.
  - exists [0; 2], [[97; 98]; [99; 100]; [101; 102]]. split; [|split; [|split; [|split]]].
    + exists (fst (at_ 1 13 3)), 3, [79; 82; 67], ((le24 (2 * 4 + 1) ++ [97; 98; 99; 100]) ++ (le24 (2 * 3) ++ [2; 101; 102]) ++ []), (zdrop 16 words_file).
      split; [left; reflexivity|]. split; [reflexivity|]. split; [vm_compute; reflexivity|]. split; [reflexivity|]. split; [reflexivity|].
      split; [|repeat constructor; lia]. cbn [framed CompressionKind zl64].
      exists [[97; 98; 99; 100]; [101; 102]].
      split; [|split; [repeat constructor; discriminate|reflexivity]].
      apply (Chunked_orig _ _ [97; 98; 99; 100]); [cbn; lia|]. apply (Chunked_comp _ _ [2; 101; 102] [101; 102]); [cbn; lia..|reflexivity|]. constructor.
    + exists (fst (at_ 2 5 16)), 16, (ztake 16 words_file), ((le24 (2 * 2 + 1) ++ [0; 2]) ++ []), (zdrop 21 words_file).
      split; [right; left; reflexivity|]. split; [reflexivity|]. split; [vm_compute; reflexivity|]. split; [reflexivity|]. split; [reflexivity|].
      split; [|repeat constructor; lia]. cbn [framed CompressionKind zl64]. exists [[0; 2]].
      split; [|split; [repeat constructor; discriminate|reflexivity]].
      apply (Chunked_orig _ _ [0; 2]); [cbn; lia|]. constructor.
    + apply (orc_ints_run _ _ [0; 2] [2; 2; 2] [] []); [vm_compute; reflexivity|exact I|constructor].
    + repeat constructor.
    + reflexivity.
  - cbn [kinds words_streams]. destruct (in_dec Z.eq_dec 0 (kinds words_streams)) as [H|H]; [|exfalso; apply H; cbn; auto].
    exists [255; 176]. split.
    + exists (fst (at_ 0 5 21)), 21, (ztake 21 words_file), ((le24 (2 * 2 + 1) ++ [255; 176]) ++ []), (zdrop 26 words_file).
      split; [right; right; left; reflexivity|]. split; [reflexivity|]. split; [vm_compute; reflexivity|]. split; [reflexivity|]. split; [reflexivity|].
      split; [|repeat constructor; lia]. cbn [framed CompressionKind zl64]. exists [[255; 176]].
      split; [|split; [repeat constructor; discriminate|reflexivity]].
      apply (Chunked_orig _ _ [255; 176]); [cbn; lia|]. constructor.
    + exists [176], [false; false; false; false]. split; [|vm_compute; reflexivity].
      apply (orc_bytes_literals 255 [176] [] []); [lia|reflexivity|constructor].
Qed.
Definition opened_reads (inflate : list Z -> res (list Z)) (o : opts) (file : list Z) (l : list (strm * Z)) (k : ckind) (hn : bool)
    (vecs : list (list value)) : res (list (list (option gval))) :=
  let! r := InitStreams file (newColR k hn) l in
  let! (outs, _) := readBatches inflate o r vecs in Ok (map rows_of outs).
Example C57_words_read : opened_reads some_inflate zl64 words_file words_streams KString false [blank 3; blank 1]
  = Ok [[Some (GString [97; 98]); None; Some (GString [99; 100])]; [Some (GString [101; 102])]].
Proof. vm_compute. reflexivity. Qed.

(** A column of one stream in a file without compression. *)
Definition only_data (b : list Z) : list (strm * Z) := [at_ 1 (zlen b) 0].
Lemma only_data_column P Q b k rows : bytes b -> forallb is_some rows = true ->
  (holds Q some_inflate no64 b (only_data b) 1 b -> orc_data P Q some_inflate no64 b (only_data b) k (nonnull rows)) ->
  orc_column P Q some_inflate no64 b (only_data b) k rows.
Proof.
  intros Hb Hs H. split; [cbn; constructor; [intros []|constructor]|]. split; [intros x [<-|[]]; right; left; reflexivity|].
  split.
  - apply H. exists (fst (at_ 1 (zlen b) 0)), 0, [], b, []. split; [left; reflexivity|]. split; [reflexivity|].
    split; [rewrite app_nil_r; reflexivity|]. split; [reflexivity|]. split; [reflexivity|]. split; [reflexivity|exact Hb].
  - destruct (in_dec Z.eq_dec 0 (kinds (only_data b))) as [[E|[]]|_]; [discriminate E|exact Hs].
Qed.

(** Without the restrictions the claim is false: 1, 2, 3, 4 as a fixed delta. *)
Theorem C57_fixed_delta_refuted : exists b rows, bytes b /\
  orc_column anything nonempty some_inflate no64 b (only_data b) KLong rows /\
  ~ column_reads some_inflate no64 b (only_data b) KLong false rows.
Proof.
  exists [192; 3; 2; 2], (map (fun x => Some (GInt64 x)) [1; 2; 3; 4]).
  assert (Hb : bytes [192; 3; 2; 2]) by (repeat constructor; lia).
  split; [exact Hb|]. split.
  - apply only_data_column; [exact Hb|reflexivity|]. intros Hh. exists [192; 3; 2; 2], [1; 2; 3; 4]. split; [exact Hh|].
    split; [|reflexivity]. apply (orc_ints_run _ _ [192; 3; 2; 2] [1; 2; 3; 4] [] []); [vm_compute; reflexivity|exact I|constructor].
  - intros (r & Hr & Hall). destruct (Hall [blank 4]) as (outs & r' & Ho & Hm); [cbn; lia|repeat constructor|].
    assert (E : opened_reads some_inflate no64 [192; 3; 2; 2] (only_data [192; 3; 2; 2]) KLong false [blank 4]
      = Ok (map rows_of outs)).
    { unfold opened_reads. rewrite Hr. cbn [rbind]. rewrite Ho. reflexivity. }
    rewrite Hm in E. vm_compute in E. discriminate E.
Qed.
Print Assumptions C57_fixed_delta_refuted.

(** 1.0 as a float, little endian. *)
Theorem C57_float_refuted : exists b rows, bytes b /\
  orc_column orc_supported nonempty some_inflate no64 b (only_data b) KFloat rows /\
  ~ column_reads some_inflate no64 b (only_data b) KFloat false rows.
Proof.
  exists [0; 0; 128; 63], [Some (GFloat 1065353216)].
  assert (Hb : bytes [0; 0; 128; 63]) by (repeat constructor; lia).
  split; [exact Hb|]. split.
  - apply only_data_column; [exact Hb|reflexivity|]. intros Hh. exists [1065353216]. split; [exact Hh|].
    split; [repeat constructor; unfold is_u32; lia|reflexivity].
  - intros (r & Hr & Hall). destruct (Hall [blank 1]) as (outs & r' & Ho & Hm); [cbn; lia|repeat constructor|].
    assert (E : opened_reads some_inflate no64 [0; 0; 128; 63] (only_data [0; 0; 128; 63]) KFloat false [blank 1]
      = Ok (map rows_of outs)).
    { unfold opened_reads. rewrite Hr. cbn [rbind]. rewrite Ho. reflexivity. }
    rewrite Hm in E. vm_compute in E. discriminate E.
Qed.
Print Assumptions C57_float_refuted.

(** Timestamps and decimals: their streams are read, but a batch is left with the values
    that the client had put into it. *)
Theorem C57_batch_untouched : forall inflate o vecs r outs r', cr_kind r = KTimestamp \/ cr_kind r = KDecimal ->
  readBatches inflate o r vecs = Ok (outs, r') -> map (map V) outs = map (map V) vecs.
Proof.
  intros inflate o.
  assert (Hrow : forall c v x c', cr_kind c = KTimestamp \/ cr_kind c = KDecimal -> nextRow inflate o c v = Ok (x, c') -> V x = V v /\ cr_kind c' = cr_kind c).
  { intros c v x c' Hk H. unfold nextRow in H. apply rbind_inv in H. destruct H as ([n c1] & Hp & H).
    assert (Hk1 : cr_kind c1 = cr_kind c).
    { unfold nextPresent in Hp. destruct (cr_present c); [|congruence]. apply rbind_inv in Hp. destruct Hp as ([p b0] & _ & Hp).
      assert (c1 = setPresent b0 c) as -> by congruence. reflexivity. }
    destruct n.
    - assert (x = {| Null := true; V := V v |} /\ c' = c1) as [-> ->] by (split; congruence). auto.
    - apply rbind_inv in H. destruct H as ([g c2] & Hn & H). assert (x = {| Null := false; V := g |} /\ c' = c2) as [-> ->] by (split; congruence).
      pose proof (nextValue_same _ _ _ _ _ _ Hn) as (Hk2 & _). split; [|congruence]. cbn [V]. unfold nextValue in Hn. rewrite Hk1 in Hn.
      destruct Hk as [-> | ->] in Hn; repeat (apply rbind_inv in Hn; destruct Hn as ([? ?] & _ & Hn)); destruct (V v); congruence. }
  assert (Hbatch : forall vec c out c', cr_kind c = KTimestamp \/ cr_kind c = KDecimal -> NextBatch inflate o c vec = Ok (out, c') ->
    map V out = map V vec /\ cr_kind c' = cr_kind c).
  { induction vec as [|v t IH]; intros c out c' Hk H; cbn [NextBatch] in H.
    - assert (out = [] /\ c' = c) as [-> ->] by (split; congruence). auto.
    - apply rbind_inv in H. destruct H as ([x c1] & H1 & H). apply rbind_inv in H. destruct H as ([xs c2] & H2 & H).
      assert (out = x :: xs /\ c' = c2) as [-> ->] by (split; congruence). destruct (Hrow _ _ _ _ Hk H1) as [Hv Hk1].
      destruct (IH c1 xs c2) as [Hvs Hk2]; [rewrite Hk1; exact Hk|exact H2|]. cbn [map]. split; congruence. }
  induction vecs as [|v t IH]; intros r outs r' Hk H; cbn [readBatches] in H.
  - assert (outs = []) as -> by congruence. reflexivity.
  - apply rbind_inv in H. destruct H as ([x c1] & H1 & H). apply rbind_inv in H. destruct H as ([xs c2] & H2 & H).
    assert (outs = x :: xs) as -> by congruence. destruct (Hbatch _ _ _ _ Hk H1) as [Hv Hk1]. cbn [map]. rewrite Hv. f_equal.
    eapply IH; [|exact H2]. rewrite Hk1. exact Hk.
Qed.
Print Assumptions C57_batch_untouched.
(** Three timestamps, a second after the beginning of 2015 each. *)
Definition clock : option gval := Some (GTimestamp {| ts_loc := 0; ts_seconds := 1; ts_nanos := 0 |}).
Definition clock_file : list Z := [0; 2; 0; 0].
Definition clock_streams : list (strm * Z) := [at_ 1 2 0; at_ 5 2 2].
Theorem C57_timestamp_refuted : exists rows,
  orc_column orc_supported nonempty some_inflate no64 clock_file clock_streams KTimestamp rows /\
  ~ column_reads some_inflate no64 clock_file clock_streams KTimestamp false rows.
Proof.
  exists [clock; clock; clock]. split.
  - split; [cbn; repeat constructor; cbn; lia|]. split; [intros x; cbn; lia|]. split.
    + exists [0; 2], [1; 1; 1], [0; 0], [0; 0; 0].
      split. { exists (fst (at_ 1 2 0)), 0, [], [0; 2], [0; 0]. split; [left; reflexivity|]. repeat (split; [reflexivity|]). repeat constructor; lia. }
      split. { exists (fst (at_ 5 2 2)), 2, [0; 2], [0; 0], []. split; [right; left; reflexivity|]. repeat (split; [reflexivity|]). repeat constructor; lia. }
      split; [apply (orc_ints_run _ _ [0; 2] [1; 1; 1] [] []); [vm_compute; reflexivity|exact I|constructor]|].
      split; [apply (orc_ints_run _ _ [0; 0] [0; 0; 0] [] []); [vm_compute; reflexivity|exact I|constructor]|].
      split; [reflexivity|]. split; [repeat (constructor; [vm_compute; split; [discriminate|reflexivity]|]); constructor|].
      repeat (constructor; [exists 0; reflexivity|]). constructor.
    + destruct (in_dec Z.eq_dec 0 (kinds clock_streams)) as [[E|[E|[]]]|_]; [discriminate E..|reflexivity].
  - intros (r & Hr & Hall). set (old := {| Null := false; V := GTimestamp {| ts_loc := 0; ts_seconds := 7; ts_nanos := 8 |} |}).
    destruct (Hall [[old; old; old]]) as (outs & r' & Ho & Hm); [cbn; lia|repeat constructor|].
    assert (E : opened_reads some_inflate no64 clock_file clock_streams KTimestamp false [[old; old; old]] = Ok (map rows_of outs)).
    { unfold opened_reads. rewrite Hr. cbn [rbind]. rewrite Ho. reflexivity. }
    rewrite Hm in E. vm_compute in E. discriminate E.
Qed.
Print Assumptions C57_timestamp_refuted.
(** 5 with a scale of 1, three times. *)
Definition price_file : list Z := [10; 10; 10; 0; 2].
Definition price_streams : list (strm * Z) := [at_ 1 3 0; at_ 5 2 3].
Theorem C57_decimal_refuted : exists rows,
  orc_column orc_supported nonempty some_inflate no64 price_file price_streams KDecimal rows /\
  ~ column_reads some_inflate no64 price_file price_streams KDecimal false rows.
Proof.
  exists (repeat (Some (GDecimal 5 1)) 3). split.
  - split; [cbn; repeat constructor; cbn; lia|]. split; [intros x; cbn; lia|]. split.
    + exists [10; 10; 10], [5; 5; 5], [0; 2], [1; 1; 1].
      split. { exists (fst (at_ 1 3 0)), 0, [], [10; 10; 10], [0; 2]. split; [left; reflexivity|]. repeat (split; [reflexivity|]). repeat constructor; lia. }
      split. { exists (fst (at_ 5 2 3)), 3, [10; 10; 10], [0; 2], []. split; [right; left; reflexivity|]. repeat (split; [reflexivity|]). repeat constructor; lia. }
      split. { repeat (eapply (orc_varints_one _ 10); [reflexivity|]). constructor. }
      split; [apply (orc_ints_run _ _ [0; 2] [1; 1; 1] [] []); [vm_compute; reflexivity|exact I|constructor]|].
      split; reflexivity.
    + destruct (in_dec Z.eq_dec 0 (kinds price_streams)) as [[E|[E|[]]]|_]; [discriminate E..|reflexivity].
  - intros (r & Hr & Hall). set (old := {| Null := false; V := GDecimal 0 0 |}).
    destruct (Hall [[old; old; old]]) as (outs & r' & Ho & Hm); [cbn; lia|repeat constructor|].
    assert (E : opened_reads some_inflate no64 price_file price_streams KDecimal false [[old; old; old]] = Ok (map rows_of outs)).
    { unfold opened_reads. rewrite Hr. cbn [rbind]. rewrite Ho. reflexivity. }
    rewrite Hm in E. vm_compute in E. discriminate E.
Qed.
Print Assumptions C57_decimal_refuted.

(** Strings whose lengths, 2, 11 and 2, are stored with a patched base. *)
Definition patched_words : list (list Z) := [[97; 97]; repeat 98 11; [99; 99]].
Definition patched_file : list Z := [128; 2; 6; 1; 2; 64; 132] ++ concat patched_words.
Definition patched_streams : list (strm * Z) := [at_ 2 7 0; at_ 1 15 7].
Theorem C57_patched_lengths_refuted :
  orc_column anything nonempty some_inflate no64 patched_file patched_streams KString (map (fun s => Some (GString s)) patched_words) /\
  ~ column_reads some_inflate no64 patched_file patched_streams KString false (map (fun s => Some (GString s)) patched_words).
Proof.
  split.
  - split; [cbn; repeat constructor; cbn; lia|]. split; [intros x; cbn; lia|]. split.
    + exists [128; 2; 6; 1; 2; 64; 132], patched_words. split; [|split; [|split; [|split]]].
      * exists (fst (at_ 1 15 7)), 7, [128; 2; 6; 1; 2; 64; 132], (concat patched_words), [].
        split; [right; left; reflexivity|]. split; [reflexivity|]. split; [vm_compute; reflexivity|]. split; [reflexivity|].
        split; [reflexivity|]. split; [reflexivity|]. repeat constructor; lia.
      * exists (fst (at_ 2 7 0)), 0, [], [128; 2; 6; 1; 2; 64; 132], (concat patched_words).
        split; [left; reflexivity|]. split; [reflexivity|]. split; [vm_compute; reflexivity|]. split; [reflexivity|].
        split; [reflexivity|]. split; [reflexivity|]. repeat constructor; lia.
      * apply (orc_ints_run _ _ [128; 2; 6; 1; 2; 64; 132] [2; 11; 2] [] []); [vm_compute; reflexivity|exact I|constructor].
      * repeat constructor.
      * reflexivity.
    + destruct (in_dec Z.eq_dec 0 (kinds patched_streams)) as [[E|[E|[]]]|_]; [discriminate E..|reflexivity].
  - intros (r & Hr & Hall). destruct (Hall [blank 1]) as (outs & r' & Ho & Hm); [cbn; lia|repeat constructor|].
    assert (E : opened_reads some_inflate no64 patched_file patched_streams KString false [blank 1] = Ok (map rows_of outs)).
    { unfold opened_reads. rewrite Hr. cbn [rbind]. rewrite Ho. reflexivity. }
    vm_compute in E. discriminate E.
Qed.
Print Assumptions C57_patched_lengths_refuted.

(** An empty chunk before the chunk with the bytes. *)
Definition gap_file : list Z := (le24 (2 * 0 + 1) ++ []) ++ (le24 (2 * 2 + 1) ++ [255; 7]) ++ [].
Theorem C57_empty_chunk_refuted :
  orc_column orc_supported any_chunk some_inflate zl64 gap_file [at_ 1 8 0] KByte [Some (GByte 7)] /\
  ~ column_reads some_inflate zl64 gap_file [at_ 1 8 0] KByte false [Some (GByte 7)].
Proof.
  split.
  - split; [cbn; constructor; [intros []|constructor]|]. split; [intros x; cbn; lia|]. split.
    + exists [255; 7], [7]. split; [|split; [apply (orc_bytes_literals 255 [7] [] []); [lia|reflexivity|constructor]|reflexivity]].
      exists (fst (at_ 1 8 0)), 0, [], gap_file, []. split; [left; reflexivity|]. split; [reflexivity|].
      split; [reflexivity|]. split; [reflexivity|]. split; [reflexivity|]. split; [|repeat constructor; lia].
      exists [[]; [255; 7]]. split; [|split; [repeat constructor|reflexivity]].
      apply (Chunked_orig _ _ []); [cbn; lia|]. apply (Chunked_orig _ _ [255; 7]); [cbn; lia|]. constructor.
    + destruct (in_dec Z.eq_dec 0 (kinds [at_ 1 8 0])) as [[E|[]]|_]; [discriminate E|reflexivity].
  - intros (r & Hr & Hall). destruct (Hall [blank 1]) as (outs & r' & Ho & Hm); [cbn; lia|repeat constructor|].
    assert (E : opened_reads some_inflate zl64 gap_file [at_ 1 8 0] KByte false [blank 1] = Ok (map rows_of outs)).
    { unfold opened_reads. rewrite Hr. cbn [rbind]. rewrite Ho. reflexivity. }
    vm_compute in E. discriminate E.
Qed.
Print Assumptions C57_empty_chunk_refuted.

(** A PRESENT stream where the statistics say that there are no nulls: refused by all the
    kinds which [present_allowed] leaves out, whatever is in it. *)
Theorem C57_present_refused : forall file l k, ~ In k [KShort; KInt; KLong; KString] -> In 0 (kinds l) ->
  InitStreams file (newColR k false) l = Err.
Proof. intros file l k Hk Hi. apply present_refused; [exact Hk|reflexivity|exact Hi]. Qed.
Print Assumptions C57_present_refused.
(** So such a column is not read back. *)
Theorem C57_present_refuted : exists b l, bytes b /\
  orc_column orc_supported nonempty some_inflate no64 b l KByte [Some (GByte 7)] /\
  ~ column_reads some_inflate no64 b l KByte false [Some (GByte 7)].
Proof.
  exists [255; 128; 255; 7], [at_ 0 2 0; at_ 1 2 2]. split; [repeat constructor; lia|]. split.
  - split; [cbn; repeat constructor; cbn; lia|]. split; [intros x; cbn; lia|]. split.
    + exists [255; 7], [7]. split; [|split; [apply (orc_bytes_literals 255 [7] [] []); [lia|reflexivity|constructor]|reflexivity]].
      exists (fst (at_ 1 2 2)), 2, [255; 128], [255; 7], []. split; [right; left; reflexivity|]. split; [reflexivity|].
      split; [reflexivity|]. split; [reflexivity|]. split; [reflexivity|]. split; [reflexivity|repeat constructor; lia].
    + destruct (in_dec Z.eq_dec 0 (kinds [at_ 0 2 0; at_ 1 2 2])) as [_|H]; [|exfalso; apply H; left; reflexivity].
      exists [255; 128]. split.
      * exists (fst (at_ 0 2 0)), 0, [], [255; 128], [255; 7]. split; [left; reflexivity|]. split; [reflexivity|].
        split; [reflexivity|]. split; [reflexivity|]. split; [reflexivity|]. split; [reflexivity|repeat constructor; lia].
      * exists [128], [false; false; false; false; false; false; false]. split; [|vm_compute; reflexivity].
        apply (orc_bytes_literals 255 [128] [] []); [lia|reflexivity|constructor].
  - intros (r & Hr & _). rewrite C57_present_refused in Hr; [discriminate|cbn; intuition discriminate|left; reflexivity].
Qed.
Print Assumptions C57_present_refuted.
