(** C72: a malformed file is refused; reading it does not crash. *)
From Coq Require Import ZifyBool ZifyNat.
From Verif.Model Require Import Go Chunk Stream Schema Rows Time File Column Wire Tree Assembled.
From Verif.Spec Require Import RowsSpec FileSpec ColumnSpec EndSpec OrcColumn OrcFile ProjectSpec ProgressSpec CrashSpec OpenSpec.
From Verif.Proofs Require Import Base SchemaP ProjectP ProgressP CrashP SoundP CrashSeekP.
From Verif.Properties Require Import Columns File Foreign ForeignFile Project Progress.

(** A file of which nothing is known but that it opened, in which every column by itself
    can be read without a crash: then no number of calls of Next crashes.  So between the
    columns and the client nothing is left that a malformed file could crash.  Missing:
    lists, maps and unions, and structs below structs with nulls (they crash, see below).
    For Seek and for opening see below.  That lengths of streams are 64-bit numbers is so in Go by
    their type. *)
Theorem C72_only_columns_crash_partial : forall inflate b file schema r x w n,
  reading inflate b file schema r x w -> tame inflate -> bytes file ->
  fr_stripes r <> [] -> not_nested b schema -> flat_nulls b schema ->
  (forall fs, stripe_footers inflate b file r fs -> Forall (fun f => lengths_ok (snd f)) fs /\
    forall f y c, In f fs -> In y (flatten schema) -> IsInclude b (td_id y) = true -> td_kind y <> STRUCT ->
      column_alone inflate (readerOpts r) file f y c -> calm inflate (readerOpts r) c) ->
  calls inflate r x (batchOf w) (repeat CNext n) <> Panic.
Proof. exact crash. Qed.
Print Assumptions C72_only_columns_crash_partial.

(** The columns of bytes, booleans, floats and doubles meet this with whatever contents. *)
Theorem C72_sturdy_partial : forall inflate b file schema r x w n,
  reading inflate b file schema r x w -> tame inflate -> bytes file ->
  fr_stripes r <> [] -> flat_nulls b schema ->
  (forall y, In y (flatten schema) -> IsInclude b (td_id y) = true -> sturdyT (td_kind y) = true) ->
  (forall fs f, stripe_footers inflate b file r fs -> In f fs -> lengths_ok (snd f) /\
    forall y, In y (flatten schema) -> IsInclude b (td_id y) = true -> td_kind y <> STRUCT -> has_stream sDATA (own (td_id y) (snd f))) ->
  calls inflate r x (batchOf w) (repeat CNext n) <> Panic.
Proof. exact crash_sturdy. Qed.
Print Assumptions C72_sturdy_partial.

(** Also with Seek between the calls, if every column by itself bears being read, taken back to
    the start of the stripe and skipped in any order, and if the file has a row index stride;
    without one every Seek to the first row crashes, see C72_seek_iff_partial.  Missing: as in
    C72_only_columns_crash_partial. *)
Theorem C72_seek_partial : forall inflate b file schema r x w l,
  reading inflate b file schema r x w -> tame inflate -> bytes file ->
  fr_stripes r <> [] -> not_nested b schema -> flat_nulls b schema -> u64 (fr_stride r) <> 0 ->
  (forall fs, stripe_footers inflate b file r fs -> Forall (fun f => lengths_ok (snd f)) fs /\
    forall f y c, In f fs -> In y (flatten schema) -> IsInclude b (td_id y) = true -> td_kind y <> STRUCT ->
      column_alone inflate (readerOpts r) file f y c -> steady inflate (readerOpts r) c) ->
  calls inflate r x (batchOf w) l <> Panic.
Proof. exact crash_seek. Qed.
Print Assumptions C72_seek_partial.
Theorem C72_seek_iff_partial : forall inflate b file schema r x w,
  reading inflate b file schema r x w -> tame inflate -> bytes file ->
  fr_stripes r <> [] -> flat_nulls b schema ->
  (forall y, In y (flatten schema) -> IsInclude b (td_id y) = true -> sturdyT (td_kind y) = true) ->
  (forall fs f, stripe_footers inflate b file r fs -> In f fs -> lengths_ok (snd f) /\
    forall y, In y (flatten schema) -> IsInclude b (td_id y) = true -> td_kind y <> STRUCT -> has_stream sDATA (own (td_id y) (snd f))) ->
  ((forall l, calls inflate r x (batchOf w) l <> Panic) <-> u64 (fr_stride r) <> 0).
Proof.
  intros inflate b file schema r x w H Ht Hf Hne Hfl Hst Hfs. split.
  - intros Hl Hs. exact (Hl _ (no_stride inflate b file schema r x w (batchOf w) H Hne Hs)).
  - intros Hs l. exact (crash_sturdy_seek inflate b file schema r x w l H Ht Hf Hne Hfl Hs Hst Hfs).
Qed.
Print Assumptions C72_seek_iff_partial.
(** They are the only ones: for every other kind there are contents of its streams that
    crash, all streams being there. *)
Definition raw64 : opts := {| CompressionKind := NONE; ChunkSize := 64; WriteIndex := false |}.
(** A patched run whose patch lies behind its values, and one length of 2^64 - 1. *)
Definition bad_run : list Z := [128; 0; 0; 1; 0; 0; 255; 255].
Definition bad_length : list Z := [56; 255; 255; 255; 255; 255; 255; 255; 255].
Definition at1 (k n : Z) : strm := {| st_column := 1; st_kind := k; st_length := n |}.
Ltac all_bytes := unfold bytes, lengths_ok, bad_run, bad_length; repeat (apply Forall_cons; [unfold is_u8, is_u64; cbn [st_length fst at1]; lia|]); apply Forall_nil.
Lemma some_tame : tame some_inflate.
Proof.
  intros x Hx. assert (H : some_inflate x = Err \/ exists d, x = 2 :: d /\ some_inflate x = Ok d).
  { destruct x as [|z d]; [left; reflexivity|]. destruct (Z.eq_dec z 2) as [->|E]; [right; exists d; split; reflexivity|left].
    destruct z as [|q|q]; try reflexivity. destruct q as [q|q|]; try reflexivity. destruct q; try reflexivity. congruence. }
  destruct H as [-> |(d & -> & ->)]; (split; [discriminate|]); intros y Hy; [discriminate|]. assert (y = d) as -> by congruence. inversion Hx; assumption.
Qed.
Theorem C72_kinds_iff : forall k, k <> KStruct -> k <> KDict ->
  ((forall inflate o file l h r, tame inflate -> (CompressionKind o = NONE -> 0 < ChunkSize o) -> bytes file -> lengths_ok l -> complete k l ->
      openColumn inflate o file (RCol (newColR k h)) l = Ok r -> calm inflate o r) <-> sturdy k = true).
Proof.
  intros k H1 H2. split.
  - intros H. destruct (sturdy k) eqn:E; [reflexivity|exfalso].
    assert (Hex : exists file l v r, bytes file /\ lengths_ok l /\ complete k l /\ openColumn some_inflate raw64 file (RCol (newColR k false)) l = Ok (RCol r) /\ cr_kind r = k /\ typed k v /\ NextBatch some_inflate raw64 r [v] = Panic).
    { destruct k; try discriminate E; try congruence;
        [exists bad_run, [(at1 1 8, 0)], (val GNil)|exists bad_run, [(at1 1 8, 0)], (val GNil)|exists bad_run, [(at1 1 8, 0)], (val GNil)
        |exists (65 :: bad_length), [(at1 1 1, 0); (at1 2 9, 1)], (val GNil)|exists (65 :: bad_length), [(at1 1 1, 0); (at1 2 9, 1)], (val GNil)
        |exists bad_run, [(at1 1 8, 0)], (val GNil)
        |exists bad_run, [(at1 1 8, 0); (at1 5 8, 0)], (initialValue TIMESTAMP)|exists (2 :: bad_run), [(at1 1 1, 0); (at1 5 8, 1)], (initialValue DECIMAL)];
      (eexists; split; [all_bytes|]; split; [all_bytes|];
       split; [split; [eexists _, _; split; [left; reflexivity|reflexivity]|first [exact I|eexists _, _; split; [right; left; reflexivity|reflexivity]]]|];
       split; [vm_compute; reflexivity|]; split; [reflexivity|]; split; [exact I|vm_compute; reflexivity]). }
    destruct Hex as (file & l & v & r & B & L & C & O & K & T & P).
    refine (H some_inflate raw64 file l false (RCol r) some_tame (fun _ => eq_refl) B L C O [v] _ P). rewrite K. constructor; [exact T|constructor].
  - intros Hk inflate o file l h r Ht Hch Hf Hl [Hd _] Ho. exact (sturdy_calm inflate o file k h l r Ht Hch Hf Hl Hd Hk Ho).
Qed.
Print Assumptions C72_kinds_iff.
(** The columns that can be read can also be sought in. *)
Theorem C72_steady_iff : forall k, k <> KStruct -> k <> KDict ->
  ((forall inflate o file l h r, tame inflate -> (CompressionKind o = NONE -> 0 < ChunkSize o) -> bytes file -> lengths_ok l -> complete k l ->
      openColumn inflate o file (RCol (newColR k h)) l = Ok r -> steady inflate o r) <-> sturdy k = true).
Proof.
  intros k H1 H2. split.
  - intros H. apply C72_kinds_iff; [exact H1|exact H2|]. intros. eapply steady_calm. eapply H; eassumption.
  - intros Hk inflate o file l h r Ht Hch Hf Hl [Hd _] Ho. exact (sturdy_steady inflate o Ht Hch file k h l r Hf Hl Hd Hk Ho).
Qed.
Print Assumptions C72_steady_iff.

(** ** Files that crash *)
Definition one (k : tkind) (e : Z) : td := Td 0 STRUCT [[97]] 0 false [Td 1 k [] e false []].
Definition three_rows : list (row value) := repeat (lone (val GNil)) 3.
Ltac opened E Ew :=
  match goal with |- exists r x w, reading _ ?b ?f ?s r x w /\ _ =>
    let r := fresh "r" in let x := fresh "x" in let w := fresh "w" in
    destruct (openBatches some_inflate b f) as [[r x]| |] eqn:E; [|exfalso; vm_compute in E; discriminate E..];
    destruct (CreateVector b s) as [[w|]| |] eqn:Ew; [|exfalso; vm_compute in Ew; discriminate Ew..];
    exists r, x, w; split;
    [constructor; [| |reflexivity|reflexivity| |exact E|exact Ew]; clear Ew; vm_compute in E; injection E as <- <-;
      [split; [reflexivity|]; intros t Ht; vm_compute in Ht;
        repeat (destruct Ht as [<-|Ht]; [split; [vm_compute; discriminate|split; [eexists; split; [vm_compute; reflexivity|split; reflexivity]|vm_compute; reflexivity]]|]); contradiction
      |split; [reflexivity|intros; reflexivity]
      |split; [repeat (constructor; [vm_compute; discriminate|]); constructor|split; [reflexivity|split; [vm_compute; discriminate|reflexivity]]]]
    |vm_compute in E; injection E as <- <-; vm_compute in Ew; injection Ew as <-]
  end.
(** One column, all of whose streams are there, of which the first Next crashes. *)
Definition crashes (k : tkind) (e : Z) (ps : list piece) : Prop :=
  exists r x w, reading some_inflate by_three (foreign_file (one k e) [(ps, three_rows)]) (one k e) r x w /\
    fr_stripes r <> [] /\ calls some_inflate r x (batchOf w) [CNext] = Panic.
Ltac crashing := unfold crashes; let E := fresh in let Ew := fresh in opened E Ew; split; [discriminate|vm_compute; reflexivity].
Theorem C72_patched_run_refuted : crashes LONG 2 [(1, 1, bad_run)].
Proof. crashing. Qed.
Print Assumptions C72_patched_run_refuted.
Theorem C72_length_refuted : crashes STRING 2 [(1, 1, [65]); (1, 2, bad_length)].
Proof. crashing. Qed.
Print Assumptions C72_length_refuted.
(** Three words, and the sixth is asked for. *)
Theorem C72_dictionary_refuted : crashes STRING 3 [(1, 1, [0; 5]); (1, 2, [0; 1]); (1, 3, [97; 98; 99])].
Proof. crashing. Qed.
Print Assumptions C72_dictionary_refuted.
(** A stream that is not there: also for the sturdy kinds. *)
Theorem C72_missing_stream_refuted : crashes BYTE 0 [].
Proof. crashing. Qed.
Print Assumptions C72_missing_stream_refuted.
(** A struct in a struct with nulls, nothing being wrong with the file. *)
Definition deep : td := Td 0 STRUCT [[97]] 0 false [Td 1 STRUCT [[98]] 0 true [Td 2 STRUCT [[99]] 0 false [Td 3 BYTE [] 0 false []]]].
Definition deep_stripes : list (list piece * list (row value)) := [([(1, 0, [255; 224]); (3, 1, [0; 7])], three_rows)].
Theorem C72_struct_in_struct_refuted : exists r x w, reading some_inflate by_three (foreign_file deep deep_stripes) deep r x w /\
  fr_stripes r <> [] /\ calls some_inflate r x (batchOf w) [CNext] = Panic.
Proof. opened E Ew. split; [discriminate|vm_compute; reflexivity]. Qed.
Print Assumptions C72_struct_in_struct_refuted.

(** ** Opening *)
(** A file of bytes opens, or is refused, whatever is in it, if the lengths of postscript and
    footer fit, subtypes, names and statistics agree with the types, and encodings and streams
    with the columns: nothing else can crash.  Missing: files of which this is not so; each
    of these conditions is needed, see below. *)
Theorem C72_opening_partial : forall inflate b file, tame inflate -> bytes file ->
  sound inflate b file -> openBatches inflate b file <> Panic.
Proof. exact open_sound. Qed.
Print Assumptions C72_opening_partial.

(** A file without a byte. *)
Theorem C72_empty_file_refuted : openBatches some_inflate by_three [] = Panic.
Proof. vm_compute. reflexivity. Qed.
Print Assumptions C72_empty_file_refuted.
(** A postscript said to be longer than the file. *)
Theorem C72_postscript_length_refuted : openBatches some_inflate by_three [1; 2; 3; 4; 255] = Panic.
Proof. vm_compute. reflexivity. Qed.
Print Assumptions C72_postscript_length_refuted.
(** A file of one stripe without data, with types, statistics and stripe footer to choose, and
    with the length of the footer to misstate. *)
Definition made (types : list pbType) (stats : nat) (encs : list Z) (l : list strm) (more : Z) : list Z :=
  let sb := the (marshalSF {| sf_streams := l; sf_columns := encs |}) in
  let fb := the (marshalFooter {| f_headerLength := 3; f_contentLength := zlen sb;
    f_stripes := [{| Offset := 3; IndexLength := 0; DataLength := 0; FooterLength := zlen sb; NumberOfRows := 1 |}];
    f_types := types; f_rows := 1; f_stats := repeat (nulls_of false) stats; f_stride := 0 |}) in
  let pb := the (marshalPS {| p_footerLength := zlen fb + more; p_compression := NONE; p_blockSize := 64; p_metadataLength := 0 |}) in
  [79; 82; 67] ++ sb ++ fb ++ pb ++ [zlen pb].
Definition bare (subs : list Z) (names : list (list Z)) : list pbType :=
  [{| t_kind := STRUCT; t_sub := subs; t_names := names |}; {| t_kind := BYTE; t_sub := []; t_names := [] |}].
Definition outcome (b : batchOption) (file : list Z) : Z := match openBatches some_inflate b file with Ok _ => 0 | Err => 1 | Panic => 2 end.
(** This one opens; *)
Example C72_made : outcome by_three (made (bare [1] [[97]]) 2 [0; 0] [] 0) = 0.
Proof. vm_compute. reflexivity. Qed.
Lemma made_bytes : bytes (made (bare [1] [[97]]) 2 [0; 0] [at1 77 5; at1 6 (2 ^ 63)] 0).
Proof. match goal with |- bytes ?x => let y := eval vm_compute in x in change x with y end. all_bytes. Qed.
Lemma made_sound : sound some_inflate by_three (made (bare [1] [[97]]) 2 [0; 0] [at1 77 5; at1 6 (2 ^ 63)] 0).
Proof.
  match goal with |- sound _ _ ?x => let y := eval vm_compute in x in change x with y end.
  split; [discriminate|]. split; [intros _; vm_compute; reflexivity|]. intros ps Hps. vm_compute in Hps. injection Hps as <-.
  split; [vm_compute; discriminate|]. split; [left; vm_compute; reflexivity|]. intros f Hff. vm_compute in Hff. injection Hff as <-.
  split; [split; [|cbn; lia]|].
  { apply Forall_cons; [|apply Forall_cons; [|apply Forall_nil]]; (split; [cbn; repeat (apply Forall_cons; [unfold zlen; cbn; lia|]); apply Forall_nil|cbn; intros; lia]). }
  split; [intros i t c _ _ _; reflexivity|]. intros i sf [<-|[]] Hsf. vm_compute in Hsf. injection Hsf as <-.
  split; [cbn; lia|]. repeat (constructor; [cbn; lia|]). constructor.
Qed.
(** and this one, in which a stream of an unknown kind is 5 bytes and an index 2^63 bytes long
    though there are none, is sound, so that it is refused without a crash. *)
Example C72_made_refused : openBatches some_inflate by_three (made (bare [1] [[97]]) 2 [0; 0] [at1 77 5; at1 6 (2 ^ 63)] 0) <> Panic /\
  outcome by_three (made (bare [1] [[97]]) 2 [0; 0] [at1 77 5; at1 6 (2 ^ 63)] 0) = 1.
Proof. split; [exact (C72_opening_partial _ _ _ some_tame made_bytes made_sound)|vm_compute; reflexivity]. Qed.
(** A footer longer than the file is refused if it could be read at all. *)
Example C72_long_footer : outcome by_three (made (bare [1] [[97]]) 2 [0; 0] [] 1000) = 1.
Proof. vm_compute. reflexivity. Qed.
(** One thing wrong each time. *)
Theorem C72_opening_refuted : Forall (fun q => bytes (snd q) /\ openBatches some_inflate (fst q) (snd q) = Panic)
  [(by_three, made (bare [1] [[97]]) 2 [0; 0] [] (2 ^ 63 + 1000));  (* a footer longer than any file *)
   (by_three, made (bare [2] [[97]]) 2 [0; 0] [] 0);                (* a subtype that is not there *)
   (by_three, made (bare [1] []) 2 [0; 0] [] 0);                    (* a column without a name *)
   (by_three, made (bare [1] [[97]]) 3 [0; 0] [] 0);                (* statistics of a column that is not there *)
   (by_three, made (bare [1] [[97]]) 2 [0] [] 0);                   (* a column without an encoding *)
   (by_three, made (bare [1] [[97]]) 2 [0; 0]
                [{| st_column := 2; st_kind := 1; st_length := 0 |}] 0);  (* a stream of a column that is not there *)
   ({| Includes := [1]; RowSize := 3; NotCreateVector := false |},
    made (bare [1] [[97]]) 2 [0; 0] [] 0)].                         (* a column without the struct it is in *)
Proof.
  repeat (apply Forall_cons; [split; [match goal with |- bytes ?x => let y := eval vm_compute in x in change x with y end; all_bytes|vm_compute; reflexivity]|]).
  apply Forall_nil.
Qed.
Print Assumptions C72_opening_refuted.

(** ** Files that do not crash *)
(** A run of bytes that breaks off: the hypotheses of C72_sturdy_partial hold, and the client
    is told that there is an error. *)
Definition broken : list Z := foreign_file (one BYTE 0) [([(1, 1, [250; 1; 2])], three_rows)].
Example C72_broken : exists r x w, reading some_inflate by_three broken (one BYTE 0) r x w /\
  (forall n, calls some_inflate r x (batchOf w) (repeat CNext n) <> Panic) /\ calls some_inflate r x (batchOf w) [CNext] = Err.
Proof.
  assert (H : exists r x w, reading some_inflate by_three broken (one BYTE 0) r x w /\ (fr_stripes r <> [] /\
      (forall fs, stripe_footers some_inflate by_three broken r fs -> fs = [([0; 0], [({| st_column := 1; st_kind := 1; st_length := 3 |}, 3)])]) /\ calls some_inflate r x (batchOf w) [CNext] = Err)).
  { opened E Ew. split; [discriminate|]. split; [intros fs Hfs; vm_compute in Hfs; congruence|vm_compute; reflexivity]. }
  destruct H as (r & x & w & H & H1 & H3 & H4). exists r, x, w. split; [exact H|]. split; [|exact H4]. intros n.
  apply (C72_sturdy_partial some_inflate by_three broken (one BYTE 0) r x w n H some_tame).
  - let b := eval vm_compute in broken in change broken with b. all_bytes.
  - exact H1.
  - intros y c Hy _ Hn. vm_compute in Hy. destruct Hy as [<-|[<-|[]]]; discriminate Hn.
  - intros y Hy _. vm_compute in Hy. destruct Hy as [<-|[<-|[]]]; reflexivity.
  - intros fs f Hfs Hin. rewrite (H3 fs Hfs) in Hin. destruct Hin as [<-|[]]. split; [all_bytes|].
    intros y Hy _ Hk. vm_compute in Hy. destruct Hy as [<-|[<-|[]]]; [exfalso; apply Hk; reflexivity|]. eexists _, _. split; [left; reflexivity|reflexivity].
Qed.
(** The same file with a row index stride, of two rows: any calls of Next and Seek. *)
Definition broken2 : list Z := foreign_file_with 2 (one BYTE 0) [([(1, 1, [250; 1; 2])], three_rows)].
Example C72_broken_seek : exists r x w, reading some_inflate by_three broken2 (one BYTE 0) r x w /\
  (forall l, calls some_inflate r x (batchOf w) l <> Panic) /\ calls some_inflate r x (batchOf w) [CSeek 1; CNext] = Err /\
  calls some_inflate r x (batchOf w) [CSeek 0; CSeek 2] = Ok [].
Proof.
  assert (H : exists r x w, reading some_inflate by_three broken2 (one BYTE 0) r x w /\ (fr_stripes r <> [] /\
      (forall fs, stripe_footers some_inflate by_three broken2 r fs -> fs = [([0; 0], [({| st_column := 1; st_kind := 1; st_length := 3 |}, 3)])]) /\ u64 (fr_stride r) <> 0 /\
      calls some_inflate r x (batchOf w) [CSeek 1; CNext] = Err /\ calls some_inflate r x (batchOf w) [CSeek 0; CSeek 2] = Ok [])).
  { opened E Ew. split; [discriminate|]. split; [intros fs Hfs; vm_compute in Hfs; congruence|]. split; [vm_compute; discriminate|]. split; vm_compute; reflexivity. }
  destruct H as (r & x & w & H & H1 & H3 & H4 & H5 & H6). exists r, x, w. split; [exact H|]. split; [|split; assumption].
  apply (C72_seek_iff_partial some_inflate by_three broken2 (one BYTE 0) r x w H some_tame).
  - let b := eval vm_compute in broken2 in change broken2 with b. all_bytes.
  - exact H1.
  - intros y c Hy _ Hn. vm_compute in Hy. destruct Hy as [<-|[<-|[]]]; discriminate Hn.
  - intros y Hy _. vm_compute in Hy. destruct Hy as [<-|[<-|[]]]; reflexivity.
  - intros fs f Hfs Hin. rewrite (H3 fs Hfs) in Hin. destruct Hin as [<-|[]]. split; [all_bytes|].
    intros y Hy _ Hk. vm_compute in Hy. destruct Hy as [<-|[<-|[]]]; [exfalso; apply Hk; reflexivity|]. eexists _, _. split; [left; reflexivity|reflexivity].
  - exact H4.
Qed.
(** Without a stride. *)
Example C72_no_stride : exists r x w, reading some_inflate by_three broken (one BYTE 0) r x w /\ calls some_inflate r x (batchOf w) [CSeek 0] = Panic.
Proof. opened E Ew. vm_compute. reflexivity. Qed.
