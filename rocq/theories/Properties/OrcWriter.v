(** C73: the files of this writer, seen from outside: are they ORC files, and do they hold
    what was written?  Nothing here depends on this library's column readers. *)
From Coq Require Import ZifyBool ZifyNat.
From Verif.Model Require Import Go Codec IntRle Chunk Stream Schema Rows Time File Column Wire Assembled.
From Verif.Spec Require Import Session IntSpec OrcInt ChunkSpec StreamSpec SchemaSpec RowsSpec FileSpec ColumnSpec AssemblySpec EndSpec OrcColumn OrcFile WriterSpec.
From Verif.Proofs Require Import Base ChunkP ReadP EndClaimsP OrcIntP OrcColumnP OrcFileP OrcWriteIntP OrcWriteP OrcWriteFileP.
From Verif.Properties Require Import Columns File End.

(** The integer codec: whatever is within C12 is written as the specification's run-length
    encoding, version 2. *)
Theorem C73_integers_partial : forall signed vs, Forall (is_int signed) vs ->
  stream_ok (NewIntRLV2 signed false) vs = true -> legal_ints signed vs.
Proof. intros signed vs H1 H2. exact (int_legal signed false vs H1 H2). Qed.
Print Assumptions C73_integers_partial.
(** A run, a rising sequence, a direct sequence and one that is patched. *)
Example C73_integers_ex : Forall (legal_ints true)
  [[7; 7; 7; 7]; [1; 2; 3; 4; 5; 6]; [5; -7; 9]; [2030; 2000; 2020; 1000000; 2040; 2050; 2060; 2070; 2080; 2090; 2100; 2110; 2120; 2130; 2140; 2150; 2160; 2170; 2180; 2190]].
Proof.
  repeat (constructor; [apply C73_integers_partial; [repeat (constructor; [unfold is_int, is_i64; lia|]); constructor|vm_compute; reflexivity]|]). constructor.
Qed.

(** Every file written is an ORC file with the rows that were written, in every column a
    client asks for.
    Missing, each refuted below: files with an index, floats, binaries, integers outside
    C12 (also a lone timestamp of a full second, and a lone decimal of scale 0), stripes that do not end with a full byte of bits.  Not modelled: nulls in columns
    below a struct with nulls (the specification leaves out the rows in which the struct
    is null; this writer does not, see C59). *)
Theorem C73_orc_file_partial : forall deflate inflate F o stride StripeSize schema rows file r bopt rss,
  flate_ok deflate inflate -> written_and_opened deflate inflate F o stride StripeSize schema rows file r ->
  WriteIndex o = false ->
  schema_of_kinds bopt written_kind false schema = true -> orc_encodings bopt schema -> shallow bopt schema ->
  rows = concat rss -> map NumberOfRows (fr_stripes r) = map zlen rss -> Forall (fun l => l <> []) rss ->
  Forall (fun q => orc_storable (fst q) (snd q) rss) (columns_read bopt None schema) -> plain_structs bopt schema rows ->
  exists xs, map snd xs = rss /\ orc_file any_run (fun d => d <> []) inflate bopt schema xs file r.
Proof.
  intros deflate inflate F o stride StripeSize schema rows file r bopt rss Hfl (Hcs & (t0 & Hsz & Hn) & (vs & Hr & Hc) & Hf & Hl & Ho) H1 H2 H4 H5 E1 E2 Hne Hst Hpl.
  destruct (file_orc deflate inflate F o stride StripeSize Hfl Hcs H1 t0 schema vs rows file Hsz Hn Hc Hf Hr Hl r Ho bopt H2 H4 H5) as (rss' & E1' & E2' & H).
  assert (rss' = rss) as -> by (apply same_cut; congruence). apply H; assumption.
Qed.
Print Assumptions C73_orc_file_partial.

(** *** A bigint and a nullable string in two stripes, of eight rows and of three. *)
Definition pair_rows : list (value * value) :=
  [(val (GInt64 5), val (GString [104; 105])); (val (GInt64 (-7)), vnull); (val (GInt64 9), val (GString [122]));
   (val (GInt64 1), vnull); (val (GInt64 2), vnull); (val (GInt64 3), val (GString [97])); (val (GInt64 4), vnull); (val (GInt64 8), val (GString [98; 98]))].
Definition pair_file : list Z := the (make zl64 6 sample_schema [sample_batch (pair_rows ++ sample_rows)]).
Definition tuples (l : list (value * value)) : list (row value) := map (fun p => [(1%nat, fst p); (2%nat, snd p)]) l.
Example C73_orc_file_ex : exists r xs,
  written_and_opened toy_deflate toy_inflate fl zl64 10 6 sample_schema (tuples (pair_rows ++ sample_rows)) pair_file r /\
  map snd xs = [tuples pair_rows; tuples sample_rows] /\
  orc_file any_run (fun d => d <> []) toy_inflate three sample_schema xs pair_file r.
Proof.
  destruct (newFileReader toy_inflate cs_hasNull unmarshalPS unmarshalFooter pair_file) as [r| |] eqn:E; [|exfalso; vm_compute in E; discriminate E..].
  exists r. assert (Hn : map NumberOfRows (fr_stripes r) = [8; 3]) by (vm_compute in E; injection E as <-; reflexivity).
  assert (Hw : written_and_opened toy_deflate toy_inflate fl zl64 10 6 sample_schema (tuples (pair_rows ++ sample_rows)) pair_file r).
  { split; [cbn; lia|]. split; [exists sample_schema; split; [vm_compute; discriminate|reflexivity]|].
    split; [exists [sample_batch (pair_rows ++ sample_rows)]; split; [|apply make_closed; vm_compute; reflexivity]|].
    - rewrite <- (app_nil_r (tuples _)). constructor; [|constructor]. repeat (constructor; [reflexivity|]). constructor.
    - split; [vm_compute; reflexivity|]. split; [vm_compute; reflexivity|]. exact E. }
  assert (Hi : Forall (legal_ints true) [[5; -7; 9; 1; 2; 3; 4; 8]; [5; -7; 9]] /\ Forall (legal_ints false) [[2; 1; 1; 2]; [2; 1]]).
  { split; repeat (constructor; [apply C73_integers_partial; [repeat (constructor; [unfold is_int, is_i64, is_u64; lia|]); constructor|vm_compute; reflexivity]|]); constructor. }
  destruct Hi as [Hi1 Hi2]. inversion Hi1 as [|? ? A1 A']; subst. inversion A' as [|? ? A2 _]; subst.
  inversion Hi2 as [|? ? B1 B']; subst. inversion B' as [|? ? B2 _]; subst. clear Hi1 Hi2 A' B'.
  destruct (C73_orc_file_partial toy_deflate toy_inflate fl zl64 10 6 sample_schema (tuples (pair_rows ++ sample_rows)) pair_file r three [tuples pair_rows; tuples sample_rows] toy_ok Hw) as (xs & X1 & X2).
  - reflexivity.
  - reflexivity.
  - intros t p Ht. vm_compute in Ht. repeat (destruct Ht as [Ht|Ht]; [injection Ht as <- <-; discriminate|]). contradiction.
  - intros t p Ht. vm_compute in Ht. repeat (destruct Ht as [Ht|Ht]; [discriminate|]). contradiction.
  - reflexivity.
  - exact Hn.
  - repeat (constructor; [discriminate|]). constructor.
  - change (columns_read three None sample_schema) with [(Td 1 LONG [] 2 false [], @None Z); (Td 2 STRING [] 2 true [], @None Z)].
    assert (Hb : Forall (fun s => bytes s /\ zlen s < W63) [[104; 105]; [122]; [97]; [98; 98]]).
    { repeat (constructor; [split; [repeat (constructor; [unfold is_u8; lia|]); constructor|reflexivity]|]). constructor. }
    rewrite Forall_forall in Hb.
    constructor; [|constructor; [|constructor]]; cbn [fst snd]; (split; [repeat (constructor; [reflexivity|]); constructor|]);
      (split; [intros _; repeat (constructor; [reflexivity|]); constructor|]).
    + split; [intros _; repeat (constructor; [reflexivity|]); constructor|]. split; [|discriminate]. intros k Hk. assert (k = KLong) as -> by (vm_compute in Hk; congruence).
      constructor; [split; [|exact A1]|constructor; [split; [|exact A2]|constructor]];
        match goal with |- Forall _ ?l => let l' := eval vm_compute in l in change l with l' end; repeat (constructor; [cbn [typed orc_typed]; unfold is_i64; lia|]); constructor.
    + split; [discriminate|]. split; [|discriminate]. intros k Hk. assert (k = KString) as -> by (vm_compute in Hk; congruence).
      constructor; [split; [|exact B1]|constructor; [split; [|exact B2]|constructor]];
        match goal with |- Forall _ ?l => let l' := eval vm_compute in l in change l with l' end; repeat (constructor; [cbn [typed orc_typed]; apply Hb; cbn; tauto|]); constructor.
  - intros t Ht _ Hk _. vm_compute in Ht. repeat (destruct Ht as [<-|Ht]; [first [discriminate Hk|vm_compute; constructor]|]). contradiction.
  - exists xs. auto.
Qed.

(** ** Where it fails *)
(** Files with an index: the index is in the stripe, but the stripe's footer does not
    list it. *)
Theorem C73_index : forall deflate inflate F o stride StripeSize schema rows file r P Q bopt schema' xs,
  flate_ok deflate inflate -> written_and_opened deflate inflate F o stride StripeSize schema rows file r ->
  orc_file P Q inflate bopt schema' xs file r -> Forall (fun i => IndexLength i = 0) (fr_stripes r).
Proof.
  intros deflate inflate F o stride StripeSize schema rows file r P Q bopt schema' xs Hfl Hw.
  exact (never_indexed deflate inflate F o stride StripeSize Hfl schema rows file r Hw P Q bopt schema' xs).
Qed.
Print Assumptions C73_index.

Definition zl64i : opts := {| CompressionKind := ZLIB; ChunkSize := 64; WriteIndex := true |}.
Definition one (k : tkind) (e : Z) : td := Td 0 STRUCT [[97]] 0 false [Td 1 k [] e false []].
Definition batch1 (l : list value) : cvec value := CVec 0 None [CVec 1 (Some l) []].
Definition rows1 (l : list value) : list (row value) := map (fun v => [(1%nat, v)]) l.
Lemma one_written o k e l file : 1 <= ChunkSize o < 2 ^ 23 -> NormalizeSchema (one k e) = Ok (one k e) ->
  make o 1000 (one k e) [batch1 l] = Ok file -> zlen file < 2 ^ 62 -> zlen l < 2 ^ 62 ->
  forall r, newFileReader toy_inflate cs_hasNull unmarshalPS unmarshalFooter file = Ok r ->
  written_and_opened toy_deflate toy_inflate fl o 10 1000 (one k e) (rows1 l) file r.
Proof.
  intros Hc Hn Hm Hf Hl r Hr. split; [exact Hc|]. split; [exists (one k e); split; [vm_compute; discriminate|exact Hn]|].
  split; [exists [batch1 l]; split; [|apply make_closed; exact Hm]|].
  - rewrite <- (app_nil_r (rows1 l)). constructor; [|constructor]. replace (vlen (batch1 l)) with (length l) by (destruct l; reflexivity). unfold batch1, rows1.
    assert (H : forall a, Forall2 (fun i r => cells i (CVec 0 None [CVec 1 (Some (a ++ l)) []]) = Some r) (seq (length a) (length l)) (map (fun v => [(1%nat, v)]) l)).
    { clear. induction l as [|v l IH]; intros a; [constructor|]. cbn [length seq map]. constructor.
      - cbn. rewrite nth_error_app2, Nat.sub_diag by lia. reflexivity.
      - specialize (IH (a ++ [v])). rewrite app_length, <- app_assoc in IH. cbn [length app] in IH. rewrite Nat.add_1_r in IH. exact IH. }
    exact (H []).
  - split; [exact Hf|]. split; [|exact Hr]. unfold zlen, rows1 in *. rewrite map_length. exact Hl.
Qed.

Definition indexed_file : list Z := the (make zl64i 1000 (one LONG 2) [batch1 (repeat (val (GInt64 5)) 12)]).
Theorem C73_index_refuted : exists r, written_and_opened toy_deflate toy_inflate fl zl64i 10 1000 (one LONG 2) (rows1 (repeat (val (GInt64 5)) 12)) indexed_file r /\
  forall P Q bopt schema' xs, ~ orc_file P Q toy_inflate bopt schema' xs indexed_file r.
Proof.
  destruct (newFileReader toy_inflate cs_hasNull unmarshalPS unmarshalFooter indexed_file) as [r| |] eqn:E; [|exfalso; vm_compute in E; discriminate E..].
  exists r. assert (Hw : written_and_opened toy_deflate toy_inflate fl zl64i 10 1000 (one LONG 2) (rows1 (repeat (val (GInt64 5)) 12)) indexed_file r).
  { apply one_written; [cbn; lia|reflexivity|vm_compute; reflexivity|vm_compute; reflexivity|vm_compute; reflexivity|exact E]. }
  split; [exact Hw|]. intros P Q bopt schema' xs H. apply (C73_index _ _ _ _ _ _ _ _ _ _ _ _ _ _ _ toy_ok Hw) in H.
  vm_compute in E. injection E as <-. cbn in H. inversion H; discriminate.
Qed.
Print Assumptions C73_index_refuted.

(** What the footer of a stripe and a stream must be, if they are of an ORC file. *)
Lemma framed_is Q inflate o pre enc post bs : CompressionKind o = ZLIB -> 1 <= ChunkSize o < 2 ^ 23 -> framed Q inflate o enc bs ->
  DecompressChunks inflate ZLIB (ztake (zlen enc) (zdrop (zlen pre) (pre ++ enc ++ post))) = Ok bs.
Proof.
  intros Hz Hc H. rewrite zdrop_app, ztake_app. unfold framed in H. rewrite Hz in H. destruct H as (ds & Hd & _ & <-).
  apply (decompress_spec _ _ Hc _ _ Hd).
Qed.
Lemma footer_is P Q inflate o file bopt schema i sf rows : CompressionKind o = ZLIB -> 1 <= ChunkSize o < 2 ^ 23 ->
  orc_stripe P Q inflate o file bopt schema i (sf, rows) ->
  (let! bs := DecompressChunks inflate ZLIB (ztake (FooterLength i) (zdrop (Offset i + IndexLength i + DataLength i) file)) in unmarshalSF bs) = Ok sf /\
  stored P Q inflate o file bopt (offsets (Offset i) (sf_streams sf)) rows schema.
Proof.
  intros Hz Hc (_ & _ & _ & _ & _ & _ & (pre & enc & post & bs & -> & Hp & He & Hf & Hu) & _ & Hs). split; [|exact Hs].
  rewrite <- Hp, He, (framed_is _ _ _ pre enc post bs Hz Hc Hf). exact Hu.
Qed.
Lemma stream_is Q inflate o file l kind bs : CompressionKind o = ZLIB -> 1 <= ChunkSize o < 2 ^ 23 ->
  holds Q inflate o file l kind bs ->
  exists s off, In (s, off) l /\ st_kind s = kind /\ DecompressChunks inflate ZLIB (ztake (st_length s) (zdrop off file)) = Ok bs.
Proof.
  intros Hz Hc (s & off & pre & enc & post & H1 & H2 & -> & -> & He & Hf & _). exists s, (zlen pre). split; [exact H1|]. split; [exact H2|].
  rewrite He.  apply (framed_is _ _ _ _ _ _ _ Hz Hc Hf).
Qed.
(** One column without PRESENT: a single stripe. *)
Lemma one_column Q inflate bopt k e xs file r i sf : orc_file any_run Q inflate bopt (one k e) xs file r -> fr_stripes r = [i] -> bopt = three ->
  CompressionKind (readerOpts r) = ZLIB -> 1 <= ChunkSize (readerOpts r) < 2 ^ 23 -> k <> STRUCT ->
  (let! bs := DecompressChunks inflate ZLIB (ztake (FooterLength i) (zdrop (Offset i + IndexLength i + DataLength i) file)) in unmarshalSF bs) = Ok sf ->
  kinds (data_streams (offsets (Offset i) (sf_streams sf)) 0) = [] ->
  exists c, orc_kind k e = Some c /\
    orc_data any_run Q inflate (readerOpts r) file (data_streams (offsets (Offset i) (sf_streams sf)) 1) c
      (nonnull (rows_of (column_of 1 (concat (map snd xs))))).
Proof.
  intros (_ & _ & _ & _ & _ & Hst) Hi -> Hz Hc Hk Hsf H0. rewrite Hi in Hst. inversion Hst as [|? [sf' q] ? xs' Hs Hr]; subst. inversion Hr; subst. clear Hst Hr.
  destruct (footer_is _ _ _ _ _ _ _ _ _ _ Hz Hc Hs) as [Hf Hst]. assert (sf' = sf) as -> by congruence. clear Hs Hf.
  destruct (Hst eq_refl) as (_ & _ & _ & Hp & H1 & _). rewrite H0 in Hp. cbn [in_dec] in Hp.
  rewrite (alive_all _ _ Hp) in H1. cbn [map snd concat]. rewrite app_nil_r. specialize (H1 eq_refl).
  assert (H : exists c, orc_kind k e = Some c /\ orc_column any_run Q inflate (readerOpts r) file (data_streams (offsets (Offset i) (sf_streams sf)) 1) c (rows_of (column_of 1 q))) by (destruct k; try exact H1; contradiction).
  destruct H as (c & E & (_ & _ & Hd & _)). exists c. auto.
Qed.

(** A single zero. *)
Definition zero_file : list Z := the (make zl64 1000 (one LONG 2) [batch1 [val (GInt64 0)]]).
Theorem C73_integers_refuted : ~ legal_ints true [0] /\
  exists r, written_and_opened toy_deflate toy_inflate fl zl64 10 1000 (one LONG 2) (rows1 [val (GInt64 0)]) zero_file r /\
    forall Q xs, ~ orc_file any_run Q toy_inflate three (one LONG 2) xs zero_file r.
Proof.
  assert (Hno : forall xs, ~ orc_ints any_run true [64; 0] xs) by (intros xs H; inversion H as [|? ? ? ? Hr]; vm_compute in Hr; discriminate).
  split.
  { intros (e & b & Hs & _ & Hi). vm_compute in Hs. injection Hs as _ <-. exact (Hno _ Hi). }
  destruct (newFileReader toy_inflate cs_hasNull unmarshalPS unmarshalFooter zero_file) as [r| |] eqn:E; [|exfalso; vm_compute in E; discriminate E..].
  exists r. split.
  { apply one_written; [cbn; lia|reflexivity|vm_compute; reflexivity|vm_compute; reflexivity|vm_compute; reflexivity|exact E]. }
  intros Q xs H. vm_compute in E. injection E as <-.
  eapply one_column in H; [|reflexivity|reflexivity|reflexivity|cbn; lia|discriminate|vm_compute; reflexivity|vm_compute; reflexivity].
  destruct H as (c & Ec & H). injection Ec as <-. destruct H as (b & ys & Hh & Hi & _).
  apply stream_is in Hh; [|reflexivity|cbn; lia]. destruct Hh as (s & off & Hin & _ & Hd). vm_compute in Hin. destruct Hin as [Hin|[]]. injection Hin as <- <-.
  vm_compute in Hd. injection Hd as <-. exact (Hno _ Hi).
Qed.
Print Assumptions C73_integers_refuted.

(** One column, one stripe, all rows there. *)
Lemma one_is_orc k e c l file : NormalizeSchema (one k e) = Ok (one k e) -> k <> STRUCT ->
  orc_kind k e = Some c -> schema_of_kinds three written_kind false (one k e) = true ->
  make zl64 1000 (one k e) [batch1 l] = Ok file -> zlen file < 2 ^ 62 -> zlen l < 2 ^ 62 -> l <> [] ->
  Forall (fun v => Null v = false) l -> Forall (orc_typed c) (map V l) -> legal c (map V l) ->
  forall r, newFileReader toy_inflate cs_hasNull unmarshalPS unmarshalFooter file = Ok r -> map NumberOfRows (fr_stripes r) = [zlen l] ->
  exists xs, map snd xs = [rows1 l] /\ orc_file any_run (fun d => d <> []) toy_inflate three (one k e) xs file r.
Proof.
  intros Hn Hk Hc Hs Hm Hf Hl Hne Hnn Hty Hle r Hr Hst.
  assert (Hcol : column_of 1 (rows1 l) = l).
  { unfold rows1, column_of. clear. induction l as [|v l IH]; [reflexivity|]. cbn. f_equal. exact IH. }
  assert (Hg : nonnull (rows_of l) = map V l).
  { clear - Hnn. induction Hnn as [|v l Hv Hl IH]; [reflexivity|]. cbn [rows_of map]. unfold row_of at 1. rewrite Hv. cbn. f_equal. exact IH. }
  assert (Hcr : columns_read three None (one k e) = [(Td 1 k [] e false [], @None Z)]).
  { cbn. destruct k; try reflexivity. contradiction. }
  apply (C73_orc_file_partial toy_deflate toy_inflate fl zl64 10 1000 (one k e) (rows1 l) file r three [rows1 l] toy_ok).
  - apply one_written; auto. cbn. lia.
  - reflexivity.
  - exact Hs.
  - intros t p Ht. rewrite Hcr in Ht. destruct Ht as [Ht|[]]. injection Ht as <- <-. intros _. cbn [td_kind td_enc]. congruence.
  - intros t p Ht. rewrite Hcr in Ht. destruct Ht as [Ht|[]]. discriminate.
  - cbn. rewrite app_nil_r. reflexivity.
  - rewrite Hst. cbn. unfold zlen, rows1. rewrite map_length. reflexivity.
  - constructor; [|constructor]. destruct l; [contradiction|discriminate].
  - rewrite Hcr. constructor; [|constructor]. cbn [fst snd]. split.
    { cbn [concat]. rewrite app_nil_r. unfold rows1. apply Forall_map. apply Forall_forall. intros v _. reflexivity. }
    split; [intros _; constructor|]. split.
    { intros _. cbn [concat]. rewrite app_nil_r. unfold col. cbn [td_id]. change (Z.to_nat 1) with 1%nat. rewrite Hcol. exact Hnn. }
    split; [|intros _; constructor].
    intros k' Hk'. cbn [td_kind td_enc] in Hk'. assert (k' = c) as -> by congruence.
    constructor; [|constructor]. cbv zeta. unfold col. cbn [td_id]. change (Z.to_nat 1) with 1%nat. rewrite Hcol, Hg. auto.
  - intros t Ht _ Hk' _. cbn in Ht. destruct Ht as [<-|[<-|[]]]; cbn [td_kind] in Hk'; [|contradiction]. cbn. unfold column_of, rows1.
    clear. induction l as [|v l IH]; [constructor|]. exact IH.
Qed.
(** *** Timestamps: with and without nanoseconds; decimals of scales 2 and 0. *)
Definition at_time (s n : Z) : value := val (GTimestamp {| ts_loc := 0; ts_seconds := s; ts_nanos := n |}).
Definition times : list value := [at_time 5 0; at_time (-7) 120000000; at_time 9 123].
Definition prices : list value := [val (GDecimal 1999 2); val (GDecimal (-3) 0)].
Definition times_file : list Z := the (make zl64 1000 (one TIMESTAMP 2) [batch1 times]).
Definition prices_file : list Z := the (make zl64 1000 (one DECIMAL 2) [batch1 prices]).
Example C73_timestamps : exists r xs, map snd xs = [rows1 times] /\
  orc_file any_run (fun d => d <> []) toy_inflate three (one TIMESTAMP 2) xs times_file r.
Proof.
  destruct (newFileReader toy_inflate cs_hasNull unmarshalPS unmarshalFooter times_file) as [r| |] eqn:E; [|exfalso; vm_compute in E; discriminate E..].
  exists r. apply (one_is_orc TIMESTAMP 2 KTimestamp times times_file); [reflexivity|discriminate|reflexivity|vm_compute; reflexivity..|discriminate| | | |exact E| ].
  - repeat (constructor; [reflexivity|]). constructor.
  - repeat (constructor; [cbn; unfold is_i64; lia|]). constructor.
  - split; (apply C73_integers_partial; [|vm_compute; reflexivity]); repeat (constructor; [vm_compute; split; congruence|]); constructor.
  - vm_compute in E. injection E as <-. reflexivity.
Qed.
Example C73_decimals : exists r xs, map snd xs = [rows1 prices] /\
  orc_file any_run (fun d => d <> []) toy_inflate three (one DECIMAL 2) xs prices_file r.
Proof.
  destruct (newFileReader toy_inflate cs_hasNull unmarshalPS unmarshalFooter prices_file) as [r| |] eqn:E; [|exfalso; vm_compute in E; discriminate E..].
  exists r. apply (one_is_orc DECIMAL 2 KDecimal prices prices_file); [reflexivity|discriminate|reflexivity|vm_compute; reflexivity..|discriminate| | | |exact E| ].
  - repeat (constructor; [reflexivity|]). constructor.
  - repeat (constructor; [cbn; unfold is_i64; lia|]). constructor.
  - apply C73_integers_partial; [|vm_compute; reflexivity]; repeat (constructor; [vm_compute; split; congruence|]); constructor.
  - vm_compute in E. injection E as <-. reflexivity.
Qed.
(** A lone timestamp of a full second; a lone decimal of scale 0. *)
Definition second_file : list Z := the (make zl64 1000 (one TIMESTAMP 2) [batch1 [at_time 5 0]]).
Definition whole_file : list Z := the (make zl64 1000 (one DECIMAL 2) [batch1 [val (GDecimal 5 0)]]).
Theorem C73_timestamp_refuted : exists r,
  written_and_opened toy_deflate toy_inflate fl zl64 10 1000 (one TIMESTAMP 2) (rows1 [at_time 5 0]) second_file r /\
  forall Q xs, ~ orc_file any_run Q toy_inflate three (one TIMESTAMP 2) xs second_file r.
Proof.
  destruct (newFileReader toy_inflate cs_hasNull unmarshalPS unmarshalFooter second_file) as [r| |] eqn:E; [|exfalso; vm_compute in E; discriminate E..].
  exists r. split.
  { apply one_written; [cbn; lia|reflexivity|vm_compute; reflexivity|vm_compute; reflexivity|vm_compute; reflexivity|exact E]. }
  intros Q xs H. vm_compute in E. injection E as <-.
  eapply one_column in H; [|reflexivity|reflexivity|reflexivity|cbn; lia|discriminate|vm_compute; reflexivity|vm_compute; reflexivity].
  destruct H as (c & Ec & H). injection Ec as <-. destruct H as (b & ys & d & ns & _ & Hh & _ & Hi & _).
  apply stream_is in Hh; [|reflexivity|cbn; lia]. destruct Hh as (s & off & Hin & Hk & Hd). vm_compute in Hin. destruct Hin as [Hin|[Hin|[]]]; injection Hin as <- <-; [discriminate Hk|].
  vm_compute in Hd. injection Hd as <-. inversion Hi as [|? ? ? ? Hr]; vm_compute in Hr; discriminate.
Qed.
Print Assumptions C73_timestamp_refuted.
Theorem C73_decimal_refuted : exists r,
  written_and_opened toy_deflate toy_inflate fl zl64 10 1000 (one DECIMAL 2) (rows1 [val (GDecimal 5 0)]) whole_file r /\
  forall Q xs, ~ orc_file any_run Q toy_inflate three (one DECIMAL 2) xs whole_file r.
Proof.
  destruct (newFileReader toy_inflate cs_hasNull unmarshalPS unmarshalFooter whole_file) as [r| |] eqn:E; [|exfalso; vm_compute in E; discriminate E..].
  exists r. split.
  { apply one_written; [cbn; lia|reflexivity|vm_compute; reflexivity|vm_compute; reflexivity|vm_compute; reflexivity|exact E]. }
  intros Q xs H. vm_compute in E. injection E as <-.
  eapply one_column in H; [|reflexivity|reflexivity|reflexivity|cbn; lia|discriminate|vm_compute; reflexivity|vm_compute; reflexivity].
  destruct H as (c & Ec & H). injection Ec as <-. destruct H as (b & ys & d & ns & _ & Hh & _ & Hi & _).
  apply stream_is in Hh; [|reflexivity|cbn; lia]. destruct Hh as (s & off & Hin & Hk & Hd). vm_compute in Hin. destruct Hin as [Hin|[Hin|[]]]; injection Hin as <- <-; [discriminate Hk|].
  vm_compute in Hd. injection Hd as <-. inversion Hi as [|? ? ? ? Hr]; vm_compute in Hr; discriminate.
Qed.
Print Assumptions C73_decimal_refuted.

(** The number 1.0 in a column of floats: an ORC file, if one, with another number. *)
Definition float_file : list Z := the (make zl64 1000 (one FLOAT 0) [batch1 [val (GFloat 1065353216)]]).
Theorem C73_floats_refuted : exists r,
  written_and_opened toy_deflate toy_inflate fl zl64 10 1000 (one FLOAT 0) (rows1 [val (GFloat 1065353216)]) float_file r /\
  forall Q xs, orc_file any_run Q toy_inflate three (one FLOAT 0) xs float_file r ->
    nonnull (rows_of (column_of 1 (concat (map snd xs)))) = [GFloat 32831].
Proof.
  destruct (newFileReader toy_inflate cs_hasNull unmarshalPS unmarshalFooter float_file) as [r| |] eqn:E; [|exfalso; vm_compute in E; discriminate E..].
  exists r. split.
  { apply one_written; [cbn; lia|reflexivity|vm_compute; reflexivity|vm_compute; reflexivity|vm_compute; reflexivity|exact E]. }
  intros Q xs H. vm_compute in E. injection E as <-.
  eapply one_column in H; [|reflexivity|reflexivity|reflexivity|cbn; lia|discriminate|vm_compute; reflexivity|vm_compute; reflexivity].
  destruct H as (c & Ec & H). injection Ec as <-. destruct H as (ys & Hh & Hu & ->).
  apply stream_is in Hh; [|reflexivity|cbn; lia]. destruct Hh as (s & off & Hin & _ & Hd). vm_compute in Hin. destruct Hin as [Hin|[]]. injection Hin as <- <-.
  match type of Hd with ?x = _ => assert (x = Ok [63; 128; 0; 0]) as Hx by (vm_compute; reflexivity) end. rewrite Hx in Hd. clear Hx.
  injection Hd as Hd. symmetry in Hd. destruct ys as [|y ys]; [discriminate|]. inversion Hu as [|? ? Hy Hu']; subst.
  cbn [flat_map little app] in Hd. injection Hd as D1 D2 D3 D4 D5. destruct ys; [|discriminate]. unfold is_u32 in Hy.
  assert (y = 32831) as -> by zlia. reflexivity.
Qed.
Print Assumptions C73_floats_refuted.

(** A column of binaries: an ORC file without values. *)
Definition binary_file : list Z := the (make zl64 1000 (one BINARY 2) [batch1 [val (GBytes [7; 8])]]).
Theorem C73_binary_refuted : exists r,
  written_and_opened toy_deflate toy_inflate fl zl64 10 1000 (one BINARY 2) (rows1 [val (GBytes [7; 8])]) binary_file r /\
  forall Q xs, ~ orc_file any_run Q toy_inflate three (one BINARY 2) xs binary_file r.
Proof.
  destruct (newFileReader toy_inflate cs_hasNull unmarshalPS unmarshalFooter binary_file) as [r| |] eqn:E; [|exfalso; vm_compute in E; discriminate E..].
  exists r. split.
  { apply one_written; [cbn; lia|reflexivity|vm_compute; reflexivity|vm_compute; reflexivity|vm_compute; reflexivity|exact E]. }
  intros Q xs H. vm_compute in E. injection E as <-.
  eapply one_column in H; [|reflexivity|reflexivity|reflexivity|cbn; lia|discriminate|vm_compute; reflexivity|vm_compute; reflexivity].
  destruct H as (c & Ec & H). injection Ec as <-. destruct H as (b & ss & H1 & H2 & Hi & _ & Hg).
  apply stream_is in H1; [|reflexivity|cbn; lia]. destruct H1 as (s & off & Hin & Hk & Hd). vm_compute in Hin. destruct Hin as [Hin|[Hin|[]]]; injection Hin as <- <-; [|discriminate Hk].
  match type of Hd with ?x = _ => assert (x = Ok [7; 8]) as Hx by (vm_compute; reflexivity) end. rewrite Hx in Hd. clear Hx. injection Hd as Hd.
  apply stream_is in H2; [|reflexivity|cbn; lia]. destruct H2 as (s & off & Hin & Hk2 & Hd2). vm_compute in Hin. destruct Hin as [Hin|[Hin|[]]]; injection Hin as <- <-; [discriminate Hk2|].
  vm_compute in Hd2. injection Hd2 as <-. inversion Hi as [E|? ? ? ? Hr]; [|vm_compute in Hr; discriminate].
  destruct ss as [|s ss]; [cbn in Hd; discriminate Hd|]. discriminate H.
Qed.
Print Assumptions C73_binary_refuted.

(** Two stripes of three rows: the second has the null flags of the first in front. *)
Theorem C73_stripes_refuted : exists r,
  written_and_opened toy_deflate toy_inflate fl zl64 10 5 sample_schema (tuples (stripe1 ++ stripe2)) file33 r /\
  forall Q xs, orc_file any_run Q toy_inflate three sample_schema xs file33 r -> concat (map snd xs) <> tuples (stripe1 ++ stripe2).
Proof.
  destruct (newFileReader toy_inflate cs_hasNull unmarshalPS unmarshalFooter file33) as [r| |] eqn:E; [|exfalso; vm_compute in E; discriminate E..].
  exists r. split.
  { split; [cbn; lia|]. split; [exists sample_schema; split; [vm_compute; discriminate|reflexivity]|].
    split; [exists [sample_batch stripe1; sample_batch stripe2]; split; [|apply make_closed; vm_compute; reflexivity]|].
    - unfold tuples. rewrite map_app, <- (app_nil_r (map _ stripe2)). do 2 (constructor; [repeat (constructor; [reflexivity|]); constructor|]). constructor.
    - split; [vm_compute; reflexivity|]. split; [vm_compute; reflexivity|]. exact E. }
  intros Q xs (_ & _ & _ & _ & _ & Hst) Hx. vm_compute in E. injection E as <-. cbn [fr_stripes] in Hst.
  inversion Hst as [|? [sf1 q1] ? xs1 Hs1 Hr]; subst. inversion Hr as [|? [sf q] ? xs2 Hs Hr2]; subst. inversion Hr2; subst. clear Hst Hr Hr2.
  destruct Hs1 as (_ & Hn1 & _). cbn [NumberOfRows] in Hn1. cbn [map snd concat] in Hx. rewrite app_nil_r in Hx.
  assert (q = tuples stripe2) as ->.
  { unfold tuples in Hx. rewrite map_app in Hx. fold (tuples stripe1) (tuples stripe2) in Hx.
    assert (length q1 = length (tuples stripe1)) as Hl by (change (length (tuples stripe1)) with 3%nat; unfold zlen in Hn1; lia).
    clear - Hx Hl. revert Hl Hx. generalize (tuples stripe1) (tuples stripe2). induction q1 as [|a q1 IH]; intros [|b l] m Hl Hx; try discriminate Hl; [exact Hx|].
    injection Hx as _ Hx. injection Hl as Hl. exact (IH _ _ Hl Hx). }
  apply footer_is in Hs; [|reflexivity|cbn; lia]. destruct Hs as [Hf Hs].
  match type of Hf with ?x = _ => assert (x = Ok {| sf_streams := [ {| st_column := 1; st_kind := 1; st_length := 7 |};
    {| st_column := 2; st_kind := 0; st_length := 5 |}; {| st_column := 2; st_kind := 1; st_length := 5 |}; {| st_column := 2; st_kind := 2; st_length := 6 |}];
    sf_columns := [0; 2; 2] |}) as Hx' by (vm_compute; reflexivity) end.
  rewrite Hx' in Hf. injection Hf as <-. clear Hx'.
  destruct (Hs eq_refl) as (_ & _ & _ & _ & _ & H2 & _). destruct (H2 eq_refl) as (c & _ & _ & _ & _ & Hp).
  match type of Hp with if ?d then _ else _ => destruct d as [_|Hn]; [|exfalso; apply Hn; vm_compute; auto] end.
  destruct Hp as (b & Hh & bs & more & Hb & Hm).
  apply stream_is in Hh; [|reflexivity|cbn; lia]. destruct Hh as (s & off & Hin & Hk & Hd). vm_compute in Hin.
  destruct Hin as [Hin|[Hin|[Hin|[]]]]; injection Hin as <- <-; try discriminate Hk.
  vm_compute in Hd. injection Hd as <-.
  inversion Hb as [|? ? ? ? Hh _|? l i ys Hh Hl Hb' Eh El]; subst; [lia|]. assert (l = [224] /\ i = []) as [-> ->].
  { destruct l as [|a [|a' l]]; [discriminate Hl| |rewrite !zlen_cons in Hl; unfold zlen in Hl; lia]. match goal with K : [a] ++ i = _ |- _ => cbn in K; injection K as -> <- end. auto. }
  inversion Hb'; subst. discriminate Hm.
Qed.
Print Assumptions C73_stripes_refuted.
