(** C58: files that other writers made, as the ORC specification describes them
    (Spec/OrcFile.v), read by a client. *)
From Coq Require Import ZifyBool ZifyNat.
From Verif.Model Require Import Go Chunk Stream Schema Rows Time File Column Wire Assembled.
From Verif.Spec Require Import OrcInt ChunkSpec StreamSpec SchemaSpec RowsSpec FileSpec ColumnSpec EndSpec OrcColumn OrcFile.
From Verif.Proofs Require Import Base OpenBatchP SchemaP OrcIntP EndP EndClaimsP OrcFileP OrcCheckP.
From Verif.Properties Require Import Columns File Foreign.

(** The stripes of such a file, and their rows, come back exactly when no stripe has one
    row more than a multiple of the batch size (C50).
    Missing, each refuted below or in C57: columns with nulls below structs with nulls,
    PRESENT streams in some stripes only, bloom filters, floats, and the runs and chunks
    C57 excludes.  Missing altogether: timestamps, decimals, lists and maps. *)
Theorem C58_all_rows_iff_partial : forall inflate bopt schema xs file r ls last,
  orc_file orc_supported nonempty inflate bopt schema xs file r ->
  supported (readerOpts r) -> zlen file < 2 ^ 62 -> zlen (concat (map snd xs)) < 2 ^ 62 ->
  foreign_schema bopt schema = true -> IsInclude bopt 0 = true -> RowSize bopt <> 0 ->
  shallow bopt schema -> no_floats bopt schema ->
  Forall (fun x => steady bopt schema (fst x) /\ no_bloom (fst x) /\ well_shaped bopt schema (snd x)) xs ->
  map snd xs = ls ++ [last] ->
  exists x, openBatches inflate bopt file = Ok (r, x) /\
    forall c v, 0 < c -> fits bopt c false schema v -> Cap v = c -> columns_read bopt None schema <> [] ->
      (delivers inflate bopt schema r x v (concat (map snd xs)) <->
       Forall (fun l => zlen l = 1 \/ (zlen l - 1) mod c <> 0) ls /\ (zlen last - 1) mod c <> 0).
Proof.
  intros inflate bopt schema xs file r ls last Hfile Hs Hf Hn Hr Hi Hrow Hsh Hfl Hx E.
  destruct (orc_batches inflate bopt schema xs file r Hfile Hs Hf Hn Hr Hi Hrow Hsh Hfl Hx) as (x & H1 & H2 & H3 & H4 & H5).
  exists x. split; [exact H1|]. intros c v Hc Hft Hcap Hcol. pose proof (orc_file_rows _ _ _ _ _ _ _ _ Hfile Hx) as [Hne Hone].
  rewrite E in *. apply (client_of inflate r bopt schema x ls last H2 H3 H4 (SimW_opened _ _ _ _ _ _ H5 ltac:(destruct ls; discriminate)) Hne Hn Hone c v Hc Hft Hcap). exact Hcol.
Qed.
Print Assumptions C58_all_rows_iff_partial.

(** What comes back in every case. *)
Theorem C58_outcome_partial : forall inflate bopt schema xs file r ls last,
  orc_file orc_supported nonempty inflate bopt schema xs file r ->
  supported (readerOpts r) -> zlen file < 2 ^ 62 -> zlen (concat (map snd xs)) < 2 ^ 62 ->
  foreign_schema bopt schema = true -> IsInclude bopt 0 = true -> RowSize bopt <> 0 ->
  shallow bopt schema -> no_floats bopt schema ->
  Forall (fun x => steady bopt schema (fst x) /\ no_bloom (fst x) /\ well_shaped bopt schema (snd x)) xs ->
  map snd xs = ls ++ [last] ->
  exists x, openBatches inflate bopt file = Ok (r, x) /\
    forall c v, 0 < c -> fits bopt c false schema v -> Cap v = c ->
    ((lost c ls = 0)%nat -> delivers inflate bopt schema r x v (concat ls ++ delivered_last c last)) /\
    ((lost c ls = 1)%nat -> delivers inflate bopt schema r x v (concat (map (delivered c) ls) ++ last)) /\
    ((lost c ls >= 2)%nat -> forall out, ~ Batches inflate r x v out).
Proof.
  intros inflate bopt schema xs file r ls last Hfile Hs Hf Hn Hr Hi Hrow Hsh Hfl Hx E.
  destruct (orc_batches inflate bopt schema xs file r Hfile Hs Hf Hn Hr Hi Hrow Hsh Hfl Hx) as (x & H1 & H2 & H3 & H4 & H5).
  exists x. split; [exact H1|]. intros c v Hc Hft Hcap. pose proof (orc_file_rows _ _ _ _ _ _ _ _ Hfile Hx) as [Hne Hone].
  rewrite E in *. destruct (client_of inflate r bopt schema x ls last H2 H3 H4 (SimW_opened _ _ _ _ _ _ H5 ltac:(destruct ls; discriminate)) Hne Hn Hone c v Hc Hft Hcap) as (A & B & C & _). auto.
Qed.
Print Assumptions C58_outcome_partial.

(** ** Files *)
(** A stripe: its streams (column, kind, contents) and its rows. *)
Definition piece : Type := (Z * Z * list Z)%type.
Definition footer_of (schema : td) (ps : list piece) : stripeFooter :=
  {| sf_streams := map (fun p : piece => {| st_column := fst (fst p); st_kind := snd (fst p); st_length := zlen (snd p) |}) ps;
     sf_columns := map td_enc (flatten schema) |}.
Fixpoint stripes_of (schema : td) (off : Z) (l : list (list piece * list (row value))) : list Z * list stripeInfo :=
  match l with
  | [] => ([], [])
  | (ps, rows) :: r =>
      let sf := footer_of schema ps in
      let data := concat (map snd ps) in let fb := the (marshalSF sf) in
      let ix := total_length (leading (sf_streams sf)) in
      let (b, is) := stripes_of schema (off + zlen data + zlen fb) r in
      (data ++ fb ++ b, {| Offset := off; IndexLength := ix; DataLength := zlen data - ix;
                           FooterLength := zlen fb; NumberOfRows := zlen rows |} :: is)
  end.
Definition nulls_of (h : bool) : colstats :=
  {| cs_values := 1; cs_hasNull := h; cs_bytes := 0; cs_detail := None; cs_stray := false |}.
Definition foreign_file_with (stride : Z) (schema : td) (l : list (list piece * list (row value))) : list Z :=
  let (body, is) := stripes_of schema 3 l in
  let fb := the (marshalFooter {| f_headerLength := 3; f_contentLength := zlen body; f_stripes := is;
              f_types := SchemasToTypes (flatten schema); f_rows := zlen (concat (map snd l));
              f_stats := map (fun t => nulls_of (td_hasNulls t)) (flatten schema); f_stride := stride |}) in
  let pb := the (marshalPS {| p_footerLength := zlen fb; p_compression := NONE; p_blockSize := 64; p_metadataLength := 0 |}) in
  [79; 82; 67] ++ body ++ fb ++ pb ++ [zlen pb].
Definition foreign_file : td -> list (list piece * list (row value)) -> list Z := foreign_file_with 0.
Definition footers (schema : td) (l : list (list piece * list (row value))) : list (stripeFooter * list (row value)) :=
  map (fun q => (footer_of schema (fst q), snd q)) l.

Lemma foreign_ok bopt schema xs file r :
  newFileReader some_inflate cs_hasNull unmarshalPS unmarshalFooter file = Ok r -> fr_kind r = NONE ->
  Numbered 0 schema -> Forall2 (fun x n => n_kind n = td_kind x /\ n_sub n = map td_id (td_children x)) (flatten schema) (fr_nodes r) ->
  fr_hasNulls r = map td_hasNulls (flatten schema) -> fr_rows r = zlen (concat (map snd xs)) ->
  Forall2 (fun i x => checkStripe file bopt schema i x = true) (fr_stripes r) xs ->
  orc_file orc_supported nonempty some_inflate bopt schema xs file r.
Proof.
  intros H1 Hk H2 H3 H4 H5 H6. split; [exact H1|]. split.
  { intros p x Hp. pose proof (Numbered_at _ _ _ _ H2 Hp) as H. destruct x. rewrite Numbered_eq in H. destruct H as [H _]. cbn [td_id]. lia. }
  split; [exact H3|]. split; [exact H4|]. split; [exact H5|].
  clear - H6 Hk. induction H6; constructor; [apply checkStripe_ok; assumption|assumption].
Qed.
(** Everything the theorems ask for, but perhaps some of the conditions. *)
Definition foreign (bopt : batchOption) (schema : td) (l : list (list piece * list (row value))) (r : fileR colstats) : Prop :=
  orc_file orc_supported nonempty some_inflate bopt schema (footers schema l) (foreign_file schema l) r /\
  supported (readerOpts r) /\ zlen (foreign_file schema l) < 2 ^ 62 /\ zlen (concat (map snd (footers schema l))) < 2 ^ 62 /\
  foreign_schema bopt schema = true /\ IsInclude bopt 0 = true /\ RowSize bopt <> 0 /\
  no_floats bopt schema /\ Forall (fun x => well_shaped bopt schema (snd x)) (footers schema l).
Definition rows_in (l : list (list piece * list (row value))) : list (row value) := concat (map snd l).
Ltac is_foreign E :=
  let r := fresh "r" in
  match goal with |- exists r, foreign _ ?s ?l r =>
    destruct (newFileReader some_inflate cs_hasNull unmarshalPS unmarshalFooter (foreign_file s l)) as [r| |] eqn:E;
      [|exfalso; vm_compute in E; discriminate E..];
    exists r; split; [apply foreign_ok; [exact E|vm_compute in E; injection E as <-..]|vm_compute in E; injection E as <-];
    [reflexivity|vm_compute; auto 20|repeat (constructor; [split; reflexivity|]); constructor|reflexivity|reflexivity
    |repeat (constructor; [vm_compute; reflexivity|]); constructor|]
  end;
  split; [split; [left; reflexivity|vm_compute; split; [discriminate|reflexivity]]|];
  split; [vm_compute; reflexivity|]; split; [vm_compute; reflexivity|]; split; [reflexivity|]; split; [reflexivity|]; split; [discriminate|];
  split; [apply checkFloats_ok; vm_compute; reflexivity|repeat (constructor; [apply checkShaped_ok; vm_compute; reflexivity|]); constructor].
(** The batch a client starts with. *)
Definition first_batch (bopt : batchOption) (schema : td) : bvec :=
  match CreateVector bopt schema with Ok (Some w) => batchOf w | _ => BVec 0 STRUCT None [] end.
(** The client does not get the rows. *)
Lemma not_delivered bopt schema l r t p :
  In (t, p) (columns_read bopt None schema) -> td_kind t <> STRUCT ->
  newFileReader some_inflate cs_hasNull unmarshalPS unmarshalFooter (foreign_file schema l) = Ok r ->
  match openBatches some_inflate bopt (foreign_file schema l) with
  | Ok (r', x) => match batches some_inflate 10 r' x (first_batch bopt schema) with
                  | Some None => True
                  | Some (Some vs) => rows_of (flat_map (held (td_id t)) vs) <> rows_of (column_of (col t) (rows_in l))
                  | None => False
                  end
  | _ => False
  end ->
  exists x, openBatches some_inflate bopt (foreign_file schema l) = Ok (r, x) /\
    ~ delivers some_inflate bopt schema r x (first_batch bopt schema) (rows_in l).
Proof.
  intros Hin Hk Hr H. destruct (openBatches some_inflate bopt (foreign_file schema l)) as [[r' x]| |] eqn:Hx; try contradiction.
  assert (r' = r) as ->. { pose proof (openBatches_reader _ _ _ _ _ Hx) as Hr'. congruence. }
  exists x. split; [reflexivity|]. intros (vs & Hb & Hs). destruct (batches _ _ _ _ _) as [q|] eqn:E; [|contradiction].
  rewrite (batches_ok _ _ _ _ _ Hb _ _ E) in H. specialize (Hs t p Hin). unfold shows in Hs. destruct (td_kind t); try (apply H; exact Hs). contradiction.
Qed.

(** Two stripes of three and two rows: a bigint column with nulls and a struct with nulls
    around a string; the first stripe has a row index. *)
Definition nested : td := Td 0 STRUCT [[97]; [115]] 0 false
  [Td 1 LONG [] 2 true []; Td 2 STRUCT [[98]] 0 true [Td 3 STRING [] 2 false []]].
Definition tuple (a : value) (s b : value) : row value := [(1%nat, a); (2%nat, s); (3%nat, b)].
Definition str (l : list Z) : value := val (GString l).
Definition nested_stripes : list (list piece * list (row value)) :=
  [([(1, 6, the (marshalIndex [([0; 0], nulls_of true)]));
     (1, 0, [255; 160]); (1, 1, [70; 1; 174]); (2, 0, [255; 160]); (3, 1, [97; 98; 99]); (3, 2, [66; 1; 144])],
    [tuple (val (GInt64 5)) (val GNil) (str [97; 98]); tuple vnull vnull vnull; tuple (val (GInt64 7)) (val GNil) (str [99])]);
   ([(3, 2, [66; 0; 64]); (2, 0, [255; 128]); (1, 0, [255; 64]); (1, 1, [78; 0; 18]); (3, 1, [100])],
    [tuple vnull (val GNil) (str [100]); tuple (val (GInt64 9)) vnull vnull])].
Definition nested_file : list Z := foreign_file nested nested_stripes.
Definition by_three : batchOption := {| Includes := []; RowSize := 3; NotCreateVector := false |}.


Lemma nested_foreign : exists r, foreign by_three nested nested_stripes r.
Proof. is_foreign E. Qed.
Example C58_run :
  match openBatches some_inflate by_three nested_file with
  | Ok (r, x) => option_map (option_map (fun vs => (rows_of (flat_map (held 1) vs), map Null (flat_map (held 2) vs), rows_of (flat_map (held 3) vs)))) (batches some_inflate 10 r x (first_batch by_three nested))
  | _ => None
  end
  = Some (Some ([Some (GInt64 5); None; Some (GInt64 7); None; Some (GInt64 9)], [false; true; false; false; true],
      [Some (GString [97; 98]); None; Some (GString [99]); Some (GString [100]); None])).
Proof. vm_compute. reflexivity. Qed.
(** The theorem applies to it. *)
Lemma first_fits bopt schema : NotCreateVector bopt = false -> (0 <? RowSize bopt) = true -> foreign_schema bopt schema = true ->
  (match CreateVector bopt schema with Ok (Some _) => true | _ => false end) = true ->
  fits bopt (RowSize bopt) false schema (first_batch bopt schema).
Proof.
  intros Hc Hp Hs H. unfold first_batch. destruct (CreateVector bopt schema) as [[w|]| |] eqn:E; try discriminate H.
  unfold CreateVector in E. destruct (_ =? _); [discriminate|]. destruct (verifySchema schema); [|discriminate].
  apply (createVector_fits bopt foreign_kind); [exact Hc|lia|exact Hs|exact E].
Qed.
Example C58_ex : exists r x, openBatches some_inflate by_three nested_file = Ok (r, x) /\
  delivers some_inflate by_three nested r x (first_batch by_three nested) (rows_in nested_stripes).
Proof.
  destruct nested_foreign as (r & H1 & H2 & H3 & H4 & H5 & H6 & H7 & H8 & H9).
  destruct (C58_all_rows_iff_partial some_inflate by_three nested (footers nested nested_stripes) nested_file r
    [nth 0 (map snd nested_stripes) []] (nth 1 (map snd nested_stripes) []) H1 H2 H3 H4 H5 H6 H7) as (x & Hx & Hall).
  - apply checkShallow_ok. vm_compute. reflexivity.
  - exact H8.
  - repeat (constructor; [split; [apply checkSteady_ok; vm_compute; reflexivity|]; split; [apply checkBloom_ok; vm_compute; reflexivity|apply checkShaped_ok; vm_compute; reflexivity]|]). constructor.
  - reflexivity.
  - exists r, x. split; [exact Hx|]. apply (Hall 3); [lia|apply first_fits; reflexivity|reflexivity|discriminate|].
    split; [constructor; [right; vm_compute; discriminate|constructor]|vm_compute; discriminate].
Qed.

(** A stripe of five rows: a column of strings in a dictionary, with nulls, and a column of
    binaries. *)
Definition coded : td := Td 0 STRUCT [[97]; [98]] 0 false [Td 1 STRING [] 3 true []; Td 2 BINARY [] 2 false []].
Definition blob (l : list Z) : value := val (GBytes l).
Definition coded_stripes : list (list piece * list (row value)) :=
  [([(1, 0, [255; 184]); (1, 1, [66; 3; 68]); (1, 2, [66; 1; 96]); (1, 3, [97; 98; 98]);
     (2, 2, [66; 4; 73; 64]); (2, 1, [1; 2; 3; 4; 5])],
    [[(1%nat, str [98; 98]); (2%nat, blob [1])]; [(1%nat, vnull); (2%nat, blob [])];
     [(1%nat, str [97]); (2%nat, blob [2; 3])]; [(1%nat, str [98; 98]); (2%nat, blob [4])];
     [(1%nat, str [97]); (2%nat, blob [5])]])].
Lemma coded_foreign : exists r, foreign by_three coded coded_stripes r.
Proof. is_foreign E. Qed.
Example C58_coded_ex : exists r x, openBatches some_inflate by_three (foreign_file coded coded_stripes) = Ok (r, x) /\
  delivers some_inflate by_three coded r x (first_batch by_three coded) (rows_in coded_stripes).
Proof.
  destruct coded_foreign as (r & H1 & H2 & H3 & H4 & H5 & H6 & H7 & H8 & H9).
  destruct (C58_all_rows_iff_partial some_inflate by_three coded (footers coded coded_stripes) (foreign_file coded coded_stripes) r
    [] (nth 0 (map snd coded_stripes) []) H1 H2 H3 H4 H5 H6 H7) as (x & Hx & Hall).
  - apply checkShallow_ok. vm_compute. reflexivity.
  - exact H8.
  - repeat (constructor; [split; [apply checkSteady_ok; vm_compute; reflexivity|]; split; [apply checkBloom_ok; vm_compute; reflexivity|apply checkShaped_ok; vm_compute; reflexivity]|]). constructor.
  - reflexivity.
  - exists r, x. split; [exact Hx|]. apply (Hall 3); [lia|apply first_fits; reflexivity|reflexivity|discriminate|].
    split; [constructor|vm_compute; discriminate].
Qed.

(** Each of the conditions is needed: the claim is false of files that miss only one of
    them, though no stripe has one row more than a multiple of the batch size. *)
(** A null of the first stripe stays in the client's batch: the second has no PRESENT
    stream. *)
Definition one_long : td := Td 0 STRUCT [[97]] 0 false [Td 1 LONG [] 2 true []].
Definition lone (a : value) : row value := [(1%nat, a)].
Definition stale_stripes : list (list piece * list (row value)) :=
  [([(1, 0, [255; 96]); (1, 1, [70; 1; 36])], [lone vnull; lone (val (GInt64 1)); lone (val (GInt64 2))]);
   ([(1, 1, [0; 14])], [lone (val (GInt64 7)); lone (val (GInt64 7)); lone (val (GInt64 7))])].
Theorem C58_present_in_some_stripes_refuted : exists r, foreign by_three one_long stale_stripes r /\
  shallow by_three one_long /\ Forall (fun x => no_bloom (fst x)) (footers one_long stale_stripes) /\
  map (fun x => zlen (snd x)) stale_stripes = [3; 3] /\
  exists x, openBatches some_inflate by_three (foreign_file one_long stale_stripes) = Ok (r, x) /\
    ~ delivers some_inflate by_three one_long r x (first_batch by_three one_long) (rows_in stale_stripes).
Proof.
  assert (H : exists r, foreign by_three one_long stale_stripes r) by is_foreign E. destruct H as (r & Hf). exists r. split; [exact Hf|].
  split; [apply checkShallow_ok; vm_compute; reflexivity|]. split; [repeat (constructor; [apply checkBloom_ok; vm_compute; reflexivity|]); constructor|].
  split; [reflexivity|]. apply (not_delivered _ _ _ _ (Td 1 LONG [] 2 true []) None); [vm_compute; left; reflexivity|discriminate|apply Hf|].
  vm_compute. discriminate.
Qed.
Print Assumptions C58_present_in_some_stripes_refuted.

(** A bloom filter in the index section. *)
Definition full_long : td := Td 0 STRUCT [[97]] 0 false [Td 1 LONG [] 2 false []].
Definition bloom_stripes : list (list piece * list (row value)) :=
  [([(1, 8, [1; 2; 3]); (1, 1, [0; 14])], [lone (val (GInt64 7)); lone (val (GInt64 7)); lone (val (GInt64 7))])].
Theorem C58_bloom_refuted : exists r, foreign by_three full_long bloom_stripes r /\
  shallow by_three full_long /\ Forall (fun x => steady by_three full_long (fst x)) (footers full_long bloom_stripes) /\
  map (fun x => zlen (snd x)) bloom_stripes = [3] /\
  openBatches some_inflate by_three (foreign_file full_long bloom_stripes) = Err.
Proof.
  assert (H : exists r, foreign by_three full_long bloom_stripes r) by is_foreign E. destruct H as (r & Hf). exists r. split; [exact Hf|].
  split; [apply checkShallow_ok; vm_compute; reflexivity|]. split; [repeat (constructor; [apply checkSteady_ok; vm_compute; reflexivity|]); constructor|].
  split; vm_compute; reflexivity.
Qed.
Print Assumptions C58_bloom_refuted.
(** In a column that is not read: its length moves the streams of the others, and bytes of
    the bloom filter's neighbours come back as values. *)
Definition two_longs : td := Td 0 STRUCT [[97]; [98]] 0 false [Td 1 LONG [] 2 false []; Td 2 LONG [] 2 false []].
Definition second_column : batchOption := {| Includes := [0; 2]; RowSize := 3; NotCreateVector := false |}.
Definition bloom_elsewhere : list (list piece * list (row value)) :=
  [([(1, 8, [1; 2; 3]); (1, 1, [0; 14]); (2, 1, [0; 14])], repeat [(1%nat, val (GInt64 7)); (2%nat, val (GInt64 7))] 3)].
Theorem C58_bloom_elsewhere_refuted : exists r, foreign second_column two_longs bloom_elsewhere r /\
  shallow second_column two_longs /\ Forall (fun x => steady second_column two_longs (fst x)) (footers two_longs bloom_elsewhere) /\
  map (fun x => zlen (snd x)) bloom_elsewhere = [3] /\
  exists x, openBatches some_inflate second_column (foreign_file two_longs bloom_elsewhere) = Ok (r, x) /\
    ~ delivers some_inflate second_column two_longs r x (first_batch second_column two_longs) (rows_in bloom_elsewhere).
Proof.
  assert (H : exists r, foreign second_column two_longs bloom_elsewhere r) by is_foreign E. destruct H as (r & Hf). exists r. split; [exact Hf|].
  split; [apply checkShallow_ok; vm_compute; reflexivity|]. split; [repeat (constructor; [apply checkSteady_ok; vm_compute; reflexivity|]); constructor|].
  split; [reflexivity|]. apply (not_delivered _ _ _ _ (Td 2 LONG [] 2 false []) None); [vm_compute; left; reflexivity|discriminate|apply Hf|].
  vm_compute. discriminate.
Qed.
Print Assumptions C58_bloom_elsewhere_refuted.

(** In general: one stream of a kind the reader of the column does not know ([known_streams]:
    PRESENT, DATA, LENGTH, SECONDARY, ROW_INDEX, and DICTIONARY_DATA in columns of strings)
    in a column that is read (tinyint excepted), and the file is not opened. *)
Theorem C58_unknown_stream_refused : forall P Q inflate bopt schema xs file r sf rows s t,
  orc_file P Q inflate bopt schema xs file r -> supported (readerOpts r) -> zlen file < 2 ^ 62 ->
  In (sf, rows) xs -> In s (sf_streams sf) ->
  IsInclude bopt (st_column s) = true -> In t (flatten schema) -> td_id t = st_column s ->
  ~ In (st_kind s) (known_streams t) -> td_kind t <> BYTE ->
  forall q, openBatches inflate bopt file <> Ok q.
Proof.
  intros P Q inflate bopt schema xs file r sf rows s t H1 H2 H3 H4 H5 H6 H7 H8 H9 H10 q.
  exact (unknown_refused P Q inflate bopt schema xs file r sf rows s t q H1 H2 H3 H4 H5 H6 H7 H8 H9 H10).
Qed.
Print Assumptions C58_unknown_stream_refused.
Example C58_unknown_stream_ex : forall q, openBatches some_inflate by_three (foreign_file full_long bloom_stripes) <> Ok q.
Proof.
  destruct C58_bloom_refuted as (r & (H1 & H2 & H3 & _) & _).
  apply (C58_unknown_stream_refused _ _ _ _ _ _ _ r _ _ {| st_column := 1; st_kind := 8; st_length := 3 |} (Td 1 LONG [] 2 false []) H1 H2 H3
    (or_introl eq_refl)); [left; reflexivity|reflexivity|right; left; reflexivity|reflexivity|vm_compute; lia|discriminate].
Qed.

(** A null below a struct with nulls: PRESENT of the inner column has no bit for the row in
    which the struct is null. *)
Definition deep : td := Td 0 STRUCT [[97]] 0 false [Td 1 STRUCT [[98]] 0 true [Td 2 LONG [] 2 true []]].
Definition pair_ (s a : value) : row value := [(1%nat, s); (2%nat, a)].
Definition deep_stripes : list (list piece * list (row value)) :=
  [([(1, 0, [255; 96]); (2, 0, [255; 64]); (2, 1, [78; 0; 10])],
    [pair_ vnull vnull; pair_ (val GNil) vnull; pair_ (val GNil) (val (GInt64 5))])].
Theorem C58_null_in_nullable_struct_refuted : exists r, foreign by_three deep deep_stripes r /\
  Forall (fun x => steady by_three deep (fst x) /\ no_bloom (fst x)) (footers deep deep_stripes) /\
  map (fun x => zlen (snd x)) deep_stripes = [3] /\
  exists x, openBatches some_inflate by_three (foreign_file deep deep_stripes) = Ok (r, x) /\
    ~ delivers some_inflate by_three deep r x (first_batch by_three deep) (rows_in deep_stripes).
Proof.
  assert (H : exists r, foreign by_three deep deep_stripes r) by is_foreign E. destruct H as (r & Hf). exists r. split; [exact Hf|].
  split; [repeat (constructor; [split; [apply checkSteady_ok; vm_compute; reflexivity|apply checkBloom_ok; vm_compute; reflexivity]|]); constructor|].
  split; [reflexivity|]. apply (not_delivered _ _ _ _ (Td 2 LONG [] 2 true []) (Some 1)); [vm_compute; right; left; reflexivity|discriminate|apply Hf|].
  vm_compute. exact I.
Qed.
Print Assumptions C58_null_in_nullable_struct_refuted.
