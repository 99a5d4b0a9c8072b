(** C75: the memory asked for on behalf of a file is bounded by what the file holds. *)
From Coq Require Import ZifyBool ZifyNat.
From Verif.Model Require Import Go Codec IntRle Chunk Stream Schema Rows Time File Column Wire Tree Assembled Memory.
From Verif.Spec Require Import StreamSpec ChunkSpec FileSpec ColumnSpec EndSpec CrashSpec OpenSpec MemorySpec.
From Verif.Proofs Require Import Base ChunkP OpenBatchP EndMainP MemoryP MemoryCountP.
From Verif.Properties Require Import Columns File Foreign ForeignFile End Crash.

(** Counting the requests changes no result. *)
Theorem C75_same_results : forall inflate b file, snd (openBatchesA inflate b file) = openBatches inflate b file.
Proof. exact openBatchesA_snd. Qed.
Print Assumptions C75_same_results.
Theorem C75_same_values : forall inflate o c old, cr_kind c = KString ->
  nextValue inflate o c old = let! (x, c') := snd (nextTextA inflate o c) in Ok (GString x, c').
Proof. intros. rewrite nextTextA_value by (left; assumption). rewrite H. destruct (snd (nextTextA inflate o c)) as [[? ?]| |]; reflexivity. Qed.
Print Assumptions C75_same_values.

(** Where every single request of opening any sequence of bytes comes from. *)
Theorem C75_stated : forall inflate b file, bytes file -> Forall (stated inflate file) (fst (openBatchesA inflate b file)).
Proof. intros inflate b file H. exact (open_asks inflate file H b). Qed.
Print Assumptions C75_stated.

(** Of a file that opens no request exceeds the file except those for the chunk size; missing: a
    bound for those, see [C75_opened_refuted]. *)
Theorem C75_opened_partial : forall inflate b file r x n, zlen file < 2 ^ 62 -> openBatches inflate b file = Ok (r, x) ->
  In n (fst (openBatchesA inflate b file)) -> n <= zlen file \/ fr_kind r <> NONE /\ n = fr_chunkSize r.
Proof.
  intros inflate b file r x n Hf H Hn. destruct (opened_good inflate file Hf b r x H) as [G _].
  destruct (proj1 (Forall_forall _ _) G n Hn) as [G1|[G1 G2]]; [left; exact G1|right]. split; [intros E; rewrite E in G1; discriminate|exact G2].
Qed.
Print Assumptions C75_opened_partial.
Corollary C75_uncompressed_partial : forall inflate b file r x, zlen file < 2 ^ 62 -> openBatches inflate b file = Ok (r, x) ->
  fr_kind r = NONE -> modest file (fst (openBatchesA inflate b file)).
Proof.
  intros inflate b file r x Hf H Hk. apply Forall_forall. intros n Hn. destruct (C75_opened_partial inflate b file r x n Hf H Hn) as [G|[G _]]; [exact G|contradiction].
Qed.
Print Assumptions C75_uncompressed_partial.
(** And so memory for the file itself suffices exactly if the chunk size the file states does not exceed it, *)
Theorem C75_enough_iff_partial : forall inflate b file r x M, zlen file < 2 ^ 62 -> openBatches inflate b file = Ok (r, x) -> zlen file <= M ->
  (within M (openBatchesA inflate b file) = Ok (r, x) <-> fr_kind r = NONE \/ fr_chunkSize r <= M).
Proof. exact enough. Qed.
Print Assumptions C75_enough_iff_partial.
(** which for files of the writer is the chunk size of its options. *)
Theorem C75_written : forall deflate inflate F o stride StripeSize schema rows file r b x M, flate_ok deflate inflate ->
  written_and_opened deflate inflate F o stride StripeSize schema rows file r -> openBatches inflate b file = Ok (r, x) ->
  zlen file <= M -> (within M (openBatchesA inflate b file) = Ok (r, x) <-> ChunkSize o <= M).
Proof. exact written_enough. Qed.
Print Assumptions C75_written.

(** The chunk size is asked for once for the footer and once for every PRESENT and DATA
    stream of the columns asked for, in every stripe, before the first row is read. *)
Theorem C75_for_every_stream : forall inflate b file r x xs, openBatches inflate b file = Ok (r, x) -> fr_kind r <> NONE ->
  CreateBatchReader inflate unmarshalSF (RowSize b) file r = Ok xs -> zlen file < 2 ^ 62 ->
  (1 + length (flat_map (fun x : list Z * list (strm * Z) => needed b (snd x)) xs) <=
   count_occ Z.eq_dec (fst (openBatchesA inflate b file)) (fr_chunkSize r))%nat.
Proof.
  intros inflate b file r x xs H Hk Hx Hf. unfold CreateBatchReader in Hx. destruct (_ =? 0); [discriminate|]. exact (opened_count inflate b file r x xs H Hk Hx Hf).
Qed.
Print Assumptions C75_for_every_stream.

(** A string or binary value asks for its length, and for nothing else; *)
Theorem C75_value_partial : forall inflate o c x c', snd (nextTextA inflate o c) = Ok (x, c') -> fst (nextTextA inflate o c) = [zlen x].
Proof. exact nextTextA_exact. Qed.
Print Assumptions C75_value_partial.
(** but it asks before the bytes are there. *)
Theorem C75_value_asks : forall inflate o c,
  fst (nextTextA inflate o c) = match nextSecond inflate o DecodeUInt (cr_second c) with Ok x => [i64 (fst x)] | _ => [] end.
Proof. exact nextTextA_asks. Qed.
Print Assumptions C75_value_asks.

(** ** Files that ask for more than any memory *)
(** [made] of Properties/Crash.v with chunks that are not compressed, the chunk size and the
    length of the stripe footer to choose. *)
Definition boxed (k : kind) (size more : Z) (l : list strm) : list Z :=
  let frame x := match k with NONE => x | _ => let n := 2 * zlen x + 1 in [n mod 256; n / 256; 0] ++ x end in
  let sb := frame (the (marshalSF {| sf_streams := l; sf_columns := [0; 0] |})) in
  let fb := frame (the (marshalFooter {| f_headerLength := 3; f_contentLength := zlen sb;
    f_stripes := [{| Offset := 3; IndexLength := 0; DataLength := 0; FooterLength := zlen sb + more; NumberOfRows := 1 |}];
    f_types := bare [1] [[97]]; f_rows := 1; f_stats := repeat (nulls_of false) 2; f_stride := 0 |})) in
  let pb := the (marshalPS {| p_footerLength := zlen fb; p_compression := k; p_blockSize := size; p_metadataLength := 0 |}) in
  [79; 82; 67] ++ sb ++ fb ++ pb ++ [zlen pb].
Ltac concrete_bytes := match goal with |- bytes ?x => let y := eval vm_compute in x in change x with y end; all_bytes.
(** A request beyond [M]. *)
Lemma beyond {A} M (m : asked A) n : In n (fst m) -> M < n -> within M m = Panic.
Proof.
  intros Hn HM. unfold within. destruct (forallb _ _) eqn:E; [|reflexivity]. rewrite forallb_forall in E. specialize (E n Hn). cbv beta in E. lia.
Qed.
Definition asks_for (b : batchOption) (file : list Z) (n : Z) : bool := existsb (Z.eqb n) (fst (openBatchesA some_inflate b file)).
Lemma asks_beyond b file n M : asks_for b file n = true -> M < n -> within M (openBatchesA some_inflate b file) = Panic.
Proof.
  intros H HM. unfold asks_for in H. apply existsb_exists in H. destruct H as (m & Hm & E). apply Z.eqb_eq in E. subst m. exact (beyond M _ n Hm HM).
Qed.

(** Whatever memory there is, a file of less than a hundred bytes exhausts it that otherwise
    could be opened and read: by its chunk size; *)
Theorem C75_opened_refuted : forall M, 0 <= M < 2 ^ 62 -> exists file r x, bytes file /\ zlen file < 100 /\
  openBatches some_inflate by_three file = Ok (r, x) /\ within M (openBatchesA some_inflate by_three file) = Panic.
Proof.
  intros M HM. exists (boxed ZLIB (2 ^ 62) 0 [at1 1 5]).
  destruct (openBatches some_inflate by_three (boxed ZLIB (2 ^ 62) 0 [at1 1 5])) as [[r x]| |] eqn:E; [|exfalso; vm_compute in E; discriminate E..].
  exists r, x. split; [concrete_bytes|]. split; [vm_compute; reflexivity|]. split; [reflexivity|].
  apply (asks_beyond _ _ (2 ^ 62)); [vm_compute; reflexivity|lia].
Qed.
Print Assumptions C75_opened_refuted.
(** and others that are otherwise refused: by the length of the footer of a stripe, of an
    index, of the footer of the file. *)
Theorem C75_refused_refuted : forall M, 0 <= M < 2 ^ 62 ->
  Forall (fun file => bytes file /\ zlen file < 100 /\ openBatches some_inflate by_three file = Err /\ within M (openBatchesA some_inflate by_three file) = Panic)
    [boxed NONE 64 (2 ^ 62) []; boxed NONE 64 0 [at1 6 (2 ^ 62)]; made (bare [1] [[97]]) 2 [0; 0] [] (2 ^ 62 + 16384)].
Proof.
  intros M HM. assert (H : forall file n, asks_for by_three file n = true -> 2 ^ 62 <= n -> bytes file -> zlen file < 100 -> outcome by_three file = 1 ->
      bytes file /\ zlen file < 100 /\ openBatches some_inflate by_three file = Err /\ within M (openBatchesA some_inflate by_three file) = Panic).
  { intros file n Ha Hn Hb Hl Ho. split; [exact Hb|]. split; [exact Hl|]. split; [|apply (asks_beyond _ _ n M Ha); lia].
    unfold outcome in Ho. destruct (openBatches some_inflate by_three file); [discriminate Ho|reflexivity|discriminate Ho]. }
  apply Forall_cons; [|apply Forall_cons; [|apply Forall_cons; [|apply Forall_nil]]].
  - apply (H _ (2 ^ 62 + 8)); [vm_compute; reflexivity|lia|concrete_bytes|vm_compute; reflexivity..].
  - apply (H _ (2 ^ 62)); [vm_compute; reflexivity|lia|concrete_bytes|vm_compute; reflexivity..].
  - apply (H _ (2 ^ 62 + 16373)); [vm_compute; reflexivity|lia|concrete_bytes|vm_compute; reflexivity..].
Qed.
Print Assumptions C75_refused_refuted.
(** A string of ten bytes of streams. *)
Theorem C75_value_refuted : forall M, 0 <= M < 2 ^ 62 -> exists file c, zlen file = 10 /\ bytes file /\
  openColumn some_inflate raw64 file (RCol (newColR KString false)) [(at1 1 1, 0); (at1 2 9, 1)] = Ok (RCol c) /\
  within M (nextTextA some_inflate raw64 c) = Panic.
Proof.
  intros M HM. exists [65; 56; 64; 0; 0; 0; 0; 0; 0; 0].
  destruct (openColumn some_inflate raw64 [65; 56; 64; 0; 0; 0; 0; 0; 0; 0] (RCol (newColR KString false)) [(at1 1 1, 0); (at1 2 9, 1)]) as [[c|c|c|c]| |] eqn:E;
    [|exfalso; vm_compute in E; discriminate E..].
  exists c. split; [reflexivity|]. split; [concrete_bytes|]. split; [reflexivity|]. apply (beyond _ _ (2 ^ 62)); [|lia].
  rewrite C75_value_asks. vm_compute in E. injection E as <-. vm_compute. left. reflexivity.
Qed.
Print Assumptions C75_value_refuted.

(** ** Examples *)
(** Everything opening a file asks for: 85 bytes of tail and 8 of a footer; *)
Example C75_plain_ex : fst (openBatchesA some_inflate by_three (boxed NONE 64 0 [])) = [zlen (boxed NONE 64 0 []); 8].
Proof. vm_compute. reflexivity. Qed.
(** with chunks of 64 bytes also the buffers for the footer and for the one stream; *)
Example C75_chunks_ex : outcome by_three (boxed ZLIB 64 0 [at1 1 0]) = 0 /\
  fst (openBatchesA some_inflate by_three (boxed ZLIB 64 0 [at1 1 0])) = [zlen (boxed ZLIB 64 0 [at1 1 0]); 64; 19; 64] /\
  needed by_three [(at1 1 0, 3)] = [(at1 1 0, 3)].
Proof. vm_compute. auto. Qed.
(** and of a file of the writer, for which 64 bytes and the file suffice. *)
Example C75_written_ex : exists r x, openBatches toy_inflate three file1 = Ok (r, x) /\
  count_occ Z.eq_dec (fst (openBatchesA toy_inflate three file1)) 64 = 5%nat /\
  forall M, zlen file1 <= M -> (within M (openBatchesA toy_inflate three file1) = Ok (r, x) <-> 64 <= M).
Proof.
  destruct sample_wao as (r & Hw & _).
  destruct (openBatches toy_inflate three file1) as [[r' x]| |] eqn:E; [|exfalso; vm_compute in E; discriminate E..].
  assert (r' = r) as ->. { pose proof (openBatches_reader _ _ _ _ _ E) as E'. destruct Hw as (_ & _ & _ & _ & _ & Hr). congruence. }
  exists r, x. split; [reflexivity|]. split; [vm_compute; reflexivity|]. intros M HM.
  exact (C75_written _ _ _ _ _ _ _ _ _ _ _ _ M toy_ok Hw E HM).
Qed.
