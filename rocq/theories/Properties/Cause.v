(** C72, continued: which contents of streams crash, and which do not. *)
From Coq Require Import ZifyBool ZifyNat.
From Verif.Model Require Import Go Codec IntRle Chunk Stream Schema Rows Time File Column Wire Tree Assembled.
From Verif.Spec Require Import ChunkSpec StreamSpec PatchSpec RowsSpec FileSpec ColumnSpec EndSpec OrcColumn OrcFile ProjectSpec ProgressSpec CrashSpec CauseSpec.
From Verif.Proofs Require Import Base SchemaP ProjectP ProgressP CrashP PatchPanicP CauseP CauseDictP CauseIffP CausePresentP.
From Verif.Properties Require Import Columns File Foreign ForeignFile Project Progress Crash.

(** A column of any kind but structs and dictionaries, with all its streams: it is read without a crash,
    however often and whatever else is in its streams, unless the integers of its DATA stream
    (of its SECONDARY stream, for decimals) hold after some runs one with a patch behind its
    values, or the lengths of its strings one that is negative.  Streams may break off, chunks
    may be malformed, a run may be anything.  Missing: dictionaries (C72_columns_partial), and that a column with
    such contents does crash (C72_kinds_iff has one of each kind). *)
Theorem C72_contents_partial : forall inflate o file k h l r, tame inflate -> (CompressionKind o = NONE -> 0 < ChunkSize o) ->
  bytes file -> zlen file < 2 ^ 64 -> lengths_ok l -> complete k l -> k <> KStruct -> k <> KDict ->
  clean_streams inflate o file k l -> openColumn inflate o file (RCol (newColR k h)) l = Ok r -> calm inflate o r.
Proof. exact clean_calm. Qed.
Print Assumptions C72_contents_partial.

(** So a file of which nothing is known but that it opened and that no stream of it holds such
    a run or length: no number of calls of Next crashes.  Missing: dictionaries (see
    C72_columns_file_partial), lists, maps,
    unions, structs below structs with nulls, and Seek. *)
Theorem C72_clean_file_partial : forall inflate b file schema r x w n,
  reading inflate b file schema r x w -> tame inflate -> bytes file -> zlen file < 2 ^ 64 ->
  fr_stripes r <> [] -> not_nested b schema -> flat_nulls b schema ->
  (forall fs f, stripe_footers inflate b file r fs -> In f fs -> lengths_ok (snd f) /\
    forall y e k, In y (flatten schema) -> IsInclude b (td_id y) = true -> td_kind y <> STRUCT ->
      nth_error (fst f) (Z.to_nat (td_id y)) = Some e -> readerKind (td_kind y) e = Ok k ->
      k <> KDict /\ complete k (own (td_id y) (snd f)) /\ clean_streams inflate (readerOpts r) file k (own (td_id y) (snd f))) ->
  calls inflate r x (batchOf w) (repeat CNext n) <> Panic.
Proof. exact crash_clean. Qed.
Print Assumptions C72_clean_file_partial.

(** Such a column can also be taken back to the start of its stripe and skipped in, in any
    order, if its streams are not empty: to go back the first chunk is read without a look at
    the length, so that with compression the bytes behind an empty stream are taken for it.
    Missing: as above. *)
Theorem C72_contents_seek_partial : forall inflate o file k h l r, tame inflate -> (CompressionKind o = NONE -> 0 < ChunkSize o) ->
  bytes file -> zlen file < 2 ^ 64 -> lengths_ok l -> complete k l -> places_ok l -> nonempty_streams k l -> k <> KStruct -> k <> KDict ->
  clean_streams inflate o file k l -> openColumn inflate o file (RCol (newColR k h)) l = Ok r -> steady inflate o r.
Proof. exact clean_steady. Qed.
Print Assumptions C72_contents_seek_partial.
(** So with a row index stride no calls of Next and Seek crash.  Missing: dictionaries
    (C72_columns_seek_partial), lists, maps, unions, and structs below structs with nulls. *)
Theorem C72_clean_seek_partial : forall inflate b file schema r x w l,
  reading inflate b file schema r x w -> tame inflate -> bytes file -> zlen file < 2 ^ 64 ->
  fr_stripes r <> [] -> not_nested b schema -> flat_nulls b schema -> u64 (fr_stride r) <> 0 ->
  (forall fs f, stripe_footers inflate b file r fs -> In f fs -> lengths_ok (snd f) /\ places_ok (snd f) /\
    forall y e k, In y (flatten schema) -> IsInclude b (td_id y) = true -> td_kind y <> STRUCT ->
      nth_error (fst f) (Z.to_nat (td_id y)) = Some e -> readerKind (td_kind y) e = Ok k ->
      k <> KDict /\ complete k (own (td_id y) (snd f)) /\ clean_streams inflate (readerOpts r) file k (own (td_id y) (snd f)) /\
      nonempty_streams k (own (td_id y) (snd f))) ->
  calls inflate r x (batchOf w) l <> Panic.
Proof. exact crash_clean_seek. Qed.
Print Assumptions C72_clean_seek_partial.

(** A way to see that a stream without compression is clean: no part of it crashes the
    decoder. *)
Definition parts (l : list Z) : list (list Z) :=
  flat_map (fun i => map (fun j => firstn j (skipn i l)) (seq 0 (S (length l)))) (seq 0 (S (length l))).
Lemma raw_part inflate o len f a bs : CompressionKind o = NONE -> 0 <= len -> unpacks inflate o (len, f) (a ++ bs) -> In bs (parts (ztake len f)).
Proof.
  intros Hk Hlen (more & rest & U). assert (H : forall c s, Unpacked inflate o (len, f) c s -> c ++ s = f /\ zlen c <= len).
  { intros c s Hu. induction Hu as [|c p s _ Hu [IH1 IH2] Hb|c p s Hn|c p d s Hn]; try congruence; [cbn; split; [reflexivity|exact Hlen]|].
    split; [rewrite <- app_assoc; exact IH1|]. unfold behind in Hb. cbn [fst snd] in Hb. rewrite <- IH1 in Hb. unfold zlen in *. rewrite !app_length in *. lia. }
  destruct (H _ _ U) as [E Hl]. assert (El : ztake len f = (a ++ bs) ++ more ++ firstn (Z.to_nat len - length ((a ++ bs) ++ more)) rest).
  { unfold ztake. rewrite <- E at 1. rewrite firstn_app. rewrite (firstn_all2 ((a ++ bs) ++ more)) by (unfold zlen in Hl; lia). rewrite <- app_assoc. reflexivity. }
  rewrite El. generalize (more ++ firstn (Z.to_nat len - length ((a ++ bs) ++ more)) rest) as t. intros t. unfold parts. apply in_flat_map. exists (length a). split.
  - apply in_seq. rewrite !app_length. lia.
  - apply in_map_iff. exists (length bs). split; [|apply in_seq; rewrite !app_length; lia].
    rewrite <- app_assoc, skipn_app, skipn_all, Nat.sub_diag. cbn [app skipn]. rewrite firstn_app, firstn_all, Nat.sub_diag, firstn_O, app_nil_r. reflexivity.
Qed.
Definition crashing_part (l : list Z) : bool := match run (decode true) l with Panic => true | _ => false end.
Lemma no_part inflate o len f : CompressionKind o = NONE -> 0 <= len -> bytes f -> forallb (fun x => negb (crashing_part x)) (parts (ztake len f)) = true -> ~ stray_patch inflate o (len, f).
Proof.
  intros Hk Hlen Hb Hp (pre & us & bs & Hu & _ & Ho). pose proof (raw_part _ _ _ _ _ _ Hk Hlen Hu) as Hin. rewrite forallb_forall in Hp. specialize (Hp bs Hin). unfold crashing_part in Hp.
  assert (Hbs : bytes bs).
  { unfold parts in Hin. apply in_flat_map in Hin. destruct Hin as (i & _ & Hin). apply in_map_iff in Hin. destruct Hin as (j & <- & _). apply bytes_firstn, bytes_skipn. unfold ztake. apply bytes_firstn. exact Hb. }
  rewrite (proj2 (panic_all true bs Hbs) (conj eq_refl Ho)) in Hp. discriminate Hp.
Qed.
(** Two values with a patch inside, and no third: the client gets an error, and no call
    crashes.  With the patch one further on the first Next crashes. *)
Definition patched (b : Z) : list Z := [128; 1; 0; 33; 0; 0; b].
Definition short_file : list Z := foreign_file (one LONG 2) [([(1, 1, patched 64)], three_rows)].
Example C72_contents_ex : (exists r x w, reading some_inflate by_three short_file (one LONG 2) r x w /\
    (forall n, calls some_inflate r x (batchOf w) (repeat CNext n) <> Panic) /\ calls some_inflate r x (batchOf w) [CNext] = Err) /\
  crashes LONG 2 [(1, 1, patched 128)].
Proof.
  split; [|crashing].
  assert (H : exists r x w, reading some_inflate by_three short_file (one LONG 2) r x w /\ (fr_stripes r <> [] /\ CompressionKind (readerOpts r) = NONE /\
      (forall fs, stripe_footers some_inflate by_three short_file r fs -> fs = [([0; 2], [({| st_column := 1; st_kind := 1; st_length := 7 |}, 3)])]) /\ calls some_inflate r x (batchOf w) [CNext] = Err)).
  { opened E Ew. split; [discriminate|]. split; [reflexivity|]. split; [intros fs Hfs; vm_compute in Hfs; congruence|vm_compute; reflexivity]. }
  assert (Hb : bytes short_file) by (let b := eval vm_compute in short_file in change short_file with b; all_bytes).
  destruct H as (r & x & w & H & H1 & H2 & H3 & H4). exists r, x, w. split; [exact H|]. split; [|exact H4]. intros n.
  apply (C72_clean_file_partial some_inflate by_three short_file (one LONG 2) r x w n H some_tame Hb).
  - vm_compute. reflexivity.
  - exact H1.
  - intros y Hy _. vm_compute in Hy. destruct Hy as [<-|[<-|[]]]; exact I.
  - intros y c Hy _ Hn. vm_compute in Hy. destruct Hy as [<-|[<-|[]]]; discriminate Hn.
  - intros fs f Hfs Hin. rewrite (H3 fs Hfs) in Hin. destruct Hin as [<-|[]]. split; [all_bytes|].
    intros y e k Hy _ Hk He Hr. vm_compute in Hy. destruct Hy as [<-|[<-|[]]]; [exfalso; apply Hk; reflexivity|]. vm_compute in He. injection He as <-. vm_compute in Hr. injection Hr as <-.
    split; [discriminate|]. split; [split; [eexists _, _; split; [left; reflexivity|reflexivity]|exact I]|].
    intros s st Hin _. vm_compute in Hin. destruct Hin as [Es|[]]. injection Es as <- <-. unfold stretch_of. cbn [fst snd st_length].
    apply no_part; [exact H2|lia|apply bytes_zdrop; exact Hb|vm_compute; reflexivity].
Qed.
(** The same file with a row index stride of two rows. *)
Definition short_file2 : list Z := foreign_file_with 2 (one LONG 2) [([(1, 1, patched 64)], three_rows)].
Example C72_contents_seek_ex : exists r x w, reading some_inflate by_three short_file2 (one LONG 2) r x w /\
    (forall l, calls some_inflate r x (batchOf w) l <> Panic) /\ calls some_inflate r x (batchOf w) [CSeek 1; CNext] = Err.
Proof.
  assert (H : exists r x w, reading some_inflate by_three short_file2 (one LONG 2) r x w /\ (fr_stripes r <> [] /\ CompressionKind (readerOpts r) = NONE /\ u64 (fr_stride r) <> 0 /\
      (forall fs, stripe_footers some_inflate by_three short_file2 r fs -> fs = [([0; 2], [({| st_column := 1; st_kind := 1; st_length := 7 |}, 3)])]) /\ calls some_inflate r x (batchOf w) [CSeek 1; CNext] = Err)).
  { opened E Ew. split; [discriminate|]. split; [reflexivity|]. split; [vm_compute; discriminate|]. split; [intros fs Hfs; vm_compute in Hfs; congruence|vm_compute; reflexivity]. }
  assert (Hb : bytes short_file2) by (let b := eval vm_compute in short_file2 in change short_file2 with b; all_bytes).
  destruct H as (r & x & w & H & H1 & H2 & H5 & H3 & H4). exists r, x, w. split; [exact H|]. split; [|exact H4]. intros l.
  apply (C72_clean_seek_partial some_inflate by_three short_file2 (one LONG 2) r x w l H some_tame Hb).
  - vm_compute. reflexivity.
  - exact H1.
  - intros y Hy _. vm_compute in Hy. destruct Hy as [<-|[<-|[]]]; exact I.
  - intros y c Hy _ Hn. vm_compute in Hy. destruct Hy as [<-|[<-|[]]]; discriminate Hn.
  - exact H5.
  - intros fs f Hfs Hin. rewrite (H3 fs Hfs) in Hin. destruct Hin as [<-|[]]. split; [all_bytes|]. split; [repeat (constructor; [unfold is_u64; cbn; lia|]); constructor|].
    intros y e k Hy _ Hk He Hr. vm_compute in Hy. destruct Hy as [<-|[<-|[]]]; [exfalso; apply Hk; reflexivity|]. vm_compute in He. injection He as <-. vm_compute in Hr. injection Hr as <-.
    split; [discriminate|]. split; [split; [eexists _, _; split; [left; reflexivity|reflexivity]|exact I]|].
    split; [|intros s st Hin _; vm_compute in Hin; destruct Hin as [Es|[]]; injection Es as <- <-; cbn; lia].
    intros s st Hin _. vm_compute in Hin. destruct Hin as [Es|[]]. injection Es as <- <-. unfold stretch_of. cbn [fst snd st_length].
    apply no_part; [exact H2|lia|apply bytes_zdrop; exact Hb|vm_compute; reflexivity].
Qed.

(** The same for columns of every kind but structs, lists, maps and unions.  A column with a
    dictionary is read without a crash unless a length of its words is negative or, where all
    lengths are decoded, the number of a word is that of none.  Missing: that with such
    contents a column does crash. *)
Theorem C72_columns_partial : forall inflate o file k h l r0 r, tame inflate -> (CompressionKind o = NONE -> 0 < ChunkSize o) ->
  bytes file -> zlen file < 2 ^ 64 -> lengths_ok l -> k <> KStruct -> clean_column inflate o file k l ->
  r0 = match k with KDict => RDict (newDictR h) | _ => RCol (newColR k h) end ->
  openColumn inflate o file r0 l = Ok r -> calm inflate o r /\ (places_ok l -> nonempty_streams k l -> steady inflate o r).
Proof. intros * Ht Hch Hf Hz Hl N Hc E H. split; [eapply any_calm; eassumption|]. intros Hp Hn. eapply any_steady; eassumption. Qed.
Print Assumptions C72_columns_partial.
(** So for files: no number of calls of Next crashes.  Missing: lists, maps, unions, and structs
    below structs with nulls. *)
Theorem C72_columns_file_partial : forall inflate b file schema r x w n,
  reading inflate b file schema r x w -> tame inflate -> bytes file -> zlen file < 2 ^ 64 ->
  fr_stripes r <> [] -> not_nested b schema -> flat_nulls b schema ->
  (forall fs f, stripe_footers inflate b file r fs -> In f fs -> lengths_ok (snd f) /\
    forall y e k, In y (flatten schema) -> IsInclude b (td_id y) = true -> td_kind y <> STRUCT ->
      nth_error (fst f) (Z.to_nat (td_id y)) = Some e -> readerKind (td_kind y) e = Ok k ->
      clean_column inflate (readerOpts r) file k (own (td_id y) (snd f))) ->
  calls inflate r x (batchOf w) (repeat CNext n) <> Panic.
Proof. exact crash_any. Qed.
Print Assumptions C72_columns_file_partial.
(** And with a row index stride no calls of Next and Seek.  Missing: as above. *)
Theorem C72_columns_seek_partial : forall inflate b file schema r x w l,
  reading inflate b file schema r x w -> tame inflate -> bytes file -> zlen file < 2 ^ 64 ->
  fr_stripes r <> [] -> not_nested b schema -> flat_nulls b schema -> u64 (fr_stride r) <> 0 ->
  (forall fs f, stripe_footers inflate b file r fs -> In f fs -> lengths_ok (snd f) /\ places_ok (snd f) /\
    forall y e k, In y (flatten schema) -> IsInclude b (td_id y) = true -> td_kind y <> STRUCT ->
      nth_error (fst f) (Z.to_nat (td_id y)) = Some e -> readerKind (td_kind y) e = Ok k ->
      clean_column inflate (readerOpts r) file k (own (td_id y) (snd f)) /\ nonempty_streams k (own (td_id y) (snd f))) ->
  calls inflate r x (batchOf w) l <> Panic.
Proof. exact crash_any_seek. Qed.
Print Assumptions C72_columns_seek_partial.

(** A way to see it for a dictionary without compression. *)
Definition small_part (n m : Z) (l : list Z) : bool := match run (decode false) l with Ok (vs, []) => (n <=? zlen vs) && forallb (fun v => (0 <=? v) && (v <? m)) vs | _ => true end.
Lemma part_runs inflate o len f n m : CompressionKind o = NONE -> 0 <= len -> 0 < n -> forallb (small_part n m) (parts (ztake len f)) = true ->
  forall bs us, Runs false bs us -> forall t, unpacks inflate o (len, f) (bs ++ t) -> Forall (fun v => 0 <= v < m) us /\ (bs = [] \/ n <= zlen us).
Proof.
  intros Hk Hlen Hn Hp bs us H. induction H as [|bs us p vs H IH Hr]; intros t U; [split; [constructor|left; reflexivity]|].
  rewrite <- app_assoc in U. destruct (IH _ U) as [F _]. assert (Hin : In p (parts (ztake len f))).
  { apply (raw_part inflate o len f bs p Hk Hlen). destruct U as (more & rest & U). exists (t ++ more), rest. rewrite <- !app_assoc in *. exact U. }
  rewrite forallb_forall in Hp. specialize (Hp p Hin). unfold small_part in Hp. rewrite Hr in Hp. apply andb_prop in Hp. destruct Hp as [H1 H2]. rewrite forallb_forall in H2.
  split; [apply Forall_app; split; [exact F|]; rewrite Forall_forall; intros v Hv; specialize (H2 v Hv); lia|right]. unfold zlen in *. rewrite app_length. lia.
Qed.
(** A dictionary of three words and three rows with the last of them; with the number after it
    the first Next crashes. *)
Definition words_file : list Z := foreign_file_with 2 (one STRING 3) [([(1, 1, [0; 2]); (1, 2, [0; 1]); (1, 3, [97; 98; 99])], three_rows)].
Example C72_columns_ex : (exists r x w, reading some_inflate by_three words_file (one STRING 3) r x w /\
    (forall l, calls some_inflate r x (batchOf w) l <> Panic) /\ (exists z, calls some_inflate r x (batchOf w) [CNext; CSeek 1; CNext] = Ok z)) /\
  crashes STRING 3 [(1, 1, [0; 3]); (1, 2, [0; 1]); (1, 3, [97; 98; 99])].
Proof.
  split; [|crashing].
  assert (H : exists r x w, reading some_inflate by_three words_file (one STRING 3) r x w /\ (fr_stripes r <> [] /\ CompressionKind (readerOpts r) = NONE /\ u64 (fr_stride r) <> 0 /\
      (forall fs, stripe_footers some_inflate by_three words_file r fs -> fs = [([0; 3], [({| st_column := 1; st_kind := 1; st_length := 2 |}, 3); ({| st_column := 1; st_kind := 2; st_length := 2 |}, 5); ({| st_column := 1; st_kind := 3; st_length := 3 |}, 7)])]) /\
      exists z, calls some_inflate r x (batchOf w) [CNext; CSeek 1; CNext] = Ok z)).
  { opened E Ew. split; [discriminate|]. split; [reflexivity|]. split; [vm_compute; discriminate|]. split; [intros fs Hfs; vm_compute in Hfs; congruence|]. eexists. vm_compute. reflexivity. }
  assert (Hb : bytes words_file) by (let b := eval vm_compute in words_file in change words_file with b; all_bytes).
  destruct H as (r & x & w & H & H1 & H2 & H5 & H3 & H4). exists r, x, w. split; [exact H|]. split; [|exact H4]. intros l.
  apply (C72_columns_seek_partial some_inflate by_three words_file (one STRING 3) r x w l H some_tame Hb).
  - vm_compute. reflexivity.
  - exact H1.
  - intros y Hy _. vm_compute in Hy. destruct Hy as [<-|[<-|[]]]; exact I.
  - intros y c Hy _ Hn. vm_compute in Hy. destruct Hy as [<-|[<-|[]]]; discriminate Hn.
  - exact H5.
  - intros fs f Hfs Hin. rewrite (H3 fs Hfs) in Hin. destruct Hin as [<-|[]]. split; [all_bytes|]. split; [repeat (constructor; [unfold is_u64; cbn; lia|]); constructor|].
    intros y e k Hy _ Hk He Hr. vm_compute in Hy. destruct Hy as [<-|[<-|[]]]; [exfalso; apply Hk; reflexivity|]. vm_compute in He. injection He as <-. vm_compute in Hr. injection Hr as <-.
    set (L := own _ _). vm_compute in L.
    assert (Hd : forall q, In q L -> st_kind (fst q) = sDATA -> stretch_of words_file q = (2, zdrop 3 words_file)).
    { intros q Hq. cbn in Hq. destruct Hq as [<-|[<-|[<-|[]]]]; intros Eq; try discriminate Eq; reflexivity. }
    assert (Hl : forall q, In q L -> st_kind (fst q) = sLENGTH -> stretch_of words_file q = (2, zdrop 5 words_file)).
    { intros q Hq. cbn in Hq. destruct Hq as [<-|[<-|[<-|[]]]]; intros Eq; try discriminate Eq; reflexivity. }
    assert (Pl := part_runs some_inflate (readerOpts r) 2 (zdrop 5 words_file) 3 2 H2 ltac:(lia) ltac:(lia) ltac:(vm_compute; reflexivity)).
    assert (Pd := part_runs some_inflate (readerOpts r) 2 (zdrop 3 words_file) 1 3 H2 ltac:(lia) ltac:(lia) ltac:(vm_compute; reflexivity)).
    split; [|intros s st Hq _; cbn in Hq; destruct Hq as [Es|[Es|[Es|[]]]]; injection Es as <- <-; cbn; lia].
    split; [eexists _, _; split; [left; reflexivity|reflexivity]|]. split; [eexists _, _; split; [right; right; left; reflexivity|reflexivity]|]. split; [eexists _, _; split; [right; left; reflexivity|reflexivity]|].
    intros p Hp Ep. rewrite (Hl p Hp Ep). split.
    + intros (bs & us & U & R & X). destruct (Pl bs us R []) as [F _]; [rewrite app_nil_r; exact U|]. apply Exists_exists in X. destruct X as (v & Hv & Hneg). rewrite Forall_forall in F. specialize (F v Hv). assert (v = 0 \/ v = 1) as [-> | ->] by lia; vm_compute in Hneg; discriminate Hneg.
    + intros q Hq Eq. rewrite (Hd q Hq Eq). intros (bs & us & ds & is & (rest & U & Hrest) & R & Ud & Rd & X).
      destruct (Pl bs us R []) as [_ F]; [exists [], rest; rewrite !app_nil_r; exact U|]. destruct (Pd ds is Rd []) as [G _]; [rewrite app_nil_r; exact Ud|].
      apply Exists_exists in X. destruct X as (v & Hv & Hout). rewrite Forall_forall in G. specialize (G v Hv). destruct F as [-> | F]; [|lia].
      assert (E : rest = zdrop 5 words_file).
      { assert (Hc : forall c s, Unpacked some_inflate (readerOpts r) (2, zdrop 5 words_file) c s -> c ++ s = zdrop 5 words_file).
        { intros c s Hu. induction Hu as [|c p0 s _ Hu IH Hbe|c p0 s Hn|c p0 d s Hn]; try congruence; [reflexivity|]. rewrite <- app_assoc. exact IH. }
        exact (Hc _ _ U). }
      subst rest. unfold behind in Hrest. cbn [fst snd] in Hrest. lia.
Qed.

(** For streams that are whole, the exact condition.  A column of integers or dates with
    nothing but its DATA stream, anywhere in a file and framed as its compression says: it
    crashes if and only if, after some runs, one has a patch behind its values.  Missing: a
    PRESENT stream or row index beside it. *)
Theorem C72_integers_iff_partial : forall inflate o, supported o -> forall file, zlen file < W64 ->
  forall k h s pre enc post bs, k = KShort \/ k = KInt \/ k = KLong \/ k = KDate ->
  file = pre ++ enc ++ post -> framed nonempty inflate o enc bs -> bytes bs -> st_kind s = 1 -> st_length s = zlen enc ->
  exists r, openColumn inflate o file (RCol (newColR k h)) [(s, zlen pre)] = Ok r /\ (calm inflate o r <-> ~ stray_run bs).
Proof. exact int_iff. Qed.
Print Assumptions C72_integers_iff_partial.
(** A column of strings or bytes with its DATA and LENGTH streams crashes if and only if one of
    its lengths is negative and DATA holds the bytes of those before it.  Missing: a PRESENT
    stream or row index. *)
Theorem C72_strings_iff_partial : forall inflate o, supported o -> forall file, zlen file < W64 ->
  forall k h s pre enc post data s2 pre2 enc2 post2 bs, k = KString \/ k = KBinary ->
  file = pre ++ enc ++ post -> framed nonempty inflate o enc data -> st_kind s = 1 -> st_length s = zlen enc ->
  file = pre2 ++ enc2 ++ post2 -> framed nonempty inflate o enc2 bs -> bytes bs -> st_kind s2 = 2 -> st_length s2 = zlen enc2 ->
  exists r, openColumn inflate o file (RCol (newColR k h)) [(s, zlen pre); (s2, zlen pre2)] = Ok r /\
    (calm inflate o r <-> ~ reached_length bs data).
Proof. exact text_iff. Qed.
Print Assumptions C72_strings_iff_partial.
(** Three sevens, and a run with a patch behind its values; the same with the patch on the
    last value.  Three words of one byte and then a negative length, with three bytes; and
    the words alone. *)
Example C72_whole_ex : stray_run ([0; 14] ++ patched 128) /\ ~ stray_run ([0; 14] ++ patched 64) /\
  reached_length ([0; 1] ++ bad_length) [65; 66; 67] /\ ~ reached_length [0; 1] [65; 66; 67].
Proof.
  split; [|split; [|split]].
  - exists [0; 14], [14; 14; 14], (patched 128). split; [reflexivity|]. split; [apply (R_snoc true [] [] [0; 14] [14; 14; 14]); [constructor|vm_compute; reflexivity]|].
    apply (panic_all true); [unfold patched; all_bytes|vm_compute; reflexivity].
  - intros (p & us & q & E & _ & H). assert (Hb : bytes ([0; 14] ++ patched 64)) by (unfold patched; cbn [app]; all_bytes).
    assert (Hq : q = skipn (length p) ([0; 14] ++ patched 64)) by (rewrite E, skipn_app, skipn_all, Nat.sub_diag; reflexivity).
    assert (Hbq : bytes q) by (rewrite E in Hb; apply Forall_app in Hb; apply Hb). pose proof (proj2 (panic_all true q Hbq) (conj eq_refl H)) as X. rewrite Hq in X.
    apply (f_equal (@length Z)) in E. rewrite (app_length p q) in E. change (length ([0; 14] ++ patched 64)) with 9%nat in E. assert (Hl : (length p <= 9)%nat) by (clear - E; lia).
    assert (Hall : forallb (fun n => negb (crashing_part (skipn n ([0; 14] ++ patched 64)))) (seq 0 10) = true) by (vm_compute; reflexivity).
    rewrite forallb_forall in Hall. specialize (Hall (length p) ltac:(apply in_seq; lia)). unfold crashing_part in Hall. rewrite X in Hall. discriminate Hall.
  - exists ([0; 1] ++ bad_length), [1; 1; 1; 18446744073709551615; 18446744073709551615; 18446744073709551615], [], [1; 1; 1], 18446744073709551615, [18446744073709551615; 18446744073709551615]. split; [reflexivity|]. split.
    { apply (R_snoc false [0; 1] [1; 1; 1] bad_length [18446744073709551615; 18446744073709551615; 18446744073709551615]); [apply (R_snoc false [] [] [0; 1] [1; 1; 1]); [constructor|vm_compute; reflexivity]|vm_compute; reflexivity]. }
    split; [reflexivity|]. split; [vm_compute; reflexivity|]. split; [repeat constructor; vm_compute; discriminate|vm_compute; discriminate].
  - intros (p & us & q & a & l & z & E & Hr & Eu & Hneg & _).
    destruct (part_runs some_inflate no64 2 [0; 1] 1 2 eq_refl ltac:(lia) ltac:(lia) ltac:(vm_compute; reflexivity) p us Hr q) as [F _].
    { rewrite <- E. exists [], []. apply (U_raw some_inflate no64 (2, [0; 1]) [] [0; 1] []); [reflexivity|apply U_nil|vm_compute; discriminate]. }
    rewrite Eu in F. apply Forall_app in F. destruct F as [_ F]. inversion F as [|? ? Hl _]; subst. assert (l = 0 \/ l = 1) as [-> | ->] by lia; vm_compute in Hneg; discriminate Hneg.
Qed.

(** A column of timestamps crashes if and only if its seconds hold such a run and there are as
    many nanoseconds as seconds before it; the nanoseconds are never looked at otherwise.
    Missing: as above. *)
Theorem C72_timestamps_iff_partial : forall inflate o, supported o -> forall file, zlen file < W64 ->
  forall h s pre enc post bs s2 pre2 enc2 post2 nanos,
  file = pre ++ enc ++ post -> framed nonempty inflate o enc bs -> bytes bs -> st_kind s = 1 -> st_length s = zlen enc ->
  file = pre2 ++ enc2 ++ post2 -> framed nonempty inflate o enc2 nanos -> bytes nanos -> st_kind s2 = 5 -> st_length s2 = zlen enc2 ->
  exists r, openColumn inflate o file (RCol (newColR KTimestamp h)) [(s, zlen pre); (s2, zlen pre2)] = Ok r /\
    (calm inflate o r <-> ~ reached_patch bs nanos).
Proof. exact stamp_iff. Qed.
Print Assumptions C72_timestamps_iff_partial.
(** A column of decimals crashes if and only if its scales hold such a run and the digits of
    all decimals up to its first one can be read.  Missing: as above. *)
Theorem C72_decimals_iff_partial : forall inflate o, supported o -> forall file, zlen file < W64 ->
  forall h s pre enc post digits s2 pre2 enc2 post2 bs,
  file = pre ++ enc ++ post -> framed nonempty inflate o enc digits -> st_kind s = 1 -> st_length s = zlen enc ->
  file = pre2 ++ enc2 ++ post2 -> framed nonempty inflate o enc2 bs -> bytes bs -> st_kind s2 = 5 -> st_length s2 = zlen enc2 ->
  exists r, openColumn inflate o file (RCol (newColR KDecimal h)) [(s, zlen pre); (s2, zlen pre2)] = Ok r /\
    (calm inflate o r <-> ~ reached_scale bs digits).
Proof. exact decimal_iff. Qed.
Print Assumptions C72_decimals_iff_partial.
(** Three seconds and a stray patch: three nanoseconds reach it, and four varints;
    without a varint it is not reached. *)
Example C72_reached_ex : reached_patch ([0; 14] ++ patched 128) [0; 1] /\ ~ reached_patch ([0; 14] ++ patched 64) [0; 1] /\
  reached_scale ([0; 14] ++ patched 128) [2; 2; 2; 2] /\ ~ reached_scale ([0; 14] ++ patched 128) [].
Proof.
  assert (Hr : Runs true [0; 14] [14; 14; 14]) by (apply (R_snoc true [] [] [0; 14] [14; 14; 14]); [constructor|vm_compute; reflexivity]).
  assert (Hp : patch_outside (patched 128)) by (apply (panic_all true); [unfold patched; all_bytes|vm_compute; reflexivity]).
  split; [|split; [|split]].
  - exists [0; 14], [14; 14; 14], (patched 128), [0; 1], [1; 1; 1], []. split; [reflexivity|]. split; [exact Hr|]. split; [exact Hp|]. split; [reflexivity|]. split; [apply (R_snoc false [] [] [0; 1] [1; 1; 1]); [constructor|vm_compute; reflexivity]|vm_compute; discriminate].
  - intros (p & us & q & p2 & us2 & q2 & E & H & Hq & _). apply (proj1 (proj2 C72_whole_ex)). exists p, us, q. auto.
  - exists [0; 14], [14; 14; 14], (patched 128). split; [reflexivity|]. split; [exact Hr|]. split; [exact Hp|]. cbn [length]. do 4 (econstructor; [vm_compute; reflexivity|]). constructor.
  - intros (p & us & q & _ & _ & _ & H). inversion H as [|n l v t Hv]; subst. vm_compute in Hv. discriminate Hv.
Qed.

(** A column with a dictionary crashes if and only if a length of its words is negative and the
    bytes of the words before it are there, or all words can be loaded and a number is that
    of none.  Missing: a PRESENT stream or row index, and lengths that take more than 2^55
    bytes (the loop that loads the words ends in the model after 2^64 of them). *)
Theorem C72_dictionaries_iff_partial : forall inflate o, supported o -> forall file, zlen file < W64 ->
  forall h s pre enc post nums s2 pre2 enc2 post2 bs s3 pre3 enc3 post3 data,
  file = pre ++ enc ++ post -> framed nonempty inflate o enc nums -> bytes nums -> st_kind s = 1 -> st_length s = zlen enc ->
  file = pre2 ++ enc2 ++ post2 -> framed nonempty inflate o enc2 bs -> bytes bs -> st_kind s2 = 2 -> st_length s2 = zlen enc2 ->
  file = pre3 ++ enc3 ++ post3 -> framed nonempty inflate o enc3 data -> st_kind s3 = 3 -> st_length s3 = zlen enc3 -> zlen bs <= 2 ^ 55 ->
  exists r, openColumn inflate o file (RDict (newDictR h)) [(s, zlen pre); (s2, zlen pre2); (s3, zlen pre3)] = Ok r /\
    (calm inflate o r <-> ~ reached_length bs data /\ ~ lost_word bs data nums).
Proof.
  intros inflate o Ho file Hfile h s pre enc post nums s2 pre2 enc2 post2 bs s3 pre3 enc3 post3 data H1 H2 H3 H4 H5 H6 H7 H8 H9 H10 H11 H12 H13 H14 H15.
  eapply (dict_iff inflate o Ho file Hfile); try eassumption. apply countable_small; assumption.
Qed.
Print Assumptions C72_dictionaries_iff_partial.
(** Three words of one byte and the number 3, with three bytes for the words; with the number
    2 the column does not crash. *)
Example C72_dictionaries_ex : zlen [0; 1] <= 2 ^ 55 /\ lost_word [0; 1] [97; 98; 99] [0; 3] /\
  ~ reached_length [0; 1] [97; 98; 99] /\ ~ lost_word [0; 1] [97; 98; 99] [0; 2].
Proof.
  assert (U : forall l q : list Z, zlen l = 2 -> l = q -> unpacks some_inflate no64 (2, l) q).
  { intros l q Hl <-. exists [], []. apply (U_raw some_inflate no64 (2, l) [] (l ++ []) []); [reflexivity|rewrite !app_nil_r; apply U_nil|]. unfold behind. cbn [fst snd zlen length]. change (zlen (@nil Z)) with 0. lia. }
  assert (Hw := part_runs some_inflate no64 2 [0; 1] 3 2 eq_refl ltac:(lia) ltac:(lia) ltac:(vm_compute; reflexivity)).
  assert (Hd := part_runs some_inflate no64 2 [0; 2] 1 3 eq_refl ltac:(lia) ltac:(lia) ltac:(vm_compute; reflexivity)).
  split; [|split; [|split]].
  - vm_compute. discriminate.
  - exists [1; 1; 1], [0; 3], [3; 3; 3], []. split; [apply (R_snoc false [] [] [0; 1] [1; 1; 1]); [constructor|vm_compute; reflexivity]|]. split; [repeat constructor; vm_compute; discriminate|]. split; [vm_compute; discriminate|]. split; [reflexivity|].
    split; [apply (R_snoc false [] [] [0; 3] [3; 3; 3]); [constructor|vm_compute; reflexivity]|]. apply Exists_cons_hd. reflexivity.
  - intros (p & us & q & a & l & z & E & Hr & Eu & Hneg & _).
    destruct (Hw p us Hr q (U [0; 1] _ eq_refl E)) as [F _]. rewrite Eu in F. apply Forall_app in F. destruct F as [_ F]. inversion F as [|? ? Hl _]; subst. assert (l = 0 \/ l = 1) as [-> | ->] by lia; vm_compute in Hneg; discriminate Hneg.
  - intros (us & p & is & q & Hr & _ & _ & E & Hri & X). destruct (Hw [0; 1] us Hr [] (U [0; 1] _ eq_refl eq_refl)) as [_ [Hc|Hc]]; [discriminate Hc|]. destruct (Hd p is Hri q (U [0; 2] _ eq_refl E)) as [F _].
    apply Exists_exists in X. destruct X as (i & Hi & X). rewrite Forall_forall in F. specialize (F i Hi). apply nth_error_None in X. unfold zlen in Hc. lia.
Qed.

(** The same beside a PRESENT stream: a column of integers or dates with its PRESENT and DATA
    streams crashes if and only if, after some runs, one has a patch behind its values and
    PRESENT marks more rows as having a value than there are integers before that run.
    PRESENT may break off anywhere and its bytes may be any.  Missing: a row index; the other
    kinds of columns. *)
Theorem C72_present_iff_partial : forall inflate o, supported o -> forall file, zlen file < W64 ->
  forall k h s pre enc post bs s2 pre2 enc2 post2 present, k = KShort \/ k = KInt \/ k = KLong \/ k = KDate -> (k = KDate -> h = true) ->
  file = pre2 ++ enc2 ++ post2 -> framed nonempty inflate o enc2 present -> bytes present -> st_kind s2 = 0 -> st_length s2 = zlen enc2 ->
  file = pre ++ enc ++ post -> framed nonempty inflate o enc bs -> bytes bs -> st_kind s = 1 -> st_length s = zlen enc ->
  exists r, openColumn inflate o file (RCol (newColR k h)) [(s2, zlen pre2); (s, zlen pre)] = Ok r /\
    (calm inflate o r <-> ~ present_run bs present).
Proof. exact present_iff. Qed.
Print Assumptions C72_present_iff_partial.
(** Three sevens, and a run with a patch behind its values, with four rows that have a value;
    and such a run at once, where no row has a value. *)
Example C72_present_ex : present_run ([0; 14] ++ patched 128) [255; 240] /\ stray_run (patched 128) /\ ~ present_run (patched 128) [255; 0].
Proof.
  assert (Hp : patch_outside (patched 128)) by (apply (panic_all true); [unfold patched; all_bytes|vm_compute; reflexivity]).
  split; [|split].
  - exists [0; 14], [14; 14; 14], (patched 128), [255; 240], [240], []. split; [reflexivity|]. split; [apply (R_snoc true [] [] [0; 14] [14; 14; 14]); [constructor|vm_compute; reflexivity]|]. split; [exact Hp|]. split; [reflexivity|].
    split; [apply (B_literal [] [] [240]); [constructor|vm_compute; split; discriminate]|vm_compute; repeat constructor].
  - exists [], [], (patched 128). split; [reflexivity|]. split; [constructor|exact Hp].
  - intros (p & us & q & p2 & ys & q2 & _ & _ & _ & E2 & HB & L). enough (rows_present ys = O) by lia. inversion HB as [|bs ys' c v HB' Hc|bs ys' l HB' Hl]; subst; [reflexivity| |].
    + exfalso. rewrite <- app_assoc in E2. cbn [app] in E2. destruct bs as [|x [|y [|z bs]]]; cbn [app] in E2; try discriminate E2. injection E2 as E2 _ _. lia.
    + rewrite <- app_assoc in E2. cbn [app] in E2. destruct bs as [|x [|y bs]]; cbn [app] in E2; [| |apply (f_equal (@length Z)) in E2; cbn [length] in E2; rewrite app_length in E2; cbn [length] in E2; lia].
      * pose proof (f_equal (@tl Z) E2) as E3. apply (f_equal (hd 0)) in E2. cbn [hd tl] in E2, E3. assert (zlen l = 1) as Hz by lia. destruct l as [|a [|b l]]; unfold zlen in Hz; cbn [length] in Hz; try lia. cbn [app] in E3. injection E3 as <- _. inversion HB' as [|u w c v ? ? Eu|u w l ? ? Eu]; subst; [vm_compute; reflexivity|destruct u; discriminate Eu|destruct u; discriminate Eu].
      * injection E2 as E1 E2 E3. destruct l; [unfold zlen in Hl; cbn in Hl; lia|discriminate E3].
Qed.
