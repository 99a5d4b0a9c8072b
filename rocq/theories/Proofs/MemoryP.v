(** Proofs about the buffers made while a file is opened (Model/Memory.v). *)
From Coq Require Import ZifyBool ZifyNat.
From Verif.Model Require Import Go Codec ByteBool IntRle Chunk Stream Schema Rows File Column Wire Tree Assembled Memory.
From Verif.Spec Require Import CrashSpec OpenSpec MemorySpec.
From Verif.Proofs Require Import Base ChunkP TailP CrashP SoundP OpenBatchP.

(** ** The lists of requests *)
Lemma snd_abind {A B} (m : asked A) (f : A -> asked B) : snd (abind m f) = rbind (snd m) (fun a => snd (f a)).
Proof. unfold abind. destruct (snd m); reflexivity. Qed.
Lemma asks_abind {A B} (P : Z -> Prop) (m : asked A) (f : A -> asked B) :
  Forall P (fst m) -> (forall a, snd m = Ok a -> Forall P (fst (f a))) -> Forall P (fst (abind m f)).
Proof. unfold abind. intros H1 H2. destruct (snd m); cbn [fst]; [apply Forall_app; auto|exact H1..]. Qed.
Lemma asks_plain {A} (P : Z -> Prop) (x : res A) : Forall P (fst (unasked x)).
Proof. constructor. Qed.
Lemma asks_ask (P : Z -> Prop) n : P n -> Forall P (fst (ask n)).
Proof. intros H. constructor; [exact H|constructor]. Qed.
(** Requests made on the way to a result. *)
Definition good {A} (P : Z -> Prop) (m : asked A) : Prop := forall a, snd m = Ok a -> Forall P (fst m).
Lemma good_plain {A} (P : Z -> Prop) (x : res A) : good P (unasked x).
Proof. intros a _. constructor. Qed.
Lemma good_ask (P : Z -> Prop) n : P n -> good P (ask n).
Proof. intros H a _. apply asks_ask. exact H. Qed.
Lemma good_asks {A} (P : Z -> Prop) (m : asked A) : Forall P (fst m) -> good P m.
Proof. intros H a _. exact H. Qed.
Lemma good_abind {A B} (P : Z -> Prop) (m : asked A) (f : A -> asked B) :
  good P m -> (forall a, snd m = Ok a -> good P (f a)) -> good P (abind m f).
Proof.
  unfold good, abind. intros H1 H2 b. destruct (snd m) as [a| |]; cbn [fst snd]; try discriminate.
  intros Hb. apply Forall_app. split; [eapply H1; reflexivity|eapply H2; [reflexivity|exact Hb]].
Qed.
(** A request that is only met if what it is for is there. *)
Lemma good_ask_then {B} (P : Z -> Prop) n (m : asked B) : (forall b, snd m = Ok b -> P n) -> good P m -> good P (abind (ask n) (fun _ => m)).
Proof. intros H1 H2 b. cbn. intros Hb. constructor; [eapply H1; exact Hb|eapply H2; exact Hb]. Qed.
Lemma good_impl {A} (P Q : Z -> Prop) (m : asked A) : (forall n, P n -> Q n) -> good P m -> good Q m.
Proof. intros H Hm a Ha. eapply Forall_impl; [exact H|]. eapply Hm. exact Ha. Qed.

Lemma abind_ok {A B} (a : A) (f : A -> asked B) : abind (unasked (Ok a)) f = f a.
Proof. unfold abind, unasked. cbn. destruct (f a); reflexivity. Qed.
Lemma ask_fst {B} n (f : unit -> asked B) : fst (abind (ask n) f) = n :: fst (f tt).
Proof. reflexivity. Qed.
Lemma ask_snd {B} n (f : unit -> asked B) : snd (abind (ask n) f) = snd (f tt).
Proof. reflexivity. Qed.

Lemma zlen_skipn_le {A} n (l : list A) : zlen (skipn n l) <= zlen l.
Proof. unfold zlen. rewrite skipn_length. lia. Qed.
Lemma zlen_zdrop_le {A} n (l : list A) : zlen (zdrop n l) <= zlen l.
Proof. unfold zdrop. apply zlen_skipn_le. Qed.
Lemma zlen_ztake_le {A} n (l : list A) : zlen (ztake n l) <= zlen l.
Proof. unfold ztake, zlen. rewrite firstn_length. lia. Qed.

Section Opening.
Variable inflate : list Z -> res (list Z).

(** ** The results are those of the functions without requests *)
Lemma decompress_loopA_snd : forall fuel src, snd (decompress_loopA inflate fuel src) = decompress_loop inflate fuel src.
Proof.
  induction fuel as [|f IH]; intros [|x src]; try reflexivity. cbn [decompress_loopA decompress_loop].
  destruct (DecChunkHeader _ _ _) as [n orig].
  assert (H : forall X : asked (list Z), snd (let? _ := (if orig then unasked (Ok tt) else ask n) in X) = snd X) by (destruct orig; reflexivity). rewrite H.
  rewrite snd_abind. cbn [unasked snd]. destruct (copyN n (skipn 3 (x :: src))) as [[p s]| |]; cbn [rbind]; try reflexivity.
  rewrite snd_abind. cbn [unasked fst snd]. destruct (if orig then Ok p else inflate p) as [d| |]; cbn [rbind]; try reflexivity.
  rewrite snd_abind, IH. reflexivity.
Qed.
Lemma DecompressChunksA_snd k src : snd (DecompressChunksA inflate k src) = DecompressChunks inflate k src.
Proof. destruct k; try reflexivity. apply decompress_loopA_snd. Qed.
Lemma tail_end_snd ps fb : snd (let? x := (match p_compression ps with
                       | NONE => unasked (Ok fb)
                       | k => let? _ := ask (p_blockSize ps) in DecompressChunksA inflate k fb
                       end) in let? f := unasked (unmarshalFooter x) in unasked (Ok (Some (ps, f))))
  = (let! x := (match p_compression ps with NONE => Ok fb | k => DecompressChunks inflate k fb end) in
     let! f := unmarshalFooter x in Ok (Some (ps, f))).
Proof.
  rewrite snd_abind. destruct (p_compression ps); try reflexivity; cbn [abind ask unasked fst snd].
  - cbn [rbind]. destruct (unmarshalFooter fb); reflexivity.
  - rewrite DecompressChunksA_snd. destruct (DecompressChunks _ _ _) as [x| |]; cbn [rbind]; try reflexivity. destruct (unmarshalFooter x); reflexivity.
Qed.
Lemma extractFileTailA_snd file : snd (extractFileTailA inflate file) = extractFileTail inflate unmarshalPS unmarshalFooter file.
Proof.
  unfold extractFileTailA, extractFileTail. destruct (_ =? 0); [reflexivity|]. destruct (_ <=? 3); [reflexivity|].
  cbv zeta. rewrite snd_abind. cbn [ask snd rbind]. destruct (_ <? 0); [reflexivity|].
  rewrite snd_abind. cbn [unasked snd]. destruct (unmarshalPS _) as [ps| |]; cbn [rbind]; try reflexivity.
  rewrite snd_abind. destruct (0 <? _).
  - rewrite snd_abind. cbn [ask snd rbind]. destruct (_ <? 0); [reflexivity|]. cbn [unasked snd rbind].
    destruct (_ || _); [reflexivity|]. apply tail_end_snd.
  - cbn [unasked snd rbind]. destruct (_ || _); [reflexivity|]. apply tail_end_snd.
Qed.
Lemma newFileReaderA_snd file : snd (newFileReaderA inflate file) = newFileReader inflate cs_hasNull unmarshalPS unmarshalFooter file.
Proof. unfold newFileReaderA, newFileReader. rewrite snd_abind, extractFileTailA_snd. reflexivity. Qed.
Lemma openStripeA_snd k file i : snd (openStripeA inflate k file i) = openStripe inflate unmarshalSF k file i.
Proof.
  unfold openStripeA, openStripe. cbv zeta. destruct (_ <? 0); [reflexivity|]. rewrite snd_abind. cbn [ask snd rbind].
  destruct (_ <? _); [reflexivity|]. rewrite snd_abind.
  destruct k; try reflexivity; [|rewrite DecompressChunksA_snd]; cbn [unasked fst snd].
  - cbn [rbind]. rewrite snd_abind. reflexivity.
  - destruct (DecompressChunks _ _ _) as [x| |]; cbn [rbind]; try reflexivity. rewrite snd_abind. reflexivity.
Qed.
Section Readers.
Variable o : opts.
Variable nodes : list node.
Variable hasNulls : list bool.
Variable bopt : batchOption.
Lemma readIndexA_snd file start len : snd (readIndexA inflate o file start len) = readIndex inflate o file start len.
Proof.
  unfold readIndexA, readIndex. destruct (_ <? 0); [reflexivity|]. rewrite snd_abind. cbn [ask snd rbind].
  destruct (_ <? _); [reflexivity|]. rewrite snd_abind.
  destruct (CompressionKind o); try reflexivity; rewrite DecompressChunksA_snd; destruct (DecompressChunks _ _ _); reflexivity.
Qed.
Lemma initAllA_snd file : forall l rs, snd (initAllA inflate o file rs l) = initAll inflate o file rs l.
Proof.
  induction l as [|[s st] l IH]; intros rs; cbn [initAllA initAll]; [reflexivity|].
  destruct (nth_error rs _) as [[r|]|]; [|apply IH|reflexivity]. rewrite snd_abind.
  match goal with |- rbind (snd ?m) _ = _ => assert (E : snd m
    = (if st_kind s =? 6 then any_InitIndex inflate o file r st (st_length s) else any_InitStream file r s st)) end.
  2: { rewrite E. match goal with |- rbind ?x _ = _ => destruct x as [r'| |] end; cbn [rbind]; [apply IH|reflexivity..]. }
  destruct (st_kind s =? 6).
    + unfold any_InitIndexA. rewrite snd_abind, readIndexA_snd. destruct r; cbn [any_InitIndex unasked snd]; unfold InitIndex; destruct (readIndex _ _ _ _ _); reflexivity.
    + unfold any_InitStreamA. rewrite snd_abind. cbn [unasked snd]. destruct (any_InitStream file r s st); cbn [rbind]; try reflexivity.
      rewrite snd_abind. destruct (_ && _); reflexivity.
Qed.
Lemma newStripeRdA_snd file rows x : snd (newStripeRdA inflate o nodes hasNulls bopt file rows x) = newStripeRd inflate o nodes hasNulls bopt file rows x.
Proof.
  unfold newStripeRdA, newStripeRd. rewrite snd_abind. cbn [unasked snd]. destruct (newReaders _ _ _ _ _); cbn [rbind]; try reflexivity.
  rewrite snd_abind, initAllA_snd. reflexivity.
Qed.
Lemma openStripesA_snd file : forall l, snd (openStripesA inflate o nodes hasNulls bopt file l) = openStripes inflate o nodes hasNulls bopt file l.
Proof.
  induction l as [|i l IH]; cbn [openStripesA openStripes]; [reflexivity|]. destruct (_ =? 0); [reflexivity|].
  rewrite snd_abind, openStripeA_snd. destruct (openStripe _ _ _ _ _); cbn [rbind]; try reflexivity.
  rewrite snd_abind, newStripeRdA_snd. destruct (newStripeRd _ _ _ _ _ _ _ _); cbn [rbind]; try reflexivity.
  rewrite snd_abind, IH. destruct (openStripes _ _ _ _ _ _ _); reflexivity.
Qed.
End Readers.
Lemma openBatchesA_snd bopt file : snd (openBatchesA inflate bopt file) = openBatches inflate bopt file.
Proof.
  unfold openBatchesA, openBatches. rewrite snd_abind, newFileReaderA_snd. destruct (newFileReader _ _ _ _ _) as [r| |]; cbn [rbind]; try reflexivity.
  destruct (_ =? 0); [reflexivity|]. rewrite snd_abind, openStripesA_snd. destruct (openStripes _ _ _ _ _ _ _); reflexivity.
Qed.

(** ** Requests of a successful opening *)
Lemma decompress_good : forall fuel src, good (fun n => n <= zlen src) (decompress_loopA inflate fuel src).
Proof.
  induction fuel as [|f IH]; intros [|x src]; try apply good_plain. cbn [decompress_loopA].
  destruct (DecChunkHeader _ _ _) as [n orig]. set (rest := skipn 3 (x :: src)).
  assert (Hr : zlen rest <= zlen (x :: src)) by apply zlen_skipn_le.
  assert (Hgo : good (fun n => n <= zlen (x :: src)) (let? y := unasked (copyN n rest) in let? d := unasked (if orig then Ok (fst y) else inflate (fst y)) in
     let? t := decompress_loopA inflate f (snd y) in unasked (Ok (d ++ t)))).
  { apply good_abind; [apply good_plain|]. intros [p s] Hc. cbn [unasked snd] in Hc. apply good_abind; [apply good_plain|]. intros d _.
    apply good_abind; [|intros; apply good_plain]. eapply good_impl; [|apply IH]. cbn beta. intros m Hm. cbn [snd] in Hm.
    unfold copyN in Hc. destruct (_ <? _); [discriminate|]. assert (s = zdrop n rest) as -> by congruence. pose proof (zlen_zdrop_le n rest). lia. }
  destruct orig.
  - apply good_abind; [apply good_plain|]. intros _ _. exact Hgo.
  - apply good_ask_then; [|exact Hgo]. intros b Hb. rewrite snd_abind in Hb. cbn [unasked snd] in Hb. unfold copyN in Hb.
    destruct (Z.ltb_spec (zlen rest) n); [discriminate|lia].
Qed.
Lemma DecompressChunks_good k src : good (fun n => n <= zlen src) (DecompressChunksA inflate k src).
Proof. destruct k; try apply good_plain. apply decompress_good. Qed.

Variable file : list Z.
Hypothesis Hfile : zlen file < 2 ^ 62.

(** What is asked for is in the file or as long as a chunk is said to be. *)
Definition small_or (c : bool) (size : Z) (n : Z) : Prop := n <= zlen file \/ c = true /\ n = size.
Lemma tail_good x : snd (extractFileTailA inflate file) = Ok x ->
  match x with
  | None => True
  | Some (ps, _) => Forall (small_or (negb (isNone (p_compression ps))) (p_blockSize ps)) (fst (extractFileTailA inflate file)) /\
                    (p_compression ps <> NONE -> In (p_blockSize ps) (fst (extractFileTailA inflate file)))
  end.
Proof.
  pose proof (zlen_nonneg file) as H0. unfold extractFileTailA. destruct (Z.eqb_spec (zlen file) 0); [intros Hx; cbn in Hx; assert (x = None) as -> by congruence; exact I|].
  destruct (_ <=? 3); [intros; discriminate|]. cbv zeta. set (rs := Z.min (zlen file) 16384).
  rewrite ask_fst, ask_snd. set (buf := zdrop (zlen file - rs) file). set (pl := nth _ buf 0).
  assert (Hbuf : zlen buf = rs) by (unfold buf; rewrite zlen_zdrop; unfold rs; lia).
  destruct (Z.ltb_spec (rs - 1 - pl) 0); [intros; discriminate|].
  destruct (unmarshalPS _) as [ps| |]; [rewrite abind_ok|intros; discriminate..].
  set (ex := Z.max 0 _). match goal with |- context [abind ?m ?f] => set (m1 := m); set (k := f) end.
  assert (Hm : forall b, snd m1 = Ok b -> zlen b <= zlen file /\ Forall (fun n => n <= zlen file) (fst m1)).
  { intros b. unfold m1. destruct (Z.ltb_spec 0 ex).
    - rewrite ask_fst, ask_snd. assert (Hex : ex < 2 ^ 63) by (unfold ex; match goal with |- context [i64 ?v] => pose proof (i64_range v) end; unfold is_i64 in *; lia).
      destruct (Z.ltb_spec (i64 (zlen file - rs - ex)) 0); [discriminate|]. cbn [unasked fst snd]. intros Hb.
      assert (Hi : i64 (zlen file - rs - ex) = zlen file - rs - ex) by (apply i64_id; unfold is_i64, rs in *; lia).
      rewrite Hi in *. assert (b = buf ++ ztake ex (zdrop (zlen file - rs - ex) file)) as -> by congruence.
      rewrite zlen_app, zlen_ztake, Hbuf by (rewrite zlen_zdrop; unfold rs in *; lia). split; [lia|]. constructor; [unfold rs in *; lia|constructor].
    - cbn [unasked fst snd]. intros Hb. assert (b = buf) as -> by congruence. split; [unfold rs in *; lia|constructor]. }
  intros Hx. rewrite snd_abind in Hx. apply rbind_inv in Hx. destruct Hx as (b & Hb & Hx). destruct (Hm b Hb) as (Lb & Fb).
  unfold abind. rewrite Hb. cbn [fst]. unfold k in Hx |- *. cbv beta zeta in Hx |- *.
  destruct (_ || _); [discriminate|]. set (fb := ztake (i64 (p_footerLength ps)) (zdrop (i64 (rs - 1 - pl - i64 (p_footerLength ps))) b)) in *.
  assert (Lf : zlen fb <= zlen file) by (unfold fb; pose proof (zlen_ztake_le (i64 (p_footerLength ps)) (zdrop (i64 (rs - 1 - pl - i64 (p_footerLength ps))) b)); pose proof (zlen_zdrop_le (i64 (rs - 1 - pl - i64 (p_footerLength ps))) b); lia).
  assert (F1 : Forall (fun n => n <= zlen file) (rs :: fst m1)) by (constructor; [unfold rs; lia|exact Fb]). clear Hm Hb Fb.
  clear k. clearbody fb m1.
  assert (Hend : forall (m2 : asked (list Z)), snd (let? x0 := m2 in let? f := unasked (unmarshalFooter x0) in unasked (Ok (Some (ps, f)))) = Ok x ->
    (exists f, x = Some (ps, f)) /\ (exists y, snd m2 = Ok y) /\ fst (let? x0 := m2 in let? f := unasked (unmarshalFooter x0) in unasked (Ok (Some (ps, f)))) = fst m2).
  { intros m2 H2. unfold abind in *. cbn [unasked fst snd] in *. destruct (snd m2) as [y| |]; try discriminate. cbn [fst snd] in *.
    destruct (unmarshalFooter y); try discriminate. cbn [fst snd] in *. split; [eexists; assert (x = Some (ps, a)) as -> by congruence; reflexivity|]. split; [eauto|]. rewrite !app_nil_r. reflexivity. }
  apply Hend in Hx. destruct Hx as ((f & ->) & (y & Hy) & Hf). rewrite Hf. clear Hend Hf.
  assert (F2 : Forall (small_or (negb (isNone (p_compression ps))) (p_blockSize ps)) (rs :: fst m1)) by (eapply Forall_impl; [|exact F1]; intros q Hn; left; exact Hn).
  rewrite app_comm_cons. split.
  - apply Forall_app. split; [exact F2|].
    destruct (p_compression ps); try (constructor; fail); rewrite ask_fst; rewrite ask_snd in Hy; (constructor; [right; split; reflexivity|]); try discriminate Hy.
    eapply Forall_impl; [|exact (DecompressChunks_good _ _ _ Hy)]. cbn beta. intros q Hn. left. lia.
  - intros Hk. apply in_app_iff. right. destruct (p_compression ps); [contradiction|left; reflexivity..].
Qed.

Lemma reader_good r : snd (newFileReaderA inflate file) = Ok r ->
  Forall (small_or (negb (isNone (fr_kind r))) (fr_chunkSize r)) (fst (newFileReaderA inflate file)) /\
  (fr_kind r <> NONE -> In (fr_chunkSize r) (fst (newFileReaderA inflate file))).
Proof.
  unfold newFileReaderA. intros H. rewrite snd_abind in H. apply rbind_inv in H. destruct H as (t & Ht & H). pose proof (tail_good t Ht) as Hg.
  unfold abind. rewrite Ht. cbn [unasked fst snd] in *. rewrite app_nil_r. destruct t as [[ps f]|]; [|discriminate]. destruct (_ =? 0); [discriminate|].
  apply rbind_inv in H. destruct H as (ns & _ & H). destruct (_ <? _)%nat; [discriminate|]. 
  assert (fr_kind r = p_compression ps) as -> by (injection H as <-; reflexivity).
  assert (fr_chunkSize r = match p_compression ps with NONE => 262144 | _ => p_blockSize ps end) as -> by (injection H as <-; reflexivity).
  destruct Hg as [G1 G2]. destruct (p_compression ps); cbn [isNone negb] in *; try (split; [exact G1|exact G2]).
  split; [|intros Hk; contradiction]. eapply Forall_impl; [|exact G1]. intros q [Hn|[Hn _]]; [left; exact Hn|discriminate].
Qed.

Section Readers.
Variable o : opts.
Variable nodes : list node.
Variable hasNulls : list bool.
Variable bopt : batchOption.
Variable P : Z -> Prop.
Hypothesis Psmall : forall n, n <= zlen file -> P n.
Hypothesis Pchunk : isNone (CompressionKind o) = false -> P (ChunkSize o).
Lemma DecompressChunks_small k n m : good P (DecompressChunksA inflate k (ztake n (zdrop m file))).
Proof.
  clear Pchunk.
  eapply good_impl; [|apply DecompressChunks_good]. cbn beta. intros l Hl. apply Psmall. pose proof (zlen_ztake_le n (zdrop m file)). pose proof (zlen_zdrop_le m file). lia.
Qed.
Lemma openStripe_good i : good P (openStripeA inflate (CompressionKind o) file i).
Proof.
  unfold openStripeA. cbv zeta. destruct (_ <? 0); [apply good_plain|]. set (from := i64 _). destruct (Z.ltb_spec (zlen (zdrop from file)) (FooterLength i)).
  { intros b Hb. rewrite snd_abind in Hb. discriminate. }
  apply good_abind. { apply good_ask, Psmall. pose proof (zlen_zdrop_le from file). lia. }
  intros _ _. apply good_abind; [destruct (CompressionKind o); try apply good_plain; apply DecompressChunks_small|]. intros y _.
  apply good_abind; [apply good_plain|]. intros. apply good_plain.
Qed.
Lemma readIndex_good start len : good P (readIndexA inflate o file start len).
Proof.
  unfold readIndexA. destruct (_ <? 0); [apply good_plain|]. destruct (Z.ltb_spec (zlen (zdrop (i64 start) file)) len).
  { intros b Hb. rewrite snd_abind in Hb. discriminate. }
  apply good_abind. { apply good_ask, Psmall. pose proof (zlen_zdrop_le (i64 start) file). lia. }
  intros _ _. apply good_abind; [|intros; apply good_plain]. destruct (CompressionKind o); try apply good_plain; apply DecompressChunks_small.
Qed.
Lemma initAll_good : forall l rs, good P (initAllA inflate o file rs l).
Proof.
  induction l as [|[s st] l IH]; intros rs; cbn [initAllA]; [apply good_plain|].
  destruct (nth_error rs _) as [[r|]|]; [|apply IH|apply good_plain]. apply good_abind; [|intros; apply IH].
  destruct (_ =? 6).
  - unfold any_InitIndexA. apply good_abind; [apply readIndex_good|]. intros. apply good_plain.
  - unfold any_InitStreamA. apply good_abind; [apply good_plain|]. intros r' _. apply good_abind; [|intros; apply good_plain].
    destruct (isNone (CompressionKind o)); cbn [negb andb]; [apply good_plain|]. destruct (makesReader r s); [|apply good_plain]. apply good_ask, Pchunk. reflexivity.
Qed.
Lemma newStripeRd_good rows x : good P (newStripeRdA inflate o nodes hasNulls bopt file rows x).
Proof. unfold newStripeRdA. apply good_abind; [apply good_plain|]. intros rs _. apply good_abind; [apply initAll_good|]. intros. apply good_plain. Qed.
Lemma openStripes_good : forall l, good P (openStripesA inflate o nodes hasNulls bopt file l).
Proof.
  induction l as [|i l IH]; cbn [openStripesA]; [apply good_plain|]. destruct (_ =? 0); [apply good_plain|].
  apply good_abind; [apply openStripe_good|]. intros x _. apply good_abind; [apply newStripeRd_good|]. intros s _.
  apply good_abind; [apply IH|]. intros. apply good_plain.
Qed.
End Readers.

Lemma opened_good bopt r x : openBatches inflate bopt file = Ok (r, x) ->
  Forall (small_or (negb (isNone (fr_kind r))) (fr_chunkSize r)) (fst (openBatchesA inflate bopt file)) /\
  (fr_kind r <> NONE -> In (fr_chunkSize r) (fst (openBatchesA inflate bopt file))).
Proof.
  intros H. rewrite <- openBatchesA_snd in H. unfold openBatchesA in *. rewrite snd_abind in H. apply rbind_inv in H. destruct H as (r' & Hr & H).
  unfold abind at 1 3. rewrite Hr. cbn [fst]. destruct (_ =? 0); [discriminate|]. rewrite snd_abind in H. apply rbind_inv in H. destruct H as (ss & Hs & H).
  cbn [unasked snd] in H. assert (r' = r) as -> by congruence. destruct (reader_good r Hr) as [G1 G2].
  unfold abind. rewrite Hs. cbn [unasked fst]. rewrite app_nil_r. split.
  - apply Forall_app. split; [exact G1|]. refine (openStripes_good (readerOpts r) _ _ _ _ _ _ _ _ Hs).
    + intros n Hn. left. exact Hn.
    + cbn. intros Hk. right. rewrite Hk. split; reflexivity.
  - intros Hk. apply in_app_iff. left. exact (G2 Hk).
Qed.
End Opening.

(** ** Requests of any opening *)
Lemma i64_mod x y : x mod W64 = y mod W64 -> i64 x = i64 y.
Proof. unfold i64. intros ->. reflexivity. Qed.
Lemma i64_mod_eq x : i64 x mod W64 = x mod W64.
Proof. exact (u64_i64 x). Qed.
Lemma i64_sum a x y c : i64 (a + i64 x + i64 y - c) = i64 (a + x + y - c).
Proof.
  apply i64_mod. rewrite (Zminus_mod (a + i64 x + i64 y)), (Zplus_mod (a + i64 x)), (Zplus_mod a), !i64_mod_eq.
  rewrite <- (Zplus_mod a), <- (Zplus_mod (a + x)), <- Zminus_mod. reflexivity.
Qed.

Section Any.
Variable inflate : list Z -> res (list Z).
Lemma nth_u8 i l : bytes l -> is_u8 (nth i l 0).
Proof.
  intros H. destruct (nth_in_or_default i l 0) as [Hi| ->]; [|unfold is_u8; lia].
  exact (proj1 (Forall_forall _ _) H _ Hi).
Qed.
Lemma decompress_asks (P : Z -> Prop) : (forall n, n < 2 ^ 23 -> P n) -> forall fuel src, bytes src -> Forall P (fst (decompress_loopA inflate fuel src)).
Proof.
  intros HP. induction fuel as [|f IH]; intros [|x src] Hb; try apply asks_plain. cbn [decompress_loopA].
  assert (Hh : fst (DecChunkHeader (nth 0 (x :: src) 0) (nth 1 (x :: src) 0) (nth 2 (x :: src) 0)) < 2 ^ 23).
  { rewrite dec_header by (apply nth_u8; exact Hb). cbn [fst].
    pose proof (nth_u8 0 _ Hb) as H0. pose proof (nth_u8 1 _ Hb) as H1. pose proof (nth_u8 2 _ Hb) as H2. unfold is_u8 in *. change (2 ^ 23) with 8388608. zlia. }
  destruct (DecChunkHeader _ _ _) as [n orig]. cbn [fst] in Hh.
  apply asks_abind; [destruct orig; [apply asks_plain|apply asks_ask, HP, Hh]|]. intros _ _.
  apply asks_abind; [apply asks_plain|]. intros [p s] Hc. cbn [unasked snd] in Hc.
  apply asks_abind; [apply asks_plain|]. intros d _. apply asks_abind; [|intros; apply asks_plain]. apply IH. cbn [snd].
  unfold copyN in Hc. destruct (_ <? _); [discriminate|]. assert (s = zdrop n (skipn 3 (x :: src))) as -> by congruence. apply bytes_skipn, bytes_skipn, Hb.
Qed.
Lemma DecompressChunks_asks (P : Z -> Prop) k src : (forall n, n < 2 ^ 23 -> P n) -> bytes src -> Forall P (fst (DecompressChunksA inflate k src)).
Proof. intros HP Hb. destruct k; try apply asks_plain. apply decompress_asks; assumption. Qed.

Variable file : list Z.
Hypothesis Hf : bytes file.
Let P := stated inflate file.
Lemma Psmall n : n <= zlen file -> P n.
Proof. intros H. apply SSmall. left. exact H. Qed.
Lemma Pchunk n : n < 2 ^ 23 -> P n.
Proof. intros H. apply SSmall. right. exact H. Qed.
Lemma tail_asks : Forall P (fst (extractFileTailA inflate file)).
Proof.
  pose proof (zlen_nonneg file) as H0. unfold extractFileTailA. destruct (Z.eqb_spec (zlen file) 0); [apply asks_plain|].
  destruct (Z.leb_spec (zlen file) 3); [apply asks_plain|]. cbv zeta. set (rs := Z.min (zlen file) 16384).
  rewrite ask_fst. constructor; [apply Psmall; unfold rs; lia|].
  assert (Hlen : zlen (zdrop (zlen file - rs) file) = rs) by (rewrite zlen_zdrop by (unfold rs; lia); lia).
  assert (Hlast : nth (Z.to_nat (rs - 1)) (zdrop (zlen file - rs) file) 0 = ps_length file).
  { unfold zdrop. rewrite nth_skip. unfold ps_length. rewrite last_nth. f_equal. assert (1 <= rs <= zlen file) by (unfold rs; lia). clearbody rs. unfold zlen in *. lia. }
  rewrite Hlast. assert (Hp0 : 0 <= ps_length file).
  { unfold ps_length. rewrite last_nth. pose proof (nth_u8 (length file - 1) file Hf) as Hb. unfold is_u8 in Hb. lia. }
  destruct (Z.ltb_spec (rs - 1 - ps_length file) 0); [apply asks_plain|].
  apply asks_abind; [apply asks_plain|]. intros ps Eps. cbn [unasked snd] in Eps.
  assert (Hps : postscript_of file ps).
  { unfold postscript_of. rewrite zdrop_zdrop in Eps by (unfold rs; lia). replace (zlen file - rs + (rs - 1 - ps_length file)) with (zlen file - 1 - ps_length file) in Eps by lia.
    replace (rs - 1 - ps_length file + (zlen file - rs)) with (zlen file - 1 - ps_length file) in Eps by lia. exact Eps. }
  apply asks_abind.
  { destruct (Z.ltb_spec 0 (Z.max 0 (i64 (ps_length file + 1 + i64 (p_footerLength ps) + i64 (p_metadataLength ps) - rs)))); [|apply asks_plain].
    rewrite ask_fst. constructor; [|destruct (_ <? 0); constructor]. eapply STail; [exact Hps|]. rewrite i64_sum in *. fold rs. lia. }
  intros b Hb0. assert (Hb : bytes b).
  { destruct (0 <? _).
    - rewrite ask_snd in Hb0. destruct (_ <? 0); [discriminate|]. cbn [unasked snd] in Hb0. injection Hb0 as <-. apply bytes_app. split; [|apply bytes_ztake]; apply bytes_skipn, Hf.
    - cbn [unasked snd] in Hb0. injection Hb0 as <-. apply bytes_skipn, Hf. }
  destruct (_ || _); [apply asks_plain|]. apply asks_abind; [|intros; apply asks_abind; [apply asks_plain|intros; apply asks_plain]].
  assert (Hblock : p_compression ps <> NONE -> P (p_blockSize ps)) by (intros Hk; eapply SBlock; [exact Hps|exact Hk|reflexivity]).
  destruct (p_compression ps); try apply asks_plain; rewrite ask_fst; (constructor; [apply Hblock; discriminate|]); try constructor.
  apply DecompressChunks_asks; [exact Pchunk|]. apply bytes_ztake, bytes_skipn, Hb.
Qed.
Lemma reader_asks : Forall P (fst (newFileReaderA inflate file)).
Proof. unfold newFileReaderA. apply asks_abind; [exact tail_asks|]. intros. apply asks_plain. Qed.

Section Stripes.
Variable r : fileR colstats.
Hypothesis Hr : newFileReader inflate cs_hasNull unmarshalPS unmarshalFooter file = Ok r.
Variable bopt : batchOption.
Let o := readerOpts r.
Lemma openStripe_asks i : In i (fr_stripes r) -> Forall P (fst (openStripeA inflate (fr_kind r) file i)).
Proof.
  intros Hi. unfold openStripeA. cbv zeta. destruct (_ <? 0); [apply asks_plain|]. rewrite ask_fst.
  constructor; [eapply SFooter; [exact Hr|exact Hi|reflexivity]|]. destruct (_ <? _); [apply asks_plain|].
  apply asks_abind; [|intros; apply asks_abind; [apply asks_plain|intros; apply asks_plain]].
  destruct (fr_kind r); try apply asks_plain; (apply DecompressChunks_asks; [exact Pchunk|]); apply bytes_ztake, bytes_skipn, Hf.
Qed.
Lemma openStripe_footer i x : openStripe inflate unmarshalSF (fr_kind r) file i = Ok x -> exists sf,
  (let! x := unframe inflate (fr_kind r) (ztake (FooterLength i) (zdrop (i64 (Offset i + IndexLength i + DataLength i)) file)) in unmarshalSF x) = Ok sf /\
  incl (map fst (snd x)) (sf_streams sf).
Proof.
  unfold openStripe. destruct (_ <? 0); [discriminate|]. destruct (_ <? _); [discriminate|]. intros H.
  apply rbind_inv in H. destruct H as (fb & Hfb & H). apply rbind_inv in H. destruct H as (sf & Hsf & H). exists sf. split.
  - unfold unframe. rewrite Hfb. exact Hsf.
  - injection H as <-. cbn [snd]. generalize (Offset i) (u64 (Offset i + IndexLength i)).
    induction (sf_streams sf) as [|s l IH]; intros a b; cbn [streamStarts map]; [apply incl_refl|].
    destruct (_ =? 6); cbn [map fst]; apply incl_cons; [left; reflexivity|apply incl_tl, IH|left; reflexivity|apply incl_tl, IH].
Qed.
Lemma readIndex_asks start len : P len -> Forall P (fst (readIndexA inflate o file start len)).
Proof.
  intros Hl. unfold readIndexA. destruct (_ <? 0); [apply asks_plain|]. rewrite ask_fst. constructor; [exact Hl|].
  destruct (_ <? _); [apply asks_plain|]. apply asks_abind; [|intros; apply asks_plain].
  destruct (CompressionKind o); try apply asks_plain; (apply DecompressChunks_asks; [exact Pchunk|]); apply bytes_ztake, bytes_skipn, Hf.
Qed.
Hypothesis Hblock : fr_kind r <> NONE -> P (fr_chunkSize r).
Lemma initAll_asks : forall l rs, Forall (fun q : strm * Z => st_kind (fst q) = 6 -> P (st_length (fst q))) l -> Forall P (fst (initAllA inflate o file rs l)).
Proof.
  induction l as [|[s st] l IH]; intros rs Hl; cbn [initAllA]; [apply asks_plain|].
  inversion Hl as [|? ? H1 H2]; subst. cbn [fst] in H1.
  destruct (nth_error rs _) as [[q|]|]; [|apply IH, H2|apply asks_plain]. apply asks_abind; [|intros; apply IH, H2].
  destruct (Z.eqb_spec (st_kind s) 6) as [E|].
  - unfold any_InitIndexA. apply asks_abind; [apply readIndex_asks, H1, E|]. intros. apply asks_plain.
  - unfold any_InitStreamA. apply asks_abind; [apply asks_plain|]. intros r' _. apply asks_abind; [|intros; apply asks_plain].
    destruct (isNone (CompressionKind o)) eqn:En; cbn [negb andb]; [apply asks_plain|]. destruct (makesReader q s); [|apply asks_plain]. apply asks_ask, Hblock.
    intros Hk. unfold o in En. cbn [readerOpts CompressionKind] in En. rewrite Hk in En. discriminate.
Qed.
Lemma openStripes_asks : forall l, incl l (fr_stripes r) -> Forall P (fst (openStripesA inflate o (fr_nodes r) (fr_hasNulls r) bopt file l)).
Proof.
  induction l as [|i l IH]; intros Hl; cbn [openStripesA]; [apply asks_plain|]. destruct (_ =? 0); [apply asks_plain|].
  assert (Hi : In i (fr_stripes r)) by (apply Hl; left; reflexivity).
  apply asks_abind; [apply openStripe_asks, Hi|]. intros x Hx. apply asks_abind.
  - unfold newStripeRdA. apply asks_abind; [apply asks_plain|]. intros rs _. apply asks_abind; [|intros; apply asks_plain].
    apply initAll_asks. rewrite openStripeA_snd in Hx. destruct (openStripe_footer i x Hx) as (sf & Hsf & Hin). apply Forall_forall.
    intros q Hq Hk. eapply SIndex; [exact Hr|exact Hi|exact Hsf| |exact Hk|reflexivity]. apply Hin, in_map, Hq.
  - intros s _. apply asks_abind; [|intros; apply asks_plain]. apply IH. intros y Hy. apply Hl. right. exact Hy.
Qed.
End Stripes.
Lemma tail_ps ps f : extractFileTail inflate unmarshalPS unmarshalFooter file = Ok (Some (ps, f)) -> postscript_of file ps.
Proof.
  unfold extractFileTail. pose proof (zlen_nonneg file) as H0. destruct (Z.eqb_spec (zlen file) 0); [discriminate|].
  destruct (Z.leb_spec (zlen file) 3); [discriminate|]. cbv zeta. set (rs := Z.min (zlen file) 16384).
  assert (Hlast : nth (Z.to_nat (rs - 1)) (zdrop (zlen file - rs) file) 0 = ps_length file).
  { unfold zdrop. rewrite nth_skip. unfold ps_length. rewrite last_nth. f_equal. assert (1 <= rs <= zlen file) by (unfold rs; lia). clearbody rs. unfold zlen in *. lia. }
  rewrite Hlast. assert (Hp0 : 0 <= ps_length file).
  { unfold ps_length. rewrite last_nth. pose proof (nth_u8 (length file - 1) file Hf) as Hb. unfold is_u8 in Hb. lia. }
  destruct (Z.ltb_spec (rs - 1 - ps_length file) 0); [discriminate|]. intros E. apply rbind_inv in E. destruct E as (ps' & Eps & E).
  apply rbind_inv in E. destruct E as (b & _ & E). destruct (_ || _); [discriminate|]. apply rbind_inv in E. destruct E as (x & _ & E).
  apply rbind_inv in E. destruct E as (f' & _ & E). assert (ps' = ps) as -> by congruence. unfold postscript_of.
  rewrite zdrop_zdrop in Eps by (unfold rs; lia). replace (zlen file - rs + (rs - 1 - ps_length file)) with (zlen file - 1 - ps_length file) in Eps by lia.
  replace (rs - 1 - ps_length file + (zlen file - rs)) with (zlen file - 1 - ps_length file) in Eps by lia. exact Eps.
Qed.
Lemma open_asks bopt : Forall P (fst (openBatchesA inflate bopt file)).
Proof.
  unfold openBatchesA. apply asks_abind; [exact reader_asks|]. intros r Hr. rewrite newFileReaderA_snd in Hr.
  destruct (_ =? 0); [apply asks_plain|]. apply asks_abind; [|intros; apply asks_plain].
  apply openStripes_asks; [exact Hr| |apply incl_refl].
  intros Hk. unfold newFileReader in Hr. apply rbind_inv in Hr. destruct Hr as ([[ps f]|] & Ht & H); [|discriminate].
  destruct (_ =? 0); [discriminate|]. apply rbind_inv in H. destruct H as (ns & _ & H). destruct (_ <? _)%nat; [discriminate|].
  assert (E1 : fr_kind r = p_compression ps) by (injection H as <-; reflexivity).
  assert (E2 : fr_chunkSize r = match p_compression ps with NONE => 262144 | _ => p_blockSize ps end) by (injection H as <-; reflexivity).
  apply (SBlock _ _ _ ps); [exact (tail_ps ps f Ht)|congruence|]. rewrite E2. rewrite E1 in Hk. destruct (p_compression ps); [contradiction|reflexivity..].
Qed.
End Any.

Lemma within_iff {A} M (m : asked A) a : within M m = Ok a <-> snd m = Ok a /\ Forall (fun n => n <= M) (fst m).
Proof.
  unfold within. destruct (forallb _ _) eqn:E.
  - rewrite forallb_forall in E. split; [|tauto]. intros H. split; [exact H|]. apply Forall_forall. intros n Hn. specialize (E n Hn). lia.
  - split; [discriminate|]. intros (_ & H). exfalso. apply Bool.not_true_iff_false in E. apply E. apply forallb_forall. intros n Hn. rewrite Forall_forall in H. specialize (H n Hn). lia.
Qed.
Lemma enough inflate bopt file r x M : zlen file < 2 ^ 62 -> openBatches inflate bopt file = Ok (r, x) -> zlen file <= M ->
  (within M (openBatchesA inflate bopt file) = Ok (r, x) <-> fr_kind r = NONE \/ fr_chunkSize r <= M).
Proof.
  intros Hf H HM. rewrite within_iff, openBatchesA_snd. destruct (opened_good inflate file Hf bopt r x H) as [G1 G2]. split.
  - intros (_ & Hall). destruct (fr_kind r) eqn:Ek; [left; reflexivity|right..]; rewrite Forall_forall in Hall; apply Hall, G2; discriminate.
  - intros Hk. split; [exact H|]. eapply Forall_impl; [|exact G1]. intros n [Hn|[Hc ->]]; [lia|]. destruct Hk as [Hk|Hk]; [rewrite Hk in Hc; discriminate|exact Hk].
Qed.
