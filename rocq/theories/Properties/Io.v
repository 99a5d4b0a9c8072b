(** C59, C60, C61: files whose reads are short and whose writes fail. *)
From Coq Require Import ZifyBool ZifyNat.
From Verif.Model Require Import Go ByteBool Chunk Stream Schema Rows File Column Wire Assembled Io.
From Verif.Spec Require Import ChunkSpec FileSpec AssemblySpec IoSpec.
From Verif.Proofs Require Import Base ChunkP TailP IoP IoOutP.
From Verif.Properties Require Import Columns File.

(** ** C59 *)
(** io.ReadFull over osFile gives the next [n] bytes of the file, or an error if there
    are fewer, however the operating system splits the reads. *)
Theorem C59_full_reads : forall H (os : handle H) content at_ h p n, os_ok os content at_ -> at_ h p -> 0 <= n ->
  if zlen (zdrop p content) <? n then ReadFull (h_Read (osFile os)) n h = Err
  else exists h', ReadFull (h_Read (osFile os)) n h = Ok (ztake n (zdrop p content), h') /\ at_ h' (p + n).
Proof.
  intros H os content at_ h p n Hok. apply (ReadFull_ok (osFile os) content 0 at_). apply osFile_ok. exact Hok.
Qed.
Print Assumptions C59_full_reads.

(** io.CopyN into a buffer likewise; [room] is the free capacity of the buffer in each
    step. *)
Theorem C59_copies : forall H (os : handle H) content at_ h p n room buf, os_ok os content at_ -> at_ h p ->
  (forall i, 0 < room i) ->
  if zlen (zdrop p content) <? n then CopyN (h_Read (osFile os)) room n buf h = Err
  else exists h', CopyN (h_Read (osFile os)) room n buf h = Ok (buf ++ ztake n (zdrop p content), h') /\
                  at_ h' (p + Z.max 0 n).
Proof.
  intros H os content at_ h p n room buf Hok Hat Hroom.
  apply (CopyN_ok (osFile os) content 0 at_); [apply osFile_ok; exact Hok|exact Hroom|exact Hat].
Qed.
Print Assumptions C59_copies.

(** Whatever a client decodes from a stream, with any seeks, is what the stream over the
    ideal file gives. *)
Theorem C59_sessions : forall H (os : handle H) content at_ h p A (l : list (op A)) room inflate o bound start len,
  os_ok os content at_ -> at_ h p -> (forall i, 0 < room i) -> 1 <= ChunkSize o < W63 ->
  (length content < bound)%nat -> 0 <= start < W63 -> is_u64 len -> Forall (op_ok start) l ->
  (let! r := io_newReader (osFile os) h start len in
   session (io_run (osFile os) room inflate o bound) (io_seek (osFile os) room inflate o) l r)
  = session (r_run inflate o) (r_seek inflate o) l (newReader content start len).
Proof.
  intros H os content at_ h p A l room inflate o bound start len Hok Hat Hroom Hc Hb Hs Hlen Hl.
  pose proof (proj1 (osFile_ok os content at_ Hok) W63) as ok.
  destruct (new_sim _ _ _ _ ok h p start len Hat ltac:(lia) ltac:(lia) Hlen) as (i & -> & S0). cbn [rbind].
  apply (session_sim _ _ _ _ ok room inflate o bound Hroom Hc Hb start); [lia|lia|exact S0|reflexivity|exact Hl].
Qed.
Print Assumptions C59_sessions.

(** Two files with the same bytes are indistinguishable, whatever the sizes of their
    reads and of the buffers. *)
Theorem C59_same_bytes_same_values : forall H1 H2 (os1 : handle H1) (os2 : handle H2) content at1 at2 h1 p1 h2 p2
    A (l : list (op A)) room1 room2 inflate o b1 b2 start len,
  os_ok os1 content at1 -> os_ok os2 content at2 -> at1 h1 p1 -> at2 h2 p2 ->
  (forall i, 0 < room1 i) -> (forall i, 0 < room2 i) -> 1 <= ChunkSize o < W63 ->
  (length content < b1)%nat -> (length content < b2)%nat -> 0 <= start < W63 -> is_u64 len ->
  Forall (op_ok start) l ->
  (let! r := io_newReader (osFile os1) h1 start len in
   session (io_run (osFile os1) room1 inflate o b1) (io_seek (osFile os1) room1 inflate o) l r) =
  (let! r := io_newReader (osFile os2) h2 start len in
   session (io_run (osFile os2) room2 inflate o b2) (io_seek (osFile os2) room2 inflate o) l r).
Proof.
  intros. transitivity (session (r_run inflate o) (r_seek inflate o) l (newReader content start len)).
  - eapply C59_sessions; eassumption.
  - symmetry. eapply C59_sessions; eassumption.
Qed.
Print Assumptions C59_same_bytes_same_values.

(** Opening: the tail and the stripe footers. *)
Theorem C59_tail : forall H (os : handle H) content at_ h p inflate ST unPS (unFooter : list Z -> res (footer ST)),
  os_ok os content at_ -> at_ h p -> zlen content < W63 ->
  io_extractFileTail (osFile os) inflate unPS unFooter h = extractFileTail inflate unPS unFooter content.
Proof.
  intros H os content at_ h p inflate ST unPS unFooter Hok Hat Hl.
  apply (extractFileTail_sim (osFile os) content at_ (osFile_ok _ _ _ Hok) inflate ST unPS unFooter h p Hat Hl).
Qed.
Print Assumptions C59_tail.

Theorem C59_stripe_footer : forall H (os : handle H) content at_ h p inflate unSF k i,
  os_ok os content at_ -> at_ h p -> 0 <= FooterLength i ->
  openStripe inflate unSF k content i =
  (let! (sf, _) := io_readFooter (osFile os) inflate unSF k i h in
   Ok (sf_columns sf, streamStarts (Offset i) (u64 (Offset i + IndexLength i)) (sf_streams sf))).
Proof.
  intros H os content at_ h p inflate unSF k i Hok.
  apply (openStripe_sim (osFile os) content at_ (osFile_ok _ _ _ Hok)).
Qed.
Print Assumptions C59_stripe_footer.

(** Row indexes: the bytes unmarshalled are the same. *)
Theorem C59_row_index : forall H (os : handle H) content at_ h p inflate o c start len,
  os_ok os content at_ -> at_ h p -> 0 <= len ->
  InitIndex inflate o content c start len =
  (let! (buf, _) := io_indexBytes (osFile os) inflate o start len h in
   let! l := unmarshalIndex buf in Ok (setIndex l c)).
Proof.
  intros H os content at_ h p inflate o c start len Hok Hat Hl. unfold InitIndex, readIndex, io_indexBytes.
  pose proof (os_readAt (osFile os) content at_ (osFile_ok _ _ _ Hok) (i64 start) len h p Hat Hl) as L.
  set (from := i64 start) in *. destruct (from <? 0); cbn [orb] in L; [rewrite L; reflexivity|].
  destruct (_ <? len); [rewrite L; reflexivity|]. destruct L as (h1 & -> & _). cbn [rbind].
  destruct (CompressionKind o); [reflexivity|..]; destruct (DecompressChunks _ _ _); reflexivity.
Qed.
Print Assumptions C59_row_index.

(** Such files exist: the operating system gives [most] bytes at a time. *)
Definition bits (content : list Z) (most : Z) : handle Z :=
  {| h_Read := fun k p => let d := ztake (Z.min k most) (zdrop p content) in
                          Ok (d, (if zlen (zdrop p content) =? 0 then Some EOF else None), p + zlen d);
     h_Seek := fun off _ => if off <? 0 then Err else Ok off;
     h_Size := fun _ => Ok (zlen content) |}.
Example bits_ok content most : 1 <= most -> os_ok (bits content most) content (fun h p => h = p /\ 0 <= p).
Proof.
  intros Hm. split.
  - intros limit. split; [intros h p [_ Hp]; exact Hp|]. split; [|split].
    + intros h p k [-> Hp] Hk. cbn [bits h_Read]. set (U := zdrop p content).
      set (d := ztake (Z.min k most) U).
      assert (Hd : zlen d = Z.min (Z.min k most) (zlen U)) by (subst d; unfold ztake, zlen; rewrite firstn_length; lia).
      pose proof (zlen_nonneg U) as HU0. pose proof (zlen_nonneg d) as Hd0.
      eexists d, _, _. split; [reflexivity|]. split; [lia|].
      assert (Eu : U = d ++ zdrop (p + zlen d) content).
      { rewrite <- (zdrop_zdrop (zlen d) p) by lia. fold U.
        rewrite <- (ztake_zdrop (Z.min k most) U) at 1. fold d. f_equal.
        destruct (Z.le_gt_cases (Z.min k most) (zlen U)).
        - f_equal. lia.
        - rewrite !zdrop_all by lia. reflexivity. }
      split; [exact Eu|]. split; [split; [reflexivity|lia]|].
      destruct (Z.eqb_spec (zlen U) 0) as [E0|E0]; split; intros X; try congruence.
      * apply zlen_0 in E0. rewrite E0 in Eu. symmetry in Eu. apply app_eq_nil in Eu. apply Eu.
      * intros Ed. rewrite Ed in Hd. cbn in Hd. lia.
    + intros h p off _ Hoff. exists off. cbn [bits h_Seek]. replace (off <? 0) with false by lia.
      split; [reflexivity|]. split; [reflexivity|lia].
    + reflexivity.
  - intros h off Hoff. cbn [bits h_Seek]. replace (off <? 0) with true by lia. reflexivity.
Qed.
(** A byte at a time: the first two values of a compressed stream, and one after a seek. *)
Example C59_ex :
  let content := [7; 7] ++ encChunkHeader 3 true ++ [0; 200; 0] ++ encChunkHeader 2 true ++ [5; 9] in
  (let! r := io_newReader (osFile (bits content 1)) 0 2 11 in
   session (io_run (osFile (bits content 1)) (fun _ => 512) toy_inflate zl64 100)
           (io_seek (osFile (bits content 1)) (fun _ => 512) toy_inflate zl64)
           [Decode (RdByte (fun a => RdFull 3 (fun l => Ret (a :: l)))); SeekTo 6 1; Decode (RdByte (fun a => Ret [a]))] r)
  = Ok [[0; 200; 0; 5]; [9]].
Proof. vm_compute. reflexivity. Qed.
(** The tail of [file1] through reads of at most 7 bytes. *)
Example C59_tail_ex :
  io_extractFileTail (osFile (bits file1 7)) toy_inflate unmarshalPS unmarshalFooter 0 =
  extractFileTail toy_inflate unmarshalPS unmarshalFooter file1.
Proof.
  apply (C59_tail _ (bits file1 7) file1 (fun h p => h = p /\ 0 <= p) 0 0).
  - apply bits_ok. lia.
  - split; [reflexivity|lia].
  - vm_compute. reflexivity.
Qed.

(** ** C60 *)
(** Writing [pieces] to a MockFile, each call without an error. *)
Fixpoint mockWrites (pieces : list (list Z)) (m : mock) : option mock :=
  match pieces with
  | [] => Some m
  | p :: r => let '(_, ok, m') := mock_Write p m in if ok then mockWrites r m' else None
  end.

Lemma mockWrites_ok pieces : forall buf w, 0 <= w -> w + zlen (concat pieces) < zlen buf ->
  exists buf', mockWrites pieces {| m_buf := buf; m_offset := 0; m_waterMark := w |} =
      Some {| m_buf := buf'; m_offset := 0; m_waterMark := w + zlen (concat pieces) |} /\
    zlen buf' = zlen buf /\ ztake (w + zlen (concat pieces)) buf' = ztake w buf ++ concat pieces.
Proof.
  induction pieces as [|p pieces IH]; intros buf w Hw Hl; cbn [mockWrites concat] in *.
  - exists buf. change (zlen (@nil Z)) with 0. rewrite Z.add_0_r, app_nil_r. auto.
  - rewrite zlen_app in Hl. pose proof (zlen_nonneg p). pose proof (zlen_nonneg (concat pieces)).
    destruct (mock_write buf w p 0 _ (conj eq_refl (conj (Z.le_refl 0) Hw)) ltac:(lia)) as (b1 & -> & Hb1 & Et1).
    destruct (IH b1 (w + zlen p) ltac:(lia) ltac:(lia)) as (b2 & -> & Hb2 & Et2).
    exists b2. rewrite zlen_app, Z.add_assoc. split; [reflexivity|]. split; [lia|].
    rewrite Et2, Et1, app_assoc. reflexivity.
Qed.

(** As long as the buffer is not full, a MockFile holds what was written and reads as
    any file does. *)
Theorem C60_with_room_partial : forall buf pieces, zlen (concat pieces) < zlen buf ->
  exists m, mockWrites pieces (NewMockFile buf) = Some m /\ mock_at (m_buf m) (zlen (concat pieces)) m 0 /\
            file_ok mockFile (concat pieces) (zlen (concat pieces)) (mock_at (m_buf m) (zlen (concat pieces))).
Proof.
  intros buf pieces Hl. pose proof (zlen_nonneg (concat pieces)).
  destruct (mockWrites_ok pieces buf 0 ltac:(lia) ltac:(lia)) as (b & E & Hb & Et).
  rewrite Z.add_0_l in *. rewrite (ztake_0 0) in Et by lia. cbn [app] in Et.
  eexists. split; [exact E|]. cbn [m_buf]. split; [split; [reflexivity|lia]|].
  pose proof (mock_ok b (zlen (concat pieces)) ltac:(lia)) as M. rewrite Et in M. exact M.
Qed.
Print Assumptions C60_with_room_partial.
Example C60_ex : exists m, mockWrites [[1; 2]; []; [3]] (NewMockFile (repeat 0 4)) = Some m /\
  CopyN mock_Read (fun _ => 512) 3 [] m = Ok ([1; 2; 3], {| m_buf := [1; 2; 3; 0]; m_offset := 3; m_waterMark := 3 |}).
Proof. eexists. split; vm_compute; reflexivity. Qed.

(** Writes report that the buffer has no room for them, and only then. *)
Theorem C60_room_iff : forall buf pieces,
  mockWrites pieces (NewMockFile buf) = None <-> zlen buf < zlen (concat pieces).
Proof.
  intros buf pieces. unfold NewMockFile.
  assert (G : forall ps b w, 0 <= w <= zlen b ->
    (mockWrites ps {| m_buf := b; m_offset := 0; m_waterMark := w |} = None <-> zlen b < w + zlen (concat ps))).
  { induction ps as [|p ps IH]; intros b w Hw; cbn [mockWrites concat].
    - change (zlen (@nil Z)) with 0. split; [discriminate|lia].
    - rewrite zlen_app. pose proof (zlen_nonneg p). pose proof (zlen_nonneg (concat ps)).
      unfold mock_Write. cbn [m_buf m_offset m_waterMark]. destruct (Z.ltb_spec (Z.min (zlen p) (zlen b - w)) (zlen p)) as [L|L]; cbn [negb].
      + split; [lia|reflexivity].
      + replace (Z.min (zlen p) (zlen b - w)) with (zlen p) by lia. rewrite IH.
        * rewrite !zlen_app, !zlen_ztake, zlen_zdrop by lia. lia.
        * rewrite !zlen_app, !zlen_ztake, zlen_zdrop by lia. lia. }
  rewrite G by (pose proof (zlen_nonneg buf); lia). rewrite Z.add_0_l. reflexivity.
Qed.
Print Assumptions C60_room_iff.
(** A write without room fills the buffer with the bytes it has room for. *)
Theorem C60_no_room : forall buf w q p, 0 <= w <= zlen buf -> zlen buf - w <= zlen p ->
  exists ok buf', mock_Write p {| m_buf := buf; m_offset := q; m_waterMark := w |} =
    (zlen buf - w, ok, {| m_buf := buf'; m_offset := q; m_waterMark := zlen buf |}) /\
    buf' = ztake w buf ++ ztake (zlen buf - w) p /\ zlen buf' = zlen buf.
Proof.
  intros buf w q p Hw Hp. unfold mock_Write. cbn [m_buf m_offset m_waterMark].
  replace (Z.min (zlen p) (zlen buf - w)) with (zlen buf - w) by lia.
  replace (w + (zlen buf - w)) with (zlen buf) by lia.
  eexists _, _. split; [reflexivity|]. rewrite (zdrop_all (zlen buf)) by lia. rewrite app_nil_r.
  split; [reflexivity|]. rewrite zlen_app, !zlen_ztake by lia. lia.
Qed.
Print Assumptions C60_no_room.
Example C60_no_room_ex : mockWrites [[1; 2]; [3; 4]] (NewMockFile (repeat 0 3)) = None /\
  snd (mock_Write [3; 4] {| m_buf := [1; 2; 0]; m_offset := 0; m_waterMark := 2 |}) =
    {| m_buf := [1; 2; 3]; m_offset := 0; m_waterMark := 3 |}.
Proof. split; vm_compute; reflexivity. Qed.

(** A full buffer: 513 bytes were written without an error, but a copy of them, into a
    buffer that first has room for 512, ends with an unexpected end of file. *)
Theorem C60_full_refuted : exists bytes m, mockWrites [bytes] (NewMockFile (repeat 0 513)) = Some m /\ zlen bytes = 513 /\
  CopyN mock_Read (fun _ => 512) 513 [] m = Err /\
  exists m', ReadFull mock_Read 513 m = Ok (bytes, m').
Proof.
  exists (repeat 5 513). eexists. split; [vm_compute; reflexivity|]. split; [vm_compute; reflexivity|].
  split; [vm_compute; reflexivity|]. eexists. vm_compute. reflexivity.
Qed.
Print Assumptions C60_full_refuted.

(** A MockFile made from bytes is empty: its size is 0 and every read is at its end. *)
Theorem C60_given_bytes_refuted : forall bytes k, h_Size mockFile (NewMockFile bytes) = Ok 0 /\
  exists m, mock_Read k (NewMockFile bytes) = Ok ([], Some EOF, m).
Proof.
  intros b k. split; [reflexivity|]. unfold mock_Read, NewMockFile. cbn [m_offset m_waterMark m_buf].
  eexists. cbn [Z.ltb Z.compare orb Z.sub Z.add Z.opp]. rewrite (ztake_0 0) by lia.
  assert (E : ztake k (@nil Z) = []) by (unfold ztake; destruct (Z.to_nat k); reflexivity).
  rewrite E. change (zlen (@nil Z)) with 0. rewrite orb_true_r. reflexivity.
Qed.
Print Assumptions C60_given_bytes_refuted.

(** Reading behind the written bytes panics, where a file reports its end. *)
Theorem C60_behind_end_refuted : forall buf w off k m, 0 <= w -> w < off < zlen buf -> mock_at buf w m 0 ->
  (let! m' := mock_Seek off m in mock_Read k m') = Panic.
Proof.
  intros buf w off k m Hw Ho (-> & _). unfold mock_Seek. cbn [m_buf]. replace (zlen buf <=? off) with false by lia.
  cbn [rbind]. unfold mock_Read. cbn [m_offset m_waterMark]. replace (_ || _) with true by lia. reflexivity.
Qed.
Print Assumptions C60_behind_end_refuted.
Example C60_behind_ex : (let! m' := mock_Seek 2 (NewMockFile [0; 0; 0]) in mock_Read 1 m') = Panic.
Proof. apply (C60_behind_end_refuted [0; 0; 0] 0); [lia| cbn; lia | split; [reflexivity|lia]]. Qed.

(** ** C61 *)
(** If no call of the client reported an error, all the bytes of the file of the model
    are on the disk, even though every write may fail. *)
Theorem C61_success_partial : forall W (osWrite : list Z -> W -> Z * bool * W) osClose disk deflate F o stride P
    StripeSize schema vs f f',
  appends osWrite disk -> (forall f, disk (snd (osClose f)) = disk f) -> disk f = [] ->
  client osWrite osClose deflate (columns deflate F o stride) (c_Streams o) P o StripeSize schema vs f = Ok f' ->
  closed deflate (columns deflate F o stride) P o StripeSize schema vs (disk f').
Proof.
  intros W osWrite osClose disk deflate F o stride P sz schema vs f f' Ha Hc H0 E.
  pose proof (client_ok osWrite osClose disk Ha (fun _ _ => True) (fun _ => I) (fun _ _ _ _ _ => I) (fun _ _ _ _ _ => I)
    deflate (columns deflate F o stride) (c_Streams o) P o sz (columns_streams deflate F o stride) schema vs f H0) as L.
  rewrite E in L. destruct L as (g & Hg & _ & ->). rewrite Hc. exact Hg.
Qed.
Print Assumptions C61_success_partial.

(** A failed write is reported: no write of a client without errors has failed. *)
Theorem C61_failed_write_reported : forall W (osWrite : list Z -> W -> Z * bool * W) osClose disk deflate F o stride P
    StripeSize schema vs f f' failed,
  appends osWrite disk -> disk f = [] ->
  client (noted osWrite) (fun f => (fst (osClose (fst f)), (snd (osClose (fst f)), snd f))) deflate
     (columns deflate F o stride) (c_Streams o) P o StripeSize schema vs (f, false) = Ok (f', failed) ->
  failed = false.
Proof.
  intros W osWrite osClose disk deflate F o stride P sz schema vs f f' failed Ha H0 E.
  assert (Ha' : appends (noted osWrite) (fun f => disk (fst f))).
  { intros p [g b] n ok [g' b'] En. unfold noted in En. cbn [fst snd] in *.
    destruct (osWrite p g) as [[n1 ok1] g1] eqn:Eo. injection En as <- <- <- _. apply (Ha _ _ _ _ _ Eo). }
  pose proof (client_ok (noted osWrite) (fun f => (fst (osClose (fst f)), (snd (osClose (fst f)), snd f)))
    (fun f => disk (fst f)) Ha' (fun a b => snd a = snd b) (fun _ => eq_refl) (fun a b c X Y => eq_trans X Y)) as L.
  assert (Hq : forall p g n g', noted osWrite p g = (n, true, g') -> snd g = snd g').
  { intros p [g b] n [g' b'] En. unfold noted in En. cbn [fst snd] in *.
    destruct (osWrite p g) as [[n1 ok1] g1] eqn:Eo. injection En as _ -> _ <-. rewrite orb_false_r. reflexivity. }
  specialize (L Hq deflate _ _ _ (columns deflate F o stride) (c_Streams o) P o sz (columns_streams deflate F o stride)
    schema vs (f, false) H0).
  rewrite E in L. destruct L as ([g b] & _ & Hb & Ef). cbn [fst snd] in *. injection Ef as _ ->. symmetry. exact Hb.
Qed.
Print Assumptions C61_failed_write_reported.

(** Without failures the client succeeds exactly when the model does. *)
Theorem C61_without_failures : forall W (osWrite : list Z -> W -> Z * bool * W) osClose disk deflate F o stride P
    StripeSize schema vs f file,
  appends osWrite disk -> ~ faulty osWrite -> (forall f, disk (snd (osClose f)) = disk f) -> disk f = [] ->
  closed deflate (columns deflate F o stride) P o StripeSize schema vs file ->
  exists f', client osWrite osClose deflate (columns deflate F o stride) (c_Streams o) P o StripeSize schema vs f = Ok f' /\
             disk f' = file.
Proof.
  intros W osWrite osClose disk deflate F o stride P sz schema vs f file Ha Hf Hc H0 (w0 & w & E0 & E1 & E2).
  pose proof (client_ok osWrite osClose disk Ha (fun _ _ => True) (fun _ => I) (fun _ _ _ _ _ => I) (fun _ _ _ _ _ => I)
    deflate (columns deflate F o stride) (c_Streams o) P o sz (columns_streams deflate F o stride) schema vs f H0) as L.
  destruct (client _ _ _ _ _ _ _ _ _ _ f) as [f'| |].
  - destruct L as (g & (v0 & v & F0 & F1 & F2) & _ & ->). eexists. split; [reflexivity|]. rewrite Hc. congruence.
  - destruct L as [L|L]; [contradiction|]. rewrite E0 in L. cbn [rbind] in L. rewrite E1 in L. cbn [rbind] in L. congruence.
  - rewrite E0 in L. cbn [rbind] in L. rewrite E1 in L. cbn [rbind] in L. congruence.
Qed.
Print Assumptions C61_without_failures.

(** A disk with room for [room] bytes. *)
Definition quota (room : Z) (p : list Z) (f : list Z) : Z * bool * list Z :=
  let n := Z.max 0 (Z.min (zlen p) (room - zlen f)) in (n, n =? zlen p, f ++ ztake n p).
Lemma quota_appends room : appends (quota room) (fun f => f).
Proof.
  intros p f n ok f' E. unfold quota in E. injection E as <- <- <-. pose proof (zlen_nonneg p).
  split; [lia|]. intros Eo. apply Z.eqb_eq in Eo. rewrite Eo. split; [reflexivity|]. rewrite ztake_all by lia. reflexivity.
Qed.
(** [file1] on a disk that is large enough, and on one a byte too small. *)
Example C61_ex : zlen file1 = 185 /\
  client (quota 185) (fun f => (true, f)) toy_deflate (columns toy_deflate fl zl64 10) (c_Streams zl64) wire zl64 1000
    sample_schema [sample_batch sample_rows] [] = Ok file1 /\
  client (quota 184) (fun f => (true, f)) toy_deflate (columns toy_deflate fl zl64 10) (c_Streams zl64) wire zl64 1000
    sample_schema [sample_batch sample_rows] [] = Err.
Proof. split; [|split]; vm_compute; reflexivity. Qed.

(** But an error of closing the file is lost: the client sees no error. *)
Theorem C61_close_error_lost_refuted : exists osClose : list Z -> bool * list Z,
  (forall f, fst (osClose f) = false) /\
  client (quota 1000) osClose toy_deflate (columns toy_deflate fl zl64 10) (c_Streams zl64) wire zl64 1000
    sample_schema [sample_batch sample_rows] [] = Ok [].
Proof. exists (fun _ => (false, [])). split; [reflexivity|]. vm_compute. reflexivity. Qed.
Print Assumptions C61_close_error_lost_refuted.
