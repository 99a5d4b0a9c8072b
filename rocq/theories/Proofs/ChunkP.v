(** Proofs about Model/Chunk.v. *)
From Verif.Model Require Import Chunk.
From Verif.Spec Require Import ChunkSpec.
From Verif.Proofs Require Import Base.

(** ** Headers *)
Lemma enc_le24 l orig : 0 <= l < 2 ^ 23 ->
  encChunkHeader l orig = le24 (2 * l + (if orig then 1 else 0)).
Proof.
  intros Hl. unfold encChunkHeader, le24, u8.
  rewrite !shiftr_div, shiftl_mul by lia. change (2 ^ 1) with 2. change (2 ^ 7) with 128.
  change (2 ^ 15) with 32768. change (2 ^ 23) with 8388608 in Hl.
  assert (H0 : (l * 2) mod 256 = (l mod 128) * 2 ^ 1) by (change (2 ^ 1) with 2; zlia).
  f_equal; [|f_equal; [|f_equal]]; destruct orig; try zlia.
  rewrite H0, lor_add' by (change (2 ^ 1) with 2; lia). change (2 ^ 1) with 2. zlia.
Qed.

Lemma dec_header h0 h1 h2 : is_u8 h0 -> is_u8 h1 -> is_u8 h2 ->
  DecChunkHeader h0 h1 h2 = ((h0 + 256 * h1 + 65536 * h2) / 2, (h0 + 256 * h1 + 65536 * h2) mod 2 =? 1).
Proof.
  unfold is_u8. intros H0 H1 H2. unfold DecChunkHeader.
  rewrite !shiftl_mul, shiftr_div, land_1 by lia.
  assert (E : Z.lor (h2 * 2 ^ 15) (h1 * 2 ^ 7) = (h2 * 256 + h1) * 2 ^ 7).
  { rewrite lor_add by (change (2 ^ 15) with 32768; change (2 ^ 7) with 128; lia).
    change (2 ^ 15) with 32768; change (2 ^ 7) with 128. lia. }
  rewrite E. rewrite lor_add by (change (2 ^ 1) with 2; change (2 ^ 7) with 128; zlia).
  change (2 ^ 7) with 128. change (2 ^ 1) with 2. f_equal; [zlia|].
  f_equal. zlia.
Qed.

Lemma dec_le24 n : 0 <= n < 2 ^ 24 -> exists h0 h1 h2, le24 n = [h0; h1; h2] /\
  DecChunkHeader h0 h1 h2 = (n / 2, n mod 2 =? 1).
Proof.
  change (2 ^ 24) with 16777216. intros Hn. unfold le24. do 3 eexists. split; [reflexivity|].
  rewrite dec_header by (unfold is_u8; zlia).
  assert (E : n mod 256 + 256 * (n / 256 mod 256) + 65536 * (n / 65536 mod 256) = n) by zlia.
  rewrite E. reflexivity.
Qed.
Lemma dec_orig l : 0 <= l < 2 ^ 23 -> exists h0 h1 h2, le24 (2 * l + 1) = [h0; h1; h2] /\
  DecChunkHeader h0 h1 h2 = (l, true).
Proof.
  change (2 ^ 23) with 8388608. intros Hl.
  destruct (dec_le24 (2 * l + 1)) as (a & b & c & E & D); [change (2 ^ 24) with 16777216; lia|].
  exists a, b, c. split; [exact E|]. rewrite D. f_equal; [zlia|].
  replace ((2 * l + 1) mod 2) with 1 by zlia. reflexivity.
Qed.
Lemma dec_comp l : 0 <= l < 2 ^ 23 -> exists h0 h1 h2, le24 (2 * l) = [h0; h1; h2] /\
  DecChunkHeader h0 h1 h2 = (l, false).
Proof.
  change (2 ^ 23) with 8388608. intros Hl.
  destruct (dec_le24 (2 * l)) as (a & b & c & E & D); [change (2 ^ 24) with 16777216; lia|].
  exists a, b, c. split; [exact E|]. rewrite D. f_equal; [zlia|].
  replace ((2 * l) mod 2) with 0 by zlia. reflexivity.
Qed.
Lemma header_roundtrip l orig : 0 <= l < 2 ^ 23 -> exists h0 h1 h2,
  encChunkHeader l orig = [h0; h1; h2] /\ is_u8 h0 /\ is_u8 h1 /\ is_u8 h2 /\
  DecChunkHeader h0 h1 h2 = (l, orig).
Proof.
  intros Hl. rewrite enc_le24 by exact Hl.
  assert (R : forall n, exists a b c, le24 n = [a; b; c] /\ is_u8 a /\ is_u8 b /\ is_u8 c).
  { intros n. unfold le24, is_u8. do 3 eexists. split; [reflexivity|]. zlia. }
  destruct orig; [destruct (dec_orig l Hl) as (a & b & c & E & D) |
                  rewrite Z.add_0_r; destruct (dec_comp l Hl) as (a & b & c & E & D)];
    exists a, b, c; (split; [exact E|]).
  - destruct (R (2 * l + 1)) as (x & y & z & E' & Hx & Hy & Hz). rewrite E in E'.
    injection E' as -> -> ->. auto.
  - destruct (R (2 * l)) as (x & y & z & E' & Hx & Hy & Hz). rewrite E in E'.
    injection E' as -> -> ->. auto.
Qed.

(** ** Lists *)
Lemma ztake_app {A} (l m : list A) : ztake (zlen l) (l ++ m) = l.
Proof. unfold ztake, zlen. rewrite Nat2Z.id. apply firstn_app_exact. Qed.
Lemma zdrop_app {A} (l m : list A) : zdrop (zlen l) (l ++ m) = m.
Proof. unfold zdrop, zlen. rewrite Nat2Z.id. apply skipn_app_exact. Qed.
Lemma ztake_zdrop {A} n (l : list A) : ztake n l ++ zdrop n l = l.
Proof. apply firstn_skipn. Qed.
Lemma zlen_ztake {A} n (l : list A) : 0 <= n <= zlen l -> zlen (ztake n l) = n.
Proof. unfold zlen, ztake. intros H. rewrite firstn_length_le; lia. Qed.
Lemma zlen_zdrop {A} n (l : list A) : 0 <= n <= zlen l -> zlen (zdrop n l) = zlen l - n.
Proof. unfold zlen, zdrop. intros H. rewrite skipn_length. lia. Qed.
Lemma zlen_0 {A} (l : list A) : zlen l = 0 -> l = [].
Proof. destruct l; [reflexivity|]. rewrite zlen_cons. pose proof (zlen_nonneg l). lia. Qed.
Lemma copyN_app l m : copyN (zlen l) (l ++ m) = Ok (l, m).
Proof.
  unfold copyN. rewrite zlen_app. pose proof (zlen_nonneg m).
  destruct (Z.ltb_spec (zlen l + zlen m) (zlen l)); [lia|].
  rewrite ztake_app, zdrop_app. reflexivity.
Qed.

Section Codec.
Variable inflate : list Z -> res (list Z).
Variable cs : Z.
Hypothesis Hcs : 1 <= cs < 2 ^ 23.

Lemma Chunked_app e1 d1 e2 d2 : Chunked inflate cs e1 d1 -> Chunked inflate cs e2 d2 ->
  Chunked inflate cs (e1 ++ e2) (d1 ++ d2).
Proof.
  intros H. induction H as [|d enc ds Hd H IH|p d enc ds Hp Hd Hi H IH]; intros H2; [exact H2| |];
    cbn [app]; rewrite <- !app_assoc; rewrite (app_assoc (le24 _)); constructor; auto.
Qed.

(** ** Compression *)
Section Compress.
Variable deflate : list (list Z) -> list Z -> res (list Z).
Hypothesis Hok : flate_ok deflate inflate.

Lemma toChunks_spec fuel : forall hist src out rest,
  zlibCompressingToChunks deflate fuel cs hist src = Ok (out, rest) ->
  exists ds, Chunked inflate cs out ds /\ concat ds ++ rest = src /\ zlen rest <= cs /\
    Forall (fun d => zlen d = cs) ds /\ (cs < zlen src -> rest <> [] /\ ds <> []) /\
    (zlen src <= cs -> out = [] /\ ds = []).
Proof.
  change (2 ^ 23) with 8388608 in Hcs.
  induction fuel as [|f IH]; intros hist src out rest H; cbn [zlibCompressingToChunks] in H;
    destruct (Z.leb_spec (zlen src) cs) as [Hl|Hl]; try discriminate;
    try (assert (out = []) as -> by congruence; assert (rest = src) as -> by congruence;
         exists []; repeat split; [constructor|lia|constructor|lia|lia]).
  apply rbind_inv in H. destruct H as (c & Hc & H).
  apply rbind_inv in H. destruct H as ([o' src'] & Ho & H).
  assert (out = (if cs <? zlen c then encChunkHeader cs true ++ ztake cs src
                 else encChunkHeader (zlen c) false ++ c) ++ o') as -> by congruence.
  assert (rest = src') as -> by congruence. clear H.
  apply IH in Ho. destruct Ho as (ds & Hch & Hcat & Hle & Hall & Hbig & Hsmall).
  assert (Ht : zlen (ztake cs src) = cs) by (apply zlen_ztake; lia).
  exists (ztake cs src :: ds). split; [|split; [|split; [|split; [|split]]]].
  - destruct (Z.ltb_spec cs (zlen c)) as [Hcl|Hcl].
    + rewrite enc_le24 by (change (2 ^ 23) with 8388608; lia). replace (2 * cs + 1) with (2 * zlen (ztake cs src) + 1) by lia. apply Chunked_orig; [lia|exact Hch].
    + pose proof (zlen_nonneg c).
      rewrite enc_le24 by (change (2 ^ 23) with 8388608; lia). rewrite Z.add_0_r. apply Chunked_comp; [lia|lia| |exact Hch].
      apply (Hok _ _ _ Hc).
  - cbn [concat]. rewrite <- app_assoc, Hcat. apply ztake_zdrop.
  - exact Hle.
  - constructor; assumption.
  - intros _. split; [|discriminate]. intros ->.
    assert (Hd : zlen (zdrop cs src) = zlen src - cs) by (apply zlen_zdrop; lia).
    destruct (Z.lt_ge_cases cs (zlen (zdrop cs src))) as [Hb|Hb].
    + apply Hbig in Hb. destruct Hb. congruence.
    + destruct (Hsmall Hb) as [_ ->]. cbn [concat app] in Hcat. rewrite <- Hcat in Hd.
      rewrite zlen_nil in Hd. lia.
  - lia.
Qed.

Lemma left_spec src out rest :
  zlibCompressingLeft deflate cs src = Ok (out, rest) ->
  rest = [] /\ Chunked inflate cs out [src] /\ zlen src <= cs.
Proof.
  change (2 ^ 23) with 8388608 in Hcs.
  unfold zlibCompressingLeft. destruct (Z.ltb_spec cs (zlen src)) as [|Hl]; [discriminate|].
  intros H. apply rbind_inv in H. destruct H as (c & Hc & H).
  pose proof (zlen_nonneg src). pose proof (zlen_nonneg c).
  assert (rest = []) as -> by congruence. split; [reflexivity|]. split; [|exact Hl].
  assert (out = (if zlen src <? zlen c then encChunkHeader (zlen src) true ++ src
                 else encChunkHeader (zlen c) false ++ c)) as -> by congruence. clear H.
  destruct (Z.ltb_spec (zlen src) (zlen c)) as [Hcl|Hcl].
  - rewrite enc_le24 by (change (2 ^ 23) with 8388608; lia).
    rewrite <- (app_nil_r (_ ++ src)). apply Chunked_orig; [lia|constructor].
  - rewrite enc_le24 by (change (2 ^ 23) with 8388608; lia). rewrite Z.add_0_r.
    rewrite <- (app_nil_r (_ ++ c)). apply Chunked_comp; [lia|lia| |constructor].
    apply (Hok _ _ _ Hc).
Qed.

(** Everything: the content is the source; every chunk but the last is full. *)
Lemma all_spec src out rest :
  CompressingAllInChunks deflate ZLIB cs src = Ok (out, rest) ->
  rest = [] /\ exists ds last, Chunked inflate cs out (ds ++ [last]) /\
    concat ds ++ last = src /\ Forall (fun d => zlen d = cs) ds /\ zlen last <= cs /\
    (src <> [] -> last <> []).
Proof.
  unfold CompressingAllInChunks. intros H. apply rbind_inv in H. destruct H as ([o1 s1] & H1 & H).
  apply rbind_inv in H. destruct H as ([o2 s2] & H2 & H).
  assert (out = o1 ++ o2) as -> by congruence. assert (rest = s2) as -> by congruence. clear H.
  cbn [CompressingChunks CompressingLeft] in H1, H2. apply toChunks_spec in H1. apply left_spec in H2.
  destruct H1 as (ds & Hc & Hcat & Hle & Hall & Hbig & Hsmall). destruct H2 as (-> & Hl & _).
  split; [reflexivity|]. exists ds, s1. split; [|split; [|split; [|split]]]; auto.
  - apply Chunked_app; assumption.
  - intros Hne. destruct (Z.lt_ge_cases cs (zlen src)) as [Hb|Hb].
    + apply Hbig; exact Hb.
    + destruct (Hsmall Hb) as [_ ->]. cbn [concat app] in Hcat. congruence.
Qed.
End Compress.

(** ** Decompression *)
Lemma loop_spec enc ds : Chunked inflate cs enc ds ->
  forall fuel, (length enc <= fuel)%nat -> decompress_loop inflate fuel enc = Ok (concat ds).
Proof.
  change (2 ^ 23) with 8388608 in Hcs.
  intros H. induction H as [|d enc ds Hd H IH|p d enc ds Hp Hd Hi H IH]; intros fuel Hf.
  - destruct fuel; reflexivity.
  - pose proof (zlen_nonneg d).
    destruct (dec_orig (zlen d)) as (a & b & c & E & D); [change (2 ^ 23) with 8388608; lia|].
    rewrite E in *. cbn [app length] in *. destruct fuel as [|f]; [lia|].
    cbn [decompress_loop nth skipn]. rewrite D, copyN_app. cbn [rbind].
    rewrite IH by (rewrite app_length in Hf; lia). reflexivity.
  - pose proof (zlen_nonneg p).
    destruct (dec_comp (zlen p)) as (a & b & c & E & D); [change (2 ^ 23) with 8388608; lia|].
    rewrite E in *. cbn [app length] in *. destruct fuel as [|f]; [lia|].
    cbn [decompress_loop nth skipn]. rewrite D, copyN_app. cbn [rbind]. rewrite Hi. cbn [rbind].
    rewrite IH by (rewrite app_length in Hf; lia). reflexivity.
Qed.
Lemma decompress_spec enc ds : Chunked inflate cs enc ds ->
  DecompressChunks inflate ZLIB enc = Ok (concat ds).
Proof. intros H. apply (loop_spec _ _ H). lia. Qed.
End Codec.

(** ** Totality *)
Section Total.
Variable deflate : list (list Z) -> list Z -> res (list Z).
Hypothesis Htot : flate_total deflate.
Variable cs : Z.
Hypothesis Hcs : 1 <= cs.

Lemma toChunks_total fuel : forall hist src, (length src <= fuel)%nat ->
  exists out rest, zlibCompressingToChunks deflate fuel cs hist src = Ok (out, rest) /\ zlen rest <= cs.
Proof.
  induction fuel as [|f IH]; intros hist src Hf; cbn [zlibCompressingToChunks];
    destruct (Z.leb_spec (zlen src) cs) as [Hl|Hl]; eauto.
  - unfold zlen in Hl. lia.
  - destruct (Htot hist (ztake cs src)) as [c ->]. cbn [rbind].
    destruct (IH (hist ++ [ztake cs src]) (zdrop cs src)) as (o & r & -> & Hr).
    { unfold zdrop. rewrite skipn_length. unfold zlen in Hl. lia. }
    cbn [rbind]. eauto.
Qed.
Lemma all_total src : exists out, CompressingAllInChunks deflate ZLIB cs src = Ok (out, []).
Proof.
  unfold CompressingAllInChunks. cbn [CompressingChunks CompressingLeft].
  destruct (toChunks_total (length src) [] src) as (o & r & -> & Hr); [lia|]. cbn [rbind].
  unfold zlibCompressingLeft. destruct (Z.ltb_spec cs (zlen r)); [lia|].
  destruct (Htot [] r) as [c ->]. cbn [rbind]. eauto.
Qed.
End Total.

(** ** A source of at most two chunks uses the compressor only once per object. *)
Section Fresh.
Variable deflate : list (list Z) -> list Z -> res (list Z).
Definition fresh (hist : list (list Z)) (x : list Z) : res (list Z) := deflate [] x.
Lemma toChunks_fresh cs src fuel : 1 <= cs -> zlen src <= 2 * cs ->
  zlibCompressingToChunks deflate fuel cs [] src = zlibCompressingToChunks fresh fuel cs [] src.
Proof.
  intros Hcs Hs. destruct fuel as [|f]; cbn [zlibCompressingToChunks]; [reflexivity|].
  destruct (Z.leb_spec (zlen src) cs) as [Hl|Hl]; [reflexivity|].
  unfold fresh at 1. destruct (deflate [] (ztake cs src)) as [c| |]; cbn [rbind]; [|reflexivity|reflexivity].
  assert (Hd : zlen (zdrop cs src) <= cs) by (rewrite zlen_zdrop; lia).
  assert (E : forall g h, zlibCompressingToChunks g f cs h (zdrop cs src) = Ok ([], zdrop cs src)).
  { intros g h. destruct f; cbn [zlibCompressingToChunks];
      destruct (Z.leb_spec (zlen (zdrop cs src)) cs); try lia; reflexivity. }
  rewrite !E. reflexivity.
Qed.
Lemma chunks_fresh k cs src : 1 <= cs -> zlen src <= 2 * cs ->
  CompressingChunks deflate k cs src = CompressingChunks fresh k cs src.
Proof. intros. destruct k; try reflexivity. cbn [CompressingChunks]. apply toChunks_fresh; assumption. Qed.
Lemma all_fresh k cs src : 1 <= cs -> zlen src <= 2 * cs ->
  CompressingAllInChunks deflate k cs src = CompressingAllInChunks fresh k cs src.
Proof.
  intros. unfold CompressingAllInChunks. rewrite chunks_fresh by assumption. reflexivity.
Qed.
Lemma fresh_ok inflate : flate_fresh deflate inflate -> flate_ok fresh inflate.
Proof. intros H hist x c Hc. apply H. exact Hc. Qed.
End Fresh.

Lemma toy_ok : flate_ok toy_deflate toy_inflate.
Proof.
  intros hist x c H. unfold toy_deflate in H. destruct x as [|v t].
  - assert (c = [0]) as -> by congruence. reflexivity.
  - destruct (forallb (Z.eqb v) t && (length (v :: t) <? 200)%nat) eqn:E.
    + assert (c = [1; Z.of_nat (length (v :: t)); v]) as -> by congruence. cbn [toy_inflate].
      rewrite Nat2Z.id. f_equal. cbn [length repeat]. f_equal. symmetry.
      apply andb_true_iff in E. destruct E as [E _]. clear -E. induction t as [|x t IH]; [reflexivity|].
      cbn [forallb] in E. apply andb_true_iff in E. destruct E as [E1 E2]. apply Z.eqb_eq in E1.
      cbn [length repeat]. f_equal; [congruence|]. auto.
    + assert (c = 0 :: v :: t) as -> by congruence. reflexivity.
Qed.
Lemma toy_total : flate_total toy_deflate.
Proof.
  intros hist x. unfold toy_deflate. destruct x as [|v t]; eauto.
  destruct (forallb (Z.eqb v) t && (length (v :: t) <? 200)%nat); eauto.
Qed.
