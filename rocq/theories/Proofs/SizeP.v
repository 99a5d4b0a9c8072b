(** How large the encoded data can get. *)
From Verif.Model Require Import Codec ByteBool IntRle Chunk Stream.
From Verif.Spec Require Import Session StreamSpec.
From Verif.Proofs Require Import Base CodecP ChunkP ByteBoolP IntRunsP IntPatchP.

(** ** Chunks *)
Lemma zlen_header l b : zlen (encChunkHeader l b) = 3.
Proof. reflexivity. Qed.
Section Chunks.
Variable deflate : list (list Z) -> list Z -> res (list Z).
Variable cs : Z.
Hypothesis Hcs : 1 <= cs.
Lemma toChunks_size fuel : forall hist src out rest,
  zlibCompressingToChunks deflate fuel cs hist src = Ok (out, rest) ->
  exists k, 0 <= k /\ zlen src = cs * k + zlen rest /\ zlen out <= (cs + 3) * k /\ zlen rest <= cs /\
            (cs < zlen src -> 1 <= zlen rest) /\ (zlen src <= cs -> k = 0).
Proof.
  induction fuel as [|f IH]; intros hist src out rest H; cbn [zlibCompressingToChunks] in H;
    destruct (Z.leb_spec (zlen src) cs) as [Hl|Hl];
    [exists 0; assert (E1 : out = []) by congruence; assert (E2 : rest = src) by congruence; subst out rest; change (zlen (@nil Z)) with 0; lia
    |discriminate H
    |exists 0; assert (E1 : out = []) by congruence; assert (E2 : rest = src) by congruence; subst out rest; change (zlen (@nil Z)) with 0; lia|].
  apply rbind_inv in H. destruct H as (c & Hc & H).
  apply rbind_inv in H. destruct H as ([o' src'] & Ho & H).
  assert (Eo : out = (if cs <? zlen c then encChunkHeader cs true ++ ztake cs src
                 else encChunkHeader (zlen c) false ++ c) ++ o') by congruence.
  assert (rest = src') as -> by congruence. clear H.
  apply IH in Ho. destruct Ho as (k & Hk & Hs & Hz & Hr & Hb & Hb0).
  assert (Ht : zlen (ztake cs src) = cs) by (apply zlen_ztake; lia).
  assert (Hd : zlen (zdrop cs src) = zlen src - cs) by (apply zlen_zdrop; lia).
  exists (k + 1). subst out. rewrite zlen_app.
  assert (zlen (if cs <? zlen c then encChunkHeader cs true ++ ztake cs src else encChunkHeader (zlen c) false ++ c) <= cs + 3).
  { destruct (Z.ltb_spec cs (zlen c)); rewrite zlen_app, zlen_header; lia. }
  split; [lia|]. split; [nia|]. split; [nia|]. split; [exact Hr|]. split; [|lia]. intros _.
  destruct (Z.lt_ge_cases cs (zlen (zdrop cs src))) as [Hg|Hg]; [auto|].
  rewrite (Hb0 ltac:(lia)) in Hs. lia.
Qed.
Lemma left_size src out rest : zlibCompressingLeft deflate cs src = Ok (out, rest) -> rest = [] /\ zlen out <= zlen src + 3.
Proof.
  unfold zlibCompressingLeft. destruct (cs <? zlen src); [discriminate|]. intros H.
  apply rbind_inv in H. destruct H as (c & Hc & H).
  assert (out = (if zlen src <? zlen c then encChunkHeader (zlen src) true ++ src
      else encChunkHeader (zlen c) false ++ c)) as -> by congruence.
  split; [congruence|]. destruct (Z.ltb_spec (zlen src) (zlen c)); rewrite zlen_app, zlen_header; lia.
Qed.
Lemma all_size k src out rest : CompressingAllInChunks deflate k cs src = Ok (out, rest) ->
  exists n, 0 <= n /\ rest = [] /\ zlen out <= zlen src + 3 * (n + 1) /\
            exists r, zlen src = cs * n + r /\ 0 <= r <= cs /\ (0 < zlen src -> 1 <= r).
Proof.
  unfold CompressingAllInChunks. intros H. apply rbind_inv in H. destruct H as ([o1 s1] & H1 & H).
  apply rbind_inv in H. destruct H as ([o2 s2] & H2 & H).
  assert (out = o1 ++ o2) as -> by congruence. assert (rest = s2) as -> by congruence. clear H.
  destruct k; cbn [CompressingLeft] in H2; try discriminate. cbn [CompressingChunks] in H1.
  apply toChunks_size in H1. destruct H1 as (n & Hn & Hs & Hz & Hr & Hb & Hb0).
  apply left_size in H2. destruct H2 as [-> H2]. exists n. rewrite zlen_app.
  pose proof (zlen_nonneg s1). split; [lia|]. split; [reflexivity|]. split; [nia|].
  exists (zlen s1). split; [exact Hs|]. split; [lia|]. intros Hp.
  destruct (Z.lt_ge_cases cs (zlen src)); [auto|]. rewrite (Hb0 ltac:(lia)) in Hs. lia.
Qed.
End Chunks.

(** [chunks n cs]: the number of chunks begun by [n] bytes. *)
Lemma chunks_eq cs n k r : 1 <= cs -> n = cs * k + r -> 1 <= r <= cs -> (n + cs - 1) / cs = k + 1.
Proof. intros H E Hr. symmetry. apply (Z.div_unique _ _ _ (r - 1)); nia. Qed.
Lemma chunks_all deflate k cs src out rest : 1 <= cs -> CompressingAllInChunks deflate k cs src = Ok (out, rest) ->
  src <> [] -> zlen out <= zlen src + 3 * ((zlen src + cs - 1) / cs).
Proof.
  intros Hcs H Hne. apply (all_size _ _ Hcs) in H. destruct H as (n & Hn & _ & Hz & r & Hs & Hr & Hp).
  assert (0 < zlen src). { destruct src; [congruence|]. rewrite zlen_cons. pose proof (zlen_nonneg src). lia. }
  rewrite (chunks_eq cs (zlen src) n r); lia.
Qed.

(** ** Streams *)
Section Streams.
Variable deflate : list (list Z) -> list Z -> res (list Z).
Variable E V : Type.
Variable enc : E -> V -> res (E * list Z).
Variable flush : E -> res (E * list Z).
Variable o : opts.
Hypothesis Hcs : 1 <= ChunkSize o.
Let cs := ChunkSize o.

Definition Sized (w : writer E) (n : Z) : Prop :=
  if isNone (CompressionKind o) then zlen (w_buf w) = n
  else exists k, 0 <= k /\ n = cs * k + zlen (w_buf w) /\ zlen (w_cbuf w) <= (cs + 3) * k /\
         zlen (w_buf w) <= cs /\ (1 <= k -> 1 <= zlen (w_buf w)).
Lemma Sized_write w n v w' : Sized w n -> w_Write deflate enc o w v = Ok w' ->
  exists e out, enc (w_enc w) v = Ok (e, out) /\ w_enc w' = e /\ Sized w' (n + zlen out).
Proof.
  intros Hw H. unfold w_Write in H. apply rbind_inv in H. destruct H as ([e out] & He & H).
  exists e, out. split; [exact He|]. unfold Sized in *. destruct (isNone (CompressionKind o)) eqn:En; cbn [negb andb] in H.
  - assert (w' = {| w_enc := e; w_buf := w_buf w ++ out; w_cbuf := w_cbuf w; w_length := w_length w |}) as -> by congruence.
    cbn [w_enc w_buf]. split; [reflexivity|]. rewrite zlen_app. lia.
  - destruct Hw as (k & Hk & Hn & Hc & Hb & Hp). fold cs in H. destruct (Z.ltb_spec cs (zlen (w_buf w ++ out))) as [Hl|Hl].
    + apply rbind_inv in H. destruct H as ([c buf'] & Hcc & H).
      assert (w' = {| w_enc := e; w_buf := buf'; w_cbuf := w_cbuf w ++ c; w_length := w_length w |}) as -> by congruence.
      cbn [w_enc w_buf w_cbuf]. split; [reflexivity|].
      destruct (CompressionKind o); try discriminate. cbn [CompressingChunks] in Hcc.
      apply (toChunks_size deflate cs Hcs) in Hcc. destruct Hcc as (k1 & Hk1 & Hs1 & Hz1 & Hr1 & Hb1 & _).
      exists (k + k1). rewrite !zlen_app in *. specialize (Hb1 Hl). split; [lia|]. split; [nia|]. split; [nia|]. split; [exact Hr1|]. intros _. exact Hb1.
    + assert (w' = {| w_enc := e; w_buf := w_buf w ++ out; w_cbuf := w_cbuf w; w_length := w_length w |}) as -> by congruence.
      cbn [w_enc w_buf w_cbuf]. split; [reflexivity|]. rewrite !zlen_app in *. pose proof (zlen_nonneg out). exists k.
      split; [lia|]. split; [lia|]. split; [lia|]. split; [lia|]. lia.
Qed.
Lemma Sized_all vs : forall w n w', Sized w n -> writeAll deflate enc o w vs = Ok w' ->
  exists e bs, feed enc (w_enc w) vs = Ok (e, bs) /\ w_enc w' = e /\ Sized w' (n + zlen bs).
Proof.
  induction vs as [|v t IH]; intros w n w' Hw H; cbn [writeAll] in H.
  - assert (w' = w) as -> by congruence. exists (w_enc w), []. rewrite zlen_nil, Z.add_0_r. auto.
  - apply rbind_inv in H. destruct H as (w1 & H1 & H). destruct (Sized_write _ _ _ _ Hw H1) as (e & out & He & Ee & Hs).
    destruct (IH _ _ _ Hs H) as (e2 & bs & Hf & Ee2 & Hs2). exists e2, (out ++ bs). cbn [feed]. rewrite He. cbn [rbind].
    rewrite Ee in Hf. rewrite Hf. cbn [rbind]. split; [reflexivity|]. split; [exact Ee2|]. rewrite zlen_app, Z.add_assoc. exact Hs2.
Qed.
Lemma stream_size e vs w : writeStream deflate enc flush o (newWriter e) vs = Ok w ->
  exists e' bs, segment enc flush e vs = Ok (e', bs) /\
    if isNone (CompressionKind o) then zlen (stored o w) = zlen bs
    else zlen (stored o w) <= zlen bs + 3 * ((zlen bs + ChunkSize o - 1) / ChunkSize o).
Proof.
  unfold writeStream. intros H. apply rbind_inv in H. destruct H as (w1 & H1 & H).
  assert (H0 : Sized (newWriter e) 0).
  { unfold Sized. destruct (isNone _); cbn [newWriter w_buf w_cbuf]; rewrite ?zlen_nil; [reflexivity|]. exists 0. unfold cs. cbn [newWriter w_buf w_cbuf]. change (zlen (@nil Z)) with 0. repeat split; lia. }
  destruct (Sized_all _ _ _ _ H0 H1) as (e1 & b1 & Hf & Ee & Hs). cbn [newWriter w_enc] in Hf.
  unfold w_Flush in H. apply rbind_inv in H. destruct H as ([e2 b2] & Hfl & H). rewrite Ee in Hfl.
  exists e2, (b1 ++ b2). unfold segment. rewrite Hf. cbn [rbind]. rewrite Hfl. cbn [rbind]. split; [reflexivity|].
  unfold Sized in Hs. unfold stored, w_WriteOut. destruct (isNone (CompressionKind o)) eqn:En.
  - assert (w = {| w_enc := e2; w_buf := w_buf w1 ++ b2; w_cbuf := w_cbuf w1; w_length := zlen (w_buf w1 ++ b2) |}) as -> by congruence.
    cbn [fst w_buf]. rewrite !zlen_app. lia.
  - destruct Hs as (k & Hk & Hn & Hc & Hb & Hp). apply rbind_inv in H. destruct H as ([c buf'] & Hcc & H).
    assert (w = {| w_enc := e2; w_buf := buf'; w_cbuf := w_cbuf w1 ++ c; w_length := zlen (w_cbuf w1 ++ c) |}) as -> by congruence.
    cbn [fst w_cbuf]. rewrite !zlen_app. fold cs.
    destruct (Z.ltb_spec 0 (zlen (w_buf w1 ++ b2))) as [Hl|Hl].
    + apply (all_size deflate cs Hcs) in Hcc. destruct Hcc as (n & Hn1 & _ & Hz & r & Hs & Hr & Hp1). rewrite zlen_app in *.
      rewrite (chunks_eq cs (zlen b1 + zlen b2) (k + n) r); [nia|exact Hcs|nia|lia].
    + assert (c = []) as -> by congruence. rewrite zlen_nil. rewrite zlen_app in Hl. pose proof (zlen_nonneg (w_buf w1)). pose proof (zlen_nonneg b2).
      assert (k = 0) as -> by lia. replace (zlen b1 + zlen b2) with 0 by lia. rewrite Z.div_small by lia. lia.
Qed.
End Streams.

(** ** Bytes *)
(** A group of literals ends where a run of three begins, or with the values. *)
Definition runs3 (l : list Z) : bool := match l with [] => false | _ => Nat.eqb (findRepeats l MinRepeats) 0 end.
Lemma runs3_app l m : runs3 l = true -> runs3 (l ++ m) = true.
Proof.
  destruct l as [|v t]; [discriminate|]. cbn [runs3 app]. intros H. apply Nat.eqb_eq in H.
  apply findRepeats_zero in H. destruct H as (t' & ->). cbn [app]. unfold MinRepeats. cbn [findRepeats repeats_from].
  rewrite Z.eqb_refl. reflexivity.
Qed.
Lemma findRepeats_cut l : let n := findRepeats l MinRepeats in runs3 (skipn n l) = true \/ skipn n l = [].
Proof.
  cbn zeta. induction l as [|v t IH]; [right; reflexivity|]. cbn [findRepeats].
  destruct (repeats_from v 1 MinRepeats t) eqn:Er; [|exact IH].
  left. cbn [skipn runs3 findRepeats]. rewrite Er. reflexivity.
Qed.
Definition debt (l : list Z) : Z := if runs3 l then 1 else 0.
(** What a group adds: one byte more than it removes, unless it is a run. *)
Lemma group_size l out rest : encodeGroup l = Ok (out, rest) -> (length rest < length l)%nat /\
  (zlen out + debt l <= zlen l - zlen rest \/
   rest = [] /\ debt l = 0 /\ zlen out = zlen l + 1 \/
   debt rest = 1 /\ debt l = 0 /\ zlen out = zlen l - zlen rest + 1).
Proof.
  destruct l as [|v0 t0]; [discriminate|]. unfold encodeGroup, debt at 1 2 4. cbn [runs3].
  pose proof (findRepeats_le (v0 :: t0) MinRepeats) as Hle. pose proof (findRepeats_cut (v0 :: t0)) as Hcut. cbn zeta in Hcut.
  destruct (Nat.eqb_spec (findRepeats (v0 :: t0) MinRepeats) 0) as [H0|H0]; intros H.
  - apply findRepeats_zero in H0. destruct H0 as (t' & ->).
    set (j := (MinRepeats + _)%nat) in H.
    assert (Hj : (3 <= j <= length (v0 :: v0 :: v0 :: t'))%nat).
    { subst j. unfold MinRepeats. cbn [skipn length]. pose proof (leading_le v0 t'). lia. }
    match type of H with Ok (?a, ?b) = _ => assert (out = a) as -> by congruence; assert (rest = b) as -> by congruence end.
    assert (Hs : length (skipn j (v0 :: v0 :: v0 :: t')) = (length (v0 :: v0 :: v0 :: t') - j)%nat) by apply skipn_length.
    unfold zlen. rewrite Hs. cbn [length] in *. lia.
  - set (n := findRepeats (v0 :: t0) MinRepeats) in *.
    match type of H with Ok (?a, ?b) = _ => assert (out = a) as -> by congruence; assert (rest = b) as -> by congruence end.
    assert (Hs : length (skipn n (v0 :: t0)) = (length (v0 :: t0) - n)%nat) by apply skipn_length.
    assert (Hf : length (firstn n (v0 :: t0)) = n) by (apply firstn_length_le; exact Hle).
    split; [lia|]. right. destruct Hcut as [Hcut|Hcut].
    + right. unfold debt. rewrite Hcut. split; [reflexivity|]. split; [reflexivity|]. rewrite zlen_cons. unfold zlen. rewrite Hs, Hf. lia.
    + left. split; [exact Hcut|]. split; [reflexivity|]. rewrite Hcut in Hs. rewrite zlen_cons. unfold zlen. rewrite Hf. cbn [length] in *. lia.
Qed.
Lemma toEnd_size fuel : forall l out, encodeToEnd fuel l = Ok out -> zlen out + debt l <= zlen l + 1.
Proof.
  induction fuel as [|f IH]; intros l out H; cbn [encodeToEnd] in H; destruct l as [|v t]; try discriminate;
    try (assert (E : out = []) by congruence; subst out; cbn; lia).
  apply rbind_inv in H. destruct H as ([o1 rest] & H1 & H). apply rbind_inv in H. destruct H as (o2 & H2 & H).
  assert (out = o1 ++ o2) as -> by congruence. rewrite zlen_app. pose proof (IH _ _ H2) as HI. apply group_size in H1.
  assert (0 <= debt rest) by (unfold debt; destruct (runs3 rest); lia).
  destruct H1 as (_ & [H1|[(-> & H1 & H3)|(H1 & H3 & H4)]]).
  - lia.
  - assert (o2 = []) as ->. { destruct f; cbn in H2; congruence. } rewrite zlen_nil in *. lia.
  - lia.
Qed.
(** [n] values written so far. *)
Definition byteSize (e : byteEnc) (n out : Z) : Prop :=
  zlen (b_values e) < 128 /\ 128 * (out - (n - zlen (b_values e)) - debt (b_values e)) <= n - zlen (b_values e).
Lemma debt_app l m : debt l <= debt (l ++ m).
Proof. unfold debt. pose proof (runs3_app l m). destruct (runs3 l), (runs3 (l ++ m)); try lia; specialize (H eq_refl); discriminate. Qed.
Lemma byte_size e n out v e' o : byteSize e n out -> byte_Encode e v = Ok (e', o) -> byteSize e' (n + 1) (out + zlen o).
Proof.
  intros [Hl Hs] H. unfold byte_Encode in H. apply rbind_inv in H. destruct H as ([o' vs'] & Hg & H).
  assert (o = o') as -> by congruence.
  match type of H with Ok (?a, _) = _ => assert (e' = a) as -> by congruence end. clear H. unfold byteSize. cbn [b_values].
  pose proof (debt_app (b_values e) [v]) as Hd. assert (Hz : zlen (b_values e ++ [v]) = zlen (b_values e) + 1) by (rewrite zlen_app; reflexivity).
  destruct (Nat.leb_spec MaxByteRunLength (length (b_values e ++ [v]))) as [Hm|Hm].
  - apply group_size in Hg. destruct Hg as (Hr & Hg). unfold MaxByteRunLength, zlen in *.
    destruct Hg as [Hg|[(-> & Hg & H3)|(Hg & H3 & H4)]].
    + assert (0 <= debt vs') by (unfold debt; destruct (runs3 vs'); lia). lia.
    + cbn [length debt runs3] in *. lia.
    + lia.
  - assert (o' = []) as -> by congruence. assert (vs' = b_values e ++ [v]) as -> by congruence.
    unfold MaxByteRunLength, zlen in *. cbn [length]. lia.
Qed.
Lemma byte_feed_size vs : forall e n out e' o, byteSize e n out -> feed byte_Encode e vs = Ok (e', o) ->
  byteSize e' (n + zlen vs) (out + zlen o).
Proof.
  induction vs as [|v t IH]; intros e n out e' o Hs H; cbn [feed] in H.
  - assert (e' = e) as -> by congruence. assert (o = []) as -> by congruence. rewrite !zlen_nil, !Z.add_0_r. exact Hs.
  - apply rbind_inv in H. destruct H as ([e1 o1] & H1 & H). apply rbind_inv in H. destruct H as ([e2 o2] & H2 & H).
    assert (o = o1 ++ o2) as -> by congruence. assert (e' = e2) as -> by congruence.
    pose proof (IH _ _ _ _ _ (byte_size _ _ _ _ _ _ Hs H1) H2) as Hr. rewrite zlen_app, zlen_cons.
    replace (n + (1 + zlen t)) with (n + 1 + zlen t) by lia. replace (n + (zlen t + 1)) with (n + 1 + zlen t) by lia. rewrite Z.add_assoc. exact Hr.
Qed.
Lemma byte_flush_size e n out e' o : byteSize e n out -> byte_Flush e = Ok (e', o) -> out + zlen o <= n + n / 128 + 1.
Proof.
  intros [Hl Hs] H. unfold byte_Flush in H. apply rbind_inv in H. destruct H as (o1 & H1 & H).
  assert (o = o1) as -> by congruence. apply toEnd_size in H1. pose proof (zlen_nonneg (b_values e)). zlia.
Qed.
Lemma byteSize_new p : byteSize (NewByteEncoder p) 0 0.
Proof. unfold byteSize, NewByteEncoder, debt. cbn. lia. Qed.
Lemma byte_segment_size p vs e out : segment byte_Encode byte_Flush (NewByteEncoder p) vs = Ok (e, out) ->
  zlen out <= zlen vs + zlen vs / 128 + 1.
Proof.
  unfold segment. intros H. apply rbind_inv in H. destruct H as ([e1 o1] & H1 & H). apply rbind_inv in H. destruct H as ([e2 o2] & H2 & H).
  assert (out = o1 ++ o2) as -> by congruence. apply (byte_feed_size _ _ _ _ _ _ (byteSize_new p)) in H1.
  apply (byte_flush_size _ _ _ _ _ H1) in H2. rewrite zlen_app. lia.
Qed.

(** ** Booleans *)
(** [n] values written so far, [k] of them in the current byte. *)
Definition boolSize (e : boolEnc) (n out : Z) : Prop :=
  exists m, n = 8 * m + (o_index e + 1) /\ 0 <= o_index e + 1 < 8 /\ byteSize (o_brl e) m out.
Lemma bool_size e n out v e' o : boolSize e n out -> bool_Encode e v = Ok (e', o) -> boolSize e' (n + 1) (out + zlen o).
Proof.
  intros (m & Hn & Hi & Hs) H. unfold bool_Encode in H. apply rbind_inv in H. destruct H as ([[[brl index'] value'] o'] & Hg & H).
  assert (o = o') as -> by congruence.
  match type of H with Ok (?a, _) = _ => assert (e' = a) as -> by congruence end. clear H. unfold boolSize. cbn [o_index o_brl].
  destruct (Z.leb_spec 7 (o_index e + 1)) as [Hx|Hx].
  - apply rbind_inv in Hg. destruct Hg as ([b1 o1] & Hb & Hg). assert (brl = b1) as -> by congruence. assert (o' = o1) as -> by congruence.
    assert (index' = -1) as -> by congruence. exists (m + 1). split; [lia|]. split; [lia|]. exact (byte_size _ _ _ _ _ _ Hs Hb).
  - assert (brl = o_brl e) as -> by congruence. assert (o' = []) as -> by congruence. assert (index' = o_index e + 1) as -> by congruence.
    exists m. change (zlen (@nil Z)) with 0. replace (out + 0) with out by lia. split; [lia|]. split; [lia|exact Hs].
Qed.
Lemma bool_feed_size vs : forall e n out e' o, boolSize e n out -> feed bool_Encode e vs = Ok (e', o) ->
  boolSize e' (n + zlen vs) (out + zlen o).
Proof.
  induction vs as [|v t IH]; intros e n out e' o Hs H; cbn [feed] in H.
  - assert (e' = e) as -> by congruence. assert (o = []) as -> by congruence. rewrite !zlen_nil, !Z.add_0_r. exact Hs.
  - apply rbind_inv in H. destruct H as ([e1 o1] & H1 & H). apply rbind_inv in H. destruct H as ([e2 o2] & H2 & H).
    assert (o = o1 ++ o2) as -> by congruence. assert (e' = e2) as -> by congruence.
    pose proof (IH _ _ _ _ _ (bool_size _ _ _ _ _ _ Hs H1) H2) as Hr. rewrite zlen_app, zlen_cons.
    replace (n + (1 + zlen t)) with (n + 1 + zlen t) by lia. replace (n + (zlen t + 1)) with (n + 1 + zlen t) by lia. rewrite Z.add_assoc. exact Hr.
Qed.
Lemma bool_segment_size p vs e out : segment bool_Encode bool_Flush (NewBoolEncoder p) vs = Ok (e, out) ->
  zlen out <= (zlen vs + 7) / 8 + (zlen vs + 7) / 1024 + 1.
Proof.
  unfold segment. intros H. apply rbind_inv in H. destruct H as ([e1 o1] & H1 & H). apply rbind_inv in H. destruct H as ([e2 o2] & H2 & H).
  assert (out = o1 ++ o2) as -> by congruence. clear H.
  assert (H0 : boolSize (NewBoolEncoder p) 0 0). { exists 0. split; [reflexivity|]. split; [cbn; lia|]. apply byteSize_new. }
  apply (bool_feed_size _ _ _ _ _ _ H0) in H1. destruct H1 as (m & Hn & Hi & Hs).
  unfold bool_Flush in H2. apply rbind_inv in H2. destruct H2 as ([brl o3] & H3 & H2). apply rbind_inv in H2. destruct H2 as ([brl' o4] & H4 & H2).
  assert (o2 = o3 ++ o4) as -> by congruence. clear H2. rewrite !zlen_app.
  assert (Hq : exists q, byteSize brl q (0 + zlen o1 + zlen o3) /\ q = (zlen vs + 7) / 8).
  { destruct (Z.eqb_spec (o_index e1) (-1)) as [Hx|Hx]; cbn [negb] in H3.
    - assert (brl = o_brl e1) as -> by congruence. assert (o3 = []) as -> by congruence. exists m. change (zlen (@nil Z)) with 0. replace (0 + zlen o1 + 0) with (0 + zlen o1) by lia.
      split; [exact Hs|]. zlia.
    - exists (m + 1). split; [exact (byte_size _ _ _ _ _ _ Hs H3)|]. zlia. }
  destruct Hq as (q & Hq & Eq). apply (byte_flush_size _ _ _ _ _ Hq) in H4. subst q. zlia.
Qed.

(** ** Integers *)
Ltac z0 := change (zlen (@nil Z)) with 0 in *.
Lemma wb_size f : forall v t bs r, wb_loop f v t = (bs, r) -> 0 <= t < 8 * (Z.of_nat f + 1) ->
  8 * zlen bs + r = t /\ 0 <= r < 8.
Proof.
  induction f as [|f IH]; intros v t bs r H Ht; cbn [wb_loop] in H.
  - assert (bs = []) as -> by congruence. assert (r = t) as -> by congruence. z0. lia.
  - destruct (Z.ltb_spec t 8).
    + assert (bs = []) as -> by congruence. assert (r = t) as -> by congruence. z0. lia.
    + destruct (wb_loop f v (t - 8)) as [b1 r1] eqn:E. apply IH in E; [|lia].
      assert (bs = u8 (Z.shiftr v (t - 8)) :: b1) as -> by congruence. assert (r = r1) as -> by congruence. rewrite zlen_cons. lia.
Qed.
Lemma writeBits_size st v b st' o : 0 <= b -> 0 <= snd st < 8 -> writeBits st v b = Ok (st', o) ->
  b <= 64 /\ 8 * zlen o + snd st' = snd st + b /\ 0 <= snd st' < 8.
Proof.
  destruct st as [lb bl]. cbn [snd]. intros Hb Hs H. unfold writeBits in H.
  destruct (Z.ltb_spec 64 (bl + b)); [discriminate|].
  match type of H with context [wb_loop 8 ?x ?y] => destruct (wb_loop 8 x y) as [bs r] eqn:E end.
  apply wb_size in E; [|lia]. assert (o = bs) as -> by congruence.
  assert (snd st' = r) as -> by (inversion H; subst; reflexivity). lia.
Qed.
Lemma writeBitsAll_size vs : forall st b st' o, 0 <= b -> 0 <= snd st < 8 -> writeBitsAll st vs b = Ok (st', o) ->
  (vs <> [] -> b <= 64) /\ 8 * zlen o + snd st' = snd st + zlen vs * b /\ 0 <= snd st' < 8.
Proof.
  induction vs as [|v t IH]; intros st b st' o Hb Hs H; cbn [writeBitsAll] in H.
  - assert (o = []) as -> by congruence. assert (st' = st) as -> by congruence. z0. split; [congruence|lia].
  - apply rbind_inv in H. destruct H as ([s1 o1] & H1 & H). apply rbind_inv in H. destruct H as ([s2 o2] & H2 & H).
    assert (o = o1 ++ o2) as -> by congruence. assert (st' = s2) as -> by congruence.
    apply writeBits_size in H1; [|lia..]. destruct H1 as (Hx & H1 & Hr1).
    apply IH in H2; [|lia..]. destruct H2 as (_ & H2 & Hr2). rewrite zlen_app, zlen_cons. split; [auto|]. split; [lia|lia].
Qed.
Lemma packBits_size vs b o : 0 <= b -> packBits vs b = Ok o -> (vs <> [] -> b <= 64) /\ 8 * zlen o <= zlen vs * b + 7.
Proof.
  intros Hb H. unfold packBits in H. apply rbind_inv in H. destruct H as ([st o1] & H1 & H).
  assert (o = o1 ++ writeLeftBits st) as -> by congruence. apply writeBitsAll_size in H1; [|lia|cbn; lia].
  destruct H1 as (Hx & H1 & Hr). split; [exact Hx|]. rewrite zlen_app. cbn [snd] in H1. unfold writeLeftBits. destruct st as [lb bl]. cbn [snd] in *.
  destruct (Z.eqb_spec bl 0); cbn [negb]; rewrite ?zlen_cons, ?zlen_nil; lia.
Qed.
Lemma direct_size vs a o : writeDirect vs a = Ok o -> zlen o <= 2 + 8 * zlen vs.
Proof.
  unfold writeDirect. intros H. apply rbind_inv in H. destruct H as (ew & _ & H). apply rbind_inv in H. destruct H as (p & Hp & H).
  match type of H with Ok ?x = _ => assert (o = x) as -> by congruence end. rewrite !zlen_cons.
  apply packBits_size in Hp; [|apply maxWidth_nonneg]. destruct Hp as (Hx & Hp). destruct vs as [|v t]; [z0; lia|].
  specialize (Hx ltac:(discriminate)). pose proof (zlen_nonneg (v :: t)). nia.
Qed.
Lemma putUvarint_size room : forall x o, PutUvarint room x = Ok o -> zlen o <= Z.of_nat room.
Proof.
  induction room as [|r IH]; intros x o H; [discriminate|]. cbn [PutUvarint] in H. destruct (x <? 128).
  - assert (o = [u8 x]) as -> by congruence. rewrite zlen_cons. z0. lia.
  - apply rbind_inv in H. destruct H as (t & Ht & H). apply IH in Ht.
    match type of H with Ok ?x = _ => assert (o = x) as -> by congruence end. rewrite zlen_cons. lia.
Qed.
Lemma first_size s v o : putFirst s v = Ok o -> zlen o <= 8.
Proof. unfold putFirst. destruct s; apply putUvarint_size. Qed.
Lemma pack2_size : forall n l, (length l <= n)%nat -> zlen (pack2 l) <= zlen l.
Proof.
  induction n as [|n IH]; intros l Hl; [destruct l; [cbn; lia|cbn in Hl; lia]|].
  destruct l as [|a [|b [|c [|d t]]]]; try (cbn; lia). cbn [pack2]. rewrite !zlen_cons.
  specialize (IH t ltac:(cbn in Hl; lia)). lia.
Qed.
Lemma pack4_size : forall n l, (length l <= n)%nat -> zlen (pack4 l) <= zlen l.
Proof.
  induction n as [|n IH]; intros l Hl; [destruct l; [cbn; lia|cbn in Hl; lia]|].
  destruct l as [|a [|b t]]; try (cbn; lia). cbn [pack4]. rewrite !zlen_cons.
  specialize (IH t ltac:(cbn in Hl; lia)). lia.
Qed.
Lemma flat_be_size n l : zlen (flat_map (be_bytes n) l) = Z.of_nat n * zlen l.
Proof.
  induction l as [|a t IH]; [z0; cbn; lia|]. cbn [flat_map]. rewrite zlen_app, IH, zlen_cons.
  unfold zlen at 1. rewrite length_be. lia.
Qed.
Lemma packDeltas_size w ds o : packDeltas w ds = Ok o -> zlen o <= 8 * zlen ds.
Proof.
  unfold packDeltas. destruct ds as [|d t] eqn:E; [intros H; assert (o = []) as -> by congruence; cbn; lia|]. rewrite <- E. clear E.
  pose proof (zlen_nonneg ds). destruct (w =? 2).
  { intros H1. assert (o = pack2 ds) as -> by congruence. pose proof (pack2_size _ ds (Nat.le_refl _)). lia. }
  destruct (w =? 4).
  { intros H1. assert (o = pack4 ds) as -> by congruence. pose proof (pack4_size _ ds (Nat.le_refl _)). lia. }
  destruct (_ || _) eqn:Ew; [|discriminate]. intros H1. assert (o = flat_map (be_bytes (Z.to_nat (w / 8))) ds) as -> by congruence.
  rewrite flat_be_size. assert (0 <= Z.of_nat (Z.to_nat (w / 8)) <= 8) by zlia. nia.
Qed.
Lemma delta_size f db len ds o : zlen f <= 8 -> writeDelta f db len ds = Ok o -> zlen o <= 18 + 8 * zlen ds.
Proof.
  intros Hf H. unfold writeDelta in H. apply rbind_inv in H. destruct H as (w & _ & H). apply rbind_inv in H. destruct H as (b & Hb & H).
  apply rbind_inv in H. destruct H as (d & Hd & H). match type of H with Ok ?x = _ => assert (o = x) as -> by congruence end.
  rewrite !zlen_cons, !zlen_app. apply putUvarint_size in Hb. apply packDeltas_size in Hd. lia.
Qed.
Lemma sr_size n : forall x w, zlen (snd (sr_loop n x w)) <= Z.of_nat n.
Proof.
  induction n as [|n IH]; intros x w; [cbn; lia|]. cbn [sr_loop]. destruct (negb _).
  - destruct (sr_loop n x _) as [w' bs] eqn:E. pose proof (IH x (if w <? Z.of_nat n then Z.of_nat n else w)) as H. rewrite E in H. cbn [snd] in *. rewrite zlen_cons. lia.
  - specialize (IH x w). lia.
Qed.
Lemma short_size c x : zlen (writeShortRepeat c x) <= 9.
Proof. unfold writeShortRepeat. pose proof (sr_size 8 x 0). destruct (sr_loop 8 x 0) as [w bb]. cbn [snd] in H. rewrite zlen_cons. lia. Qed.

(** Patches. *)
Lemma fillers_count fuel : forall i prev g prev', fillers fuel i prev = (g, prev') -> 255 * zlen g + prev = prev' /\ (0 < zlen g -> prev' < i).
Proof.
  induction fuel as [|f IH]; intros i prev g prev' H; cbn [fillers] in H.
  - assert (g = []) as -> by congruence. z0. split; [assert (prev' = prev) by congruence; lia|lia].
  - destruct (Z.ltb_spec 255 (i - prev)).
    + destruct (fillers f i (prev + 255)) as [g1 p1] eqn:E. assert (g = 255 :: g1) as -> by congruence. assert (p1 = prev') as -> by congruence.
      apply IH in E. rewrite zlen_cons. destruct E as [E1 E2]. split; [lia|]. intros _. destruct (Z.eq_dec (zlen g1) 0); [lia|]. pose proof (zlen_nonneg g1). lia.
    + assert (g = []) as -> by congruence. z0. split; [assert (prev' = prev) by congruence; lia|lia].
Qed.
Lemma getBits_shiftr d w : is_u64 d -> 0 <= w -> getBitsWidth (Z.shiftr d w) <= Z.max 0 (64 - w) /\ is_u64 (Z.shiftr d w).
Proof.
  intros Hd Hw. rewrite shiftr_div by lia. pose proof (pow2_pos w Hw). unfold is_u64 in *.
  assert (0 <= d / 2 ^ w). { apply Z.div_pos; lia. } assert (d / 2 ^ w <= d). { apply Z.div_le_upper_bound; nia. }
  split; [|lia]. apply getBitsWidth_le; [unfold is_u64; lia|lia|]. apply Z.div_lt_upper_bound; [lia|].
  destruct (Z.le_gt_cases w 64).
  - rewrite Z.max_r by lia. rewrite <- Z.pow_add_r by lia. replace (w + (64 - w)) with 64 by lia. exact (proj2 Hd).
  - rewrite Z.max_l by lia. change (2 ^ 0) with 1. assert (2 ^ 64 <= 2 ^ w) by (apply Z.pow_le_mono_r; lia). change W64 with (2 ^ 64) in *. lia.
Qed.
Lemma split_size w : 0 <= w -> forall ds i prev vs gs ps, Forall is_u64 ds -> 0 <= prev <= i -> splitPatches w ds i prev = (vs, gs, ps) ->
  zlen gs <= zlen ds + Z.max 0 (i - prev - 1) /\ Forall (fun g => 0 <= g <= 255) gs /\
  Forall (fun p => is_u64 p /\ getBitsWidth p <= Z.max 0 (64 - w)) ps.
Proof.
  intros Hw. induction ds as [|d t IH]; intros i prev vs gs ps Hu Hp H; cbn [splitPatches] in H.
  - assert (gs = []) as -> by congruence. assert (ps = []) as -> by congruence. z0. split; [lia|]. split; constructor.
  - rewrite zlen_cons. destruct (w <? getBitsWidth d).
    + destruct (fillers (Z.to_nat i) i prev) as [g p'] eqn:Ef. destruct (splitPatches w t (i + 1) i) as [[v1 g1] p1] eqn:E.
      assert (gs = g ++ (i - p') :: g1) as -> by congruence. assert (ps = map (fun _ => 0) g ++ Z.shiftr d w :: p1) as -> by congruence.
      pose proof (Forall_inv Hu) as Hd. pose proof (Forall_inv_tail Hu) as Ht. apply IH in E; [|exact Ht|lia]. destruct E as (E1 & E2 & E3).
      pose proof (fillers_count _ _ _ _ _ Ef) as [F1 F2]. destruct (fillers_spec _ _ _ _ _ Ef) as (F3 & F4 & F5 & _); [lia|lia|].
      rewrite zlen_app, zlen_cons. pose proof (zlen_nonneg g). split; [lia|]. split.
      * apply Forall_app. split; [eapply Forall_impl; [|exact F5]; intros a Ha; cbv beta in *; lia|]. constructor; [lia|exact E2].
      * apply Forall_app. split; [apply Forall_map; apply Forall_forall; intros x _; split; [unfold is_u64; lia|cbn; lia]|].
        constructor; [|exact E3]. destruct (getBits_shiftr d w Hd Hw). auto.
    + destruct (splitPatches w t (i + 1) prev) as [[v1 g1] p1] eqn:E. assert (gs = g1) as -> by congruence. assert (ps = p1) as -> by congruence.
      apply IH in E; [|exact (Forall_inv_tail Hu)|lia]. destruct E as (E1 & E2 & E3). split; [lia|]. split; assumption.
Qed.
Lemma find_w_nonneg s : forall ws p i l, 0 <= i -> 0 <= find_w s ws p i l.
Proof. induction s as [|s IH]; intros ws p i l Hi; cbn [find_w]; [lia|]. destruct (_ && _); [lia|apply IH; lia]. Qed.
Lemma zip_size pw gs : forall ps, zlen (zipPatch pw gs ps) <= zlen gs.
Proof.
  induction gs as [|g gs IH]; intros [|p ps]; cbn [zipPatch]; z0; try apply zlen_nonneg; try lia.
  rewrite !zlen_cons. specialize (IH ps). lia.
Qed.
Lemma maxWidth_le l n : 0 <= n -> Forall (fun x => getBitsWidth x <= n) l -> maxWidth getBitsWidth l <= n.
Proof. intros Hn H. destruct (maxWidth_in getBitsWidth l) as [->|(x & Hx & ->)]; [lia|]. rewrite Forall_forall in H. auto. Qed.
Lemma patch_size values p o : tryPatch values = Ok (Some p) -> writePatch p = Ok o ->
  length (p_values p) = length values /\ 2 <= zlen values /\ zlen o <= 14 + 9 * zlen values.
Proof.
  intros H Hw. destruct values as [|v0 [|v1 rest]]; [discriminate|discriminate|]. cbn [tryPatch] in H.
  set (values := v0 :: v1 :: rest) in *. set (base := minimum _ _) in *. set (ds := map (fun v => u64 (UnZigzag v - base)) values) in *.
  set (w := find_w 65 _ _ 0 0) in *. assert (Hw0 : 0 <= w) by (apply find_w_nonneg; lia).
  assert (Hu : Forall is_u64 ds) by (unfold ds; apply Forall_map; apply Forall_forall; intros; apply u64_range).
  destruct (Z.ltb_spec w (maxWidth getBitsWidth ds)) as [Hlt|]; [|discriminate].
  pose proof (maxWidth_64 ds Hu) as H64. destruct (splitPatches w ds 0 0) as [[vs gs] ps] eqn:E.
  destruct (31 <? zlen ps); [discriminate|].
  assert (p = {| p_values := vs; p_width := w; p_base := base; p_gaps := gs; p_patches := ps |}) as -> by congruence. clear H.
  assert (Hlen : zlen ds = zlen values) by (unfold ds, zlen; rewrite map_length; reflexivity).
  assert (H2 : 2 <= zlen values) by (unfold values; rewrite !zlen_cons; pose proof (zlen_nonneg rest); lia).
  pose proof (split_length _ _ _ _ _ _ _ E) as [L1 L2]. cbn [p_values]. split; [rewrite L1; unfold ds; apply map_length|]. split; [exact H2|].
  destruct (split_size w Hw0 _ _ _ _ _ _ Hu (conj (Z.le_refl 0) (Z.le_refl 0)) E) as (S1 & S2 & S3).
  unfold writePatch in Hw. cbn [p_values p_width p_base p_gaps p_patches] in Hw.
  apply rbind_inv in Hw. destruct Hw as (ew & _ & Hw). cbv zeta in Hw.
  set (bw := (getBitsWidth _ + 1 + 7) / 8) in Hw. apply rbind_inv in Hw. destruct Hw as (pw & _ & Hw). apply rbind_inv in Hw. destruct Hw as (pv & Hpv & Hw).
  set (pgw := maxWidth getBitsWidth gs) in *. set (pwid := maxWidth getBitsWidth ps) in *.
  destruct (64 <? pgw + pwid); [discriminate|]. apply rbind_inv in Hw. destruct Hw as (pp & Hpp & Hw).
  match type of Hw with Ok ?x = _ => assert (o = x) as -> by congruence end. rewrite !zlen_cons, !zlen_app.
  assert (Hbw : zlen (be_bytes (Z.to_nat bw) (if base <? 0 then Z.lor (if base <? 0 then u64 (i64 (- base)) else u64 base) (u64 (Z.shiftl 1 ((bw - 1) * 8 + 7))) else (if base <? 0 then u64 (i64 (- base)) else u64 base))) <= 9).
  { unfold zlen. rewrite length_be. assert (Hb64 : is_u64 (if base <? 0 then u64 (i64 (- base)) else u64 base)) by (destruct (base <? 0); apply u64_range).
    pose proof (getBitsWidth_spec _ Hb64) as (G & _). unfold bw. zlia. }
  assert (Hg8 : 0 <= pgw <= 8).
  { split; [apply maxWidth_nonneg|]. apply maxWidth_le; [lia|]. eapply Forall_impl; [|exact S2]. intros g Hg. apply getBitsWidth_le; [cbv beta in Hg; unfold is_u64; lia|lia|]. change (2 ^ 8) with 256. cbv beta in Hg. lia. }
  assert (Hp64 : 0 <= pwid <= 64 - w).
  { split; [apply maxWidth_nonneg|]. apply maxWidth_le; [lia|]. eapply Forall_impl; [|exact S3]. intros q [_ Hq]. lia. }
  apply packBits_size in Hpv; [|lia]. apply packBits_size in Hpp; [|lia]. destruct Hpv as [_ Hpv]. destruct Hpp as [_ Hpp].
  pose proof (zip_size pwid gs ps) as Hz. assert (Hvl : zlen vs = zlen values) by (unfold zlen; rewrite L1; unfold ds; rewrite map_length; reflexivity).
  rewrite Hvl in Hpv. assert (zlen (zipPatch pwid gs ps) * (pgw + pwid) <= zlen values * (72 - w)). { pose proof (zlen_nonneg (zipPatch pwid gs ps)). nia. }
  nia.
Qed.

(** A buffer holds at most 512 values unless it starts with values that are written
    only at the end. *)
Definition stuck (signed : bool) (vs : list Z) : Prop := (getRepeats vs < 3)%nat /\ tryDelta signed vs = None.
Definition bounded (signed : bool) (vs : list Z) : Prop := zlen vs <= 512 \/ stuck signed vs.
Definition bounded' (signed : bool) (vs : list Z) : Prop := zlen vs < 512 \/ stuck signed vs.
Lemma bounded_weak s vs : bounded' s vs -> bounded s vs.
Proof. intros [H|H]; [left; lia|right; exact H]. Qed.
Lemma getRepeats_le vs : (getRepeats vs <= length vs)%nat.
Proof.
  destruct vs as [|v t]; [cbn; lia|]. cbn [getRepeats length]. enough (leadingEq v t <= length t)%nat by lia.
  induction t as [|x t IH]; cbn [leadingEq length]; [lia|]. destruct (x =? v); lia.
Qed.
Lemma moreDeltas_le s base : forall vs prev, (length (moreDeltas s base prev vs) <= length vs)%nat.
Proof.
  induction vs as [|v t IH]; intros prev; cbn [moreDeltas length]; [lia|]. specialize (IH v).
  destruct s; destruct (0 <=? base); match goal with |- context [if ?b then _ else _] => destruct b end; cbn [length]; lia.
Qed.
Lemma tryDelta_le s vs base ds : tryDelta s vs = Some (base, ds) -> (2 + length ds <= length vs)%nat.
Proof.
  destruct vs as [|a [|b [|c t]]]; try discriminate. cbn [tryDelta length]. destruct (a =? b); [discriminate|].
  intros H. destruct s;
  repeat match type of H with (if ?b then _ else _) = _ => destruct b end; try discriminate;
  match type of H with Some (_, ?x) = _ => assert (ds = x) as -> by congruence end; cbn [length];
  match goal with |- context [moreDeltas ?a ?b ?c ?d] => pose proof (moreDeltas_le a b d c) end; lia.
Qed.
Lemma step_size s e vs rest o : bounded s vs -> writeStep s e vs = Ok (rest, o) ->
  zlen o <= 16 * (zlen vs - zlen rest) /\ zlen rest <= zlen vs /\ bounded' s rest.
Proof.
  intros Hb H. unfold writeStep in H. destruct vs as [|v0 t]; [discriminate|]. remember (v0 :: t) as vs eqn:Evs.
  pose proof (getRepeats_le vs) as Hr. destruct (Nat.leb_spec 3 (getRepeats vs)) as [H3|H3].
  - assert (Hz : zlen vs <= 512) by (destruct Hb as [Hb|[Hb _]]; lia).
    assert (Hsk : zlen (skipn (getRepeats vs) vs) = zlen vs - Z.of_nat (getRepeats vs)) by (unfold zlen; rewrite skipn_length; lia).
    destruct (Nat.leb_spec (getRepeats vs) 10).
    + match type of H with Ok (?a, ?b) = _ => assert (rest = a) as -> by congruence; assert (o = b) as -> by congruence end.
      pose proof (short_size (Z.of_nat (getRepeats vs) - 3) v0). split; [lia|]. split; [lia|]. left. lia.
    + apply rbind_inv in H. destruct H as (f & Hf & H). apply rbind_inv in H. destruct H as (w & Hw & H).
      match type of H with Ok (?a, ?b) = _ => assert (rest = a) as -> by congruence; assert (o = b) as -> by congruence end.
      apply first_size in Hf. apply (delta_size _ _ _ _ _ Hf) in Hw. z0. split; [lia|]. split; [lia|]. left. lia.
  - apply rbind_inv in H. destruct H as ([r q] & Hq & H).
    assert (Hx : zlen q <= 16 * (zlen vs - zlen r) /\ zlen r <= zlen vs /\ bounded' s r).
    { destruct (tryDelta s vs) as [[base ds]|] eqn:Ed.
      - assert (Hz : zlen vs <= 512) by (destruct Hb as [Hb|[_ Hb]]; [exact Hb|congruence]).
        apply rbind_inv in Hq. destruct Hq as (f & Hf & Hq). apply rbind_inv in Hq. destruct Hq as (w & Hw & Hq).
        match type of Hq with Ok (?a, ?b) = _ => assert (r = a) as -> by congruence; assert (q = b) as -> by congruence end.
        apply first_size in Hf. apply (delta_size _ _ _ _ _ Hf) in Hw. apply tryDelta_le in Ed.
        assert (El : (2 + zlen ds) mod 65536 = 2 + zlen ds) by (apply Z.mod_small; unfold zlen in *; lia). rewrite El.
        assert (Hsk : zlen (skipn (Z.to_nat (2 + zlen ds)) vs) = zlen vs - (2 + zlen ds)) by (unfold zlen in *; rewrite skipn_length; lia).
        rewrite Hsk. pose proof (zlen_nonneg ds). split; [lia|]. split; [lia|]. left. lia.
      - destruct s.
        + apply rbind_inv in Hq. destruct Hq as ([p|] & Hp & Hq).
          * apply rbind_inv in Hq. destruct Hq as (w & Hw & Hq).
            match type of Hq with Ok (?a, ?b) = _ => assert (r = a) as -> by congruence; assert (q = b) as -> by congruence end.
            destruct (patch_size _ _ _ Hp Hw) as (L & L2 & L3). rewrite L, skipn_all. z0. split; [lia|]. split; [lia|]. left. cbn. lia.
          * assert (r = vs) as -> by congruence. assert (q = []) as -> by congruence. z0. split; [lia|]. split; [lia|]. right. split; [lia|exact Ed].
        + assert (r = vs) as -> by congruence. assert (q = []) as -> by congruence. z0. split; [lia|]. split; [lia|]. right. split; [lia|exact Ed]. }
    destruct Hx as (X1 & X2 & X3). destruct r as [|r0 r].
    + assert (rest = []) as -> by congruence. assert (o = q) as -> by congruence. auto.
    + destruct e.
      * apply rbind_inv in H. destruct H as (o' & Hd & H). assert (rest = []) as -> by congruence. assert (o = q ++ o') as -> by congruence.
        apply direct_size in Hd. rewrite zlen_app. z0. rewrite zlen_cons in *. pose proof (zlen_nonneg r). split; [lia|]. split; [lia|]. left. cbn. lia.
      * assert (rest = r0 :: r) as -> by congruence. assert (o = q) as -> by congruence. auto.
Qed.
Lemma intToEnd_size f : forall s vs o, bounded s vs -> writeToEnd f s vs = Ok o -> zlen o <= 16 * zlen vs.
Proof.
  induction f as [|f IH]; intros s vs o Hb H; cbn [writeToEnd] in H; destruct vs as [|v t]; try discriminate;
    try (assert (E : o = []) by congruence; subst o; cbn; lia).
  apply rbind_inv in H. destruct H as ([rest o1] & H1 & H). apply rbind_inv in H. destruct H as (o2 & H2 & H).
  assert (o = o1 ++ o2) as -> by congruence. rewrite zlen_app. apply (step_size _ _ _ _ _ Hb) in H1. destruct H1 as (S1 & S2 & S3).
  apply (IH _ _ _ (bounded_weak _ _ S3)) in H2. lia.
Qed.
Lemma write_size s e vs rest o : vs <> [] -> bounded s vs -> write s e vs = Ok (rest, o) ->
  zlen o <= 16 * (zlen vs - zlen rest) /\ zlen rest <= zlen vs /\ bounded' s rest.
Proof.
  intros Hne Hb H. unfold write in H. destruct (Nat.leb_spec (length vs) 3).
  - apply rbind_inv in H. destruct H as (o' & Hd & H). assert (rest = []) as -> by congruence. assert (o = o') as -> by congruence.
    apply direct_size in Hd. z0. assert (1 <= zlen vs) by (destruct vs; [congruence|rewrite zlen_cons; pose proof (zlen_nonneg vs); lia]).
    split; [lia|]. split; [lia|]. left. cbn. lia.
  - destruct e; [|apply (step_size _ _ _ _ _ Hb H)].
    apply rbind_inv in H. destruct H as (o' & Hd & H). assert (rest = []) as -> by congruence. assert (o = o') as -> by congruence.
    apply (intToEnd_size _ _ _ _ Hb) in Hd. z0. pose proof (zlen_nonneg vs). split; [lia|]. split; [lia|]. left. cbn. lia.
Qed.
Lemma bounded_app s vs v : bounded' s vs -> bounded s (vs ++ [v]).
Proof.
  intros [H|H]; [left; rewrite zlen_app; cbn; lia|]. destruct (Z.lt_ge_cases (zlen vs) 512) as [H3|H3]; [left; rewrite zlen_app; cbn; lia|].
  right. destruct H as [H1 H2].
  destruct vs as [|a [|b [|c t]]]; try (cbn in H3; lia). split.
  - cbn [app getRepeats leadingEq] in *. destruct (b =? a); [|lia]. destruct (c =? a); [|lia]. lia.
  - cbn [app tryDelta] in *. destruct (a =? b); [reflexivity|].
    destruct s; repeat match goal with |- context [if ?b then _ else _] => destruct b end; congruence.
Qed.
Lemma encode_size e v e' o : bounded' (i_signed e) (i_values e) -> int_Encode e v = Ok (e', o) ->
  i_signed e' = i_signed e /\ bounded' (i_signed e') (i_values e') /\ zlen o + 16 * zlen (i_values e') <= 16 * (zlen (i_values e) + 1).
Proof.
  intros Hb H. unfold int_Encode in H. apply rbind_inv in H. destruct H as ([vs' o1] & H1 & H). cbv zeta in H1.
  set (x := if i_signed e then Zigzag v else v) in *. assert (o = o1) as -> by congruence.
  match type of H with Ok (?a, _) = _ => assert (e' = a) as -> by congruence end. cbn [i_signed i_values]. split; [reflexivity|]. clear H.
  assert (Hz : zlen (i_values e ++ [x]) = zlen (i_values e) + 1) by (rewrite zlen_app; reflexivity).
  pose proof (bounded_app _ _ x Hb) as Hx. destruct (Z.leb_spec MaxIntRunLength (zlen (i_values e ++ [x]))) as [Hm|Hm].
  - apply write_size in H1; [|destruct (i_values e); discriminate|exact Hx]. destruct H1 as (S1 & S2 & S3). split; [exact S3|lia].
  - unfold MaxIntRunLength in Hm. assert (vs' = i_values e ++ [x]) as -> by congruence. assert (o1 = []) as -> by congruence. z0.
    split; [left; lia|lia].
Qed.
Lemma int_feed_size vs : forall e e' o, bounded' (i_signed e) (i_values e) -> feed int_Encode e vs = Ok (e', o) ->
  bounded' (i_signed e') (i_values e') /\ zlen o + 16 * zlen (i_values e') <= 16 * (zlen (i_values e) + zlen vs).
Proof.
  induction vs as [|v t IH]; intros e e' o Hb H; cbn [feed] in H.
  - assert (e' = e) as -> by congruence. assert (o = []) as -> by congruence. z0. change (zlen (@nil Z)) with 0. split; [exact Hb|lia].
  - apply rbind_inv in H. destruct H as ([e1 o1] & H1 & H). apply rbind_inv in H. destruct H as ([e2 o2] & H2 & H).
    assert (o = o1 ++ o2) as -> by congruence. assert (e' = e2) as -> by congruence.
    destruct (encode_size _ _ _ _ Hb H1) as (_ & S2 & S3). destruct (IH _ _ _ S2 H2) as (S4 & S5). rewrite zlen_app, zlen_cons. split; [exact S4|lia].
Qed.
Lemma int_segment_size signed p vs e out : segment int_Encode int_Flush (NewIntRLV2 signed p) vs = Ok (e, out) -> zlen out <= 16 * zlen vs.
Proof.
  unfold segment. intros H. apply rbind_inv in H. destruct H as ([e1 o1] & H1 & H). apply rbind_inv in H. destruct H as ([e2 o2] & H2 & H).
  assert (out = o1 ++ o2) as -> by congruence. apply int_feed_size in H1; [|left; cbn; lia]. destruct H1 as (S1 & S2).
  cbn [NewIntRLV2 i_values] in S2. z0. rewrite zlen_app. unfold int_Flush in H2. destruct (i_values e1) as [|a t] eqn:Ev.
  - assert (o2 = []) as -> by congruence. z0. lia.
  - rewrite <- Ev in *. apply rbind_inv in H2. destruct H2 as ([vs' o3] & H3 & H2). assert (o2 = o3) as -> by congruence.
    apply write_size in H3; [|rewrite Ev; discriminate|apply bounded_weak; exact S1]. destruct H3 as (S3 & S4 & _). pose proof (zlen_nonneg vs'). lia.
Qed.
