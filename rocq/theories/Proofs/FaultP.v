(** Files that fail: whatever is read from them is what the ideal file has. *)
From Verif.Model Require Import Go Chunk Stream Schema Rows File Io.
From Verif.Spec Require Import IoSpec.
From Verif.Proofs Require Import Base ChunkP TailP IoP.

Section Handle.
Context {H : Type} (F : handle H) (content : list Z) (at_ : H -> Z -> Prop).
Hypothesis ok : honest F content at_.

Lemma hon_nonneg h p : at_ h p -> 0 <= p.
Proof. apply ok. Qed.
Lemma hon_read h p k d e h' : at_ h p -> 0 < k -> h_Read F k h = Ok (d, e, h') ->
  zlen d <= k /\ zdrop p content = d ++ zdrop (p + zlen d) content /\ at_ h' (p + zlen d).
Proof. apply ok. Qed.

Lemma readFullLoop_hon n : forall fuel got h p g h', at_ h p -> zlen got <= n ->
  readFullLoop (h_Read F) fuel n got h = Ok (g, None, h') ->
  n - zlen got <= zlen (zdrop p content) /\ g = got ++ ztake (n - zlen got) (zdrop p content) /\
  at_ h' (p + (n - zlen got)).
Proof.
  assert (Done : forall got h p g h', at_ h p -> zlen got <= n -> n <= zlen got ->
    Ok (got, @None ioerr, h) = Ok (g, None, h') -> n - zlen got <= zlen (zdrop p content) /\
    g = got ++ ztake (n - zlen got) (zdrop p content) /\ at_ h' (p + (n - zlen got))).
  { intros got h p g h' Hat Hg Hn E. injection E as <- <-. pose proof (zlen_nonneg (zdrop p content)).
    rewrite ztake_0, app_nil_r by lia. split; [lia|]. split; [reflexivity|].
    replace (p + _) with p by lia. exact Hat. }
  induction fuel as [|f IH]; intros got h p g h' Hat Hg E; cbn [readFullLoop] in E;
    (destruct (Z.leb_spec n (zlen got)) as [Hn|Hn]; [eapply Done; eassumption|]); [discriminate|].
  apply rbind_inv in E as ([[d e] h1] & Er & E).
  destruct (hon_read _ _ (n - zlen got) _ _ _ Hat ltac:(lia) Er) as (Hd & Eu & Hat1). pose proof (zlen_nonneg d).
  assert (Step : forall X h2, n - (zlen got + zlen d) <= zlen (zdrop (p + zlen d) content) ->
     g = (got ++ d) ++ X -> X = ztake (n - (zlen got + zlen d)) (zdrop (p + zlen d) content) ->
     at_ h2 (p + zlen d + (n - (zlen got + zlen d))) ->
     n - zlen got <= zlen (zdrop p content) /\ g = got ++ ztake (n - zlen got) (zdrop p content) /\
     at_ h2 (p + (n - zlen got))).
  { intros X h2 Hl -> -> Hat2. rewrite Eu, zlen_app. split; [lia|]. split.
    - rewrite ztake_split, <- app_assoc by lia. do 3 f_equal. lia.
    - replace (p + (n - zlen got)) with (p + zlen d + (n - (zlen got + zlen d))) by lia. exact Hat2. }
  destruct e as [e|].
  - destruct (Z.leb_spec n (zlen (got ++ d))) as [Hn'|Hn']; [|discriminate]. injection E as <- <-.
    rewrite zlen_app in Hn'. pose proof (zlen_nonneg (zdrop (p + zlen d) content)).
    apply (Step []); [lia|rewrite app_nil_r; reflexivity|rewrite ztake_0 by lia; reflexivity|].
    replace (p + zlen d + _) with (p + zlen d) by lia. exact Hat1.
  - apply IH with (p := p + zlen d) in E; [|exact Hat1|rewrite zlen_app; lia].
    rewrite zlen_app in E. destruct E as (E1 & E2 & E3). eapply Step; [exact E1|exact E2|reflexivity|exact E3].
Qed.
Lemma ReadFull_hon n h p g h' : at_ h p -> 0 <= n -> ReadFull (h_Read F) n h = Ok (g, h') ->
  n <= zlen (zdrop p content) /\ g = ztake n (zdrop p content) /\ at_ h' (p + n).
Proof.
  intros Hat Hn E. unfold ReadFull in E. apply rbind_inv in E as ([[d e] h1] & Er & E).
  destruct e; [discriminate|]. injection E as <- <-.
  apply readFullLoop_hon with (p := p) in Er; [|exact Hat|rewrite zlen_nil; lia].
  rewrite zlen_nil, Z.sub_0_r in Er. exact Er.
Qed.

Lemma readFrom_hon room : (forall i, 0 < room i) ->
  forall fuel buf n h p l buf' n' e h', at_ h p ->
  readFrom (h_Read F) room fuel buf n (h, l) = Ok (buf', n', e, h') ->
  exists d, buf' = buf ++ d /\ n' = n + zlen d /\ zlen d <= Z.max 0 l /\
    zdrop p content = d ++ zdrop (p + zlen d) content /\ at_ h' (p + zlen d).
Proof.
  intros Hroom. induction fuel as [|f IH]; intros buf n h p l buf' n' e h' Hat E; cbn [readFrom] in E; [discriminate|].
  unfold limitedRead in E. cbn [fst snd] in E. destruct (Z.leb_spec l 0) as [Hl|Hl].
  - cbn [rbind isEOF fst] in E. injection E as <- <- _ <-. exists []. rewrite !zlen_nil, !Z.add_0_r.
    split; [reflexivity|]. split; [lia|]. split; [lia|]. split; [reflexivity|exact Hat].
  - apply rbind_inv in E as ([[d e1] s1] & Er & E). apply rbind_inv in Er as ([[d' e'] h1] & Er & E1).
    injection E1 as <- <- <-.
    destruct (hon_read _ _ (Z.min (room f) l) _ _ _ Hat ltac:(specialize (Hroom f); lia) Er) as (Hd & Eu & Hat1).
    pose proof (zlen_nonneg d') as Hd0. destruct e' as [e'|].
    + cbn [fst] in E. injection E as <- <- _ <-. exists d'. repeat split; [lia|exact Eu|exact Hat1].
    + apply IH with (p := p + zlen d') in E; [|exact Hat1].
      destruct E as (d2 & -> & -> & Hl2 & Eu2 & Hat2). exists (d' ++ d2). rewrite zlen_app.
      split; [rewrite app_assoc; reflexivity|]. split; [lia|]. split; [lia|].
      replace (p + (zlen d' + zlen d2)) with (p + zlen d' + zlen d2) by lia.
      split; [rewrite Eu, Eu2 at 1; rewrite app_assoc; reflexivity|exact Hat2].
Qed.
Lemma CopyN_hon room n buf h p b h' : (forall i, 0 < room i) -> at_ h p -> CopyN (h_Read F) room n buf h = Ok (b, h') ->
  n <= zlen (zdrop p content) /\ b = buf ++ ztake n (zdrop p content) /\ at_ h' (p + Z.max 0 n).
Proof.
  intros Hroom Hat E. unfold CopyN in E. apply rbind_inv in E as ([[[b1 w] e] h1] & Er & E).
  destruct (readFrom_hon room Hroom _ _ _ _ _ _ _ _ _ _ Hat Er) as (d & -> & -> & Hd & Eu & Hat1).
  rewrite Z.add_0_l in E. pose proof (zlen_nonneg d) as Hd0.
  assert (Hw : zlen d = Z.max 0 n /\ b = buf ++ d /\ h' = h1).
  { destruct (Z.eqb_spec (zlen d) n) as [En|En].
    - injection E as <- <-. split; [lia|split; reflexivity].
    - destruct e; [discriminate|]. destruct (Z.ltb_spec (zlen d) n); [discriminate|].
      injection E as <- <-. split; [lia|split; reflexivity]. }
  destruct Hw as (Hw & -> & ->). rewrite <- Hw. split; [rewrite Eu, zlen_app; pose proof (zlen_nonneg (zdrop (p + zlen d) content)); lia|].
  split; [|exact Hat1]. f_equal. destruct (Z.le_gt_cases 0 n).
  - rewrite Eu, ztake_split, ztake_0, app_nil_r by lia. reflexivity.
  - rewrite ztake_0 by lia. apply zlen_0. lia.
Qed.

Lemma readAt_hon from n h p g h' : at_ h p -> 0 <= n -> readAt F from n h = Ok (g, h') ->
  0 <= from /\ n <= zlen (zdrop from content) /\ g = ztake n (zdrop from content) /\ at_ h' (from + n).
Proof.
  intros Hat Hn E. unfold readAt in E. apply rbind_inv in E as (h1 & Es & E).
  destruct ok as (_ & _ & Hseek & _). specialize (Hseek _ _ _ _ Hat Es).
  split; [apply hon_nonneg with (h := h1); exact Hseek|]. eapply ReadFull_hon; eassumption.
Qed.

(** ** Streams *)
Section Streams.
Context (room : nat -> Z) (inflate : list Z -> res (list Z)) (o : opts) (bound : nat).
Hypothesis Hroom : forall i, 0 < room i.
Hypothesis Hchunk : 1 <= ChunkSize o < W63.
Notation sim := (sim content at_).

Lemma copyN_hon n (s : list Z) : n <= zlen s -> copyN n s = Ok (ztake n s, zdrop n s).
Proof. clear. intros. unfold copyN. replace (zlen s <? n) with false by lia. reflexivity. Qed.

Lemma readAChunk_hon i r : sim i r -> only sim (io_readAChunk F room inflate o i) (readAChunk inflate o r).
Proof.
  intros [Hf Hs Hl Hrl Hb Hu1 Hu2 (p & Hat & Er)] i' E.
  pose proof (hon_nonneg _ _ Hat) as Hp.
  unfold io_readAChunk in E. unfold readAChunk. rewrite Hs, Hl, Hrl, Hb in E. rewrite Er.
  set (l := if u64 (r_length r - r_readLength r) <? ChunkSize o then _ else _) in *.
  assert (Hl63 : 0 <= l < W63).
  { subst l. pose proof (u64_range (r_length r - r_readLength r)) as Hu. unfold is_u64 in Hu.
    destruct (Z.ltb_spec (u64 (r_length r - r_readLength r)) (ChunkSize o)); lia. }
  rewrite (i64_id l) in E by (unfold is_i64; lia).
  assert (Hk : forall k,
     (let! (head, h) := ReadFull (h_Read F) 3 (ir_h i) in
      let (chunkLength, original) := DecChunkHeader (nth 0 head 0) (nth 1 head 0) (nth 2 head 0) in
      if ChunkSize o <? chunkLength then Err else
      let! (buf, h) :=
        (if original then CopyN (h_Read F) room chunkLength (r_buf r) h
         else let! (cmp, h) := CopyN (h_Read F) room chunkLength [] h in
              let! d := Decompress inflate k cmp in Ok (r_buf r ++ d, h)) in
      Ok {| ir_start := r_start r; ir_length := r_length r; ir_h := h;
            ir_readLength := u64 (r_readLength r + 3 + chunkLength); ir_buf := buf |}) = Ok i' ->
     exists r', (match zdrop p content with
      | h0 :: h1 :: h2 :: rest =>
          let (chunkLength, original) := DecChunkHeader h0 h1 h2 in
          if ChunkSize o <? chunkLength then Err else
          let! (p, rest') := copyN chunkLength rest in
          let! d := (if original then Ok p else Decompress inflate k p) in
          Ok {| r_file := r_file r; r_start := r_start r; r_length := r_length r;
                r_rest := rest'; r_readLength := u64 (r_readLength r + 3 + chunkLength);
                r_buf := r_buf r ++ d |}
      | _ => Err
      end) = Ok r' /\ sim i' r').
  { clear E. intros k E. apply rbind_inv in E as ([head h1] & Eh & E).
    destruct (ReadFull_hon 3 _ _ _ _ Hat ltac:(lia) Eh) as (Hn3 & Ehd & Hat1).
    assert (H3 : (zlen (zdrop p content) <? 3) = false) by lia. rewrite three in H3.
    destruct (zdrop p content) as [|a [|b [|c rest]]] eqn:EU; try discriminate.
    change (ztake 3 (a :: b :: c :: rest)) with [a; b; c] in Ehd. subst head. cbn [nth] in E.
    assert (Erest : rest = zdrop (p + 3) content).
    { rewrite <- (zdrop_zdrop 3 p) by lia. rewrite EU. reflexivity. }
    destruct (DecChunkHeader a b c) as [cl orig].
    destruct (ChunkSize o <? cl); [discriminate|].
    apply rbind_inv in E as ([buf h2] & Eb & E). injection E as <-.
    destruct orig.
    - destruct (CopyN_hon _ _ _ _ _ _ _ Hroom Hat1 Eb) as (Hcl & -> & Hat2). rewrite <- Erest in *.
      rewrite copyN_hon by exact Hcl. cbn [rbind]. eexists. split; [reflexivity|].
      constructor; cbn; auto. { apply u64_range. }
      exists (p + 3 + Z.max 0 cl). split; [exact Hat2|]. rewrite Erest. apply copyN_rest. lia.
    - apply rbind_inv in Eb as ([cmp h3] & Ec & Eb). apply rbind_inv in Eb as (d & Ed & Eb). injection Eb as <- <-.
      destruct (CopyN_hon _ _ _ _ _ _ _ Hroom Hat1 Ec) as (Hcl & -> & Hat2). rewrite <- Erest in *.
      rewrite copyN_hon by exact Hcl. cbn [rbind]. cbn [app] in Ed. rewrite Ed. cbn [rbind].
      eexists. split; [reflexivity|]. constructor; cbn; auto. { apply u64_range. }
      exists (p + 3 + Z.max 0 cl). split; [exact Hat2|]. rewrite Erest. apply copyN_rest. lia. }
  destruct (CompressionKind o); try (apply Hk; exact E). clear Hk.
  apply rbind_inv in E as ([buf h2] & Eb & E). injection E as <-.
  destruct (CopyN_hon _ _ _ _ _ _ _ Hroom Hat Eb) as (Hcl & -> & Hat2).
  rewrite copyN_hon by exact Hcl. cbn [rbind]. eexists. split; [reflexivity|].
  constructor; cbn; auto. { apply u64_range. }
  exists (p + Z.max 0 l). split; [exact Hat2|]. apply copyN_rest. lia.
Qed.

Lemma ReadByte_hon i r : sim i r ->
  only (fun x y => fst x = fst y /\ sim (snd x) (snd y))
       (io_ReadByte F room inflate o i) (r_ReadByte inflate o r).
Proof.
  intros S0 [b i'] E. unfold io_ReadByte in E. unfold r_ReadByte.
  pose proof S0 as [Hf Hs Hl Hrl Hb Hu1 Hu2 Hat]. rewrite Hb, Hl, Hrl in E.
  destruct (r_buf r) as [|b0 t] eqn:Eb.
  - destruct (_ <=? _); [discriminate|]. apply rbind_inv in E as (i1 & E1 & E).
    destruct (readAChunk_hon i r S0 _ E1) as (r1 & -> & [Hf' Hs' Hl' Hrl' Hb' Hu1' Hu2' Hat']). cbn [rbind].
    rewrite Hb' in E. destruct (r_buf r1); [discriminate|]. injection E as <- <-.
    eexists. split; [reflexivity|]. cbn. split; [reflexivity|]. constructor; cbn; auto.
  - injection E as <- <-. eexists. split; [reflexivity|]. cbn. split; [reflexivity|]. constructor; cbn; auto.
Qed.

Lemma fill_hon : forall f1 f2 n i r, sim i r -> (length (r_rest r) < f2)%nat ->
  only sim (io_fill F room inflate o f1 (Z.of_nat n) i) (fill inflate o f2 n r).
Proof.
  induction f1 as [|f1 IH]; intros f2 n i r S0 H2 i' E;
    (destruct f2 as [|f2]; [lia|]); pose proof S0 as [Hf Hs Hl Hrl Hb Hu1 Hu2 Hat];
    cbn [io_fill] in E; cbn [fill]; rewrite Hb, Hl, Hrl in E;
    replace (zlen (r_buf r) <? Z.of_nat n) with (length (r_buf r) <? n)%nat in E by (unfold zlen; lia);
    (destruct ((length (r_buf r) <? n)%nat && (r_readLength r <? r_length r)) eqn:Ec;
      [|injection E as <-; eauto]); [discriminate|].
  apply rbind_inv in E as (i1 & E1 & E).
  destruct (readAChunk_hon i r S0 _ E1) as (r1 & E2 & S1). rewrite E2. cbn [rbind].
  apply (chunk_consumes inflate o Hchunk) in E2; try assumption; [|lia].
  apply (IH f2 n i1 r1 S1); [lia|exact E].
Qed.

Lemma ReadFull_stream_hon n i r : sim i r ->
  only (fun x y => fst x = fst y /\ sim (snd x) (snd y))
       (ReadFull (io_Read F room inflate o bound) (Z.of_nat n) i) (r_ReadFull inflate o n r).
Proof.
  intros S0 [g i'] E. unfold ReadFull in E. unfold r_ReadFull. rewrite Nat2Z.id in E.
  destruct n as [|n].
  { cbn in E. injection E as <- <-. cbn. eexists. split; [reflexivity|]. split; [reflexivity|exact S0]. }
  cbn [Nat.eqb]. set (m := S n) in *.
  assert (Tail : forall i1 r1 d s e, sim i1 r1 ->
     ((m <= length (r_buf r1))%nat \/ r_length r1 <= r_readLength r1) ->
     (if (zlen (ir_buf i1) =? 0) && (0 <? Z.of_nat m) then Err else
              Ok (ztake (Z.of_nat m) (ir_buf i1), @None ioerr,
                  {| ir_start := ir_start i1; ir_length := ir_length i1; ir_h := ir_h i1;
                     ir_readLength := ir_readLength i1; ir_buf := zdrop (Z.of_nat m) (ir_buf i1) |})) = Ok (d, e, s) ->
     (let! (d, e, s') := (match e with
           | None => readFullLoop (io_Read F room inflate o bound) n (Z.of_nat m) d s
           | Some e => if Z.of_nat m <=? zlen d then Ok (d, None, s)
                       else Ok (d, Some (if (0 <? zlen d) && isEOF e then UnexpectedEOF else e), s)
           end) in match e with None => Ok (d, s') | Some _ => Err end) = Ok (g, i') ->
     exists b, (if (m <=? length (r_buf r1))%nat then
          Ok (firstn m (r_buf r1),
             {| r_file := r_file r1; r_start := r_start r1; r_length := r_length r1;
                r_rest := r_rest r1; r_readLength := r_readLength r1; r_buf := skipn m (r_buf r1) |})
        else Err) = Ok b /\ g = fst b /\ sim i' (snd b)).
  { clear E. assert (Hm0 : m = S n) by reflexivity. clearbody m. intros i1 r1 d s e S1 Hend E1 E. pose proof S1 as [Hf Hs Hl Hrl Hb Hu1 Hu2 Hat].
    rewrite Hb, Hs, Hl, Hrl in E1. unfold ztake, zdrop in E1. rewrite !Nat2Z.id in E1.
    destruct ((zlen (r_buf r1) =? 0) && (0 <? Z.of_nat m)) eqn:E0; [discriminate|].
    injection E1 as <- <- <-.
    destruct (Nat.leb_spec m (length (r_buf r1))) as [Hm|Hm].
    - assert (Elen : zlen (firstn m (r_buf r1)) = Z.of_nat m)
        by (unfold zlen; rewrite firstn_length; lia).
      assert (Eloop : forall s, readFullLoop (io_Read F room inflate o bound) n (Z.of_nat m)
                                  (firstn m (r_buf r1)) s = Ok (firstn m (r_buf r1), None, s)).
      { intros s. destruct n; cbn [readFullLoop]; rewrite Elen, Z.leb_refl; reflexivity. }
      rewrite Eloop in E. cbn [rbind] in E. injection E as <- <-. eexists. split; [reflexivity|].
      cbn [fst snd]. split; [reflexivity|]. constructor; cbn; auto.
    - exfalso. rewrite (firstn_all2 (r_buf r1)) in E by lia. rewrite (skipn_all2 (r_buf r1)) in E by lia.
      destruct n as [|n'].
      { unfold zlen in E0. lia. }
      cbn [readFullLoop] in E.
      replace (Z.of_nat m <=? zlen (r_buf r1)) with false in E by (unfold zlen; lia).
      unfold io_Read at 1 in E. cbn [ir_buf ir_length ir_readLength] in E.
      replace (Z.of_nat m - zlen (r_buf r1) <=? zlen (@nil Z)) with false in E
        by (unfold zlen; cbn [length]; lia).
      replace (r_length r1 <=? r_readLength r1) with true in E by lia. discriminate. }
  match type of E with context [readFullLoop ?f m ?a ?b ?c] =>
    change (readFullLoop f m a b c) with (readFullLoop f (S n) a b c) in E end.
  cbn [readFullLoop] in E. rewrite zlen_nil, Z.sub_0_r in E.
  replace (Z.of_nat m <=? 0) with false in E by lia. cbn [app] in E.
  apply rbind_inv in E as ([[d2 e2] s2] & E & Efin). apply rbind_inv in E as ([[d e] s] & E1 & E).
  assert (Efull : (let! (d, e, s') := (match e with
           | None => readFullLoop (io_Read F room inflate o bound) n (Z.of_nat m) d s
           | Some e => if Z.of_nat m <=? zlen d then Ok (d, None, s)
                       else Ok (d, Some (if (0 <? zlen d) && isEOF e then UnexpectedEOF else e), s)
           end) in match e with None => Ok (d, s') | Some _ => Err end) = Ok (g, i')).
  { rewrite E. exact Efin. }
  clear E Efin. unfold io_Read in E1.
  pose proof S0 as [Hf Hs Hl Hrl Hb Hu1 Hu2 Hat].
  replace (Z.of_nat m <=? zlen (ir_buf i)) with (m <=? length (r_buf r))%nat in E1
    by (rewrite Hb; unfold zlen; lia).
  rewrite Hl, Hrl in E1.
  destruct (Nat.leb_spec m (length (r_buf r))) as [Hm|Hm].
  { cbn [rbind]. rewrite <- Hl, <- Hrl in E1. destruct (Tail i r d s e S0 (or_introl Hm) E1 Efull) as (b & Eb & Hg & S1).
    destruct (m <=? length (r_buf r))%nat; [|discriminate]. exists b. split; [exact Eb|split; [exact Hg|exact S1]]. }
  destruct (_ <=? _) eqn:El; [discriminate|]. apply rbind_inv in E1 as (i1 & Ei & E1).
  destruct (fill_hon bound (S (length (r_rest r))) m i r S0 ltac:(lia) _ Ei) as (r1 & Er & S1).
  rewrite Er. cbn [rbind].
  destruct (Tail i1 r1 d s e S1 ltac:(eapply fill_end; eassumption) E1 Efull) as (b & Eb & Hg & S2).
  exists b. split; [exact Eb|split; [exact Hg|exact S2]].
Qed.

Lemma run_hon {A} (p : prog A) : forall i r, sim i r ->
  only (fun x y => fst x = fst y /\ sim (snd x) (snd y))
       (io_run F room inflate o bound p i) (r_run inflate o p r).
Proof.
  induction p as [a| | |k IH|n k IH]; intros i r S0 x E; unfold io_run in E; unfold r_run; cbn [runS] in E |- *.
  - injection E as <-. eexists. split; [reflexivity|]. split; [reflexivity|exact S0].
  - discriminate.
  - discriminate.
  - apply rbind_inv in E as ([b i1] & E1 & E). destruct (ReadByte_hon i r S0 _ E1) as ([b' r1] & -> & Eb & S1).
    cbn [fst snd] in Eb, S1. subst b'. cbn [rbind]. apply (IH _ _ _ S1 _ E).
  - apply rbind_inv in E as ([b i1] & E1 & E). destruct (ReadFull_stream_hon n i r S0 _ E1) as ([b' r1] & -> & Eb & S1).
    cbn [fst snd] in Eb, S1. subst b'. cbn [rbind]. apply (IH _ _ _ S1 _ E).
Qed.

Lemma i64_nonneg x : is_u64 x -> 0 <= i64 x -> i64 x = x.
Proof. clear. unfold is_u64, i64. intros. destruct (_ <? _) eqn:?; lia. Qed.

Lemma new_hon h p start len : at_ h p -> is_u64 start -> is_u64 len ->
  only sim (io_newReader F h start len) (Ok (newReader content start len)).
Proof.
  clear Hroom Hchunk room inflate o bound. intros Hat Hs Hl i E. unfold io_newReader in E.
  apply rbind_inv in E as (h1 & Es & E). injection E as <-.
  destruct ok as (Hnn & _ & Hseek & _). specialize (Hseek _ _ _ _ Hat Es). pose proof (Hnn _ _ Hseek) as Hp.
  rewrite i64_nonneg in Hseek by assumption.
  eexists. split; [reflexivity|]. constructor; cbn; auto.
  { unfold is_u64; lia. } { eauto. }
Qed.

Lemma seek_hon chunk off i r : sim i r -> is_u64 chunk ->
  only sim (io_seek F room inflate o chunk off i) (r_seek inflate o chunk off r).
Proof.
  intros [Hf Hs Hl Hrl Hb Hu1 Hu2 (p & Hat & Er)] Hc i' E. unfold io_seek in E. unfold r_seek.
  rewrite Hs, Hl in E. rewrite Hf. apply rbind_inv in E as (h1 & Es & E).
  destruct ok as (Hnn & _ & Hseek & _). specialize (Hseek _ _ _ _ Hat Es). pose proof (Hnn _ _ Hseek) as Hp.
  rewrite i64_nonneg in Hseek by (try apply u64_range; assumption).
  apply rbind_inv in E as (i1 & E1 & E). injection E as <-.
  match type of E1 with io_readAChunk _ _ _ _ ?a = _ => match goal with |- context [readAChunk _ _ ?b] =>
    assert (S1 : sim a b) by (constructor; cbn; auto; eauto);
    destruct (readAChunk_hon a b S1 _ E1) as (r1 & -> & [Hf' Hs' Hl' Hrl' Hb' Hu1' Hu2' Hat']) end end.
  cbn [rbind]. eexists. split; [reflexivity|]. constructor; cbn; auto.
  rewrite Hb'. reflexivity.
Qed.

Lemma session_hon {A} : forall (l : list (op A)) i r, sim i r -> Forall op_u64 l ->
  only eq (session (io_run F room inflate o bound) (io_seek F room inflate o) l i)
          (session (r_run inflate o) (r_seek inflate o) l r).
Proof.
  induction l as [|x l IH]; intros i r S0 Hl y E; cbn [session] in E |- *; [injection E as <-; eauto|].
  pose proof (Forall_inv Hl) as Hx; pose proof (Forall_inv_tail Hl) as Hl'. destruct x as [p|c off]; cbn [op_u64] in Hx.
  - apply rbind_inv in E as ([a i1] & E1 & E). apply rbind_inv in E as (z & E2 & E). injection E as <-.
    destruct (run_hon p i r S0 _ E1) as ([a' r1] & -> & Ea & S1). cbn [fst snd] in Ea, S1. subst a'. cbn [rbind].
    destruct (IH i1 r1 S1 Hl' _ E2) as (z' & -> & ->). cbn [rbind]. eauto.
  - apply rbind_inv in E as (i1 & E1 & E). destruct (seek_hon c off i r S0 Hx _ E1) as (r1 & -> & S1). cbn [rbind].
    apply (IH i1 r1 S1 Hl' _ E).
Qed.
End Streams.

(** ** Opening *)
Context (inflate : list Z -> res (list Z)) (ST : Type) (unmarshalPS : list Z -> res postscript)
        (unmarshalFooter : list Z -> res (footer ST)) (unmarshalSF : list Z -> res stripeFooter).

Lemma extractFileTail_hon h p : at_ h p -> zlen content < W63 ->
  only eq (io_extractFileTail F inflate unmarshalPS unmarshalFooter h)
          (extractFileTail inflate unmarshalPS unmarshalFooter content).
Proof.
  clear unmarshalSF. intros Hat H63 t E. unfold io_extractFileTail in E. unfold extractFileTail.
  pose proof (zlen_nonneg content) as H0. apply rbind_inv in E as (size' & Esz & E).
  destruct ok as (_ & _ & _ & Hsize). apply (Hsize _ _ _ Hat) in Esz. subst size'.
  destruct (Z.eqb_spec (zlen content) 0); [injection E as <-; eauto|].
  destruct (Z.leb_spec (zlen content) 3); [discriminate|].
  set (size := zlen content) in *. set (readSize := Z.min size 16384) in *.
  apply rbind_inv in E as ([b1 h1] & E1 & E).
  destruct (readAt_hon _ readSize _ _ _ _ Hat ltac:(lia) E1) as (_ & _ & Eb & Hat1).
  rewrite ztake_all in Eb by (rewrite zlen_zdrop' by lia; fold size; lia). subst b1.
  set (buf := zdrop (size - readSize) content) in *.
  set (psLen := nth _ buf 0) in *. destruct (_ <? 0); [discriminate|].
  destruct (unmarshalPS _) as [ps| |]; cbn [rbind] in E |- *; [|discriminate..].
  set (extra := Z.max 0 _) in *.
  assert (He : 0 <= extra < W63).
  { subst extra. pose proof (i64_range (psLen + 1 + i64 (p_footerLength ps) + i64 (p_metadataLength ps) - readSize)) as R.
    unfold is_i64 in R. lia. }
  destruct (Z.ltb_spec 0 extra) as [Hex|Hex]; [|exists t; split; [exact E|reflexivity]].
  apply rbind_inv in E as (b2 & E2 & E). apply rbind_inv in E2 as ([eb h2] & E2 & E3). injection E3 as <-.
  destruct (readAt_hon _ extra _ _ _ _ Hat1 ltac:(lia) E2) as (Hfr & _ & -> & _).
  rewrite (i64_id (size - readSize - extra)) in * by (unfold is_i64; lia). replace (size - readSize - extra <? 0) with false by lia.
  exists t. split; [exact E|reflexivity].
Qed.

Lemma openStripe_hon k i h p sf h' : at_ h p -> 0 <= FooterLength i ->
  io_readFooter F inflate unmarshalSF k i h = Ok (sf, h') ->
  openStripe inflate unmarshalSF k content i =
   Ok (sf_columns sf, streamStarts (Offset i) (u64 (Offset i + IndexLength i)) (sf_streams sf)).
Proof.
  clear unmarshalPS unmarshalFooter ST. intros Hat Hl E. unfold io_readFooter in E. unfold openStripe.
  apply rbind_inv in E as ([fb h1] & E1 & E).
  destruct (readAt_hon _ _ _ _ _ _ Hat Hl E1) as (Hfr & Hlen & -> & _).
  replace (_ <? 0) with false by lia. replace (_ <? FooterLength i) with false by lia.
  apply rbind_inv in E as (fb2 & E2 & E). rewrite E2. cbn [rbind].
  apply rbind_inv in E as (s & E3 & E). rewrite E3. injection E as <- <-. reflexivity.
Qed.

Lemma indexBytes_hon o start len h p buf h' : at_ h p -> 0 <= len ->
  io_indexBytes F inflate o start len h = Ok (buf, h') ->
  0 <= i64 start /\ len <= zlen (zdrop (i64 start) content) /\
  (match CompressionKind o with
   | NONE => Ok (ztake len (zdrop (i64 start) content))
   | k => DecompressChunks inflate k (ztake len (zdrop (i64 start) content)) end) = Ok buf.
Proof.
  intros Hat Hl E. unfold io_indexBytes in E. apply rbind_inv in E as ([b h1] & E1 & E).
  destruct (readAt_hon _ _ _ _ _ _ Hat Hl E1) as (Hfr & Hlen & -> & _).
  apply rbind_inv in E as (b2 & E2 & E). injection E as <- <-. split; [exact Hfr|]. split; [exact Hlen|exact E2].
Qed.
End Handle.

Lemma osFile_honest {H} (os : handle H) content at_ : honest os content at_ -> honest (osFile os) content at_.
Proof.
  intros (H1 & H2 & H3 & H4). split; [exact H1|]. split; [|split; [exact H3|exact H4]].
  intros h p k d e h' Hat Hk E. cbn [osFile h_Read] in E. apply rbind_inv in E as ([[d1 e1] h1] & E1 & E).
  injection E as <- _ <-. eapply H2; eassumption.
Qed.

Lemma os_ok_honest {H} (os : handle H) content at_ : os_ok os content at_ -> honest os content at_.
Proof.
  intros (Hok & Hneg). split; [apply (Hok 0)|]. split; [|split].
  - intros h p k d e h' Hat Hk E. destruct (Hok 0) as (_ & H2 & _).
    destruct (H2 h p k Hat Hk) as (d1 & e1 & h1 & Er & Hd & Eu & Hat' & _). rewrite Er in E. injection E as <- _ <-. auto.
  - intros h p off h' Hat E. destruct (Z.ltb_spec off 0) as [Hn|Hn]; [rewrite Hneg in E by lia; discriminate|].
    destruct (Hok off) as (_ & _ & H3 & _). destruct (H3 h p off Hat ltac:(lia)) as (h1 & Es & Hat1).
    rewrite Es in E. injection E as <-. exact Hat1.
  - intros h p n Hat E. destruct (Hok 0) as (_ & _ & _ & H4). rewrite (H4 _ _ Hat) in E. injection E as <-. reflexivity.
Qed.

(** ** After an error *)
Section Retry.
Context {H : Type} (F : handle H) (room : nat -> Z) (inflate : list Z -> res (list Z)) (o : opts).

Lemma CopyN_copy n buf h : CopyN (h_Read F) room n buf h =
  (let! (ok, b, h') := io_copy F room n buf h in if ok : bool then Ok (b, h') else Err).
Proof.
  unfold CopyN, io_copy. destruct (readFrom _ _ _ _ _ _) as [[[[b w] e] h1]| |]; cbn [rbind]; [|reflexivity..].
  destruct (w =? n); [reflexivity|]. destruct e; [reflexivity|]. destruct (w <? n); reflexivity.
Qed.
Lemma u64_step x y : u64 (u64 x + y) = u64 (x + y).
Proof. clear. unfold u64. rewrite Zplus_mod_idemp_l. reflexivity. Qed.

Lemma readAChunk_try i : io_readAChunk F room inflate o i =
  (let! (ok, i') := io_tryChunk F room inflate o i in if ok : bool then Ok i' else Err).
Proof.
  unfold io_readAChunk, io_tryChunk, ReadFull. change (Z.to_nat 3) with 3%nat.
  destruct (CompressionKind o);
    [rewrite CopyN_copy; destruct (io_copy _ _ _ _ _) as [[[[|] b] h]| |]; reflexivity|..];
    (destruct (readFullLoop _ _ _ _ _) as [[[head e] h]| |]; cbn [rbind]; [|reflexivity..];
     destruct e; [reflexivity|]; cbn [rbind]; destruct (DecChunkHeader _ _ _) as [cl orig];
     destruct (ChunkSize o <? cl); [reflexivity|]; rewrite u64_step; destruct orig; rewrite CopyN_copy;
     (destruct (io_copy _ _ _ _ _) as [[[[|] b] h1]| |]; cbn [rbind]; try reflexivity;
      destruct (Decompress _ _ _); reflexivity)).
Qed.
Lemma ReadByte_try i : io_ReadByte F room inflate o i =
  (let! (b, i') := io_tryByte F room inflate o i in match b with Some b => Ok (b, i') | None => Err end).
Proof.
  unfold io_ReadByte, io_tryByte. destruct (ir_buf i) as [|b t] eqn:Eb; [|reflexivity].
  destruct (_ <=? _); [reflexivity|]. rewrite readAChunk_try.
  destruct (io_tryChunk _ _ _ _ _) as [[[|] i']| |]; cbn [rbind]; [|reflexivity..].
  destruct (ir_buf i'); reflexivity.
Qed.

(** Without compression every attempt leaves buffer and file together at the next byte. *)
Context (content : list Z) (at_ : H -> Z -> Prop).
Hypothesis ok : honest F content at_.
Hypothesis Hroom : forall i, 0 < room i.
Hypothesis Hnone : CompressionKind o = NONE.

Definition stands (p : Z) (i : ioReader H) : Prop :=
  exists q, at_ (ir_h i) q /\ zdrop p content = ir_buf i ++ zdrop q content /\ q = p + zlen (ir_buf i).

Lemma tryChunk_stands p i b i' : stands p i -> io_tryChunk F room inflate o i = Ok (b, i') -> stands p i'.
Proof.
  intros (q & Hat & Eq & ->) E. unfold io_tryChunk in E. rewrite Hnone in E.
  apply rbind_inv in E as ([[okb buf] h] & Ec & E). injection E as _ <-.
  unfold io_copy in Ec. apply rbind_inv in Ec as ([[[b1 w] e] h1] & Er & Ec). injection Ec as _ <- <-.
  destruct (readFrom_hon F content at_ ok room Hroom _ _ _ _ _ _ _ _ _ _ Hat Er) as (d & -> & _ & _ & Eu & Hat1).
  exists (p + zlen (ir_buf i ++ d)). cbn. rewrite zlen_app, Z.add_assoc. split; [exact Hat1|]. split; [|lia].
  rewrite Eq, Eu, <- app_assoc. reflexivity.
Qed.
Lemma zdrop_next p (b : Z) l : 0 <= p -> zdrop p content = b :: l -> zdrop (p + 1) content = l.
Proof. clear. intros Hp E. rewrite <- (zdrop_zdrop 1 p) by lia. rewrite E. reflexivity. Qed.

Lemma tryByte_stands p i b i' : 0 <= p -> stands p i -> io_tryByte F room inflate o i = Ok (b, i') ->
  match b with
  | Some b => exists l, zdrop p content = b :: l /\ stands (p + 1) i'
  | None => stands p i'
  end.
Proof.
  intros Hp S0 E. unfold io_tryByte in E.
  assert (Pop : forall j, stands p j ->
    (match ir_buf j with
     | [] => (None, j)
     | b :: t => (Some b, {| ir_start := ir_start j; ir_length := ir_length j; ir_h := ir_h j;
                            ir_readLength := ir_readLength j; ir_buf := t |})
     end) = (b, i') -> match b with
  | Some b => exists l, zdrop p content = b :: l /\ stands (p + 1) i'
  | None => stands p i'
  end).
  { intros j Sj Ej. destruct (ir_buf j) as [|x t] eqn:Eb; injection Ej as <- <-; [exact Sj|].
    destruct Sj as (q & Hat & Eq & ->). rewrite Eb in *. exists (t ++ zdrop (p + zlen (x :: t)) content).
    split; [exact Eq|]. exists (p + zlen (x :: t)). cbn [ir_h ir_buf]. split; [exact Hat|]. rewrite zlen_cons in *. split; [|lia].
    apply (zdrop_next p x); [exact Hp|]. exact Eq. }
  destruct (ir_buf i) as [|x t] eqn:Eb.
  - destruct (_ <=? _); [injection E as <- <-; exact S0|].
    apply rbind_inv in E as ([okb i1] & Et & E). pose proof (tryChunk_stands _ _ _ _ S0 Et) as S1.
    destruct okb; [injection E as E; apply (Pop i1 S1 E)|]. injection E as <- <-. exact S1.
  - apply (Pop i S0). rewrite Eb. congruence.
Qed.
Lemma attempts_stands : forall n p i l i', 0 <= p -> stands p i ->
  attempts (io_tryByte F room inflate o) n i = Ok (l, i') -> l = ztake (zlen l) (zdrop p content) /\ stands (p + zlen l) i'.
Proof.
  induction n as [|n IH]; intros p i l i' Hp S0 E; cbn [attempts] in E.
  - injection E as <- <-. rewrite zlen_nil, Z.add_0_r. split; [reflexivity|exact S0].
  - apply rbind_inv in E as ([b i1] & E1 & E). apply rbind_inv in E as ([l2 i2] & E2 & E). injection E as <- <-.
    pose proof (tryByte_stands _ _ _ _ Hp S0 E1) as T. destruct b as [b|].
    + destruct T as (t & Et & S1). destruct (IH (p + 1) _ _ _ ltac:(lia) S1 E2) as (El & S2).
      pose proof (zlen_nonneg l2). rewrite zlen_cons. split.
      * rewrite Et. unfold ztake. replace (Z.to_nat (zlen l2 + 1)) with (S (Z.to_nat (zlen l2))) by lia.
        cbn [firstn]. f_equal. rewrite (zdrop_next p b t Hp Et) in El. exact El.
      * replace (p + (zlen l2 + 1)) with (p + 1 + zlen l2) by lia. exact S2.
    + apply (IH _ _ _ _ Hp T E2).
Qed.
End Retry.

Lemma flaky_honest content plan : honest (flaky content plan) content (fun s p => fst s = p /\ 0 <= p).
Proof.
  split; [intros h p [_ Hp]; exact Hp|]. split; [|split].
  - intros [q c] p k d e h' [Eq Hp] Hk E. cbn [fst snd] in Eq. subst q. cbn [flaky h_Read fst snd] in E. injection E as Ed _ Eh.
    set (m := Z.min k (fst (plan c))) in *. set (U := zdrop p content) in *.
    assert (Hd : zlen d <= Z.max 0 m /\ zlen d <= zlen U).
    { subst d. unfold ztake, zlen. rewrite firstn_length. lia. }
    pose proof (zlen_nonneg d). split; [lia|]. subst h'. rewrite Ed. split; [|cbn; lia].
    rewrite <- (zdrop_zdrop (zlen d) p) by lia. fold U. subst d. symmetry.
    transitivity (ztake m U ++ zdrop m U); [|apply ztake_zdrop]. f_equal.
    unfold ztake, zdrop, zlen. rewrite firstn_length, Nat2Z.id.
    destruct (Nat.le_ge_cases (Z.to_nat m) (length U)).
    + rewrite Nat.min_l by lia. reflexivity.
    + rewrite Nat.min_r by lia. rewrite !skipn_all2 by lia. reflexivity.
  - intros h p off h' _ E. cbn [flaky h_Seek] in E. destruct (Z.ltb_spec off 0); [discriminate|]. injection E as <-. cbn. lia.
  - intros h p n _ E. injection E as <-. reflexivity.
Qed.
