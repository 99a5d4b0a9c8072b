(** Seeking a column reader to a stride. *)
From Coq Require Import ZifyBool ZifyNat.
From Verif.Model Require Import Go Codec ByteBool IntRle Chunk Stream Time File Column.
From Verif.Spec Require Import BoolSpec Session StreamSpec ChunkSpec IntSpec ColumnSpec SeekSpec.
From Verif.Proofs Require Import Base CodecP SessionP ByteBoolP OrcIntP StreamP StreamClaimsP IntBytesP IntStreamP ReadP TimeP ChunkP CodecClaimsP ColumnP ColumnReadP StatsP.

(** ** What reading and seeking leave in place: the part of the file each stream has *)
Definition rbase (r : reader) : list Z * Z * Z := (r_file r, r_start r, r_length r).
Definition vbase {A} (v : vreader A) := rbase (v_s v).
Definition bbase (b : boolReader) := vbase (bl_r b).
Definition dbase (d : sreader) : Z * (list Z * Z * Z) :=
  match d with RRun v => (0, vbase v) | RBool b => (1, bbase b) | RRaw r => (2, rbase r) end.
Record Same (c c' : colR) : Prop := {
  same_kind : cr_kind c' = cr_kind c;
  same_nulls : cr_hasNulls c' = cr_hasNulls c;
  same_index : cr_index c' = cr_index c;
  same_present : option_map bbase (cr_present c') = option_map bbase (cr_present c);
  same_data : option_map dbase (cr_data c') = option_map dbase (cr_data c);
  same_second : option_map vbase (cr_second c') = option_map vbase (cr_second c) }.
Lemma Same_refl c : Same c c. Proof. constructor; reflexivity. Qed.
Lemma Same_trans a b c : Same a b -> Same b c -> Same a c.
Proof. intros [] []. constructor; congruence. Qed.

Section Base.
Variable inflate : list Z -> res (list Z).
Variable o : opts.

Lemma readAChunk_base r r' : readAChunk inflate o r = Ok r' -> rbase r' = rbase r.
Proof.
  unfold readAChunk. destruct (CompressionKind o); try discriminate.
  1: intros H; apply rbind_inv in H; destruct H as ([p rest] & _ & H);
     match type of H with Ok ?x = _ => assert (r' = x) as -> by congruence end; reflexivity.
  all: destruct (r_rest r) as [|h0 [|h1 [|h2 rest]]]; try discriminate;
    destruct (DecChunkHeader h0 h1 h2) as [l orig]; destruct (ChunkSize o <? l); try discriminate;
    intros H; apply rbind_inv in H; destruct H as ([p rest'] & _ & H); apply rbind_inv in H; destruct H as (d & _ & H);
    match type of H with Ok ?x = _ => assert (r' = x) as -> by congruence end; reflexivity.
Qed.
Lemma r_ReadByte_base r b r' : r_ReadByte inflate o r = Ok (b, r') -> rbase r' = rbase r.
Proof.
  unfold r_ReadByte. intros H.
  assert (P : forall q, match r_buf q with
    | [] => Err
    | b :: t => Ok (b, {| r_file := r_file q; r_start := r_start q; r_length := r_length q;
                          r_rest := r_rest q; r_readLength := r_readLength q; r_buf := t |})
    end = Ok (b, r') -> rbase r' = rbase q).
  { intros q Hq. destruct (r_buf q); [discriminate|].
    match type of Hq with Ok (_, ?x) = _ => assert (r' = x) as -> by congruence end. reflexivity. }
  destruct (r_buf r) as [|b0 t] eqn:Eb.
  - destruct (r_length r <=? r_readLength r); [discriminate|]. apply rbind_inv in H. destruct H as (q & Hq & H).
    apply P in H. rewrite H. apply readAChunk_base. exact Hq.
  - apply P. rewrite Eb. exact H.
Qed.
Lemma fill_base fuel n : forall r r', fill inflate o fuel n r = Ok r' -> rbase r' = rbase r.
Proof.
  induction fuel as [|f IH]; intros r r' H; cbn [fill] in H;
    destruct ((length (r_buf r) <? n)%nat && (r_readLength r <? r_length r)); try discriminate;
    try (assert (r' = r) as -> by congruence; reflexivity).
  apply rbind_inv in H. destruct H as (q & Hq & H). apply IH in H. rewrite H. apply readAChunk_base. exact Hq.
Qed.
Lemma r_ReadFull_base n r l r' : r_ReadFull inflate o n r = Ok (l, r') -> rbase r' = rbase r.
Proof.
  unfold r_ReadFull. destruct (Nat.eqb n 0); [intros H; assert (r' = r) as -> by congruence; reflexivity|].
  intros H. apply rbind_inv in H. destruct H as (q & Hq & H).
  assert (Hb : rbase q = rbase r).
  { destruct (n <=? length (r_buf r))%nat; [assert (q = r) as -> by congruence; reflexivity|].
    destruct (r_length r <=? r_readLength r); [discriminate|]. eapply fill_base. exact Hq. }
  destruct (n <=? length (r_buf q))%nat; [|discriminate].
  match type of H with Ok (_, ?x) = _ => assert (r' = x) as -> by congruence end. exact Hb.
Qed.
Lemma r_run_base {A} (p : prog A) : forall r a r', r_run inflate o p r = Ok (a, r') -> rbase r' = rbase r.
Proof.
  unfold r_run. induction p as [a| | |k IH|n k IH]; intros r x r' H; cbn [runS] in H; try discriminate.
  - assert (r' = r) as -> by congruence. reflexivity.
  - apply rbind_inv in H. destruct H as ([b q] & Hq & H). apply IH in H. rewrite H. eapply r_ReadByte_base. exact Hq.
  - apply rbind_inv in H. destruct H as ([b q] & Hq & H). apply IH in H. rewrite H. eapply r_ReadFull_base. exact Hq.
Qed.
Lemma r_seek_base a b r r' : r_seek inflate o a b r = Ok r' -> rbase r' = rbase r.
Proof.
  unfold r_seek. intros H. apply rbind_inv in H. destruct H as (q & Hq & H). apply readAChunk_base in Hq.
  match type of H with Ok ?x = _ => assert (r' = x) as -> by congruence end. exact Hq.
Qed.
Lemma v_Next_base {A} (dec : prog (list A)) v x v' : v_Next inflate o dec v = Ok (x, v') -> vbase v' = vbase v.
Proof.
  unfold v_Next. destruct (v_vals v).
  - intros H. apply rbind_inv in H. destruct H as ([xs s] & Hs & H). apply r_run_base in Hs.
    destruct xs; [discriminate|]. match type of H with Ok (_, ?x) = _ => assert (v' = x) as -> by congruence end. exact Hs.
  - intros H. match type of H with Ok (_, ?x) = _ => assert (v' = x) as -> by congruence end. reflexivity.
Qed.
Lemma v_skip_base {A} (dec : prog (list A)) n : forall v v', v_skip inflate o dec n v = Ok v' -> vbase v' = vbase v.
Proof.
  induction n as [|n IH]; intros v v' H; cbn [v_skip] in H; [assert (v' = v) as -> by congruence; reflexivity|].
  apply rbind_inv in H. destruct H as ([x q] & Hq & H). apply IH in H. rewrite H. eapply v_Next_base. exact Hq.
Qed.
Lemma v_Seek_base {A} (dec : prog (list A)) a b c v v' : v_Seek inflate o dec a b c v = Ok v' -> vbase v' = vbase v.
Proof.
  unfold v_Seek. intros H. apply rbind_inv in H. destruct H as (s & Hs & H). apply v_skip_base in H. rewrite H.
  apply r_seek_base in Hs. exact Hs.
Qed.
Lemma bool_Next_base b x b' : bool_Next inflate o b = Ok (x, b') -> bbase b' = bbase b.
Proof.
  unfold bool_Next. destruct (bl_vals b).
  - intros H. apply rbind_inv in H. destruct H as ([v r] & Hr & H). apply v_Next_base in Hr.
    destruct (DecodeBoolsFromByte v); [discriminate|].
    match type of H with Ok (_, ?x) = _ => assert (b' = x) as -> by congruence end. exact Hr.
  - intros H. match type of H with Ok (_, ?x) = _ => assert (b' = x) as -> by congruence end. reflexivity.
Qed.
Lemma bool_skip_base n : forall b b', bool_skip inflate o n b = Ok b' -> bbase b' = bbase b.
Proof.
  induction n as [|n IH]; intros v v' H; cbn [bool_skip] in H; [assert (v' = v) as -> by congruence; reflexivity|].
  apply rbind_inv in H. destruct H as ([x q] & Hq & H). apply IH in H. rewrite H. eapply bool_Next_base. exact Hq.
Qed.
Lemma seekBool_base p b b' : seekBool inflate o p b = Ok b' -> bbase b' = bbase b.
Proof.
  unfold seekBool. destruct p as [|? [|? [|? [|? [|? ?]]]]]; try discriminate. unfold bool_Seek. intros H.
  apply rbind_inv in H. destruct H as (r & Hr & H). apply bool_skip_base in H. rewrite H. apply v_Seek_base in Hr. exact Hr.
Qed.
Lemma seekRun_base dec p v v' : seekRun inflate o dec p v = Ok v' -> vbase v' = vbase v.
Proof. unfold seekRun. destruct p as [|? [|? [|? [|? ?]]]]; try discriminate. apply v_Seek_base. Qed.
Lemma seekData_base k p d d' : seekData inflate o k p d = Ok d' -> exists d0, d = Some d0 /\ dbase d' = dbase d0.
Proof.
  unfold seekData. destruct d as [[v|b|r]|]; try discriminate; intros H; eexists; (split; [reflexivity|]).
  - apply rbind_inv in H. destruct H as (q & Hq & H). assert (d' = RRun q) as -> by congruence. cbn [dbase]. f_equal. eapply seekRun_base. exact Hq.
  - apply rbind_inv in H. destruct H as (q & Hq & H). assert (d' = RBool q) as -> by congruence. cbn [dbase]. f_equal. eapply seekBool_base. exact Hq.
  - destruct p as [|a [|b l]]; try discriminate.
    apply rbind_inv in H. destruct H as (q & Hq & H). assert (d' = RRaw q) as -> by congruence. cbn [dbase]. f_equal. eapply r_seek_base. exact Hq.
Qed.

Lemma Same_setPresent c b b' : cr_present c = Some b -> bbase b' = bbase b -> Same c (setPresent b' c).
Proof. intros H Hb. constructor; cbn; try reflexivity. rewrite H. cbn. congruence. Qed.
Lemma Same_setData c d d' : cr_data c = Some d -> dbase d' = dbase d -> Same c (setData d' c).
Proof. intros H Hb. constructor; cbn; try reflexivity. rewrite H. cbn. congruence. Qed.
Lemma Same_setSecond c v v' : cr_second c = Some v -> vbase v' = vbase v -> Same c (setSecond v' c).
Proof. intros H Hb. constructor; cbn; try reflexivity. rewrite H. cbn. congruence. Qed.

Lemma seekTo_same pp dp sp c c' : seekTo inflate o pp dp sp c = Ok c' -> Same c c'.
Proof.
  unfold seekTo. intros H. apply rbind_inv in H. destruct H as (c1 & H1 & H).
  apply rbind_inv in H. destruct H as (d & Hd & H).
  assert (S1 : Same c c1).
  { destruct (cr_present c) as [b|] eqn:Ep; [|assert (c1 = c) as -> by congruence; apply Same_refl].
    apply rbind_inv in H1. destruct H1 as (b' & Hb & H1). assert (c1 = setPresent b' c) as -> by congruence.
    eapply Same_setPresent; [exact Ep|]. eapply seekBool_base. exact Hb. }
  destruct (seekData_base _ _ _ _ Hd) as (d0 & Hd0 & Hdb).
  assert (S2 : Same c (setData d c1)) by (eapply Same_trans; [exact S1|eapply Same_setData; eassumption]).
  destruct (hasSecond (cr_kind c)); [|assert (c' = setData d c1) as -> by congruence; exact S2].
  apply rbind_inv in H. destruct H as (s & Hs & H). assert (c' = setSecond s (setData d c1)) as -> by congruence.
  eapply Same_trans; [exact S2|]. cbn [setData cr_second] in Hs. unfold seekSecond in Hs. destruct (cr_second c1) as [v|] eqn:Ev; [|discriminate].
  eapply Same_setSecond; [exact Ev|]. eapply seekRun_base. exact Hs.
Qed.
Lemma SeekStride_same s c c' : SeekStride inflate o s c = Ok c' -> Same c c'.
Proof.
  unfold SeekStride. destruct (_ && _); [apply seekTo_same|]. intros H.
  apply rbind_inv in H. destruct H as (l & _ & H). apply rbind_inv in H. destruct H as (pp & _ & H).
  cbv zeta in H. apply rbind_inv in H. destruct H as (dp & _ & H). apply rbind_inv in H. destruct H as (sp & _ & H).
  eapply seekTo_same. exact H.
Qed.
Lemma nextPresent_base c old x c' : nextPresent inflate o c old = Ok (x, c') -> Same c c'.
Proof.
  unfold nextPresent. destruct (cr_present c) as [b|] eqn:Ep; [|intros H; assert (c' = c) as -> by congruence; apply Same_refl].
  intros H. apply rbind_inv in H. destruct H as ([p b'] & Hb & H). assert (c' = setPresent b' c) as -> by congruence.
  eapply Same_setPresent; [exact Ep|]. eapply bool_Next_base. exact Hb.
Qed.
Lemma nextRun_base dec c x d : nextRun inflate o dec (cr_data c) = Ok (x, d) -> Same c (setData d c).
Proof.
  unfold nextRun. destruct (cr_data c) as [[v|b|r]|] eqn:E; try discriminate. intros H.
  apply rbind_inv in H. destruct H as ([y v'] & Hv & H). assert (d = RRun v') as -> by congruence.
  eapply Same_setData; [exact E|]. cbn. f_equal. eapply v_Next_base. exact Hv.
Qed.
Lemma nextBool_base c x d : nextBool inflate o (cr_data c) = Ok (x, d) -> Same c (setData d c).
Proof.
  unfold nextBool. destruct (cr_data c) as [[v|b|r]|] eqn:E; try discriminate. intros H.
  apply rbind_inv in H. destruct H as ([y v'] & Hv & H). assert (d = RBool v') as -> by congruence.
  eapply Same_setData; [exact E|]. cbn. f_equal. eapply bool_Next_base. exact Hv.
Qed.
Lemma nextRaw_base {A} (p : prog A) c x d : nextRaw inflate o p (cr_data c) = Ok (x, d) -> Same c (setData d c).
Proof.
  unfold nextRaw. destruct (cr_data c) as [[v|b|r]|] eqn:E; try discriminate. intros H.
  apply rbind_inv in H. destruct H as ([y v'] & Hv & H). assert (d = RRaw v') as -> by congruence.
  eapply Same_setData; [exact E|]. cbn. f_equal. eapply r_run_base. exact Hv.
Qed.
Lemma nextSecond_base dec c x s : nextSecond inflate o dec (cr_second c) = Ok (x, s) -> Same c (setSecond s c).
Proof.
  unfold nextSecond. destruct (cr_second c) as [v|] eqn:E; try discriminate. intros H.
  eapply Same_setSecond; [exact E|]. eapply v_Next_base. exact H.
Qed.
Lemma nextValue_base c old g c' : nextValue inflate o c old = Ok (g, c') -> Same c c'.
Proof.
  unfold nextValue. intros H. destruct (cr_kind c); try discriminate;
    apply rbind_inv in H; destruct H as ([x d] & Hd & H).
  all: try (match type of H with Ok (_, ?y) = _ => assert (c' = y) as -> by congruence end;
            first [eapply nextRun_base; exact Hd | eapply nextBool_base; exact Hd | eapply nextRaw_base; exact Hd]).
  all: apply rbind_inv in H; destruct H as ([y s] & Hs & H).
  - assert (c' = setData s (setSecond d c)) as -> by congruence.
    eapply Same_trans; [eapply nextSecond_base; exact Hd|]. eapply (nextRaw_base _ (setSecond d c)). exact Hs.
  - assert (c' = setData s (setSecond d c)) as -> by congruence.
    eapply Same_trans; [eapply nextSecond_base; exact Hd|]. eapply (nextRaw_base _ (setSecond d c)). exact Hs.
  - destruct old; try discriminate. assert (c' = setSecond s (setData d c)) as -> by congruence.
    eapply Same_trans; [eapply nextRun_base; exact Hd|]. eapply (nextSecond_base _ (setData d c)). exact Hs.
  - destruct old; try discriminate. assert (c' = setSecond s (setData d c)) as -> by congruence.
    eapply Same_trans; [eapply nextRaw_base; exact Hd|]. eapply (nextSecond_base _ (setData d c)). exact Hs.
Qed.
Lemma nextRow_base c old x c' : nextRow inflate o c old = Ok (x, c') -> Same c c'.
Proof.
  unfold nextRow. intros H. apply rbind_inv in H. destruct H as ([n c1] & H1 & H). apply nextPresent_base in H1.
  destruct n; [assert (c' = c1) as -> by congruence; exact H1|].
  apply rbind_inv in H. destruct H as ([g c2] & H2 & H). assert (c' = c2) as -> by congruence.
  eapply Same_trans; [exact H1|]. eapply nextValue_base. exact H2.
Qed.
Lemma NextBatch_base vec : forall c out c', NextBatch inflate o c vec = Ok (out, c') -> Same c c'.
Proof.
  induction vec as [|v t IH]; intros c out c' H; cbn [NextBatch] in H; [assert (c' = c) as -> by congruence; apply Same_refl|].
  apply rbind_inv in H. destruct H as ([x c1] & H1 & H). apply rbind_inv in H. destruct H as ([xs c2] & H2 & H).
  assert (c' = c2) as -> by congruence. eapply Same_trans; [eapply nextRow_base; exact H1|eapply IH; exact H2].
Qed.
Lemma skipRows_base n : forall c c', skipRows inflate o n c = Ok c' -> Same c c'.
Proof.
  induction n as [|n IH]; intros c c' H; cbn [skipRows] in H; [assert (c' = c) as -> by congruence; apply Same_refl|].
  apply rbind_inv in H. destruct H as ([x c1] & H1 & H). apply rbind_inv in H. destruct H as (c2 & H2 & H).
  apply nextPresent_base in H1. eapply Same_trans; [exact H1|]. eapply Same_trans; [|eapply IH; exact H].
  destruct x; [assert (c2 = c1) as -> by congruence; apply Same_refl|].
  apply rbind_inv in H2. destruct H2 as ([g c3] & H3 & H2). assert (c2 = c3) as -> by congruence. eapply nextValue_base. exact H3.
Qed.
Lemma rops_base ops : forall c c', rops inflate o c ops = Ok c' -> Same c c'.
Proof.
  induction ops as [|op t IH]; intros c c' H; cbn [rops] in H; [assert (c' = c) as -> by congruence; apply Same_refl|].
  apply rbind_inv in H. destruct H as (c1 & H1 & H). eapply Same_trans; [|eapply IH; exact H].
  destruct op; cbn [rop_run] in H1.
  - apply rbind_inv in H1. destruct H1 as ([out c2] & H2 & H1). assert (c1 = c2) as -> by congruence. eapply NextBatch_base. exact H2.
  - eapply skipRows_base. exact H1.
  - eapply SeekStride_same. exact H1.
Qed.

(** ** Skipping *)
Lemma v_skip_yields {A} (dec : prog (list A)) n : forall v xs, Yields (v_Next inflate o dec) v xs -> (n <= length xs)%nat ->
  exists v', v_skip inflate o dec n v = Ok v' /\ Yields (v_Next inflate o dec) v' (skipn n xs).
Proof.
  induction n as [|n IH]; intros v xs H Hn; [exists v; split; [reflexivity|exact H]|].
  destruct xs as [|x t]; cbn [length] in Hn; [lia|]. inversion H as [|? ? v1 ? H1 H2]; subst.
  destruct (IH v1 t H2) as (v' & Hv & Hy); [lia|]. exists v'. cbn [v_skip skipn]. rewrite H1. auto.
Qed.
Lemma bool_skip_yields n : forall b xs, Yields (bool_Next inflate o) b xs -> (n <= length xs)%nat ->
  exists b', bool_skip inflate o n b = Ok b' /\ Yields (bool_Next inflate o) b' (skipn n xs).
Proof.
  induction n as [|n IH]; intros v xs H Hn; [exists v; split; [reflexivity|exact H]|].
  destruct xs as [|x t]; cbn [length] in Hn; [lia|]. inversion H as [|? ? v1 ? H1 H2]; subst.
  destruct (IH v1 t H2) as (v' & Hv & Hy); [lia|]. exists v'. cbn [bool_skip skipn]. rewrite H1. auto.
Qed.
Lemma skipRows_yields n : forall c rows, ColumnSpec.readable (cr_kind c) = true ->
  Yields (rowNext inflate o) c rows -> (n <= length rows)%nat ->
  exists c', skipRows inflate o n c = Ok c' /\ Yields (rowNext inflate o) c' (skipn n rows).
Proof.
  induction n as [|n IH]; intros c rows Hl H Hn; [exists c; split; [reflexivity|exact H]|].
  destruct rows as [|x t]; cbn [length] in Hn; [lia|]. inversion H as [|? ? c1 ? H1 H2]; subst.
  assert (Hk1 : cr_kind c1 = cr_kind c).
  { apply rowNext_same in H1. apply H1. }
  destruct (IH c1 t) as (c' & Hc & Hy); [rewrite Hk1; exact Hl|exact H2|lia|]. exists c'. cbn [skipRows skipn]. split; [|exact Hy].
  unfold rowNext in H1. apply rbind_inv in H1. destruct H1 as ([v c2] & H1 & Hv). assert (c2 = c1) as -> by congruence.
  unfold nextRow in H1. cbn [Null V] in H1. apply rbind_inv in H1. destruct H1 as ([nl c3] & H3 & H1). rewrite H3. cbn [rbind].
  destruct nl.
  - assert (c3 = c1) as -> by congruence. cbn [rbind]. exact Hc.
  - assert (skipOld (cr_kind c) = GNil) as -> by (destruct (cr_kind c); try discriminate; reflexivity).
    apply rbind_inv in H1. destruct H1 as ([g c4] & H4 & H1). rewrite H4. cbn [rbind]. assert (c4 = c1) as -> by congruence. exact Hc.
Qed.
End Base.

(** ** One stream *)
Lemma writeAll_split {E V} deflate (enc : E -> V -> res (E * list Z)) o w a b :
  StreamSpec.writeAll deflate enc o w (a ++ b) = (let! w' := StreamSpec.writeAll deflate enc o w a in StreamSpec.writeAll deflate enc o w' b).
Proof.
  revert w. induction a as [|x t IH]; intros w; [reflexivity|]. cbn [app Verif.Spec.StreamSpec.writeAll].
  destruct (w_Write deflate enc o w x); cbn [rbind]; [apply IH|reflexivity|reflexivity].
Qed.
Definition prefix (o : opts) (chunk offset : Z) : list Z :=
  if isNone (CompressionKind o) then [offset] else [chunk; offset].
(** Without compression the chunk number is always 0 and not recorded. *)
Definition strip (o : opts) (p : list Z) : list Z := if isNone (CompressionKind o) then tl p else p.
Definition headed (o : opts) (p : list Z) : Prop := CompressionKind o = NONE -> exists t, p = 0 :: t.

Section One.
Variable deflate : list (list Z) -> list Z -> res (list Z).
Variable inflate : list Z -> res (list Z).
Variable o : opts.
Hypothesis Ho : supported o.
Hypothesis Hok : flate_ok deflate inflate.
Hypothesis Hwi : WriteIndex o = true.
Notation serves := (serves inflate o).

Lemma Chunked_empty cs x : Chunked inflate cs x [] -> x = [].
Proof. intros H. remember [] as ds eqn:E in H. destruct H; congruence. Qed.

(** In every reader of that part of the file, seeking there leads to [bs]. *)
Definition lands (base : list Z * Z * Z) (chunk offset : Z) (bs : list Z) : Prop :=
  forall r, rbase r = base -> exists r', r_seek inflate o chunk offset r = Ok r' /\ serves r' bs.

Section Gen.
Variable E V : Type.
Variable enc : E -> V -> res (E * list Z).
Variable flush : E -> res (E * list Z).
Variable pos : E -> list Z.
Lemma stream_seek e vs1 vs2 w1 w2 : StreamSpec.writeAll deflate enc o (newWriter e) vs1 = Ok w1 ->
  writeStream deflate enc flush o w1 vs2 = Ok w2 ->
  (if isNone (CompressionKind o) then w_length w2 <= ChunkSize o else 0 < w_length w2) ->
  exists o1 e1 e2 o2 chunk offset, (CompressionKind o = NONE -> chunk = 0) /\
    w_GetPosition pos o w1 = prefix o chunk offset ++ pos e1 /\
    feed enc e vs1 = Ok (e1, o1) /\ segment enc flush e1 vs2 = Ok (e2, o2) /\
    forall pre post, zlen (pre ++ StreamSpec.stored o w2 ++ post) < W64 ->
      lands (pre ++ StreamSpec.stored o w2 ++ post, zlen pre, w_length w2) chunk offset o2.
Proof.
  intros H1 H2 Hs.
  assert (H12 : writeStream deflate enc flush o (newWriter e) (vs1 ++ vs2) = Ok w2).
  { unfold writeStream in *. rewrite writeAll_split, H1. exact H2. }
  destruct (stream_final deflate inflate Hok E V enc flush o Ho _ _ _ [] [] [] (Ext_new inflate E o Ho e) H12)
    as (e' & bs & Hseg & _ & Hlen & Hfin). cbn [app newWriter w_enc] in *.
  assert (Hcat : forall o1 e1 o2 e2, feed enc e vs1 = Ok (e1, o1) -> segment enc flush e1 vs2 = Ok (e2, o2) -> bs = o1 ++ o2).
  { intros o1 e1 o2 e2 Hf Hg. unfold segment in *. rewrite feed_app, Hf in Hseg. cbn [rbind] in Hseg.
    destruct (feed enc e1 vs2) as [[e3 o3]| |]; cbn [rbind] in *; try discriminate.
    destruct (flush e3) as [[e4 o4]| |]; cbn [rbind] in *; try discriminate.
    assert (bs = (o1 ++ o3) ++ o4) as -> by congruence. assert (o2 = o3 ++ o4) as -> by congruence. rewrite app_assoc. reflexivity. }
  destruct Ho as [[Hk|Hk] HC].
  - destruct (seek_uncompressed_pos deflate inflate E V enc flush o Ho pos e vs1 vs2 w1 w2 Hk Hwi H1 H2)
      as (o1 & e1 & e2 & o2 & offset & Hp & Hf & Hg & Hr).
    exists o1, e1, e2, o2, 0, offset. split; [reflexivity|]. unfold prefix. rewrite Hk in *. cbn [isNone] in *.
    split; [exact Hp|]. split; [exact Hf|]. split; [exact Hg|].
    intros pre post Hl r Hb. unfold rbase in Hb.
    destruct (Hr pre post r Hl) as (r' & Hr1 & Hr2 & Hr3); [congruence..|].
    exists r'. split; [exact Hr1|]. apply Hr3. pose proof (Hcat _ _ _ _ Hf Hg) as E1.
    rewrite Hlen, Hfin, E1, zlen_app in Hs. pose proof (zlen_nonneg o2). lia.
  - destruct (seek_compressed_pos deflate inflate E V enc flush o Ho pos e vs1 vs2 w1 w2 Hok Hk Hwi H1 H2)
      as (o1 & e1 & e2 & o2 & chunk & offset & Hp & Hf & Hg & Hr).
    exists o1, e1, e2, o2, chunk, offset. split; [congruence|]. unfold prefix. rewrite Hk in *. cbn [isNone] in *.
    split; [exact Hp|]. split; [exact Hf|]. split; [exact Hg|].
    intros pre post Hl r Hb. unfold rbase in Hb.
    enough (Hne0 : o1 ++ o2 <> []) by (apply (Hr Hne0 pre post r Hl); congruence).
    rewrite <- (Hcat _ _ _ _ Hf Hg). intros ->. destruct Hfin as (x & ds & Hst & Hch & Hcc & Hne & _).
    destruct ds as [|d ds]; [|inversion Hne; subst; cbn [concat] in Hcc; destruct d; [congruence|discriminate]].
    apply Chunked_empty in Hch. rewrite Hst, Hch in Hlen. unfold zlen in Hlen. cbn in Hlen. lia.
Qed.
End Gen.

(** Run-length encoded values. *)
Lemma run_seek {A} (dec : prog (list A)) base chunk offset bs ws pos :
  (forall i vs r, bytes i -> run dec i = Ok (vs, r) -> vs <> []) -> bytes bs -> decode_all dec bs = Ok ws ->
  0 <= pos <= zlen ws -> pos < W63 -> lands base chunk offset bs ->
  forall v, vbase v = base -> exists v', v_Seek inflate o dec chunk offset pos v = Ok v' /\
    Yields (v_Next inflate o dec) v' (zdrop pos ws).
Proof.
  intros Hne Hb Hd Hp Hp63 Hl v Hv. destruct (Hl (v_s v) Hv) as (r' & Hs & Hsv).
  unfold v_Seek. rewrite Hs. cbn [rbind]. rewrite i64_id by (unfold is_i64; lia).
  apply (v_skip_yields inflate o dec (Z.to_nat pos) _ ws).
  - apply (yields_runs inflate o _ dec Hne bs ws); [apply decode_all_inv; exact Hd|exact Hb|exact Hsv].
  - unfold zlen in Hp. lia.
Qed.
Lemma bits_seek base chunk offset bs ws p q : bytes bs -> decode_all DecodeByteRL bs = Ok ws ->
  0 <= p <= zlen ws -> p < W63 -> 0 <= q <= zlen (flat_map DecodeBoolsFromByte (zdrop p ws)) -> q < W63 ->
  lands base chunk offset bs ->
  forall b, bbase b = base -> exists b', seekBool inflate o [chunk; offset; p; q] b = Ok b' /\
    Yields (bool_Next inflate o) b' (zdrop q (flat_map DecodeBoolsFromByte (zdrop p ws))).
Proof.
  intros Hb Hd Hp Hp63 Hq Hq63 Hl b Hv. cbn [seekBool]. unfold bool_Seek.
  destruct (run_seek DecodeByteRL base chunk offset bs ws p ByteRL_nonempty Hb Hd Hp Hp63 Hl (bl_r b) Hv) as (v' & -> & Hy).
  cbn [rbind]. rewrite i64_id by (unfold is_i64; lia).
  apply (bool_skip_yields inflate o (Z.to_nat q) _ (flat_map DecodeBoolsFromByte (zdrop p ws))).
  - apply yields_bits. exact Hy.
  - unfold zlen in Hq. lia.
Qed.

(** ** The streams of a column *)
Fixpoint Seeks (file : list Z) (plan : list (Z * enc)) (offs : list (strm * Z)) (ws : list (Z * writer enc))
    (a b : nat -> list gval) : Prop :=
  match plan, offs, ws with
  | [], [], [] => True
  | (q, e) :: pl, (s, off) :: ofs, (_, w) :: r =>
      st_kind s = q /\
      (exists o1 e1 e2 o2 chunk offset, (CompressionKind o = NONE -> chunk = 0) /\
         w_GetPosition encPos o w = prefix o chunk offset ++ encPos e1 /\
         feed encode e (a O) = Ok (e1, o1) /\ segment encode encFlush e1 (b O) = Ok (e2, o2) /\
         lands (file, off, st_length s) chunk offset o2) /\
      Seeks file pl ofs r (fun i => a (S i)) (fun i => b (S i))
  | _, _, _ => False
  end.
Lemma Fed_Seeks id plan : forall sj s1 s2 a b pre post,
  Fed deflate o (map (fun p => (fst p, newWriter (snd p))) plan) sj a -> Fed deflate o sj s1 b -> Flushed deflate o s1 s2 ->
  Forall (seekable o) (map (fun q => info id (fst q) (snd q)) s2) ->
  zlen (pre ++ concat (map (fun q => StreamSpec.stored o (snd q)) s2) ++ post) < W64 ->
  Seeks (pre ++ concat (map (fun q => StreamSpec.stored o (snd q)) s2) ++ post) plan
        (offsets (zlen pre) (map (fun q => info id (fst q) (snd q)) s2)) sj a b.
Proof.
  induction plan as [|[q e] pl IH]; intros [|[qj wj] sj] [|[q1 w1] s1] [|[q2 w2] s2] a b pre post Ha Hb Hf Hs Hl;
    cbn [map Fed Flushed fst snd] in Ha, Hb, Hf; try contradiction; [exact I|].
  destruct Ha as (-> & Ha & Ha'), Hb as (-> & Hb & Hb'), Hf as (-> & Hf & Hf').
  cbn [map concat fst snd offsets Seeks info st_kind st_length] in *. rewrite <- app_assoc in *.
  inversion Hs as [|? ? Hs1 Hs2]; subst.
  assert (Hw : writeStream deflate encode encFlush o wj (b O) = Ok w2) by (unfold writeStream; rewrite Hb; exact Hf).
  destruct (stream_seek _ _ encode encFlush encPos e (a O) (b O) wj w2 Ha Hw Hs1)
    as (o1 & e1 & e2 & o2 & chunk & offset & Hc & Hp & Hfd & Hsg & Hln).
  split; [reflexivity|]. split.
  - exists o1, e1, e2, o2, chunk, offset. do 4 (split; [assumption|]). apply Hln. exact Hl.
  - assert (Hlen : w_length w2 = zlen (StreamSpec.stored o w2)).
    { assert (H12 : writeStream deflate encode encFlush o (newWriter e) (a O ++ b O) = Ok w2).
      { unfold writeStream. rewrite writeAll_split, Ha. cbn [rbind]. rewrite Hb. exact Hf. }
      destruct (pipe_enc deflate inflate o Ho _ _ _ Hok H12) as (? & _ & Hlen & _). exact Hlen. }
    rewrite Hlen, <- zlen_app.
    replace (pre ++ StreamSpec.stored o w2 ++ concat (map (fun q => StreamSpec.stored o (snd q)) s2) ++ post)
      with ((pre ++ StreamSpec.stored o w2) ++ concat (map (fun q => StreamSpec.stored o (snd q)) s2) ++ post) in *
      by (rewrite <- app_assoc; reflexivity).
    eapply IH; eassumption.
Qed.
Lemma Seeks_ext file plan : forall offs ws a b a' b', (forall i, a i = a' i) -> (forall i, b i = b' i) ->
  Seeks file plan offs ws a b -> Seeks file plan offs ws a' b'.
Proof.
  induction plan as [|[q e] pl IH]; intros [|[s off] offs] [|[q1 w1] ws] a b a' b' Ha Hb H; cbn [Seeks] in *; auto.
  destruct H as (H1 & H2 & H3). rewrite <- Ha, <- Hb. split; [exact H1|]. split; [exact H2|].
  eapply IH; [| |exact H3]; intros; [apply Ha|apply Hb].
Qed.

(** Positions are found where they were put. *)
Lemma takePos_spec p : forall x y, takePos (length p) (x ++ p ++ y) (length x) = Ok p.
Proof. clear Hwi.
  induction p as [|a t IH]; intros x y; [reflexivity|]. cbn [length takePos app].
  unfold pos. rewrite nth_error_app2, Nat.sub_diag by lia. cbn [nth_error rbind].
  replace (x ++ a :: t ++ y) with ((x ++ [a]) ++ t ++ y) by (rewrite <- app_assoc; reflexivity).
  replace (S (length x)) with (length (x ++ [a])) by (rewrite app_length; cbn; lia).
  rewrite IH. reflexivity.
Qed.
Lemma streamPos_spec n p x y : length p = S (S n) -> headed o p -> streamPos o n (x ++ strip o p ++ y) (length x) = Ok p.
Proof. clear Hwi.
  intros Hl Hh. unfold streamPos, strip, headed in *. destruct (isNone (CompressionKind o)) eqn:E.
  - destruct Hh as (t & ->); [destruct (CompressionKind o); try discriminate; reflexivity|]. cbn [tl length] in *.
    replace (S n) with (length t) by lia. rewrite takePos_spec. reflexivity.
  - rewrite <- Hl. apply takePos_spec.
Qed.
Lemma strip_length n p : length p = S (S n) -> headed o p -> length (strip o p) = width o n.
Proof. clear Hwi.
  intros Hl Hh. unfold strip, width, headed in *. destruct (isNone (CompressionKind o)) eqn:E; [|exact Hl].
  destruct Hh as (t & ->); [destruct (CompressionKind o); try discriminate; reflexivity|]. cbn [tl length] in *. lia.
Qed.
Lemma strip_inj p q : headed o p -> headed o q -> strip o p = strip o q -> p = q.
Proof. clear Hwi.
  unfold strip, headed. destruct (isNone (CompressionKind o)) eqn:E; [|auto].
  assert (Hk : CompressionKind o = NONE) by (destruct (CompressionKind o); try discriminate; reflexivity).
  intros Hp Hq. destruct (Hp Hk) as (t & ->), (Hq Hk) as (u & ->). cbn. congruence.
Qed.
Lemma prefix_strip chunk offset l : (CompressionKind o = NONE -> chunk = 0) ->
  prefix o chunk offset ++ l = strip o (chunk :: offset :: l) /\ headed o (chunk :: offset :: l).
Proof. clear Hwi.
  intros Hc. unfold prefix, strip, headed. split.
  - destruct (isNone (CompressionKind o)); reflexivity.
  - intros Hk. rewrite (Hc Hk). eauto.
Qed.

Notation nv := (fun c => nextValue inflate o c GNil).
Notation leaf := ColumnSpec.readable.

Lemma int_feed_signed xs : forall e e' b, feed int_Encode e xs = Ok (e', b) -> i_signed e' = i_signed e.
Proof.
  induction xs as [|x t IH]; intros e e' b H; cbn [feed] in H; [assert (e' = e) as -> by congruence; reflexivity|].
  apply rbind_inv in H. destruct H as ([e1 b1] & H1 & H). apply rbind_inv in H. destruct H as ([e2 b2] & H2 & H).
  assert (e' = e2) as -> by congruence. apply IH in H2. apply int_Encode_signed in H1. congruence.
Qed.
Lemma int_seek (signed : bool) xs1 xs2 e1 o1 e2 o2 base chunk offset :
  let g := if signed then GInt64 else GUint64 in
  Forall (is_int signed) (xs1 ++ xs2) -> stream_ok (NewIntRLV2 signed true) (xs1 ++ xs2) = true -> zlen (xs1 ++ xs2) < W63 ->
  feed encode (EInt (NewIntRLV2 signed true)) (map g xs1) = Ok (e1, o1) ->
  segment encode encFlush e1 (map g xs2) = Ok (e2, o2) -> lands base chunk offset o2 ->
  exists p, encPos e1 = [p] /\ forall v, vbase v = base ->
    exists v', v_Seek inflate o (DecodeFor signed) chunk offset p v = Ok v' /\ Yields (v_Next inflate o (DecodeFor signed)) v' xs2.
Proof.
  cbv zeta. intros Hi Hs Hl Hf Hg Hla.
  destruct (int_position signed xs1 xs2 Hi ltac:(lia) Hs) as (d1 & p1 & d2 & p2 & pos & ws & Hf1 & Hs1 & Hs2 & Hp & Hpr & Hd & Hle & Hz).
  assert (Hsg : i_signed d1 = signed) by (rewrite (int_feed_signed _ _ _ _ Hf1); reflexivity).
  assert (E : e1 = EInt d1 /\ o2 = p2).
  { destruct signed.
    - rewrite (feed_lift _ _ int_Encode EInt GInt64 (fun e => i_signed e = true)), Hf1 in Hf; try reflexivity.
      + cbn [lift] in Hf. assert (e1 = EInt d1) as -> by congruence. rewrite seg_int64, Hs1 in Hg by exact Hsg.
        cbn [lift] in Hg. split; congruence.
      + intros e' x He. cbn [encode]. rewrite He. destruct (int_Encode e' x) as [[? ?]| |]; reflexivity.
      + intros e' x e'' b He Hx. apply int_Encode_signed in Hx. congruence.
    - rewrite (feed_lift _ _ int_Encode EInt GUint64 (fun e => i_signed e = false)), Hf1 in Hf; try reflexivity.
      + cbn [lift] in Hf. assert (e1 = EInt d1) as -> by congruence. rewrite seg_uint64, Hs1 in Hg by exact Hsg.
        cbn [lift] in Hg. split; congruence.
      + intros e' x He. cbn [encode]. rewrite He. destruct (int_Encode e' x) as [[? ?]| |]; reflexivity.
      + intros e' x e'' b He Hx. apply int_Encode_signed in Hx. congruence. }
  destruct E as [-> ->]. exists pos. split; [exact Hp|]. intros v Hv. rewrite <- Hz.
  rewrite zlen_app in Hl. pose proof (zlen_nonneg xs2).
  apply (run_seek (DecodeFor signed) base chunk offset p2 ws pos); auto; try lia.
  - destruct signed; [apply Int_nonempty|apply UInt_nonempty].
  - eapply int_segment_bytes. exact Hs1.
Qed.
Lemma byte_seek xs1 xs2 e1 o1 e2 o2 base chunk offset : bytes xs1 -> bytes xs2 ->
  feed encode (EByte (NewByteEncoder true)) (map GByte xs1) = Ok (e1, o1) ->
  segment encode encFlush e1 (map GByte xs2) = Ok (e2, o2) -> lands base chunk offset o2 ->
  exists p, encPos e1 = [p] /\ forall v, vbase v = base ->
    exists v', v_Seek inflate o DecodeByteRL chunk offset p v = Ok v' /\ Yields (v_Next inflate o DecodeByteRL) v' xs2.
Proof.
  intros Hb1 Hb2 Hf Hg Hla.
  destruct (byte_position xs1 xs2 Hb1 Hb2) as (d1 & p1 & d2 & p2 & pos & ws & Hf1 & Hs1 & Hs2 & Hp & Hpr & Hd & Hle & Hz).
  assert (E : e1 = EByte d1 /\ o2 = p2).
  { rewrite (feed_lift _ _ byte_Encode EByte GByte (fun _ => True)), Hf1 in Hf; auto.
    cbn [lift] in Hf. assert (e1 = EByte d1) as -> by congruence. rewrite seg_byte, Hs1 in Hg. cbn [lift] in Hg. split; congruence. }
  destruct E as [-> ->]. exists pos. split; [exact Hp|]. intros v Hv. rewrite <- Hz.
  apply (run_seek DecodeByteRL base chunk offset p2 ws pos); auto; try lia; [apply ByteRL_nonempty|].
  destruct (byte_segment_spec (xs1 ++ xs2) _ (byte_New_inv true) eq_refl) as (e' & b' & Hs & _ & _ & Hb & _); [apply bytes_app; auto|].
  rewrite Hs2 in Hs. assert (b' = p1 ++ p2) as -> by congruence. apply bytes_app in Hb. apply Hb.
Qed.
Lemma bool_seek xs1 xs2 e1 o1 e2 o2 base chunk offset :
  feed encode (EBool (NewBoolEncoder true)) (map GBool xs1) = Ok (e1, o1) ->
  segment encode encFlush e1 (map GBool xs2) = Ok (e2, o2) -> lands base chunk offset o2 ->
  exists p q pad, encPos e1 = [p; q] /\ forall b, bbase b = base ->
    exists b', seekBool inflate o [chunk; offset; p; q] b = Ok b' /\ Yields (bool_Next inflate o) b' (xs2 ++ repeat false pad).
Proof.
  intros Hf Hg Hla.
  destruct (bool_position xs1 xs2) as (d1 & p1 & d2 & p2 & pos & bit & ws & pad & Hf1 & Hs1 & Hs2 & Hp & Hpr & Hbr & Hd & Hle & Hle2 & Hz & _).
  assert (E : e1 = EBool d1 /\ o2 = p2).
  { rewrite (feed_lift _ _ bool_Encode EBool GBool (fun _ => True)), Hf1 in Hf; auto.
    cbn [lift] in Hf. assert (e1 = EBool d1) as -> by congruence. rewrite seg_bool, Hs1 in Hg. cbn [lift] in Hg. split; congruence. }
  destruct E as [-> ->]. exists pos, bit, pad. split; [exact Hp|]. intros v Hv. rewrite <- Hz.
  apply (bits_seek base chunk offset p2 ws pos bit); auto; try lia.
  destruct (bool_segment_bytes (xs1 ++ xs2) _ _ (bool_New_inv true) eq_refl) as (e' & b' & bs & Hs & _ & _ & Hb & _).
  rewrite Hs2 in Hs. assert (b' = p1 ++ p2) as -> by congruence. apply bytes_app in Hb. apply Hb.
Qed.

Definition seekDS (dp sp : list Z) (c : colR) : res colR :=
  let! d := seekData inflate o (cr_kind c) dp (cr_data c) in
  let c2 := setData d c in
  if hasSecond (cr_kind c) then let! s := seekSecond inflate o (cr_kind c) sp (cr_second c2) in Ok (setSecond s c2)
  else Ok c2.
Lemma seekTo_eq pp dp sp c : seekTo inflate o pp dp sp c =
  (let! c1 := (match cr_present c with
              | Some b => let! b' := seekBool inflate o pp b in Ok (setPresent b' c) | None => Ok c end) in seekDS dp sp c1).
Proof. clear Hwi.
  unfold seekTo, seekDS. destruct (cr_present c) as [b|]; [|reflexivity].
  destruct (seekBool inflate o pp b); reflexivity.
Qed.

Lemma typed_ints k gs : (k = KShort \/ k = KInt \/ k = KLong \/ k = KDate) -> Forall (typed k) gs ->
  Forall (is_int true) (map int_of gs).
Proof. clear Hwi Hok Ho o inflate deflate.
  intros Hk H. apply Forall_map. eapply Forall_impl; [|exact H]. intros g Hg. unfold is_int, is_i64.
  destruct Hk as [->|[->|[->| ->]]]; destruct g; cbn in Hg |- *; try contradiction; try (unfold is_i64 in Hg; lia).
  - destruct Hg as (n & Hn & ->). rewrite Z.div_mul by lia. lia.
Qed.
Lemma typed_lengths gs : Forall (typed KString) gs -> Forall (is_int false) (map int_of gs).
Proof. clear Hwi Hok Ho o inflate deflate.
  intros H. apply Forall_map. eapply Forall_impl; [|exact H]. intros g Hg. unfold is_int, is_u64.
  destruct g; cbn in Hg |- *; try contradiction. pose proof (zlen_nonneg s). lia.
Qed.
Lemma typed_map k gs (f : gval -> gval) : Forall (typed k) gs -> (forall g, typed k g -> f g = g) -> map f gs = gs.
Proof. clear Hwi Hok Ho o inflate deflate.
  intros H Hf. rewrite <- (map_id gs) at 2. apply map_ext_in. intros g Hg. rewrite Forall_forall in H. apply Hf, H, Hg.
Qed.
Lemma typed_bytes gs : Forall (typed KByte) gs -> exists xs, gs = map GByte xs /\ bytes xs /\ flat_map (inp KByte 0) gs = map GByte xs.
Proof. clear Hwi Hok Ho o inflate deflate.
  induction 1 as [|g t Hg Ht IH]; [exists []; split; [reflexivity|split; [constructor|reflexivity]]|].
  destruct IH as (xs & -> & Hx & Hi). destruct g; cbn in Hg; try contradiction. exists (v :: xs).
  split; [reflexivity|]. split; [constructor; assumption|]. cbn [map flat_map]. rewrite Hi. reflexivity.
Qed.
Lemma typed_bools gs : Forall (typed KBool) gs -> exists xs, gs = map GBool xs /\ flat_map (inp KBool 0) gs = map GBool xs.
Proof. clear Hwi Hok Ho o inflate deflate.
  induction 1 as [|g t Hg Ht IH]; [exists []; split; reflexivity|].
  destruct IH as (xs & -> & Hi). destruct g; cbn in Hg; try contradiction. exists (b :: xs).
  split; [reflexivity|]. cbn [map flat_map]. rewrite Hi. reflexivity.
Qed.
Lemma typed_doubles gs : Forall (typed KDouble) gs -> exists xs, gs = map GDouble xs /\ Forall is_u64 xs /\ flat_map (inp KDouble 0) gs = map GDouble xs.
Proof. clear Hwi Hok Ho o inflate deflate.
  induction 1 as [|g t Hg Ht IH]; [exists []; split; [reflexivity|split; [constructor|reflexivity]]|].
  destruct IH as (xs & -> & Hx & Hi). destruct g; cbn in Hg; try contradiction. exists (bits :: xs).
  split; [reflexivity|]. split; [constructor; assumption|]. cbn [map flat_map]. rewrite Hi. reflexivity.
Qed.
Lemma typed_floats gs : Forall (typed KFloat) gs -> exists xs, gs = map GFloat xs /\ Forall is_u32 xs /\ flat_map (inp KFloat 0) gs = map GFloat xs.
Proof. clear Hwi Hok Ho o inflate deflate.
  induction 1 as [|g t Hg Ht IH]; [exists []; split; [reflexivity|split; [constructor|reflexivity]]|].
  destruct IH as (xs & -> & Hx & Hi). destruct g; cbn in Hg; try contradiction. exists (bits :: xs).
  split; [reflexivity|]. split; [constructor; assumption|]. cbn [map flat_map]. rewrite Hi. reflexivity.
Qed.
Lemma typed_strings gs : Forall (typed KString) gs -> exists ss, gs = map GString ss /\ Forall (fun s => zlen s < W63) ss /\
  flat_map (inp KString 0) gs = map GBytes ss /\ flat_map (inp KString 1) gs = map GUint64 (map zlen ss) /\ map int_of gs = map zlen ss.
Proof. clear Hwi Hok Ho o inflate deflate.
  induction 1 as [|g t Hg Ht IH]; [exists []; split; [reflexivity|split; [constructor|split; [reflexivity|split; reflexivity]]]|].
  destruct IH as (xs & -> & Hx & Hi & Hj & Hl). destruct g; cbn in Hg; try contradiction. exists (s :: xs).
  split; [reflexivity|]. split; [constructor; [apply Hg|assumption]|]. cbn [map flat_map]. rewrite Hi, Hj, Hl. split; [reflexivity|]. split; reflexivity.
Qed.

(** What the data streams give after the seek. *)
Definition intBack (k : ckind) (x : Z) : gval :=
  match k with KShort => GInt16 (i16 x) | KInt => GInt32 (i32 x) | KLong => GInt64 x | _ => GDate (FromDays (i32 x)) end.
Lemma intBack_typed k g : (k = KShort \/ k = KInt \/ k = KLong \/ k = KDate) -> typed k g -> intBack k (int_of g) = g.
Proof. clear Hwi Hok Ho o inflate deflate.
  intros [->|[->|[->| ->]]]; destruct g; cbn [typed int_of intBack]; intros H; try contradiction.
  - rewrite i16_id by assumption. reflexivity.
  - rewrite i32_id by assumption. reflexivity.
  - reflexivity.
  - destruct H as (n & Hn & ->). destruct (ToDays_day (n * DayNs) n Hn eq_refl) as [_ ->].
    rewrite i32_id by lia. rewrite FromDays_exact by lia. reflexivity.
Qed.

Definition DataSeek (k : ckind) (gs2 : list gval) (file : list Z) (offs : list (strm * Z)) (ws : list (Z * writer enc))
    (dp sp : list Z) (pad : list gval) : Prop :=
  length dp = S (S (dataExtra k)) /\ headed o dp /\
  (if hasSecond k then length sp = 3%nat /\ headed o sp else sp = []) /\
  flat_map (fun p => w_GetPosition encPos o (snd p)) ws = strip o dp ++ strip o sp /\
  forall c0, cr_kind c0 = k -> exists r, InitStreams file c0 offs = Ok r /\ cr_kind r = k /\
    cr_present r = cr_present c0 /\ cr_hasNulls r = cr_hasNulls c0 /\ cr_index r = cr_index c0 /\
    forall r1, cr_kind r1 = k -> option_map dbase (cr_data r1) = option_map dbase (cr_data r) ->
      option_map vbase (cr_second r1) = option_map vbase (cr_second r) ->
      exists r2, seekDS dp sp r1 = Ok r2 /\ cr_kind r2 = k /\ cr_present r2 = cr_present r1 /\ Yields nv r2 (gs2 ++ pad).

Ltac one_stream Hs offs ws :=
  destruct offs as [|[s1 off1] offs]; destruct ws as [|[q1 w1] ws]; cbn [dataStreams Seeks] in Hs; try contradiction;
  destruct Hs as (Hk1 & (o1 & e1 & e2 & o2 & chunk & offset & Hc & Hp & Hf & Hg & Hla) & Hs).
Ltac last_stream Hs offs ws :=
  destruct offs as [|[? ?] ?]; destruct ws as [|[? ?] ?]; cbn [Seeks] in Hs; try contradiction.

Lemma data_seek k gs1 gs2 file offs ws : leaf k = true -> Forall (typed k) (gs1 ++ gs2) -> ints_ok k (gs1 ++ gs2) ->
  zlen (gs1 ++ gs2) < W63 ->
  Seeks file (dataStreams k o) offs ws (fun i => flat_map (inp k i) gs1) (fun i => flat_map (inp k i) gs2) ->
  exists dp sp pad, DataSeek k gs2 file offs ws dp sp pad.
Proof.
  intros Hleaf Hty Hint Hlen Hs. pose proof Hty as Hty12. apply Forall_app in Hty. destruct Hty as [Hty1 Hty2].
  assert (Hlm : zlen (map int_of (gs1 ++ gs2)) < W63) by (unfold zlen in *; rewrite map_length; exact Hlen).
  assert (Hints : (k = KShort \/ k = KInt \/ k = KLong \/ k = KDate) -> exists dp sp pad, DataSeek k gs2 file offs ws dp sp pad).
  { intros Hk.
    assert (Hpl : dataStreams k o = [(sDATA, EInt (NewIntRLV2 true true))]) by (destruct Hk as [->|[->|[->| ->]]]; unfold dataStreams; rewrite Hwi; reflexivity).
    assert (Hio : stream_ok (NewIntRLV2 true true) (map int_of (gs1 ++ gs2)) = true) by (destruct Hk as [->|[->|[->| ->]]]; exact Hint).
    rewrite Hpl in Hs. one_stream Hs offs ws. last_stream Hs offs ws. clear Hs.
    rewrite ints_inputs in Hf, Hg by assumption. rewrite map_app in Hio, Hlm.
    pose proof (typed_ints k _ Hk Hty12) as Hall. rewrite map_app in Hall.
    destruct (int_seek true _ _ e1 o1 e2 o2 _ chunk offset Hall Hio Hlm Hf Hg Hla) as (p & Hpe & Hv).
    destruct (prefix_strip chunk offset [p] Hc) as [Hps Hhd].
    exists [chunk; offset; p], [], [].
    assert (Hex : dataExtra k = 1%nat /\ hasSecond k = false) by (destruct Hk as [->|[->|[->| ->]]]; split; reflexivity).
    destruct Hex as [Hex Hse]. split; [rewrite Hex; reflexivity|]. split; [exact Hhd|]. split; [rewrite Hse; reflexivity|].
    split. { cbn [flat_map snd]. rewrite Hp, Hpe, Hps. f_equal. unfold strip. destruct (isNone _); reflexivity. }
    intros c0 Hc0. eexists. split.
    { cbn [InitStreams]. unfold InitStream. rewrite Hk1, Hc0.
      destruct Hk as [->|[->|[->| ->]]]; cbn [Z.eqb Pos.eqb dataReader rbind]; reflexivity. }
    cbn [setData cr_kind cr_present cr_hasNulls cr_index cr_data cr_second]. split; [exact Hc0|]. do 3 (split; [reflexivity|]).
    intros r1 Hkr Hd _. cbn [option_map dbase] in Hd. destruct (cr_data r1) as [[v|b|r]|] eqn:Ed; cbn [option_map dbase] in Hd; try discriminate.
    assert (Hvb : vbase v = (file, off1, st_length s1)) by (unfold rbase, vbase, bbase, vbase, rbase in *; cbn in Hd; congruence).
    destruct (Hv v Hvb) as (v' & Hsk & Hy). change (DecodeFor true) with DecodeInt in *.
    exists (setData (RRun v') r1). unfold seekDS. rewrite Hkr, Ed. cbn [seekData seekRun].
    assert (Hdd : dataDec k = DecodeInt) by (destruct Hk as [->|[->|[->| ->]]]; reflexivity). rewrite Hdd, Hsk. cbn [rbind]. rewrite Hse.
    split; [reflexivity|]. split; [exact Hkr|]. split; [reflexivity|]. rewrite app_nil_r.
    rewrite <- (typed_map k gs2 (fun g => intBack k (int_of g)) Hty2 (fun g => intBack_typed k g Hk)).
    rewrite <- (map_map int_of (intBack k)).
    eapply (yields_run inflate o _ _ DecodeInt (intBack k)); [|reflexivity|exact Hy].
    intros c' Hc'. unfold Column.nextValue. rewrite Hc'. cbn [setData cr_kind]. rewrite Hkr.
    destruct Hk as [->|[->|[->| ->]]]; reflexivity. }
  destruct k; try discriminate; try (apply Hints; tauto); clear Hints; cbn [dataStreams] in Hs; rewrite ?Hwi in Hs.
  - (* bytes *)
    one_stream Hs offs ws. last_stream Hs offs ws. clear Hs.
    destruct (typed_bytes gs1 Hty1) as (xs1 & -> & Hb1 & Hi1), (typed_bytes gs2 Hty2) as (xs2 & -> & Hb2 & Hi2).
    rewrite Hi1 in Hf. rewrite Hi2 in Hg.
    destruct (byte_seek xs1 xs2 e1 o1 e2 o2 _ chunk offset Hb1 Hb2 Hf Hg Hla) as (p & Hpe & Hv).
    destruct (prefix_strip chunk offset [p] Hc) as [Hps Hhd].
    exists [chunk; offset; p], [], []. split; [reflexivity|]. split; [exact Hhd|]. split; [reflexivity|].
    split. { cbn [flat_map snd]. rewrite Hp, Hpe, Hps. f_equal. unfold strip. destruct (isNone _); reflexivity. }
    intros c0 Hc0. eexists. split.
    { cbn [InitStreams]. unfold InitStream. rewrite Hk1, Hc0. cbn [Z.eqb Pos.eqb dataReader rbind]; reflexivity. }
    cbn [setData cr_kind cr_present cr_hasNulls cr_index cr_data cr_second]. split; [exact Hc0|]. do 3 (split; [reflexivity|]).
    intros r1 Hkr Hd _. destruct (cr_data r1) as [[v|b|r]|] eqn:Ed; cbn [option_map dbase] in Hd; try discriminate.
    assert (Hvb : vbase v = (file, off1, st_length s1)) by (unfold rbase, vbase, bbase, vbase, rbase in *; cbn in Hd; congruence).
    destruct (Hv v Hvb) as (v' & Hsk & Hy).
    exists (setData (RRun v') r1). unfold seekDS. rewrite Hkr, Ed. cbn [seekData seekRun dataDec]. rewrite Hsk. cbn [rbind hasSecond].
    split; [reflexivity|]. split; [exact Hkr|]. split; [reflexivity|]. rewrite app_nil_r.
    eapply (yields_run inflate o _ _ DecodeByteRL GByte); [|reflexivity|exact Hy].
    intros c' Hc'. unfold Column.nextValue. rewrite Hc'. cbn [setData cr_kind]. rewrite Hkr. reflexivity.
  - (* bools *)
    one_stream Hs offs ws. last_stream Hs offs ws. clear Hs.
    destruct (typed_bools gs1 Hty1) as (xs1 & -> & Hi1), (typed_bools gs2 Hty2) as (xs2 & -> & Hi2).
    rewrite Hi1 in Hf. rewrite Hi2 in Hg.
    destruct (bool_seek xs1 xs2 e1 o1 e2 o2 _ chunk offset Hf Hg Hla) as (p & q & pad & Hpe & Hv).
    destruct (prefix_strip chunk offset [p; q] Hc) as [Hps Hhd].
    exists [chunk; offset; p; q], [], (map GBool (repeat false pad)). split; [reflexivity|]. split; [exact Hhd|]. split; [reflexivity|].
    split. { cbn [flat_map snd]. rewrite Hp, Hpe, Hps. f_equal. unfold strip. destruct (isNone _); reflexivity. }
    intros c0 Hc0. eexists. split.
    { cbn [InitStreams]. unfold InitStream. rewrite Hk1, Hc0. cbn [Z.eqb Pos.eqb dataReader rbind]; reflexivity. }
    cbn [setData cr_kind cr_present cr_hasNulls cr_index cr_data cr_second]. split; [exact Hc0|]. do 3 (split; [reflexivity|]).
    intros r1 Hkr Hd _. destruct (cr_data r1) as [[v|b|r]|] eqn:Ed; cbn [option_map dbase] in Hd; try discriminate.
    assert (Hvb : bbase b = (file, off1, st_length s1)) by (unfold rbase, vbase, bbase, vbase, rbase in *; cbn in Hd; congruence).
    destruct (Hv b Hvb) as (v' & Hsk & Hy).
    exists (setData (RBool v') r1). unfold seekDS. rewrite Hkr, Ed. cbn [seekData]. rewrite Hsk. cbn [rbind hasSecond].
    split; [reflexivity|]. split; [exact Hkr|]. split; [reflexivity|]. rewrite <- map_app.
    eapply yields_bool; [exact Hkr|reflexivity|exact Hy].
  - (* float *)
    one_stream Hs offs ws. last_stream Hs offs ws. clear Hs.
    destruct (typed_floats gs1 Hty1) as (xs1 & -> & Hb1 & Hi1), (typed_floats gs2 Hty2) as (xs2 & -> & Hb2 & Hi2).
    rewrite Hi1 in Hf. rewrite Hi2 in Hg.
    assert (e1 = EFloat) as ->.
    { clear - Hf. revert o1 Hf. induction xs1 as [|x t IH]; intros o1 Hf; cbn [map feed] in Hf; [congruence|].
      cbn [encode rbind] in Hf. apply rbind_inv in Hf. destruct Hf as ([e b] & H & Hf). assert (e = e1) as -> by congruence. eapply IH. exact H. }
    rewrite (seg_raw EFloat GFloat float_Encode) in Hg by reflexivity. assert (o2 = flat_map float_Encode xs2) as -> by congruence.
    destruct (prefix_strip chunk offset [] Hc) as [Hps Hhd].
    exists [chunk; offset], [], []. split; [reflexivity|]. split; [exact Hhd|]. split; [reflexivity|].
    split. { cbn [flat_map snd]. rewrite Hp. cbn [encPos]. rewrite Hps. f_equal. unfold strip. destruct (isNone _); reflexivity. }
    intros c0 Hc0. eexists. split.
    { cbn [InitStreams]. unfold InitStream. rewrite Hk1, Hc0. cbn [Z.eqb Pos.eqb dataReader rbind]; reflexivity. }
    cbn [setData cr_kind cr_present cr_hasNulls cr_index cr_data cr_second]. split; [exact Hc0|]. do 3 (split; [reflexivity|]).
    intros r1 Hkr Hd _. destruct (cr_data r1) as [[v|b|r]|] eqn:Ed; cbn [option_map dbase] in Hd; try discriminate.
    assert (Hvb : rbase r = (file, off1, st_length s1)) by (unfold rbase, vbase, bbase, vbase, rbase in *; cbn in Hd; congruence).
    destruct (Hla r Hvb) as (v' & Hsk & Hy).
    exists (setData (RRaw v') r1). unfold seekDS. rewrite Hkr, Ed. cbn [seekData]. rewrite Hsk. cbn [rbind hasSecond].
    split; [reflexivity|]. split; [exact Hkr|]. split; [reflexivity|]. rewrite app_nil_r.
    eapply (yields_prog inflate o _ _ DecodeFloat GFloat); [|reflexivity|].
    { intros c' Hc'. unfold Column.nextValue. rewrite Hc'. cbn [setData cr_kind]. rewrite Hkr. reflexivity. }
    eapply yields_raw; [|exact Hy]. intros x t Hin'. apply DecodeFloat_Encode. rewrite Forall_forall in Hb2. apply (Hb2 x Hin').
  - (* double *)
    one_stream Hs offs ws. last_stream Hs offs ws. clear Hs.
    destruct (typed_doubles gs1 Hty1) as (xs1 & -> & Hb1 & Hi1), (typed_doubles gs2 Hty2) as (xs2 & -> & Hb2 & Hi2).
    rewrite Hi1 in Hf. rewrite Hi2 in Hg.
    assert (e1 = EDouble) as ->.
    { clear - Hf. revert o1 Hf. induction xs1 as [|x t IH]; intros o1 Hf; cbn [map feed] in Hf; [congruence|].
      cbn [encode rbind] in Hf. apply rbind_inv in Hf. destruct Hf as ([e b] & H & Hf). assert (e = e1) as -> by congruence. eapply IH. exact H. }
    rewrite (seg_raw EDouble GDouble double_Encode) in Hg by reflexivity. assert (o2 = flat_map double_Encode xs2) as -> by congruence.
    destruct (prefix_strip chunk offset [] Hc) as [Hps Hhd].
    exists [chunk; offset], [], []. split; [reflexivity|]. split; [exact Hhd|]. split; [reflexivity|].
    split. { cbn [flat_map snd]. rewrite Hp. cbn [encPos]. rewrite Hps. f_equal. unfold strip. destruct (isNone _); reflexivity. }
    intros c0 Hc0. eexists. split.
    { cbn [InitStreams]. unfold InitStream. rewrite Hk1, Hc0. cbn [Z.eqb Pos.eqb dataReader rbind]; reflexivity. }
    cbn [setData cr_kind cr_present cr_hasNulls cr_index cr_data cr_second]. split; [exact Hc0|]. do 3 (split; [reflexivity|]).
    intros r1 Hkr Hd _. destruct (cr_data r1) as [[v|b|r]|] eqn:Ed; cbn [option_map dbase] in Hd; try discriminate.
    assert (Hvb : rbase r = (file, off1, st_length s1)) by (unfold rbase, vbase, bbase, vbase, rbase in *; cbn in Hd; congruence).
    destruct (Hla r Hvb) as (v' & Hsk & Hy).
    exists (setData (RRaw v') r1). unfold seekDS. rewrite Hkr, Ed. cbn [seekData]. rewrite Hsk. cbn [rbind hasSecond].
    split; [reflexivity|]. split; [exact Hkr|]. split; [reflexivity|]. rewrite app_nil_r.
    eapply (yields_prog inflate o _ _ DecodeDouble GDouble); [|reflexivity|].
    { intros c' Hc'. unfold Column.nextValue. rewrite Hc'. cbn [setData cr_kind]. rewrite Hkr. reflexivity. }
    eapply yields_raw; [|exact Hy]. intros x t Hin'. apply DecodeDouble_Encode. rewrite Forall_forall in Hb2. apply (Hb2 x Hin').
  - (* string *)
    one_stream Hs offs ws.
    destruct offs as [|[s2 off2] offs]; destruct ws as [|[q2 w2] ws]; cbn [Seeks] in Hs; try contradiction.
    destruct Hs as (Hk2 & (l1 & f1 & f2 & l2 & chunk2 & offset2 & Hc2 & Hp2 & Hf2 & Hg2 & Hla2) & Hs).
    last_stream Hs offs ws. clear Hs.
    destruct (typed_strings gs1 Hty1) as (xs1 & -> & Hb1 & Hi1 & Hj1 & Hm1), (typed_strings gs2 Hty2) as (xs2 & -> & Hb2 & Hi2 & Hj2 & Hm2).
    rewrite Hi1 in Hf. rewrite Hi2 in Hg. rewrite Hj1 in Hf2. rewrite Hj2 in Hg2.
    assert (e1 = EString) as ->.
    { clear - Hf. revert o1 Hf. induction xs1 as [|x t IH]; intros o1 Hf; cbn [map feed] in Hf; [congruence|].
      cbn [encode rbind] in Hf. apply rbind_inv in Hf. destruct Hf as ([e b] & H & Hf). assert (e = e1) as -> by congruence. eapply IH. exact H. }
    rewrite (seg_raw EString GBytes string_Encode) in Hg by reflexivity. assert (o2 = flat_map string_Encode xs2) as -> by congruence.
    pose proof (typed_lengths _ Hty12) as Hall. cbn [ints_ok] in Hint. rewrite map_app, Hm1, Hm2 in Hall, Hint, Hlm.
    destruct (int_seek false _ _ f1 l1 f2 l2 _ chunk2 offset2 Hall Hint Hlm Hf2 Hg2 Hla2) as (p & Hpe & Hv).
    destruct (prefix_strip chunk offset [] Hc) as [Hps Hhd]. destruct (prefix_strip chunk2 offset2 [p] Hc2) as [Hps2 Hhd2].
    exists [chunk; offset], [chunk2; offset2; p], []. split; [reflexivity|]. split; [exact Hhd|]. split; [split; [reflexivity|exact Hhd2]|].
    split. { cbn [flat_map snd]. rewrite Hp, Hp2, Hpe, Hps2. cbn [encPos]. rewrite Hps, app_nil_r. reflexivity. }
    intros c0 Hc0. eexists. split.
    { cbn [InitStreams]. unfold InitStream. rewrite Hk1, Hc0. cbn [Z.eqb Pos.eqb dataReader rbind].
      rewrite Hk2. cbn [Z.eqb Pos.eqb setData cr_kind]. rewrite Hc0. cbn [rbind]. reflexivity. }
    cbn [setData setSecond cr_kind cr_present cr_hasNulls cr_index cr_data cr_second]. split; [exact Hc0|]. do 3 (split; [reflexivity|]).
    intros r1 Hkr Hd Hsec. destruct (cr_data r1) as [[v|b|r]|] eqn:Ed; cbn [option_map dbase] in Hd; try discriminate.
    destruct (cr_second r1) as [v|] eqn:Es; cbn [option_map] in Hsec; try discriminate.
    assert (Hrb : rbase r = (file, off1, st_length s1)) by (unfold rbase, vbase, bbase, vbase, rbase in *; cbn in Hd; congruence).
    assert (Hvb : vbase v = (file, off2, st_length s2)) by exact (f_equal (fun x => match x with Some y => y | None => (file, 0, 0) end) Hsec).
    destruct (Hla r Hrb) as (r' & Hsk & Hy). destruct (Hv v Hvb) as (v' & Hsk2 & Hy2). change (DecodeFor false) with DecodeUInt in *.
    exists (setSecond v' (setData (RRaw r') r1)). unfold seekDS. rewrite Hkr, Ed. cbn [seekData]. rewrite Hsk. cbn [rbind hasSecond].
    cbn [setData cr_second]. rewrite Es. cbn [seekSecond secondDec seekRun]. rewrite Hsk2. cbn [rbind].
    split; [reflexivity|]. split; [exact Hkr|]. split; [reflexivity|]. rewrite app_nil_r.
    eapply yields_string; [exact Hkr|reflexivity|reflexivity|exact Hb2| |exact Hy2].
    replace (concat xs2) with (flat_map string_Encode xs2); [exact Hy|].
    rewrite flat_map_concat_map. unfold string_Encode. rewrite map_id. reflexivity.
Qed.

(** ** The whole column *)
Variable F : floats.
Variable stride : Z.

Lemma column_seek id k hn vs1 vs2 cj c1 c2 bs n c3 : leaf k = true ->
  writeRows deflate F o stride (newColW o id k hn) vs1 = Ok cj -> writeRows deflate F o stride cj vs2 = Ok c1 ->
  c_Flush deflate o c1 = Ok c2 -> c_WriteOut o c2 = Ok (bs, n, c3) ->
  Forall (typed k) (nonnull (rows_of (vs1 ++ vs2))) -> ints_ok k (nonnull (rows_of (vs1 ++ vs2))) ->
  zlen (vs1 ++ vs2) < W63 -> (hn = false -> Forall (fun v => Null v = false) vs2) ->
  Forall (seekable o) (c_Infos c3) ->
  forall pre post, zlen (pre ++ bs ++ post) < W64 ->
  exists pp dp sp r, length dp = S (S (dataExtra k)) /\ headed o dp /\
    (if hasSecond k then length sp = 3%nat /\ headed o sp else sp = []) /\
    (if hn then length pp = 4%nat /\ headed o pp else pp = []) /\
    positions o cj = strip o pp ++ strip o dp ++ strip o sp /\
    InitStreams (pre ++ bs ++ post) (newColR k hn) (offsets (zlen pre) (c_Infos c3)) = Ok r /\
    cr_kind r = k /\ cr_hasNulls r = hn /\ (cr_present r = None <-> hn = false) /\
    forall i r1, Same (setIndex i r) r1 -> exists r2 rest, seekTo inflate o pp dp sp r1 = Ok r2 /\ cr_kind r2 = k /\
      (cr_present r2 = None <-> hn = false) /\ Yields (rowNext inflate o) r2 (rows_of vs2 ++ rest).
Proof.
  intros Hl H1 H2 Hfl Hwo Hty Hint Hlen Hnn Hseek pre post Hfile.
  assert (Hhn : hasNulls (newColW o id k hn) = hn) by (destruct hn; reflexivity).
  assert (Ha : active (cw_kind (newColW o id k hn)) (hasNulls (newColW o id k hn)) = true) by (apply leaf_active; exact Hl).
  destruct (writeRows_streams deflate F o stride vs1 _ _ Ha H1) as (Hidj & Hkj & Hnj & Hfj). rewrite Hhn in *. cbn [newColW cw_kind cw_id] in *.
  assert (Haj : active (cw_kind cj) (hasNulls cj) = true) by (rewrite Hkj, Hnj; exact Ha).
  destruct (writeRows_streams deflate F o stride vs2 _ _ Haj H2) as (Hid1 & Hk1 & Hn1 & Hf1). rewrite Hkj, Hnj in *.
  assert (Hnd : cw_kind c1 <> KDict) by (rewrite Hk1; destruct k; discriminate).
  destruct (c_Flush_streams deflate o c1 c2 Hnd Hfl) as (Hid2 & Hk2 & Hn2 & _ & Hflu).
  destruct (c_WriteOut_streams o c2 bs n c3 Hwo) as (Hbs & Hn & Hid3 & Hk3 & Hn3 & Hst3).
  assert (Hinf : c_Infos c3 = map (fun q => info (cw_id c3) (fst q) (snd q)) (streams c2)).
  { rewrite c_Infos_streams, Hst3, map_map. apply map_ext. intros [q w]. cbn [fst snd]. unfold info. rewrite drained_length. reflexivity. }
  rewrite Hinf in Hseek |- *. rewrite Hbs in Hfile |- *.
  rewrite (streams_new o) in Hfj.
  pose proof (Fed_Seeks (cw_id c3) (planned o k hn) _ _ _ _ _ pre post Hfj Hf1 Hflu Hseek Hfile) as Hs.
  set (file := pre ++ _ ++ post) in *. clearbody file. set (offs := offsets _ _) in *. clearbody offs. clear Hseek Hfile.
  assert (Hpos : positions o cj = flat_map (fun p => w_GetPosition encPos o (snd p)) (streams cj)).
  { unfold positions, streams. destruct (cw_present cj); cbn [flat_map app snd]; reflexivity. }
  rewrite Hpos. clear Hpos.
  unfold rows_of in Hty, Hint. rewrite map_app in Hty, Hint. fold (rows_of vs1) in *. fold (rows_of vs2) in *.
  assert (Hna : nonnull (rows_of vs1 ++ rows_of vs2) = nonnull (rows_of vs1) ++ nonnull (rows_of vs2)) by (apply flat_map_app).
  rewrite Hna in *.
  assert (Hle : forall vs, (length (nonnull (rows_of vs)) <= length vs)%nat).
  { intros vs. induction vs as [|v t IH]; [cbn; lia|]. cbn [rows_of map nonnull flat_map]. fold (rows_of t). fold (nonnull (rows_of t)).
    unfold row_of. destruct (Null v); cbn [app length]; lia. }
  assert (Hlen' : zlen (nonnull (rows_of vs1) ++ nonnull (rows_of vs2)) < W63).
  { unfold zlen in *. rewrite app_length in *. pose proof (Hle vs1). pose proof (Hle vs2). lia. }
  unfold planned in Hs. destruct hn; cbn [app] in Hs.
  - destruct offs as [|[s0 off0] offs]; destruct (streams cj) as [|[q0 w0] ws]; cbn [Seeks] in Hs; try contradiction.
    destruct Hs as (Hk0 & (o1 & e1 & e2 & o2 & chunk & offset & Hc & Hp & Hf & Hg & Hla) & Hs).
    rewrite insAll_present in Hf, Hg. rewrite Hwi in Hf.
    destruct (bool_seek _ _ e1 o1 e2 o2 _ chunk offset Hf Hg Hla) as (p & q & pad & Hpe & Hv).
    destruct (prefix_strip chunk offset [p; q] Hc) as [Hps Hhd].
    eapply Seeks_ext in Hs; [|intros i; apply (insAll_data k vs1 i)|intros i; apply (insAll_data k vs2 i)].
    destruct (data_seek k _ _ file offs ws Hl Hty Hint Hlen' Hs) as (dp & sp & padg & Hdl & Hdh & Hsl & Hpo & Hrd).
    destruct (Hrd (setPresent (newBoolReader (newReader file off0 (st_length s0))) (newColR k true)) eq_refl)
      as (r & Hr & Hkr & Hpr & Hhr & _ & Hsk).
    exists [chunk; offset; p; q], dp, sp, r. split; [exact Hdl|]. split; [exact Hdh|]. split; [exact Hsl|].
    split; [split; [reflexivity|exact Hhd]|]. split; [cbn [flat_map snd]; rewrite Hpo, Hp, Hpe, Hps; reflexivity|].
    split. { cbn [InitStreams]. unfold InitStream at 1. rewrite Hk0. cbn [newColR cr_kind cr_hasNulls Z.eqb]. destruct k; try discriminate; exact Hr. }
    split; [exact Hkr|]. split; [exact Hhr|]. split; [rewrite Hpr; split; discriminate|].
    intros i r1 [Skind Snull Sidx Spres Sdata Ssec]. cbn [setIndex cr_kind cr_hasNulls cr_present cr_data cr_second] in *.
    rewrite Hpr in Spres. cbn [setPresent cr_present option_map] in Spres.
    destruct (cr_present r1) as [b|] eqn:Eb; cbn [option_map] in Spres; [|discriminate].
    assert (Hbb : bbase b = (file, off0, st_length s0)) by exact (f_equal (fun x => match x with Some y => y | None => (file, 0, 0) end) Spres).
    destruct (Hv b Hbb) as (b' & Hb' & Hy).
    destruct (Hsk (setPresent b' r1)) as (r2 & Hr2 & Hk2r & Hp2r & Hy2); [cbn; congruence|exact Sdata|exact Ssec|].
    exists r2. destruct (deal_all vs2 (repeat false pad) padg) as (rest & Hrest). exists rest.
    rewrite seekTo_eq, Eb, Hb'. cbn [rbind]. split; [exact Hr2|]. split; [exact Hk2r|].
    split; [rewrite Hp2r; split; discriminate|]. rewrite <- Hrest.
    eapply yields_rows_bits; [rewrite Hk2r; exact Hl|exact Hp2r|exact Hy|exact Hy2].
  - eapply Seeks_ext in Hs; [|intros i; apply (insAll_false k vs1 i)|intros i; apply (insAll_false k vs2 i)].
    destruct (data_seek k _ _ file offs (streams cj) Hl Hty Hint Hlen' Hs) as (dp & sp & padg & Hdl & Hdh & Hsl & Hpo & Hrd).
    destruct (Hrd (newColR k false) eq_refl) as (r & Hr & Hkr & Hpr & Hhr & _ & Hsk).
    exists [], dp, sp, r. split; [exact Hdl|]. split; [exact Hdh|]. split; [exact Hsl|].
    split; [reflexivity|]. split; [rewrite Hpo; unfold strip at 3; destruct (isNone _); reflexivity|].
    split; [exact Hr|].
    split; [exact Hkr|]. split; [exact Hhr|]. split; [rewrite Hpr; split; reflexivity|].
    intros i r1 [Skind Snull Sidx Spres Sdata Ssec]. cbn [setIndex cr_kind cr_hasNulls cr_present cr_data cr_second] in *.
    rewrite Hpr in Spres. cbn [newColR cr_present option_map] in Spres.
    destruct (cr_present r1) as [b|] eqn:Eb; cbn [option_map] in Spres; [discriminate|].
    destruct (Hsk r1) as (r2 & Hr2 & Hk2r & Hp2r & Hy2); [congruence|exact Sdata|exact Ssec|].
    exists r2, (map Some padg). rewrite seekTo_eq, Eb. cbn [rbind]. split; [exact Hr2|]. split; [exact Hk2r|].
    split; [rewrite Hp2r, Eb; split; reflexivity|].
    assert (Hrv : rows_of vs2 = map Some (nonnull (rows_of vs2))).
    { specialize (Hnn eq_refl). clear - Hnn. induction Hnn as [|v t Hv Ht IH]; [reflexivity|].
      cbn [rows_of map nonnull flat_map]. fold (rows_of t). fold (nonnull (rows_of t)). unfold row_of. rewrite Hv. cbn [app map]. f_equal. exact IH. }
    rewrite Hrv, <- map_app. apply yields_rows_all; [rewrite Hk2r; exact Hl|congruence|exact Hy2].
Qed.
End One.

(** ** Recorded strides *)
Section Strides.
Variable deflate : list (list Z) -> list Z -> res (list Z).
Variable inflate : list Z -> res (list Z).
Variable o : opts.
Hypothesis Ho : supported o.
Hypothesis Hok : flate_ok deflate inflate.
Hypothesis Hwi : WriteIndex o = true.
Variable F : floats.
Variable m : nat.
Hypothesis Hm : (1 <= m)%nat.

Lemma c_Flush_index c c' : c_Flush deflate o c = Ok c' -> cw_index c' = cw_index c.
Proof.
  intros H. unfold c_Flush in H. apply rbind_inv in H. destruct H as (d0 & Hd0 & H).
  apply rbind_inv in H. destruct H as (p & Hp & H). apply rbind_inv in H. destruct H as (d & Hd & H).
  match type of H with Ok ?z = _ => assert (c' = z) as -> by congruence end. reflexivity.
Qed.
Lemma c_WriteOut_index c bs n c' : c_WriteOut o c = Ok (bs, n, c') -> cw_index c' = cw_index c.
Proof.
  unfold c_WriteOut. destruct (checksFlushed (cw_kind c) && negb (cw_flushed c)); [discriminate|].
  intros H. match type of H with Ok (?x, ?y, ?z) = _ => assert (c' = z) as -> by congruence end. reflexivity.
Qed.

(** The positions before the first row. *)
Lemma positions_new id k hn : ColumnSpec.readable k = true -> positions o (newColW o id k hn) =
  (if hn then strip o [0; 0; 0; 0] else []) ++ strip o (0 :: 0 :: repeat 0 (dataExtra k)) ++
  (if hasSecond k then strip o [0; 0; 0] else []).
Proof.
  intros Hl. unfold positions, newColW, strip. cbn [cw_present cw_data].
  destruct k; try discriminate Hl; destruct hn; cbn [dataStreams map flat_map fst snd hasSecond dataExtra repeat];
    unfold w_GetPosition, newWriter; rewrite ?Hwi; destruct (CompressionKind o); reflexivity.
Qed.

Lemma SeekStride_recorded id k hn vs bs infos c3 : ColumnSpec.readable k = true ->
  writeColumn deflate F o (Z.of_nat m) (newColW o id k hn) vs = Ok (bs, infos, c3) ->
  Forall (typed k) (nonnull (rows_of vs)) -> ints_ok k (nonnull (rows_of vs)) -> zlen vs < W63 ->
  (hn = false -> Forall (fun v => Null v = false) vs) -> Forall (seekable o) infos ->
  forall pre post, zlen (pre ++ bs ++ post) < W64 ->
  exists r, InitStreams (pre ++ bs ++ post) (newColR k hn) (offsets (zlen pre) infos) = Ok r /\
  forall ops r1, rops inflate o (setIndex (map fst (cw_index c3)) r) ops = Ok r1 ->
  forall s, (s <= length vs / m)%nat -> (s = 0%nat -> k <> KDate) ->
  exists r2 rest, SeekStride inflate o (Z.of_nat s) r1 = Ok r2 /\ cr_kind r2 = k /\
    (cr_present r2 = None <-> hn = false) /\ Yields (rowNext inflate o) r2 (skipn (s * m) (rows_of vs) ++ rest).
Proof.
  intros Hrd Hw Hty Hint Hlen Hnn Hseek pre post Hfile.
  pose proof Hrd as Hl.
  assert (Hstd : steady k = true) by (destruct k; try discriminate Hrd; reflexivity).
  unfold writeColumn in Hw. apply rbind_inv in Hw. destruct Hw as (c1 & H1 & Hw). apply rbind_inv in Hw. destruct Hw as (c2 & H2 & Hw).
  apply rbind_inv in Hw. destruct Hw as ([[bs' n] c3'] & H3 & Hw).
  assert (bs' = bs) as -> by congruence. assert (c3' = c3) as -> by congruence. assert (infos = c_Infos c3) as -> by congruence. clear Hw.
  assert (Hidx : cw_index c3 = cw_index c1).
  { rewrite (c_WriteOut_index _ _ _ _ H3). exact (c_Flush_index _ _ H2). }
  destruct (index_entries deflate F o m Hm Hwi id k hn Hstd vs c1 H1) as (_ & _ & _ & Hil & _ & Hent).
  assert (Hcut : forall j, (j * m <= length vs)%nat -> forall cj, writeRows deflate F o (Z.of_nat m) (newColW o id k hn) (firstn (j * m) vs) = Ok cj ->
    exists pp dp sp r, length dp = S (S (dataExtra k)) /\ headed o dp /\
    (if hasSecond k then length sp = 3%nat /\ headed o sp else sp = []) /\
    (if hn then length pp = 4%nat /\ headed o pp else pp = []) /\
    positions o cj = strip o pp ++ strip o dp ++ strip o sp /\
    InitStreams (pre ++ bs ++ post) (newColR k hn) (offsets (zlen pre) (c_Infos c3)) = Ok r /\
    cr_kind r = k /\ cr_hasNulls r = hn /\ (cr_present r = None <-> hn = false) /\
    forall i r1, Same (setIndex i r) r1 -> exists r2 rest, seekTo inflate o pp dp sp r1 = Ok r2 /\ cr_kind r2 = k /\
      (cr_present r2 = None <-> hn = false) /\ Yields (rowNext inflate o) r2 (skipn (j * m) (rows_of vs) ++ rest)).
  { intros j Hj cj Hcj.
    assert (H1' := H1). rewrite <- (firstn_skipn (j * m) vs) in H1'. rewrite StatsP.writeRows_app in H1'. rewrite Hcj in H1'. cbn [rbind] in H1'.
    assert (Hsk : skipn (j * m) (rows_of vs) = rows_of (skipn (j * m) vs)) by (unfold rows_of; apply skipn_map).
    rewrite Hsk. eapply (column_seek deflate inflate o Ho Hok Hwi F (Z.of_nat m) id k hn (firstn (j * m) vs) (skipn (j * m) vs)); eauto; rewrite ?firstn_skipn; auto.
    intros Hf. specialize (Hnn Hf). rewrite <- (firstn_skipn (j * m) vs) in Hnn. apply Forall_app in Hnn. apply Hnn. }
  destruct (Hcut 0%nat ltac:(lia) (newColW o id k hn) eq_refl) as (pp0 & dp0 & sp0 & r & Hdl0 & Hdh0 & Hsl0 & Hpl0 & Hpos0 & Hr & Hkr & Hhr & Hpr & Hseek0).
  exists r. split; [exact Hr|]. intros ops r1 Hops s Hs Hs0. apply rops_base in Hops.
  destruct s as [|j].
  - specialize (Hs0 eq_refl). destruct (Hseek0 _ _ Hops) as (r2 & rest & Hsk & Hk2 & Hp2 & Hy).
    exists r2, rest. split; [|auto]. rewrite <- Hsk.
    destruct Hops as [Skind Snull Sidx Spres Sdata Ssec]. cbn [setIndex cr_kind cr_hasNulls cr_present cr_data cr_second] in *.
    assert (Hk1 : cr_kind r1 = k) by congruence.
    assert (Hp1 : cr_present r1 = None <-> hn = false).
    { rewrite <- Hpr. destruct (cr_present r), (cr_present r1); cbn in Spres; split; congruence. }
    unfold SeekStride. rewrite Hk1. cbn [Z.of_nat Z.eqb].
    replace (match k with KDate => true | _ => false end) with false by (destruct k; congruence). cbn [andb negb].
    rewrite (positions_new id k hn Hl) in Hpos0.
    set (d0 := 0 :: 0 :: repeat 0 (dataExtra k)) in *.
    assert (Hd0l : length d0 = S (S (dataExtra k))) by (unfold d0; cbn; rewrite repeat_length; reflexivity).
    assert (Hd0h : headed o d0) by (unfold d0, headed; eauto).
    assert (Hbh : headed o [0; 0; 0; 0]) by (unfold headed; eauto).
    assert (Hsh : headed o [0; 0; 0]) by (unfold headed; eauto).
    clearbody d0.
    assert (Hsplit : forall (a b c d : list Z), length a = length c -> a ++ b = c ++ d -> a = c /\ b = d).
    { intros a. induction a as [|x t IH]; intros b [|y u] d Hle He; cbn in Hle; try discriminate; [auto|].
      cbn [app] in He. destruct (IH b u d ltac:(lia) ltac:(congruence)). split; [f_equal; congruence|assumption]. }
    assert (Hpp : hn = true -> pp0 = [0; 0; 0; 0]).
    { intros ->. destruct Hpl0 as [Hpl Hph]. apply Hsplit in Hpos0; [|rewrite (strip_length o 2 pp0), (strip_length o 2 [0;0;0;0]); auto].
      destruct Hpos0 as [E _]. apply (strip_inj o); auto. }
    assert (Hds : strip o d0 ++ (if hasSecond k then strip o [0; 0; 0] else []) = strip o dp0 ++ strip o sp0).
    { destruct hn; [rewrite (Hpp eq_refl) in Hpos0; apply app_inv_head in Hpos0; exact Hpos0|].
      rewrite Hpl0 in Hpos0. unfold strip at 3 in Hpos0. cbn [tl] in Hpos0. destruct (isNone (CompressionKind o)); exact Hpos0. }
    apply Hsplit in Hds; [|rewrite !(strip_length o (dataExtra k)); auto]. destruct Hds as [Hd Hsp].
    apply (strip_inj o) in Hd; auto. subst dp0. rewrite !seekTo_eq.
    assert (Hs2 : forall c, cr_kind c = k -> seekDS inflate o d0 [0; 0; 0] c = seekDS inflate o d0 sp0 c).
    { intros c Hc. unfold seekDS. rewrite Hc. destruct (hasSecond k); [|reflexivity]. destruct Hsl0 as [_ Hsl].
      apply (strip_inj o) in Hsp; auto. rewrite Hsp. reflexivity. }
    destruct (cr_present r1) as [b|] eqn:Eb.
    + assert (hn = true) as Hht by (destruct hn; [reflexivity|destruct Hp1 as [_ Hp1]; specialize (Hp1 eq_refl); discriminate]).
      rewrite (Hpp Hht). destruct (seekBool inflate o [0;0;0;0] b) as [b'| |]; [|reflexivity..]. cbn [rbind]. apply Hs2. exact Hk1.
    + cbn [rbind]. apply Hs2. exact Hk1.
  - assert (Hjm : (S j * m <= length vs)%nat) by (pose proof (Nat.div_mod (length vs) m ltac:(lia)); nia).
    destruct (Hent j ltac:(lia)) as (cj & st & Hn & Hcj & _).
    destruct (Hcut (S j) Hjm cj Hcj) as (pp & dp & sp & r' & Hdl & Hdh & Hsl & Hpl & Hpos & Hr' & _ & _ & _ & Hsk).
    assert (r' = r) as -> by congruence. clear Hr'.
    destruct (Hsk _ _ Hops) as (r2 & rest & Hto & Hk2 & Hp2 & Hy). exists r2, rest. split; [|auto].
    destruct Hops as [Skind Snull Sidx Spres Sdata Ssec]. cbn [setIndex cr_kind cr_hasNulls cr_present cr_data cr_second cr_index] in *.
    assert (Hk1 : cr_kind r1 = k) by congruence.
    assert (Hp1 : cr_present r1 = None <-> hn = false).
    { rewrite <- Hpr. destruct (cr_present r), (cr_present r1); cbn in Spres; split; congruence. }
    assert (Hh1 : cr_hasNulls r1 = hn) by congruence.
    unfold SeekStride. rewrite Hk1. replace (Z.of_nat (S j) =? 0) with false by (symmetry; apply Z.eqb_neq; lia). cbn [andb].
    assert (Hse : strideEntry (cr_index r1) (Z.of_nat (S j)) = Ok (positions o cj)).
    { rewrite Sidx. unfold strideEntry. replace (Z.of_nat (S j) <? 1) with false by (symmetry; apply Z.ltb_ge; lia).
      replace (Z.to_nat (Z.of_nat (S j) - 1)) with j by lia. rewrite Hidx.
      rewrite (map_nth_error fst j (cw_index c1) Hn). reflexivity. }
    rewrite Hse. cbn [rbind]. rewrite Hpos.
    assert (Hpres : (match cr_present r1 with Some _ => streamPos o 2 (strip o pp ++ strip o dp ++ strip o sp) 0 | None => Ok [] end) = Ok pp).
    { destruct (cr_present r1) as [b|] eqn:Eb; destruct hn; try (exfalso; destruct Hp1 as [P1 P2]; (discriminate (P1 eq_refl) || discriminate (P2 eq_refl))).
      - destruct Hpl as [Hpl Hph]. apply (streamPos_spec o 2 pp []); assumption.
      - rewrite Hpl. reflexivity. }
    rewrite Hpres. cbn [rbind]. clear Hpres.
    assert (Hbase : (if match k with KDate => cr_hasNulls r1 | _ => match cr_present r1 with Some _ => true | None => false end end
                     then width o 2 else 0%nat) = length (strip o pp)).
    { assert (Hnl : match cr_present r1 with Some _ => true | None => false end = hn).
      { destruct (cr_present r1); destruct hn; try reflexivity; destruct Hp1 as [P1 P2]; (discriminate (P1 eq_refl) || discriminate (P2 eq_refl)). }
      assert (Hb : match k with KDate => cr_hasNulls r1 | _ => match cr_present r1 with Some _ => true | None => false end end = hn)
        by (destruct k; assumption).
      rewrite Hb. destruct hn; [destruct Hpl as [Hpl Hph]; symmetry; apply strip_length; assumption|].
      rewrite Hpl. unfold strip. destruct (isNone (CompressionKind o)); reflexivity. }
    rewrite Hbase. rewrite (streamPos_spec o (dataExtra k) dp (strip o pp) (strip o sp) Hdl Hdh). cbn [rbind].
    assert (Hs2 : (if hasSecond k then streamPos o 1 (strip o pp ++ strip o dp ++ strip o sp) (length (strip o pp) + width o (dataExtra k)) else Ok []) = Ok sp).
    { destruct (hasSecond k); [|congruence]. destruct Hsl as [Hsl Hsh].
      rewrite <- (strip_length o (dataExtra k) dp Hdl Hdh), <- app_length, app_assoc.
      rewrite <- (app_nil_r (strip o sp)). apply streamPos_spec; assumption. }
    rewrite Hs2. cbn [rbind]. exact Hto.
Qed.
End Strides.

(** ** Which compressed streams are not empty *)
Section Stocked.
Variable deflate : list (list Z) -> list Z -> res (list Z).
Variable inflate : list Z -> res (list Z).
Variable o : opts.
Hypothesis Ho : supported o.
Hypothesis Hok : flate_ok deflate inflate.
Hypothesis Hwi : WriteIndex o = true.
Hypothesis Hz : CompressionKind o = ZLIB.
Variable F : floats.
Variable stride : Z.

Fixpoint NonE (plan : list (Z * enc)) (a : nat -> list gval) : Prop :=
  match plan with
  | [] => True
  | (_, e) :: pl => (forall e' bs, segment encode encFlush e (a O) = Ok (e', bs) -> bs <> []) /\ NonE pl (fun i => a (S i))
  end.
Lemma NonE_ext plan : forall a b, (forall i, a i = b i) -> NonE plan a -> NonE plan b.
Proof.
  induction plan as [|[q e] pl IH]; intros a b Hab H; [exact I|]. cbn [NonE] in *. destruct H as [H1 H2]. rewrite <- Hab.
  split; [exact H1|]. eapply IH; [|exact H2]. intros i. apply Hab.
Qed.
Lemma Fed_seekable id plan : forall s1 s2 a,
  Fed deflate o (map (fun p => (fst p, newWriter (snd p))) plan) s1 a -> Flushed deflate o s1 s2 -> NonE plan a ->
  Forall (seekable o) (map (fun q => info id (fst q) (snd q)) s2).
Proof.
  induction plan as [|[q e] pl IH]; intros [|[q1 w1] s1] [|[q2 w2] s2] a Ha Hf Hn; cbn [map Fed Flushed fst snd] in Ha, Hf; try contradiction; [constructor|].
  destruct Ha as (-> & Ha & Ha'), Hf as (-> & Hf & Hf'), Hn as (Hn & Hn'). cbn [map]. constructor; [|eapply IH; eassumption].
  unfold seekable. rewrite Hz. cbn [isNone info st_length fst snd].
  assert (H12 : writeStream deflate encode encFlush o (newWriter e) (a O) = Ok w2) by (unfold writeStream; rewrite Ha; exact Hf).
  destruct (stream_final deflate inflate Hok _ _ encode encFlush o Ho _ _ _ [] [] [] (Ext_new inflate _ o Ho e) H12)
    as (e' & bs & Hseg & _ & Hlen & Hfin). cbn [app newWriter w_enc] in *.
  rewrite Hz in Hfin. destruct Hfin as (x & ds & Hst & Hch & Hcc & _).
  assert (bs <> []) as Hne by (eapply Hn; exact Hseg). rewrite Hlen, Hst.
  destruct Hch as [|d rest ds|p d rest ds]; [exfalso; apply Hne; rewrite <- Hcc; reflexivity|..]; rewrite <- app_assoc, zlen_app;
    match goal with |- 0 < _ + zlen ?l => pose proof (zlen_nonneg l) end; unfold zlen, le24 in *; cbn [length]; lia.
Qed.

Lemma ints_segment signed xs e' bs : let g := if signed : bool then GInt64 else GUint64 in
  Forall (is_int signed) xs -> stream_ok (NewIntRLV2 signed true) xs = true -> zlen xs < W63 -> xs <> [] ->
  segment encode encFlush (EInt (NewIntRLV2 signed true)) (map g xs) = Ok (e', bs) -> bs <> [].
Proof.
  cbv zeta. intros Hi Hs Hl Hne H.
  destruct (int_position signed [] xs Hi ltac:(cbn [app]; lia) Hs) as (d1 & p1 & d2 & p2 & pos & ws & Hf1 & Hs1 & Hs2 & _ & _ & Hd & _ & Hzd).
  assert (bs = p1 ++ p2) as ->.
  { cbn [app] in Hs2. destruct signed; [rewrite seg_int64 in H by reflexivity|rewrite seg_uint64 in H by reflexivity]; rewrite Hs2 in H; cbn [lift] in H; congruence. }
  intros E. apply app_eq_nil in E. destruct E as [_ ->].
  assert (ws = []) as -> by (cbn in Hd; congruence). apply Hne. rewrite <- Hzd. unfold zdrop. apply skipn_nil.
Qed.
Lemma bytes_segment xs e' bs : bytes xs -> xs <> [] ->
  segment encode encFlush (EByte (NewByteEncoder true)) (map GByte xs) = Ok (e', bs) -> bs <> [].
Proof.
  intros Hb Hne H.
  destruct (byte_position [] xs ltac:(constructor) Hb) as (d1 & p1 & d2 & p2 & pos & ws & Hf1 & Hs1 & Hs2 & _ & _ & Hd & _ & Hzd).
  assert (bs = p1 ++ p2) as -> by (cbn [app] in Hs2; rewrite seg_byte, Hs2 in H; cbn [lift] in H; congruence).
  intros E. apply app_eq_nil in E. destruct E as [_ ->].
  assert (ws = []) as -> by (cbn in Hd; congruence). apply Hne. rewrite <- Hzd. unfold zdrop. apply skipn_nil.
Qed.
Lemma bools_segment xs e' bs : xs <> [] ->
  segment encode encFlush (EBool (NewBoolEncoder true)) (map GBool xs) = Ok (e', bs) -> bs <> [].
Proof.
  intros Hne H.
  destruct (bool_position [] xs) as (d1 & p1 & d2 & p2 & pos & bit & ws & pad & Hf1 & Hs1 & Hs2 & _ & _ & _ & Hd & _ & _ & Hzd & _).
  assert (bs = p1 ++ p2) as -> by (cbn [app] in Hs2; rewrite seg_bool, Hs2 in H; cbn [lift] in H; congruence).
  intros E. apply app_eq_nil in E. destruct E as [_ ->].
  assert (ws = []) as -> by (cbn in Hd; congruence). apply Hne.
  unfold zdrop in Hzd. rewrite skipn_nil in Hzd. cbn [flat_map] in Hzd. rewrite skipn_nil in Hzd.
  destruct xs; [reflexivity|discriminate].
Qed.
Lemma flat_map_nonempty {A B} (f : A -> list B) l x : In x l -> f x <> [] -> flat_map f l <> [].
Proof. intros Hin Hf E. apply Hf. destruct (f x) as [|b t] eqn:Ex; [reflexivity|]. exfalso.
  assert (In b (flat_map f l)) by (apply in_flat_map; exists x; split; [exact Hin|rewrite Ex; left; reflexivity]). rewrite E in H. contradiction. Qed.

Lemma stocked_NonE k gs : ColumnSpec.readable k = true -> Forall (typed k) gs -> ints_ok k gs -> zlen gs < W63 -> stocked k gs ->
  NonE (dataStreams k o) (fun i => flat_map (inp k i) gs).
Proof.
  intros Hl Hty Hio Hlen [Hne Hstr].
  assert (Hlm : zlen (map int_of gs) < W63) by (unfold zlen in *; rewrite map_length; exact Hlen).
  assert (Hmn : map int_of gs <> []) by (destruct gs; [congruence|discriminate]).
  assert (Hints : (k = KShort \/ k = KInt \/ k = KLong \/ k = KDate) -> NonE (dataStreams k o) (fun i => flat_map (inp k i) gs)).
  { intros Hk.
    assert (Hpl : dataStreams k o = [(sDATA, EInt (NewIntRLV2 true true))]) by (destruct Hk as [->|[->|[->| ->]]]; unfold dataStreams; rewrite Hwi; reflexivity).
    assert (Hi2 : stream_ok (NewIntRLV2 true true) (map int_of gs) = true) by (destruct Hk as [->|[->|[->| ->]]]; exact Hio).
    rewrite Hpl. cbn [NonE]. split; [|exact I]. intros e' bs H. rewrite ints_inputs in H by assumption.
    exact (ints_segment true _ _ _ (typed_ints k _ Hk Hty) Hi2 Hlm Hmn H). }
  destruct k; try discriminate; try (apply Hints; tauto); clear Hints; cbn [dataStreams NonE]; rewrite ?Hwi.
  - split; [|exact I]. intros e' bs H. destruct (typed_bytes gs Hty) as (xs & -> & Hb & Hi). rewrite Hi in H.
    apply (bytes_segment xs e' bs Hb); [destruct xs; [contradiction Hne; reflexivity|discriminate]|exact H].
  - split; [|exact I]. intros e' bs H. destruct (typed_bools gs Hty) as (xs & -> & Hi). rewrite Hi in H.
    apply (bools_segment xs e' bs); [destruct xs; [contradiction Hne; reflexivity|discriminate]|exact H].
  - split; [|exact I]. intros e' bs H. destruct (typed_floats gs Hty) as (xs & -> & _ & Hi). rewrite Hi in H.
    rewrite (seg_raw EFloat GFloat float_Encode) in H by reflexivity. assert (bs = flat_map float_Encode xs) as -> by congruence.
    destruct xs as [|x t]; [contradiction Hne; reflexivity|]. apply (flat_map_nonempty _ _ x); [left; reflexivity|discriminate].
  - split; [|exact I]. intros e' bs H. destruct (typed_doubles gs Hty) as (xs & -> & _ & Hi). rewrite Hi in H.
    rewrite (seg_raw EDouble GDouble double_Encode) in H by reflexivity. assert (bs = flat_map double_Encode xs) as -> by congruence.
    destruct xs as [|x t]; [contradiction Hne; reflexivity|]. apply (flat_map_nonempty _ _ x); [left; reflexivity|discriminate].
  - destruct (typed_strings gs Hty) as (xs & -> & _ & Hi & Hj & Hm). split; [|split; [|exact I]]; intros e' bs H.
    + rewrite Hi in H. rewrite (seg_raw EString GBytes string_Encode) in H by reflexivity. assert (bs = flat_map string_Encode xs) as -> by congruence.
      destruct (Hstr eq_refl) as (s & Hin & Hs). apply in_map_iff in Hin. destruct Hin as (s' & E & Hin). assert (s' = s) as -> by congruence.
      apply (flat_map_nonempty _ _ s Hin). exact Hs.
    + rewrite Hj in H. cbn [ints_ok] in Hio. pose proof (typed_lengths _ Hty) as Hall. rewrite Hm in *.
      exact (ints_segment false _ _ _ Hall Hio Hlm Hmn H).
Qed.

Lemma stocked_seekable id k hn vs bs infos c3 : ColumnSpec.readable k = true ->
  writeColumn deflate F o stride (newColW o id k hn) vs = Ok (bs, infos, c3) ->
  Forall (typed k) (nonnull (rows_of vs)) -> ints_ok k (nonnull (rows_of vs)) -> zlen vs < W63 ->
  stocked k (nonnull (rows_of vs)) -> Forall (seekable o) infos.
Proof.
  intros Hl Hw Hty Hio Hlen Hst.
  unfold writeColumn in Hw. apply rbind_inv in Hw. destruct Hw as (c1 & H1 & Hw). apply rbind_inv in Hw. destruct Hw as (c2 & H2 & Hw).
  apply rbind_inv in Hw. destruct Hw as ([[bs' n] c3'] & H3 & Hw).
  assert (c3' = c3) as -> by congruence. assert (infos = c_Infos c3) as -> by congruence. clear Hw.
  assert (Hhn : hasNulls (newColW o id k hn) = hn) by (destruct hn; reflexivity).
  assert (Ha : active (cw_kind (newColW o id k hn)) (hasNulls (newColW o id k hn)) = true) by (apply leaf_active; exact Hl).
  destruct (writeRows_streams deflate F o stride vs _ _ Ha H1) as (_ & Hk1 & Hn1 & Hf1). rewrite Hhn in *. cbn [newColW cw_kind cw_id] in *.
  assert (Hnd : cw_kind c1 <> KDict) by (rewrite Hk1; destruct k; discriminate).
  destruct (c_Flush_streams deflate o c1 c2 Hnd H2) as (_ & _ & _ & _ & Hflu).
  destruct (c_WriteOut_streams o c2 bs' n c3 H3) as (_ & _ & _ & _ & _ & Hst3).
  assert (Hinf : c_Infos c3 = map (fun q => info (cw_id c3) (fst q) (snd q)) (streams c2)).
  { rewrite c_Infos_streams, Hst3, map_map. apply map_ext. intros [q w]. cbn [fst snd]. unfold info. rewrite drained_length. reflexivity. }
  rewrite Hinf. rewrite (streams_new o) in Hf1. eapply Fed_seekable; [exact Hf1|exact Hflu|].
  assert (Hle : (length (nonnull (rows_of vs)) <= length vs)%nat).
  { clear. induction vs as [|v t IH]; [cbn; lia|]. cbn [rows_of map nonnull flat_map]. fold (rows_of t). fold (nonnull (rows_of t)).
    unfold row_of. destruct (Null v); cbn [app length]; lia. }
  assert (Hz' : zlen (nonnull (rows_of vs)) < W63) by (unfold zlen in *; lia).
  pose proof (stocked_NonE k _ Hl Hty Hio Hz' Hst) as Hne.
  unfold planned. destruct hn; cbn [app].
  - cbn [NonE]. rewrite Hwi. split.
    + intros e' b. rewrite insAll_present. apply bools_segment. destruct vs; [destruct Hst as [Hs _]; cbn in Hs; congruence|discriminate].
    + eapply NonE_ext; [|exact Hne]. intros i. symmetry. apply (insAll_data k vs i).
  - eapply NonE_ext; [|exact Hne]. intros i. symmetry. apply (insAll_false k vs i).
Qed.
End Stocked.
