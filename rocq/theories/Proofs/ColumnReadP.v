(** Reading back what a column writer stored. *)
From Coq Require Import ZifyBool ZifyNat.
From Verif.Model Require Import Go Codec ByteBool IntRle Chunk Stream Time File Column.
From Verif.Spec Require Import BoolSpec Session StreamSpec ChunkSpec ColumnSpec.
From Verif.Proofs Require Import Base CodecP SessionP ByteBoolP OrcIntP StreamP StreamClaimsP IntBytesP ReadP TimeP CodecClaimsP ColumnP.

(** ** Encoders at the start of a stripe *)
Record item := { it_kind : Z; it_enc : enc; it_stale : list bool }.
Definition Fresh (st : list bool) (e0 e : enc) : Prop :=
  match e0, e with
  | EInt a, EInt b => i_values b = [] /\ i_signed b = i_signed a
  | EByte _, EByte b => byte_inv b /\ b_values b = []
  | EBool _, EBool b => bool_inv b st [] /\ b_values (o_brl b) = []
  | EVarint, EVarint | EFloat, EFloat | EDouble, EDouble | EString, EString => True
  | _, _ => False
  end.
Definition bool_of (g : gval) : bool := match g with GBool b => b | _ => false end.

(** The leftover bits after a stripe. *)
Definition staleAfter (st : list bool) (e : enc) (ins : list gval) : list bool :=
  match e with EBool _ => next_stale st (map bool_of ins) | _ => [] end.

Lemma seg_bool_inputs e ins e' b : segment encode encFlush (EBool e) ins = Ok (e', b) ->
  exists xs, ins = map GBool xs.
Proof.
  unfold segment. intros H. apply rbind_inv in H. destruct H as ([e1 b1] & H & _). revert e e1 b1 H.
  induction ins as [|x t IH]; intros e e1 b1 H; [exists []; reflexivity|]. cbn [feed] in H.
  apply rbind_inv in H. destruct H as ([e2 b2] & H2 & H). cbn [encode] in H2.
  destruct x; try discriminate. apply rbind_inv in H2. destruct H2 as ([e3 b3] & _ & H2).
  assert (e2 = EBool e3) as -> by congruence.
  apply rbind_inv in H. destruct H as ([e4 b4] & H4 & _). destruct (IH _ _ _ H4) as (xs & ->). eexists (_ :: xs); reflexivity.
Qed.
Lemma seg_byte_inputs e ins e' b : segment encode encFlush (EByte e) ins = Ok (e', b) ->
  exists xs, ins = map GByte xs.
Proof.
  unfold segment. intros H. apply rbind_inv in H. destruct H as ([e1 b1] & H & _). revert e e1 b1 H.
  induction ins as [|x t IH]; intros e e1 b1 H; [exists []; reflexivity|]. cbn [feed] in H.
  apply rbind_inv in H. destruct H as ([e2 b2] & H2 & H). cbn [encode] in H2.
  destruct x; try discriminate. apply rbind_inv in H2. destruct H2 as ([e3 b3] & _ & H2).
  assert (e2 = EByte e3) as -> by congruence.
  apply rbind_inv in H. destruct H as ([e4 b4] & H4 & _). destruct (IH _ _ _ H4) as (xs & ->). eexists (_ :: xs); reflexivity.
Qed.
Lemma seg_int_inputs e ins e' b : segment encode encFlush (EInt e) ins = Ok (e', b) ->
  exists xs, ins = map (if i_signed e then GInt64 else GUint64) xs.
Proof.
  unfold segment. intros H. apply rbind_inv in H. destruct H as ([e1 b1] & H & _). revert e e1 b1 H.
  induction ins as [|x t IH]; intros e e1 b1 H; [exists []; reflexivity|]. cbn [feed] in H.
  apply rbind_inv in H. destruct H as ([e2 b2] & H2 & H). cbn [encode] in H2.
  apply rbind_inv in H. destruct H as ([e4 b4] & H4 & _).
  destruct x; try discriminate; destruct (i_signed e) eqn:Es; try discriminate;
    apply rbind_inv in H2; destruct H2 as ([e3 b3] & H3 & H2);
    assert (e2 = EInt e3) as -> by congruence;
    destruct (IH _ _ _ H4) as (xs & ->); apply int_Encode_signed in H3; rewrite Es in H3; rewrite H3;
    eexists (_ :: xs); reflexivity.
Qed.
Definition is_bytes_ins (e : enc) (ins : list gval) : Prop :=
  match e with EByte _ => Forall (fun g => match g with GByte x => is_u8 x | _ => True end) ins | _ => True end.

(** After a stripe the encoders are ready for the next one. *)
Lemma Fresh_next st e0 e ins e' b : Fresh st e0 e -> is_bytes_ins e ins ->
  segment encode encFlush e ins = Ok (e', b) -> Fresh (staleAfter st e ins) e0 e'.
Proof.
  intros Hf Hb H. destruct e0 as [q0|q0|q0| | | |], e as [e1|e1|e1| | | |]; cbn in Hf; try contradiction.
  - destruct Hf as [Hi Hv]. destruct (seg_byte_inputs _ _ _ _ H) as (xs & ->). rewrite seg_byte in H.
    cbn in Hb. destruct (byte_segment_spec xs e1 Hi Hv) as (e2 & o2 & H2 & Hi2 & Hv2 & _ & _).
    { rewrite Forall_map in Hb. exact Hb. }
    rewrite H2 in H. cbn in H. assert (e' = EByte e2) as -> by congruence. cbn. auto.
  - destruct Hf as [Hi Hv]. destruct (seg_bool_inputs _ _ _ _ H) as (xs & ->). rewrite seg_bool in H.
    destruct (bool_segment_bytes xs e1 st Hi Hv) as (e2 & o2 & bs & H2 & Hi2 & Hv2 & _ & _).
    rewrite H2 in H. cbn in H. assert (e' = EBool e2) as -> by congruence. cbn.
    rewrite map_map. cbn. rewrite map_id. auto.
  - destruct Hf as [Hv Hs]. destruct (seg_int_inputs _ _ _ _ H) as (xs & ->).
    assert (Hseg : segment encode encFlush (EInt e1) (map (if i_signed e1 then GInt64 else GUint64) xs)
                   = lift EInt (segment int_Encode int_Flush e1 xs)).
    { destruct (i_signed e1) eqn:E; [apply seg_int64|apply seg_uint64]; exact E. }
    rewrite Hseg in H. destruct (segment int_Encode int_Flush e1 xs) as [[e2 o2]| |] eqn:E2; cbn in H; try discriminate.
    assert (e' = EInt e2) as -> by congruence. destruct (int_segment_clean _ _ _ _ E2) as [Ha Hc].
    cbn. split; [exact Ha|congruence].
  - assert (He : forall l x y, feed encode EVarint l = Ok (x, y) -> x = EVarint).
    { induction l as [|g t IH]; intros x y Hx; cbn [feed] in Hx; [congruence|].
      apply rbind_inv in Hx. destruct Hx as ([x1 y1] & H1 & Hx). apply rbind_inv in Hx. destruct Hx as ([x2 y2] & H2 & Hx).
      assert (x1 = EVarint) as ->. { cbn [encode] in H1. destruct g; try discriminate. apply rbind_inv in H1. destruct H1 as (q & _ & H1). congruence. }
      apply IH in H2. congruence. }
    unfold segment in H. apply rbind_inv in H. destruct H as ([x y] & H1 & H). apply He in H1. subst x. cbn in H.
    assert (e' = EVarint) as -> by congruence. exact I.
  - assert (He : forall l x y, feed encode EFloat l = Ok (x, y) -> x = EFloat).
    { induction l as [|g t IH]; intros x y Hx; cbn [feed] in Hx; [congruence|].
      apply rbind_inv in Hx. destruct Hx as ([x1 y1] & H1 & Hx). apply rbind_inv in Hx. destruct Hx as ([x2 y2] & H2 & Hx).
      assert (x1 = EFloat) as ->. { cbn [encode] in H1. destruct g; try discriminate. congruence. }
      apply IH in H2. congruence. }
    unfold segment in H. apply rbind_inv in H. destruct H as ([x y] & H1 & H). apply He in H1. subst x. cbn in H.
    assert (e' = EFloat) as -> by congruence. exact I.
  - assert (He : forall l x y, feed encode EDouble l = Ok (x, y) -> x = EDouble).
    { induction l as [|g t IH]; intros x y Hx; cbn [feed] in Hx; [congruence|].
      apply rbind_inv in Hx. destruct Hx as ([x1 y1] & H1 & Hx). apply rbind_inv in Hx. destruct Hx as ([x2 y2] & H2 & Hx).
      assert (x1 = EDouble) as ->. { cbn [encode] in H1. destruct g; try discriminate. congruence. }
      apply IH in H2. congruence. }
    unfold segment in H. apply rbind_inv in H. destruct H as ([x y] & H1 & H). apply He in H1. subst x. cbn in H.
    assert (e' = EDouble) as -> by congruence. exact I.
  - assert (He : forall l x y, feed encode EString l = Ok (x, y) -> x = EString).
    { induction l as [|g t IH]; intros x y Hx; cbn [feed] in Hx; [congruence|].
      apply rbind_inv in Hx. destruct Hx as ([x1 y1] & H1 & Hx). apply rbind_inv in Hx. destruct Hx as ([x2 y2] & H2 & Hx).
      assert (x1 = EString) as ->. { cbn [encode] in H1. destruct g; try discriminate. congruence. }
      apply IH in H2. congruence. }
    unfold segment in H. apply rbind_inv in H. destruct H as ([x y] & H1 & H). apply He in H1. subst x. cbn in H.
    assert (e' = EString) as -> by congruence. exact I.
Qed.

Lemma pipe_enc deflate inflate o (Ho : supported o) e vs w : flate_ok deflate inflate ->
  writeStream deflate encode encFlush o (newWriter e) vs = Ok w ->
  exists bs, segment encode encFlush e vs = Ok (w_enc w, bs) /\ w_length w = zlen (StreamSpec.stored o w) /\
    forall pre post, zlen (pre ++ StreamSpec.stored o w ++ post) < W64 ->
      serves inflate o (newReader (pre ++ StreamSpec.stored o w ++ post) (zlen pre) (w_length w)) bs.
Proof.
  intros Hok H.
  destruct (stream_final deflate inflate Hok _ _ encode encFlush o Ho _ _ _ [] [] [] (Ext_new inflate _ o Ho e) H)
    as (e' & bs & Hseg & He & _). cbn [w_enc newWriter] in Hseg.
  destruct (pipe deflate inflate _ _ encode encFlush o Ho e vs w Hok H) as (e2 & bs2 & Hs2 & Hl & Hr).
  exists bs2. rewrite Hs2 in Hseg. split; [|split; assumption]. rewrite He. congruence.
Qed.

Section Serve.
Variable deflate : list (list Z) -> list Z -> res (list Z).
Variable inflate : list Z -> res (list Z).
Variable o : opts.
Hypothesis Ho : supported o.
Hypothesis Hok : flate_ok deflate inflate.

Notation stored := (StreamSpec.stored o).

(** Every stream was written from a fresh start. *)
Fixpoint Done (its : list item) (ss : list (Z * writer enc)) (ins : nat -> list gval) : Prop :=
  match its, ss with
  | [], [] => True
  | it :: r, (k, w) :: r' =>
      k = it_kind it /\ writeStream deflate encode encFlush o (newWriter (it_enc it)) (ins O) = Ok w /\
      Done r r' (fun i => ins (S i))
  | _, _ => False
  end.
Lemma Fed_Flushed_Done its : forall ss ss' ins,
  Fed deflate o (map (fun it => (it_kind it, newWriter (it_enc it))) its) ss ins -> Flushed deflate o ss ss' -> Done its ss' ins.
Proof.
  induction its as [|it r IH]; intros [|[k w] ss] [|[k' w'] ss'] ins Hf Hl; cbn in *; try contradiction; auto.
  destruct Hf as (-> & Hw & Hf), Hl as (-> & Hw' & Hl). split; [reflexivity|]. split.
  - unfold writeStream. rewrite Hw. exact Hw'.
  - eapply IH; eauto.
Qed.

(** Every stream is served to a reader opened at its offset. *)
Fixpoint Served (file : list Z) (its : list item) (offs : list (strm * Z)) (ins : nat -> list gval) : Prop :=
  match its, offs with
  | [], [] => True
  | it :: r, (s, off) :: r' =>
      st_kind s = it_kind it /\
      (exists e' bs, segment encode encFlush (it_enc it) (ins O) = Ok (e', bs) /\
                     serves inflate o (newReader file off (st_length s)) bs) /\
      Served file r r' (fun i => ins (S i))
  | _, _ => False
  end.
Lemma Done_Served id its : forall ss ins pre post, Done its ss ins ->
  zlen (pre ++ concat (map (fun q => stored (snd q)) ss) ++ post) < W64 ->
  Served (pre ++ concat (map (fun q => stored (snd q)) ss) ++ post) its
         (offsets (zlen pre) (map (fun q => info id (fst q) (snd q)) ss)) ins.
Proof.
  induction its as [|it r IH]; intros [|[k w] ss] ins pre post Hd Hl; cbn [Done] in Hd; try contradiction; [exact I|].
  destruct Hd as (-> & Hw & Hd). destruct (pipe_enc deflate inflate o Ho _ _ _ Hok Hw) as (bs & Hseg & Hlen & Hs).
  cbn [map concat fst snd offsets Served info st_kind st_length]. split; [reflexivity|].
  cbn [map concat snd] in Hl. rewrite <- app_assoc in *. split.
  - exists (w_enc w), bs. split; [exact Hseg|]. apply Hs. exact Hl.
  - rewrite Hlen, <- zlen_app.
    replace (pre ++ stored w ++ concat (map (fun q => stored (snd q)) ss) ++ post)
      with ((pre ++ stored w) ++ concat (map (fun q => stored (snd q)) ss) ++ post) in * by (rewrite <- app_assoc; reflexivity).
    apply IH; assumption.
Qed.

(** Encoders after the stripe. *)
Definition nextItem (it : item) (w : writer enc) (ins : list gval) : item :=
  {| it_kind := it_kind it; it_enc := w_enc w; it_stale := staleAfter (it_stale it) (it_enc it) ins |}.
Fixpoint nextItems (its : list item) (ss : list (Z * writer enc)) (ins : nat -> list gval) : list item :=
  match its, ss with
  | it :: r, (_, w) :: r' => nextItem it w (ins O) :: nextItems r r' (fun i => ins (S i))
  | _, _ => []
  end.
Definition Fits (its : list item) (plan : list (Z * enc)) : Prop :=
  Forall2 (fun it p => it_kind it = fst p /\ Fresh (it_stale it) (snd p) (it_enc it)) its plan.
Lemma Done_next its : forall plan ss ins, Done its ss ins -> Fits its plan ->
  (forall i it, nth_error its i = Some it -> is_bytes_ins (it_enc it) (ins i)) ->
  Fits (nextItems its ss ins) plan /\
  map (fun it => (it_kind it, newWriter (it_enc it))) (nextItems its ss ins)
  = map (fun q => (fst q, newWriter (w_enc (snd q)))) ss.
Proof.
  induction its as [|it r IH]; intros plan [|[k w] ss] ins Hd Hp Hb; cbn [Done] in Hd; try contradiction.
  - inversion Hp; subst. split; [constructor|reflexivity].
  - inversion Hp as [|? p ? plan' [Hk Hf] Hp']; subst. destruct Hd as (-> & Hw & Hd).
    destruct (pipe_enc deflate inflate o Ho _ _ _ Hok Hw) as (bs & Hseg & _).
    destruct (IH plan' ss (fun i => ins (S i)) Hd Hp') as [H1 H2].
    { intros i it' Hi. apply (Hb (S i) it'). exact Hi. }
    cbn [nextItems map fst snd nextItem it_kind it_enc]. split.
    + constructor; [|exact H1]. cbn. split; [exact Hk|]. eapply Fresh_next; [exact Hf| |exact Hseg]. apply (Hb O it eq_refl).
    + rewrite H2. reflexivity.
Qed.

(** ** Values out of the data streams *)
Notation nextValue := (nextValue inflate o).
Notation nv := (fun c => nextValue c GNil).
Notation leaf := readable.
Lemma nextValue_old c old : leaf (cr_kind c) = true -> nextValue c old = nextValue c GNil.
Proof. unfold Column.nextValue. destruct (cr_kind c); try discriminate; reflexivity. Qed.

Lemma yields_run c v (dec : prog (list Z)) (f : Z -> gval) xs :
  (forall c', cr_kind c' = cr_kind c -> nextValue c' GNil = (let! (x, d) := nextRun inflate o dec (cr_data c') in Ok (f x, setData d c'))) ->
  cr_data c = Some (RRun v) -> Yields (v_Next inflate o dec) v xs -> Yields nv c (map f xs).
Proof.
  intros Hn Hd Hy. revert c Hn Hd. induction Hy as [v|v x v' xs Hx Hy IH]; intros c Hn Hd; [constructor|].
  cbn [map]. econstructor.
  - cbv beta. rewrite Hn by reflexivity. rewrite Hd. cbn [nextRun]. rewrite Hx. cbn [rbind]. reflexivity.
  - apply IH; [|reflexivity]. intros c' Hc'. apply Hn. exact Hc'.
Qed.
Lemma yields_bool c b xs : cr_kind c = KBool -> cr_data c = Some (RBool b) ->
  Yields (bool_Next inflate o) b xs -> Yields nv c (map GBool xs).
Proof.
  intros Hk Hd Hy. revert c Hk Hd. induction Hy as [b|b x b' xs Hx Hy IH]; intros c Hk Hd; [constructor|].
  cbn [map]. econstructor.
  - unfold Column.nextValue. rewrite Hk, Hd. cbn [nextBool]. rewrite Hx. cbn [rbind]. reflexivity.
  - apply IH; [exact Hk|reflexivity].
Qed.
Lemma yields_prog {A} c r (p : prog A) (f : A -> gval) xs :
  (forall c', cr_kind c' = cr_kind c -> nextValue c' GNil = (let! (x, d) := nextRaw inflate o p (cr_data c') in Ok (f x, setData d c'))) ->
  cr_data c = Some (RRaw r) -> Yields (r_run inflate o p) r xs -> Yields nv c (map f xs).
Proof.
  intros Hn Hd Hy. revert c Hn Hd. induction Hy as [v|v x v' xs Hx Hy IH]; intros c Hn Hd; [constructor|].
  cbn [map]. econstructor.
  - cbv beta. rewrite Hn by reflexivity. rewrite Hd. cbn [nextRaw]. rewrite Hx. cbn [rbind]. reflexivity.
  - apply IH; [|reflexivity]. intros c' Hc'. apply Hn. exact Hc'.
Qed.
Lemma yields_string ss : forall c r v, cr_kind c = KString -> cr_data c = Some (RRaw r) -> cr_second c = Some v ->
  Forall (fun s => zlen s < W63) ss ->
  serves inflate o r (concat ss) -> Yields (v_Next inflate o DecodeUInt) v (map zlen ss) -> Yields nv c (map GString ss).
Proof.
  induction ss as [|s t IH]; intros c r v Hk Hd Hs Hz Hsv Hy; [constructor|].
  inversion Hz as [|? ? Hzs Hzt]; subst. cbn [map] in *. inversion Hy as [|? ? v' ? Hn Ht]; subst.
  cbn [concat] in Hsv.
  destruct (serves_step inflate o (DecodeBytes (zlen s)) r (s ++ concat t) s (concat t) Hsv) as (r' & Hr & Hsv').
  { apply (DecodeBytes_Encode s (concat t)). }
  econstructor.
  - unfold Column.nextValue. rewrite Hk, Hs. cbn [nextSecond]. rewrite Hn. cbn [rbind].
    rewrite i64_id by (unfold is_i64; pose proof (zlen_nonneg s); lia).
    rewrite Hd. cbn [nextRaw]. rewrite Hr. cbn [rbind]. reflexivity.
  - apply (IH _ r' v'); auto.
Qed.

(** Reading what the integer codec carries. *)
Lemma carried_yields signed xs e e' bs r : int_carried signed xs -> i_values e = [] -> i_signed e = signed ->
  segment int_Encode int_Flush e xs = Ok (e', bs) -> serves inflate o r bs ->
  Yields (v_Next inflate o (if signed then DecodeInt else DecodeUInt)) (newVreader r) xs.
Proof.
  intros (e1 & b1 & Hseg & Hdec) Hv Hs He Hr.
  pose proof (int_segment_same xs e (NewIntRLV2 signed false)) as Hsame.
  rewrite He, Hseg in Hsame. cbn in Hsame. destruct Hsame as [_ <-]; [split; assumption|].
  apply decode_all_inv in Hdec. apply int_segment_bytes in Hseg.
  destruct signed; [apply (yields_runs _ _ _ _ Int_nonempty bs)|apply (yields_runs _ _ _ _ UInt_nonempty bs)]; assumption.
Qed.
Lemma carried_total signed xs e : int_carried signed xs -> i_values e = [] -> i_signed e = signed ->
  exists e' bs, segment int_Encode int_Flush e xs = Ok (e', bs).
Proof.
  intros (e1 & b1 & Hseg & Hdec) Hv Hs.
  pose proof (int_segment_same xs e (NewIntRLV2 signed false)) as Hsame. rewrite Hseg in Hsame.
  destruct (segment int_Encode int_Flush e xs) as [[e2 b2]| |]; cbn in Hsame; [eauto| |]; exfalso; apply Hsame; split; assumption.
Qed.
Lemma bits_yields st seg e e' b r : bool_inv e st [] -> b_values (o_brl e) = [] ->
  segment bool_Encode bool_Flush e seg = Ok (e', b) -> serves inflate o r b ->
  Yields (bool_Next inflate o) (newBoolReader r) (BoolSpec.stored st seg).
Proof.
  intros Hi Hv He Hr. destruct (bool_segment_bytes seg e st Hi Hv) as (e2 & b2 & bs & H2 & _ & _ & Hb & Hruns & <-).
  rewrite H2 in He. assert (b2 = b) as -> by congruence. apply yields_bits.
  apply (yields_runs _ _ _ _ ByteRL_nonempty b bs); assumption.
Qed.
Lemma bytes_yields xs e e' b r : byte_inv e -> b_values e = [] -> bytes xs ->
  segment byte_Encode byte_Flush e xs = Ok (e', b) -> serves inflate o r b ->
  Yields (v_Next inflate o DecodeByteRL) (newVreader r) xs.
Proof.
  intros Hi Hv Hx He Hr. destruct (byte_segment_spec xs e Hi Hv Hx) as (e2 & b2 & H2 & _ & _ & Hb & Hruns).
  rewrite H2 in He. assert (b2 = b) as -> by congruence.
  apply (yields_runs _ _ _ _ ByteRL_nonempty b xs); assumption.
Qed.

(** What a client gets out of the data streams: for booleans with leftovers in front. *)
Definition back (k : ckind) (st : list bool) (gs : list gval) : list gval :=
  match k with KBool => map GBool (BoolSpec.stored st (map bool_of gs)) | _ => gs end.
Definition inp (k : ckind) (i : nat) (g : gval) : list gval :=
  match puts k g with Ok l => match nth i l None with Some x => [x] | None => [] end | _ => [] end.
Lemma inputs_nonnull k vs i : inputs k vs i = flat_map (inp k i) (nonnull (rows_of vs)).
Proof.
  unfold inputs, nonnull, rows_of. induction vs as [|v t IH]; [reflexivity|]. cbn [flat_map map].
  rewrite IH, flat_map_app. f_equal. unfold input, row_of, inp. destruct (Null v); cbn [flat_map]; [reflexivity|].
  rewrite app_nil_r. reflexivity.
Qed.

Lemma ToDays_day t n : -106751 <= n <= 106751 -> t = n * DayNs -> ToDays t = n /\ t / DayNs = n.
Proof. intros Hn ->. split; [apply ToDays_midnight; lia|apply Z.div_mul; lia]. Qed.

Lemma ints_inputs k gs : (k = KShort \/ k = KInt \/ k = KLong \/ k = KDate) -> Forall (typed k) gs ->
  flat_map (inp k 0) gs = map GInt64 (map int_of gs).
Proof.
  intros Hk H. induction H as [|g t Hg Ht IH]; [reflexivity|]. cbn [flat_map map]. rewrite IH.
  destruct Hk as [->|[->|[->| ->]]]; destruct g; cbn in Hg; try contradiction; try reflexivity.
  destruct Hg as (n & Hn & ->). cbn. destruct (ToDays_day (n * DayNs) n Hn eq_refl) as [-> ->]. reflexivity.
Qed.
Lemma i16_id x : -32768 <= x < 32768 -> i16 x = x. Proof. unfold i16. intros. destruct (Z.ltb_spec (x mod 65536) 32768); zlia. Qed.
Lemma i32_id x : -2147483648 <= x < 2147483648 -> i32 x = x. Proof. unfold i32. intros. destruct (Z.ltb_spec (x mod 4294967296) 2147483648); zlia. Qed.

Lemma data_yields k gs file c its offs : leaf k = true -> cr_kind c = k -> Forall (typed k) gs -> carried k gs ->
  Fits its (dataStreams k o) -> Served file its offs (fun i => flat_map (inp k i) gs) ->
  exists r, InitStreams file c offs = Ok r /\ cr_kind r = k /\ cr_present r = cr_present c /\
    cr_hasNulls r = cr_hasNulls c /\ cr_index r = cr_index c /\
    Yields nv r (back k (match its with it :: _ => it_stale it | [] => [] end) gs).
Proof.
  intros Hleaf Hk Hty Hca Hp Hs.
  destruct k; try discriminate; cbn [dataStreams] in Hp; inversion Hp as [|it1 p1 its' pl' Hf1 Hp']; subst;
    inversion Hp' as [|it2 p2 its'' pl'' Hf2 Hp'']; subst; clear Hp Hp'; cbn [fst snd] in *; destruct Hf1 as [Hk1 Hf1];
    destruct offs as [|[s1 off1] offs]; cbn [Served] in Hs; try contradiction;
    destruct Hs as (Hsk1 & (e1 & b1 & Hseg1 & Hsv1) & Hs); rewrite Hk1 in Hsk1;
    destruct (it_enc it1) as [be|boe|ie| | | |] eqn:Hie; cbn [Fresh] in Hf1; try contradiction.
  all: try (destruct offs as [|[? ?] ?]; cbn [Served] in Hs; try contradiction;
            cbn [InitStreams InitStream]; unfold InitStream; rewrite Hsk1, Hk; cbn [Z.eqb Pos.eqb dataReader rbind];
            eexists; split; [reflexivity|]; do 4 (split; [first [reflexivity|exact Hk]|]); cbn [back]).
  1-3, 9:
    rewrite ints_inputs in Hseg1 by tauto;
    destruct Hf1 as [Hiv His]; cbn in His; rewrite seg_int64 in Hseg1 by exact His;
    destruct (segment int_Encode int_Flush ie (map int_of gs)) as [[e2 b2]| |] eqn:Eseg; cbn in Hseg1; try discriminate;
    assert (b2 = b1) as -> by congruence;
    pose proof (carried_yields true _ ie e2 b1 _ Hca Hiv His Eseg Hsv1) as Hy.
  1: apply (yields_run (setData (RRun (newVreader (newReader file off1 (st_length s1)))) c) _ _ (fun x => GInt16 (i16 x)) _) in Hy;
     [|intros c' Hc'; unfold Column.nextValue; rewrite Hc'; cbn [setData cr_kind]; rewrite Hk; reflexivity|reflexivity];
     rewrite map_map in Hy;
     replace gs with (map (fun x => GInt16 (i16 (int_of x))) gs); [exact Hy|].
  2: apply (yields_run (setData (RRun (newVreader (newReader file off1 (st_length s1)))) c) _ _ (fun x => GInt32 (i32 x)) _) in Hy;
     [|intros c' Hc'; unfold Column.nextValue; rewrite Hc'; cbn [setData cr_kind]; rewrite Hk; reflexivity|reflexivity];
     rewrite map_map in Hy;
     replace gs with (map (fun x => GInt32 (i32 (int_of x))) gs); [exact Hy|].
  3: apply (yields_run (setData (RRun (newVreader (newReader file off1 (st_length s1)))) c) _ _ GInt64 _) in Hy;
     [|intros c' Hc'; unfold Column.nextValue; rewrite Hc'; cbn [setData cr_kind]; rewrite Hk; reflexivity|reflexivity];
     rewrite map_map in Hy;
     replace gs with (map (fun x => GInt64 (int_of x)) gs); [exact Hy|].
  4: apply (yields_run (setData (RRun (newVreader (newReader file off1 (st_length s1)))) c) _ _ (fun x => GDate (FromDays (i32 x))) _) in Hy;
     [|intros c' Hc'; unfold Column.nextValue; rewrite Hc'; cbn [setData cr_kind]; rewrite Hk; reflexivity|reflexivity];
     rewrite map_map in Hy;
     replace gs with (map (fun x => GDate (FromDays (i32 (int_of x)))) gs); [exact Hy|].
  1-4: rewrite <- (map_id gs) at 2; apply map_ext_in; intros g Hg; rewrite Forall_forall in Hty; specialize (Hty g Hg);
     destruct g; cbn in Hty; try contradiction; cbn [int_of].
  - rewrite i16_id by assumption. reflexivity.
  - rewrite i32_id by assumption. reflexivity.
  - reflexivity.
  - destruct Hty as (n & Hn & ->). destruct (ToDays_day (n * DayNs) n Hn eq_refl) as [_ ->].
    rewrite i32_id by lia. rewrite FromDays_exact by lia. reflexivity.
  - (* bytes *)
    assert (Hg : gs = map GByte (map (fun g => match g with GByte x => x | _ => 0 end) gs) /\
                 bytes (map (fun g => match g with GByte x => x | _ => 0 end) gs)).
    { clear - Hty. split.
      - rewrite map_map, <- (map_id gs) at 1. apply map_ext_in. intros g Hg. rewrite Forall_forall in Hty. specialize (Hty g Hg).
        destruct g; cbn in Hty; try contradiction. reflexivity.
      - apply Forall_map. eapply Forall_impl; [|exact Hty]. intros g Hg. destruct g; cbn in Hg; try contradiction. exact Hg. }
    destruct Hg as [Hg Hb]. revert Hg Hb. generalize (map (fun g => match g with GByte x => x | _ => 0 end) gs). intros xs -> Hb.
    assert (Hin : flat_map (inp KByte 0) (map GByte xs) = map GByte xs).
    { clear. induction xs as [|x t IH]; [reflexivity|]. cbn. f_equal. exact IH. }
    rewrite Hin in Hseg1. rewrite seg_byte in Hseg1.
    destruct (segment byte_Encode byte_Flush be xs) as [[e2 b2]| |] eqn:Eseg; cbn in Hseg1; try discriminate.
    assert (b2 = b1) as -> by congruence. destruct Hf1 as [Hbi Hbv].
    pose proof (bytes_yields xs be e2 b1 _ Hbi Hbv Hb Eseg Hsv1) as Hy.
    eapply (yields_run _ _ DecodeByteRL GByte); [|reflexivity|exact Hy].
    intros c' Hc'. unfold Column.nextValue. rewrite Hc'. cbn [setData cr_kind]. rewrite Hk. reflexivity.
  - (* bools *)
    assert (Hg : gs = map GBool (map bool_of gs)).
    { rewrite map_map, <- (map_id gs) at 1. apply map_ext_in. intros g Hg. rewrite Forall_forall in Hty. specialize (Hty g Hg).
      destruct g; cbn in Hty; try contradiction. reflexivity. }
    assert (Hin : flat_map (inp KBool 0) gs = map GBool (map bool_of gs)).
    { rewrite <- Hg. clear. induction gs as [|x t IH]; [reflexivity|]. cbn. f_equal. exact IH. }
    rewrite Hin in Hseg1. rewrite seg_bool in Hseg1.
    destruct (segment bool_Encode bool_Flush boe (map bool_of gs)) as [[e2 b2]| |] eqn:Eseg; cbn in Hseg1; try discriminate.
    assert (b2 = b1) as -> by congruence. destruct Hf1 as [Hbi Hbv].
    pose proof (bits_yields _ _ boe e2 b1 _ Hbi Hbv Eseg Hsv1) as Hy.
    eapply yields_bool; [exact Hk|reflexivity|exact Hy].
  - (* float *)
    assert (Hg : exists xs, gs = map GFloat xs /\ Forall is_u32 xs).
    { clear - Hty. induction Hty as [|g t Hg Ht IH]; [exists []; split; [reflexivity|constructor]|].
      destruct IH as (xs & -> & Hx). destruct g; cbn in Hg; try contradiction. exists (bits :: xs). split; [reflexivity|constructor; assumption]. }
    destruct Hg as (xs & -> & Hx).
    assert (Hin : flat_map (inp KFloat 0) (map GFloat xs) = map GFloat xs).
    { clear. induction xs as [|x t IH]; [reflexivity|]. cbn. f_equal. exact IH. }
    rewrite Hin, (seg_raw EFloat GFloat float_Encode) in Hseg1 by reflexivity.
    assert (b1 = flat_map float_Encode xs) as -> by congruence.
    eapply (yields_prog _ _ DecodeFloat GFloat); [|reflexivity|].
    { intros c' Hc'. unfold Column.nextValue. rewrite Hc'. cbn [setData cr_kind]. rewrite Hk. reflexivity. }
    eapply yields_raw; [|exact Hsv1]. intros x t Hin'. apply DecodeFloat_Encode. rewrite Forall_forall in Hx. apply (Hx x Hin').
  - (* double *)
    assert (Hg : exists xs, gs = map GDouble xs /\ Forall is_u64 xs).
    { clear - Hty. induction Hty as [|g t Hg Ht IH]; [exists []; split; [reflexivity|constructor]|].
      destruct IH as (xs & -> & Hx). destruct g; cbn in Hg; try contradiction. exists (bits :: xs). split; [reflexivity|constructor; assumption]. }
    destruct Hg as (xs & -> & Hx).
    assert (Hin : flat_map (inp KDouble 0) (map GDouble xs) = map GDouble xs).
    { clear. induction xs as [|x t IH]; [reflexivity|]. cbn. f_equal. exact IH. }
    rewrite Hin, (seg_raw EDouble GDouble double_Encode) in Hseg1 by reflexivity.
    assert (b1 = flat_map double_Encode xs) as -> by congruence.
    eapply (yields_prog _ _ DecodeDouble GDouble); [|reflexivity|].
    { intros c' Hc'. unfold Column.nextValue. rewrite Hc'. cbn [setData cr_kind]. rewrite Hk. reflexivity. }
    eapply yields_raw; [|exact Hsv1]. intros x t Hin'. apply DecodeDouble_Encode. rewrite Forall_forall in Hx. apply (Hx x Hin').
  - (* string *)
    inversion Hp''; subst. destruct Hf2 as [Hk2 Hf2].
    destruct offs as [|[s2 off2] offs]; cbn [Served] in Hs; try contradiction.
    destruct Hs as (Hsk2 & (e2 & b2 & Hseg2 & Hsv2) & Hs). rewrite Hk2 in Hsk2.
    destruct (it_enc it2) as [be2|boe2|ie2| | | |] eqn:Hie2; cbn [Fresh] in Hf2; try contradiction.
    destruct offs as [|[? ?] ?]; cbn [Served] in Hs; try contradiction.
    assert (Hg : exists ss, gs = map GString ss /\ Forall (fun s => zlen s < W63) ss).
    { clear - Hty. induction Hty as [|g t Hg Ht IH]; [exists []; split; [reflexivity|constructor]|].
      destruct IH as (xs & -> & Hx). destruct g; cbn in Hg; try contradiction. exists (s :: xs). split; [reflexivity|constructor; [apply Hg|assumption]]. }
    destruct Hg as (ss & -> & Hz).
    assert (Hin1 : flat_map (inp KString 0) (map GString ss) = map GBytes ss).
    { clear. induction ss as [|x t IH]; [reflexivity|]. cbn. f_equal. exact IH. }
    assert (Hin2 : flat_map (inp KString 1) (map GString ss) = map GUint64 (map zlen ss)).
    { clear. induction ss as [|x t IH]; [reflexivity|]. cbn. f_equal. exact IH. }
    rewrite Hin1, (seg_raw EString GBytes string_Encode) in Hseg1 by reflexivity.
    assert (b1 = flat_map string_Encode ss) as -> by congruence.
    destruct Hf2 as [Hiv His]. cbn in His. rewrite Hin2, seg_uint64 in Hseg2 by exact His.
    destruct (segment int_Encode int_Flush ie2 (map zlen ss)) as [[e3 b3]| |] eqn:Eseg; cbn in Hseg2; try discriminate.
    assert (b3 = b2) as -> by congruence.
    cbn [carried] in Hca. rewrite map_map in Hca. cbn [int_of] in Hca.
    pose proof (carried_yields false _ ie2 e3 b2 _ Hca Hiv His Eseg Hsv2) as Hy. cbv iota in Hy.
    cbn [InitStreams]. unfold InitStream. rewrite Hsk1, Hk. cbn [Z.eqb Pos.eqb dataReader rbind].
    rewrite Hsk2. cbn [Z.eqb Pos.eqb setData cr_kind]. rewrite Hk. cbn [rbind].
    eexists. split; [reflexivity|]. do 4 (split; [first [reflexivity|exact Hk]|]). cbn [back].
    eapply yields_string; [exact Hk|reflexivity|reflexivity|exact Hz| |exact Hy].
    replace (concat ss) with (flat_map string_Encode ss); [exact Hsv1|].
    rewrite flat_map_concat_map. unfold string_Encode. rewrite map_id. reflexivity.
Qed.

(** ** Rows *)
Definition rowNext (c : colR) : res (option gval * colR) :=
  let! (v, c') := nextRow inflate o c {| Null := false; V := GNil |} in Ok (row_of v, c').
(** Rows from presence bits and values, as long as both last. *)
Fixpoint deal (bits : list bool) (gs : list gval) : list (option gval) :=
  match bits with
  | [] => []
  | false :: b => None :: deal b gs
  | true :: b => match gs with g :: t => Some g :: deal b t | [] => [] end
  end.

Lemma nextValue_present c p : leaf (cr_kind c) = true ->
  nextValue (setPresent p c) GNil = (let! (g, c') := nextValue c GNil in Ok (g, setPresent p c')).
Proof.
  intros Hl. unfold Column.nextValue. cbn [cr_kind setPresent]. destruct (cr_kind c); try discriminate; cbn [cr_data cr_second setPresent].
  all: try (destruct (nextRun _ _ _ _) as [[? ?]| |]; reflexivity).
  all: try (destruct (nextRaw _ _ _ _) as [[? ?]| |]; reflexivity).
  - destruct (nextBool _ _ _) as [[? ?]| |]; reflexivity.
  - destruct (nextSecond _ _ _ _) as [[? ?]| |]; cbn [rbind]; try reflexivity.
    destruct (nextRaw _ _ _ _) as [[? ?]| |]; reflexivity.
Qed.
Lemma nextValue_same c old g c' : nextValue c old = Ok (g, c') ->
  cr_kind c' = cr_kind c /\ cr_present c' = cr_present c /\ cr_hasNulls c' = cr_hasNulls c /\ cr_index c' = cr_index c.
Proof.
  unfold Column.nextValue. intros H. destruct (cr_kind c) eqn:Ek; try discriminate;
    repeat (apply rbind_inv in H; let x := fresh "x" in destruct H as ([x ?] & _ & H));
    try (destruct old; try discriminate);
    match type of H with Ok (_, ?x) = _ => assert (c' = x) as -> by congruence end; cbn; auto.
Qed.
Lemma yields_setPresent c p gs : leaf (cr_kind c) = true -> Yields nv c gs -> Yields nv (setPresent p c) gs.
Proof.
  intros Hl Hy. induction Hy as [c|c x c' xs Hx Hy IH]; [constructor|]. econstructor.
  - cbv beta in *. rewrite nextValue_present by exact Hl. rewrite Hx. cbn [rbind]. reflexivity.
  - apply IH. apply nextValue_same in Hx. destruct Hx as (-> & _). exact Hl.
Qed.

Lemma yields_rows_bits bits : forall c b gs, leaf (cr_kind c) = true -> cr_present c = Some b ->
  Yields (bool_Next inflate o) b bits -> Yields nv c gs -> Yields rowNext c (deal bits gs).
Proof.
  induction bits as [|x t IH]; intros c b gs Hl Hp Hb Hg; [constructor|].
  inversion Hb as [|? ? b' ? Hx Hb']; subst. cbn [deal].
  assert (Hpr : nextPresent inflate o c false = Ok (negb x, setPresent b' c)).
  { unfold nextPresent. rewrite Hp, Hx. reflexivity. }
  destruct x.
  - destruct gs as [|g gs]; [constructor|].
    apply yields_setPresent with (p := b') in Hg; [|exact Hl]. inversion Hg as [|? ? c' ? Hn Hg']; subst. cbv beta in Hn.
    econstructor.
    + unfold rowNext, nextRow. cbn [Null V]. rewrite Hpr. cbn [rbind negb]. rewrite Hn. cbn [rbind]. reflexivity.
    + apply nextValue_same in Hn. destruct Hn as (Hk & Hp' & _). apply (IH c' b'); [rewrite Hk; exact Hl|exact Hp'|exact Hb'|exact Hg'].
  - econstructor.
    + unfold rowNext, nextRow. cbn [Null V]. rewrite Hpr. cbn [rbind negb]. reflexivity.
    + apply (IH _ b'); auto. apply yields_setPresent; assumption.
Qed.
Lemma yields_rows_all gs : forall c, leaf (cr_kind c) = true -> cr_present c = None ->
  Yields nv c gs -> Yields rowNext c (map Some gs).
Proof.
  induction gs as [|g t IH]; intros c Hl Hp Hy; [constructor|]. inversion Hy as [|? ? c' ? Hn Hy']; subst. cbv beta in Hn.
  cbn [map]. econstructor.
  - unfold rowNext, nextRow, nextPresent. cbn [Null V]. rewrite Hp. cbn [rbind]. rewrite Hn. cbn [rbind]. reflexivity.
  - apply nextValue_same in Hn. destruct Hn as (Hk & Hp' & _). apply IH; congruence.
Qed.
Lemma rowNext_same c r c' : rowNext c = Ok (r, c') ->
  cr_kind c' = cr_kind c /\ (cr_present c' = None <-> cr_present c = None) /\ cr_hasNulls c' = cr_hasNulls c /\ cr_index c' = cr_index c.
Proof.
  unfold rowNext, nextRow, nextPresent. cbn [Null V]. intros H.
  apply rbind_inv in H. destruct H as ([v c2] & H & Hr). assert (c' = c2) as -> by congruence. clear Hr.
  apply rbind_inv in H. destruct H as ([n c1] & Hp & H).
  assert (H1 : cr_kind c1 = cr_kind c /\ (cr_present c1 = None <-> cr_present c = None) /\ cr_hasNulls c1 = cr_hasNulls c /\ cr_index c1 = cr_index c).
  { destruct (cr_present c) as [b|] eqn:E.
    - apply rbind_inv in Hp. destruct Hp as ([p b'] & _ & Hp). assert (c1 = setPresent b' c) as -> by congruence.
      cbn. split; [reflexivity|]. split; [split; discriminate|]. auto.
    - assert (c1 = c) as -> by congruence. rewrite E. tauto. }
  destruct n.
  - assert (c2 = c1) as -> by congruence. exact H1.
  - apply rbind_inv in H. destruct H as ([g c3] & Hn & H). assert (c2 = c3) as -> by congruence.
    apply nextValue_same in Hn. destruct Hn as (-> & -> & -> & ->). exact H1.
Qed.
(** One row of a batch. *)
Lemma nextRow_old c v r c' : leaf (cr_kind c) = true -> (cr_present c = None -> Null v = false) ->
  rowNext c = Ok (r, c') -> exists v', nextRow inflate o c v = Ok (v', c') /\ row_of v' = r.
Proof.
  intros Hl Hn. unfold rowNext, nextRow. cbn [Null V]. intros H.
  apply rbind_inv in H. destruct H as ([x c2] & H & Hr). assert (c' = c2 /\ r = row_of x) as [-> ->] by (split; congruence). clear Hr.
  apply rbind_inv in H. destruct H as ([n c1] & Hp & H).
  assert (Hp' : nextPresent inflate o c (Null v) = Ok (n, c1) /\ cr_kind c1 = cr_kind c).
  { unfold nextPresent in *. destruct (cr_present c) as [b|] eqn:E.
    - split; [exact Hp|]. apply rbind_inv in Hp. destruct Hp as ([p b'] & _ & Hp). assert (c1 = setPresent b' c) as -> by congruence. reflexivity.
    - rewrite Hn by reflexivity. split; [exact Hp|]. congruence. }
  destruct Hp' as [-> Hk]. cbn [rbind]. destruct n.
  - assert (c2 = c1 /\ row_of x = None) as [-> Hx]. { split; [congruence|]. assert (x = {| Null := true; V := GNil |}) as -> by congruence. reflexivity. }
    eexists. split; [reflexivity|]. rewrite Hx. reflexivity.
  - apply rbind_inv in H. destruct H as ([g c3] & Hg & H).
    rewrite nextValue_old by (rewrite Hk; exact Hl). rewrite Hg. cbn [rbind].
    eexists. split; [rewrite H; reflexivity|]. reflexivity.
Qed.
Lemma NextBatch_rows vec : forall c rows, leaf (cr_kind c) = true ->
  (cr_present c = None -> Forall (fun v => Null v = false) vec) ->
  Yields rowNext c rows -> (length vec <= length rows)%nat ->
  exists out c', NextBatch inflate o c vec = Ok (out, c') /\ rows_of out = firstn (length vec) rows /\
    Yields rowNext c' (skipn (length vec) rows) /\ cr_kind c' = cr_kind c /\ (cr_present c' = None <-> cr_present c = None).
Proof.
  induction vec as [|v t IH]; intros c rows Hl Hn Hy Hle.
  - exists [], c. cbn. tauto.
  - destruct rows as [|r rows]; cbn [length] in Hle; [lia|]. inversion Hy as [|? ? c1 ? Hr Hy']; subst.
    destruct (nextRow_old c v r c1 Hl) as (v' & Hv & Hrow); [|exact Hr|].
    { intros Hp. specialize (Hn Hp). inversion Hn; assumption. }
    pose proof (rowNext_same _ _ _ Hr) as (Hk & Hp & _).
    destruct (IH c1 rows) as (out & c' & Hb & Ho' & Hy2 & Hk2 & Hp2).
    + rewrite Hk. exact Hl.
    + intros Hc. apply Hp in Hc. specialize (Hn Hc). inversion Hn; assumption.
    + exact Hy'.
    + lia.
    + exists (v' :: out), c'. cbn [NextBatch length firstn skipn rows_of map]. rewrite Hv. cbn [rbind]. rewrite Hb. cbn [rbind].
      split; [reflexivity|]. split; [rewrite Hrow; f_equal; exact Ho'|]. split; [exact Hy2|]. split; [congruence|tauto].
Qed.
Lemma readBatches_rows vecs : forall c rows, leaf (cr_kind c) = true ->
  (cr_present c = None -> Forall (fun v => Null v = false) (concat vecs)) ->
  Yields rowNext c rows -> (length (concat vecs) <= length rows)%nat ->
  exists outs c', readBatches inflate o c vecs = Ok (outs, c') /\ map rows_of outs = cut vecs rows.
Proof.
  induction vecs as [|v t IH]; intros c rows Hl Hn Hy Hle; [exists [], c; split; reflexivity|].
  cbn [concat] in *. rewrite app_length in Hle.
  destruct (NextBatch_rows v c rows Hl) as (out & c1 & Hb & Hr & Hy1 & Hk & Hp); [|exact Hy|lia|].
  { intros Hc. specialize (Hn Hc). apply Forall_app in Hn. apply Hn. }
  destruct (IH c1 (skipn (length v) rows)) as (outs & c' & Hbs & Hrs).
  - rewrite Hk. exact Hl.
  - intros Hc. apply Hp in Hc. specialize (Hn Hc). apply Forall_app in Hn. apply Hn.
  - exact Hy1.
  - rewrite skipn_length. lia.
  - exists (out :: outs), c'. cbn [readBatches map cut]. rewrite Hb. cbn [rbind]. rewrite Hbs. cbn [rbind].
    split; [reflexivity|]. rewrite Hr, Hrs. reflexivity.
Qed.

(** ** The whole column *)
Definition planned (k : ckind) (hn : bool) : list (Z * enc) :=
  (if hn then [(sPRESENT, EBool (NewBoolEncoder (WriteIndex o)))] else []) ++ dataStreams k o.
Definition dataItems (hn : bool) (its : list item) : list item := if hn then tl its else its.
Definition firstStale (its : list item) : list bool := match its with it :: _ => it_stale it | [] => [] end.
Definition presentStale (hn : bool) (its : list item) : list bool := if hn then firstStale its else [].
Definition dataStale (hn : bool) (its : list item) : list bool := firstStale (dataItems hn its).

(** The rows that come back out of a stripe. *)
Definition rowsBack (k : ckind) (hn : bool) (sp sd : list bool) (vs : list value) : list (option gval) :=
  let gs := back k sd (nonnull (rows_of vs)) in
  if hn then deal (BoolSpec.stored sp (bitsOf vs)) gs else map Some gs.

Lemma Served_ext file its : forall offs a b, (forall i, a i = b i) -> Served file its offs a -> Served file its offs b.
Proof.
  induction its as [|it r IH]; intros [|[s off] offs] a b Hab H; cbn in *; auto.
  destruct H as (H1 & H2 & H3). rewrite <- Hab. split; [exact H1|]. split; [exact H2|].
  eapply IH; [|exact H3]. intros; apply Hab.
Qed.
Lemma insAll_false k vs i : insAll false k vs i = flat_map (inp k i) (nonnull (rows_of vs)).
Proof. rewrite <- inputs_nonnull. reflexivity. Qed.
Lemma insAll_data k vs i : insAll true k vs (S i) = flat_map (inp k i) (nonnull (rows_of vs)).
Proof. rewrite <- inputs_nonnull. reflexivity. Qed.
Lemma insAll_present k vs : insAll true k vs O = map GBool (bitsOf vs).
Proof. unfold insAll, bitsOf. induction vs as [|v t IH]; [reflexivity|]. cbn [flat_map map ins1 app]. f_equal. exact IH. Qed.

Lemma column_rows k hn vs file its offs : leaf k = true ->
  Forall (typed k) (nonnull (rows_of vs)) -> carried k (nonnull (rows_of vs)) ->
  Fits its (planned k hn) -> Served file its offs (insAll hn k vs) ->
  exists r, InitStreams file (newColR k hn) offs = Ok r /\ cr_kind r = k /\
    (cr_present r = None <-> hn = false) /\
    Yields rowNext r (rowsBack k hn (presentStale hn its) (dataStale hn its) vs).
Proof.
  intros Hl Hty Hca Hf Hs. unfold planned in Hf. destruct hn; cbn [app] in Hf.
  - inversion Hf as [|it0 p0 its' pl' [Hk0 Hf0] Hf']; subst. cbn [fst snd] in *.
    destruct offs as [|[s0 off0] offs]; cbn [Served] in Hs; try contradiction.
    destruct Hs as (Hsk & (e0 & b0 & Hseg & Hsv) & Hs).
    destruct (it_enc it0) as [be|boe|ie| | | |] eqn:Hie; cbn [Fresh] in Hf0; try contradiction. destruct Hf0 as [Hbi Hbv].
    rewrite insAll_present, seg_bool in Hseg.
    destruct (segment bool_Encode bool_Flush boe (bitsOf vs)) as [[e1 b1]| |] eqn:Eseg; cbn in Hseg; try discriminate.
    assert (b1 = b0) as -> by congruence.
    pose proof (bits_yields _ _ boe e1 b0 _ Hbi Hbv Eseg Hsv) as Hy.
    set (c0 := setPresent (newBoolReader (newReader file off0 (st_length s0))) (newColR k true)) in *.
    assert (Hi : InitStream file (newColR k true) s0 off0 = Ok c0).
    { unfold InitStream. rewrite Hsk, Hk0, Z.eqb_refl. cbn [newColR cr_kind cr_hasNulls]. destruct k; reflexivity. }
    destruct (data_yields k (nonnull (rows_of vs)) file c0 its' offs Hl eq_refl Hty Hca Hf') as (r & Hr & Hk & Hp & _ & _ & Hyv).
    { eapply Served_ext; [|exact Hs]. intros i. apply insAll_data. }
    exists r. cbn [InitStreams]. rewrite Hi. cbn [rbind]. split; [exact Hr|]. split; [exact Hk|].
    split; [rewrite Hp; split; discriminate|].
    eapply yields_rows_bits; [rewrite Hk; exact Hl|exact Hp|exact Hy|exact Hyv].
  - destruct (data_yields k (nonnull (rows_of vs)) file (newColR k false) its offs Hl eq_refl Hty Hca Hf) as (r & Hr & Hk & Hp & _ & _ & Hyv).
    { eapply Served_ext; [|exact Hs]. intros i. apply insAll_false. }
    exists r. split; [exact Hr|]. split; [exact Hk|]. split; [rewrite Hp; split; reflexivity|].
    apply yields_rows_all; [rewrite Hk; exact Hl|exact Hp|exact Hyv].
Qed.

(** ** Writing a stripe *)
Variable F : floats.
Variable stride : Z.
Definition Clean (c : colW) (its : list item) : Prop :=
  streams c = map (fun it => (it_kind it, newWriter (it_enc it))) its /\ Fits its (planned (cw_kind c) (hasNulls c)).

Lemma Clean_new id k hn : leaf k = true -> exists its, Clean (newColW o id k hn) its /\
  presentStale hn its = [] /\ dataStale hn its = [].
Proof.
  intros Hl. exists (map (fun p => {| it_kind := fst p; it_enc := snd p; it_stale := [] |}) (planned k hn)).
  assert (Hb : forall b, bool_inv (NewBoolEncoder b) [] [] /\ b_values (o_brl (NewBoolEncoder b)) = []).
  { intros b. split; [apply bool_New_inv|reflexivity]. }
  split; [split|].
  - unfold streams, newColW, planned. cbn [cw_present cw_data]. rewrite map_map. destruct hn; cbn [app map]; rewrite ?map_map; reflexivity.
  - unfold newColW, hasNulls. cbn [cw_kind cw_present].
    replace (match (if hn then _ else _) with Some _ => true | None => false end) with hn by (destruct hn; reflexivity).
    unfold Fits, planned. destruct hn; destruct k; try discriminate; cbn [dataStreams app map];
      repeat (constructor; [split; [reflexivity|]; cbn [fst snd it_enc it_stale Fresh]; try exact I; auto|]);
      try constructor.
    all: split; try reflexivity; apply byte_New_inv.
  - unfold presentStale, dataStale, dataItems, planned. destruct hn; destruct k; try discriminate; split; reflexivity.
Qed.

Lemma leaf_active k hn : leaf k = true -> active k hn = true.
Proof. unfold active. destruct k; try discriminate; reflexivity. Qed.
Lemma inputs_u8 k gs i : Forall (typed k) gs -> Forall (fun g => match g with GByte x => is_u8 x | _ => True end) (flat_map (inp k i) gs).
Proof.
  intros H. apply Forall_flat_map. eapply Forall_impl; [|exact H]. intros g Hg. unfold inp.
  destruct k; cbn [typed] in Hg; try contradiction; destruct g; try contradiction; cbn [puts];
    destruct i as [|[|[|i]]]; cbn [nth]; try (destruct i);
    repeat (apply Forall_cons; [first [exact I | assumption]|]); apply Forall_nil.
Qed.
Lemma is_bytes_all e ins : Forall (fun g => match g with GByte x => is_u8 x | _ => True end) ins -> is_bytes_ins e ins.
Proof. intros H. destruct e; cbn; auto. Qed.
Lemma insAll_u8 k hn vs i : Forall (typed k) (nonnull (rows_of vs)) ->
  Forall (fun g => match g with GByte x => is_u8 x | _ => True end) (insAll hn k vs i).
Proof.
  intros H. destruct hn; [destruct i as [|i]|].
  - rewrite insAll_present. apply Forall_map. apply Forall_forall. intros; exact I.
  - rewrite insAll_data. apply inputs_u8. exact H.
  - rewrite insAll_false. apply inputs_u8. exact H.
Qed.

(** Any column with streams, readable or not. *)
Lemma streams_new id k hn : streams (newColW o id k hn) = map (fun p => (fst p, newWriter (snd p))) (planned k hn).
Proof. unfold streams, newColW, planned. cbn [cw_present cw_data]. destruct hn; reflexivity. Qed.
Lemma column_served c its vs bs infos c3 : streams c = map (fun it => (it_kind it, newWriter (it_enc it))) its ->
  active (cw_kind c) (hasNulls c) = true -> cw_kind c <> KDict ->
  writeColumn deflate F o stride c vs = Ok (bs, infos, c3) ->
  forall pre post, zlen (pre ++ bs ++ post) < W64 ->
     Served (pre ++ bs ++ post) its (offsets (zlen pre) infos) (insAll (hasNulls c) (cw_kind c) vs).
Proof.
  intros Hst Ha Hnk H pre post Hlen. unfold writeColumn in H.
  apply rbind_inv in H. destruct H as (c1 & Hw & H). apply rbind_inv in H. destruct H as (c2 & Hfl & H).
  apply rbind_inv in H. destruct H as ([[bs' n] c3'] & Hwo & H).
  assert (bs' = bs /\ infos = c_Infos c3' /\ c3' = c3) as (-> & -> & ->) by (repeat split; congruence). clear H.
  destruct (writeRows_streams deflate F o stride vs c c1 Ha Hw) as (Hid1 & Hk1 & Hn1 & Hfed).
  assert (Hnd : cw_kind c1 <> KDict) by congruence.
  destruct (c_Flush_streams deflate o c1 c2 Hnd Hfl) as (Hid2 & Hk2 & Hn2 & _ & Hflu).
  destruct (c_WriteOut_streams o c2 bs n c3 Hwo) as (Hbs & Hn & Hid3 & Hk3 & Hn3 & Hst3).
  rewrite Hst in Hfed. pose proof (Fed_Flushed_Done _ _ _ _ Hfed Hflu) as Hd.
  assert (Hinf : c_Infos c3 = map (fun q => info (cw_id c) (fst q) (snd q)) (streams c2)).
  { rewrite c_Infos_streams, Hst3, map_map. apply map_ext. intros [k w]. cbn [fst snd]. unfold info.
    rewrite drained_length. f_equal. congruence. }
  rewrite Hinf. rewrite Hbs in *. apply Done_Served; assumption.
Qed.

(** One stripe: what it stores can be read back, and the writer is ready for another. *)
Lemma column_stripe c its vs bs infos c3 : Clean c its -> leaf (cw_kind c) = true ->
  Forall (typed (cw_kind c)) (nonnull (rows_of vs)) ->
  writeColumn deflate F o stride c vs = Ok (bs, infos, c3) ->
  (forall pre post, zlen (pre ++ bs ++ post) < W64 ->
     Served (pre ++ bs ++ post) its (offsets (zlen pre) infos) (insAll (hasNulls c) (cw_kind c) vs)) /\
  zlen bs = fold_right Z.add 0 (map st_length infos) /\
  Forall (fun s => st_column s = cw_id c) infos /\
  (forall c4, c_Reset o c3 = Ok c4 -> exists its', Clean c4 its' /\
     cw_kind c4 = cw_kind c /\ hasNulls c4 = hasNulls c /\ cw_id c4 = cw_id c /\
     presentStale (hasNulls c) its' = (if hasNulls c then next_stale (presentStale (hasNulls c) its) (bitsOf vs) else []) /\
     dataStale (hasNulls c) its' = (match cw_kind c with
        KBool => next_stale (dataStale (hasNulls c) its) (map bool_of (nonnull (rows_of vs))) | _ => [] end)).
Proof.
  intros [Hst Hf] Hl Hty H. unfold writeColumn in H.
  apply rbind_inv in H. destruct H as (c1 & Hw & H). apply rbind_inv in H. destruct H as (c2 & Hfl & H).
  apply rbind_inv in H. destruct H as ([[bs' n] c3'] & Hwo & H).
  assert (bs' = bs /\ infos = c_Infos c3' /\ c3' = c3) as (-> & -> & ->) by (repeat split; congruence). clear H.
  destruct (writeRows_streams deflate F o stride vs c c1 (leaf_active _ _ Hl) Hw) as (Hid1 & Hk1 & Hn1 & Hfed).
  assert (Hnd : cw_kind c1 <> KDict). { rewrite Hk1. destruct (cw_kind c); discriminate. }
  destruct (c_Flush_streams deflate o c1 c2 Hnd Hfl) as (Hid2 & Hk2 & Hn2 & _ & Hflu).
  destruct (c_WriteOut_streams o c2 bs n c3 Hwo) as (Hbs & Hn & Hid3 & Hk3 & Hn3 & Hst3).
  rewrite Hst in Hfed. pose proof (Fed_Flushed_Done _ _ _ _ Hfed Hflu) as Hd.
  assert (Hinf : c_Infos c3 = map (fun q => info (cw_id c) (fst q) (snd q)) (streams c2)).
  { rewrite c_Infos_streams, Hst3, map_map. apply map_ext. intros [k w]. cbn [fst snd]. unfold info.
    rewrite drained_length. f_equal. congruence. }
  rewrite Hinf. split; [|split; [|split]].
  - intros pre post Hlen. rewrite Hbs in *. apply Done_Served; assumption.
  - rewrite Hbs, map_map. cbn [info st_length]. clear - Hd Ho Hok. revert Hd. generalize (insAll (hasNulls c) (cw_kind c) vs). revert its.
    induction (streams c2) as [|[k w] r IH]; intros [|it its] ins Hd; cbn [Done] in Hd; try contradiction; [reflexivity|].
    destruct Hd as (-> & Hw & Hd). destruct (pipe_enc deflate inflate o Ho _ _ _ Hok Hw) as (? & _ & Hlen & _).
    cbn [map concat fold_right snd]. rewrite zlen_app, (IH _ _ Hd), Hlen. reflexivity.
  - apply Forall_map. apply Forall_forall. intros [k w] _. reflexivity.
  - intros c4 Hr. destruct (c_Reset_streams o c3 c4 Hr) as (Hid4 & Hk4 & Hn4 & Hst4).
    set (hn := hasNulls c) in *. set (k := cw_kind c) in *.
    destruct (Done_next its (planned k hn) (streams c2) (insAll hn k vs) Hd Hf) as [Hf' Hm'].
    { intros i it _. apply is_bytes_all, insAll_u8. exact Hty. }
    exists (nextItems its (streams c2) (insAll hn k vs)).
    assert (E1 : cw_kind c4 = k) by congruence. assert (E2 : hasNulls c4 = hn) by congruence. assert (E3 : cw_id c4 = cw_id c) by congruence.
    split; [split|].
    + rewrite Hm', Hst4, Hst3, map_map. apply map_ext. intros [q w]. cbn [fst snd]. rewrite drained_enc. reflexivity.
    + rewrite E1, E2. exact Hf'.
    + do 3 (split; [assumption|]). clear - Hd Hf Hty Hl. clearbody hn k.
      assert (Hm : map bool_of (map GBool (bitsOf vs)) = bitsOf vs) by (rewrite map_map; apply map_id).
      assert (Hg : k = KBool -> flat_map (inp KBool 0) (nonnull (rows_of vs)) = nonnull (rows_of vs)).
      { intros ->. clear - Hty. revert Hty. induction (nonnull (rows_of vs)) as [|g t IH]; [reflexivity|].
        intros H. inversion H; subst. cbn [flat_map]. rewrite IH by assumption. destruct g; cbn in *; try contradiction. reflexivity. }
      unfold planned in Hf. destruct hn; cbn [app] in Hf.
      * inversion Hf as [|it0 p0 its' pl' [Hk0 Hf0] Hf']; subst. cbn [fst snd] in *.
        destruct (streams c2) as [|[q0 w0] ss]; cbn [Done] in Hd; [contradiction|]. destruct Hd as (_ & _ & Hd).
        destruct (it_enc it0) as [be|boe|ie| | | |] eqn:Hie; cbn [Fresh] in Hf0; try contradiction.
        unfold presentStale, dataStale, dataItems.
        cbn [nextItems firstStale nextItem it_stale tl].
        rewrite Hie. cbn [staleAfter]. rewrite insAll_present, Hm. split; [reflexivity|].
        destruct k; try discriminate; cbn [dataStreams] in Hf';
          inversion Hf' as [|it1 p1 its'' pl'' [Hk1 Hf1] Hf'']; subst; cbn [fst snd] in *;
          destruct ss as [|[q1 w1] ss]; cbn [Done] in Hd; try contradiction;
          cbn [nextItems firstStale nextItem it_stale]; destruct (it_enc it1); cbn [Fresh] in Hf1; try contradiction;
          cbn [staleAfter]; try reflexivity.
        rewrite insAll_data, Hg by reflexivity. reflexivity.
      * unfold presentStale, dataStale, dataItems. split; [reflexivity|].
        destruct k; try discriminate; cbn [dataStreams] in Hf;
          inversion Hf as [|it1 p1 its'' pl'' [Hk1 Hf1] Hf'']; subst; cbn [fst snd] in *;
          destruct (streams c2) as [|[q1 w1] ss]; cbn [Done] in Hd; try contradiction;
          cbn [nextItems firstStale nextItem it_stale]; destruct (it_enc it1); cbn [Fresh] in Hf1; try contradiction;
          cbn [staleAfter]; try reflexivity.
        rewrite insAll_false, Hg by reflexivity. reflexivity.
Qed.

(** Without leftovers the rows come back. *)
Lemma stored_fresh bits : exists l, BoolSpec.stored [] bits = bits ++ l.
Proof. unfold BoolSpec.stored, pad8. destruct (_ ++ _) eqn:E; cbn [or_onto]; rewrite <- E; eexists; reflexivity. Qed.
Lemma deal_all vs : forall l gs, exists r,
  deal (bitsOf vs ++ l) (nonnull (rows_of vs) ++ gs) = rows_of vs ++ r.
Proof.
  induction vs as [|v t IH]; intros l gs; [eexists; reflexivity|]. destruct (IH l gs) as (r & Hr). exists r.
  unfold bitsOf, rows_of, nonnull in *. cbn [map flat_map app row_of]. unfold row_of at 1 3.
  destruct (Null v); cbn [negb deal app]; [|cbn [app]]; rewrite Hr; reflexivity.
Qed.
Lemma back_fresh k gs : Forall (typed k) gs -> exists l, back k [] gs = gs ++ l.
Proof.
  intros H. destruct k; try (exists []; rewrite app_nil_r; reflexivity).
  cbn [back]. destruct (stored_fresh (map bool_of gs)) as (l & ->). rewrite map_app, map_map. exists (map GBool l). f_equal.
  rewrite <- (map_id gs) at 2. apply map_ext_in. intros g Hg. rewrite Forall_forall in H. specialize (H g Hg).
  destruct g; cbn in H; try contradiction. reflexivity.
Qed.
Lemma no_nulls vs : Forall (fun v => Null v = false) vs -> map Some (nonnull (rows_of vs)) = rows_of vs.
Proof.
  intros H. induction H as [|v t Hv Ht IH]; [reflexivity|]. unfold rows_of, nonnull in *. cbn [map flat_map].
  unfold row_of at 1 3. rewrite Hv. cbn [app map]. rewrite IH. reflexivity.
Qed.
Lemma rowsBack_fresh k hn vs : Forall (typed k) (nonnull (rows_of vs)) ->
  (hn = false -> Forall (fun v => Null v = false) vs) -> exists r, rowsBack k hn [] [] vs = rows_of vs ++ r.
Proof.
  intros Hty Hn. unfold rowsBack. destruct (back_fresh k _ Hty) as (l & ->). destruct hn.
  - destruct (stored_fresh (bitsOf vs)) as (l2 & ->). apply deal_all.
  - rewrite map_app, no_nulls by auto. eexists. reflexivity.
Qed.
Lemma cut_app {A B} (vecs : list (list B)) : forall (l r : list A), (length (concat vecs) <= length l)%nat ->
  cut vecs (l ++ r) = cut vecs l.
Proof.
  induction vecs as [|v t IH]; intros l r H; [reflexivity|]. cbn [cut concat] in *. rewrite app_length in H.
  rewrite firstn_app, skipn_app. replace (length v - length l)%nat with O by lia. cbn [firstn skipn]. rewrite app_nil_r.
  f_equal. apply IH. rewrite skipn_length. lia.
Qed.

(** A column written once and read back at its offsets. *)
Lemma stripe_reads_back c its vs bs infos c3 : Clean c its -> leaf (cw_kind c) = true ->
  Forall (typed (cw_kind c)) (nonnull (rows_of vs)) -> carried (cw_kind c) (nonnull (rows_of vs)) ->
  writeColumn deflate F o stride c vs = Ok (bs, infos, c3) ->
  reads_back inflate o (cw_kind c) (hasNulls c) bs infos
    (rowsBack (cw_kind c) (hasNulls c) (presentStale (hasNulls c) its) (dataStale (hasNulls c) its) vs).
Proof.
  intros Hc Hl Hty Hca Hw pre post Hlen.
  destruct (column_stripe _ its vs bs infos c3 Hc Hl Hty Hw) as (Hs & _ & _ & _). specialize (Hs pre post Hlen).
  destruct Hc as [_ Hf].
  destruct (column_rows _ _ vs _ its _ Hl Hty Hca Hf Hs) as (r & Hr & Hk & Hp & Hy).
  exists r. split; [exact Hr|]. intros vecs Hle Hv.
  apply readBatches_rows; auto; [rewrite Hk; exact Hl|]. intros H. apply Hv. apply Hp. exact H.
Qed.
Lemma reads_back_prefix k hn bs infos rows x : reads_back inflate o k hn bs infos (rows ++ x) ->
  reads_back inflate o k hn bs infos rows.
Proof.
  intros H pre post Hlen. destruct (H pre post Hlen) as (r & Hr & Hb). exists r. split; [exact Hr|].
  intros vecs Hle Hv. destruct (Hb vecs) as (outs & r' & Ho' & Hm); [rewrite app_length; lia|exact Hv|].
  exists outs, r'. split; [exact Ho'|]. rewrite Hm. apply cut_app. exact Hle.
Qed.
Lemma column_round_trip id k hn vs bs infos c3 : leaf k = true ->
  Forall (typed k) (nonnull (rows_of vs)) -> (hn = false -> Forall (fun v => Null v = false) vs) ->
  carried k (nonnull (rows_of vs)) ->
  writeColumn deflate F o stride (newColW o id k hn) vs = Ok (bs, infos, c3) ->
  reads_back inflate o k hn bs infos (rows_of vs).
Proof.
  intros Hl Hty Hn Hca Hw. destruct (Clean_new id k hn Hl) as (its & Hc & Hsp & Hsd).
  assert (Hhn : hasNulls (newColW o id k hn) = hn) by (destruct hn; reflexivity).
  pose proof (stripe_reads_back _ its vs bs infos c3 Hc Hl Hty Hca Hw) as H. rewrite Hhn in H. cbn [newColW cw_kind] in H.
  rewrite Hsp, Hsd in H. destruct (rowsBack_fresh k hn vs Hty Hn) as (x & Hx). rewrite Hx in H.
  eapply reads_back_prefix. exact H.
Qed.

(** Stripe after stripe. *)
Fixpoint stripesBack (k : ckind) (hn : bool) (sp sd : list bool) (segs : list (list value)) : list (list (option gval)) :=
  match segs with
  | [] => []
  | vs :: t => rowsBack k hn sp sd vs ::
      stripesBack k hn (if hn then next_stale sp (bitsOf vs) else [])
        (match k with KBool => next_stale sd (map bool_of (nonnull (rows_of vs))) | _ => [] end) t
  end.
Lemma stripes_read_back segs : forall c its out, Clean c its -> leaf (cw_kind c) = true ->
  Forall (fun vs => Forall (typed (cw_kind c)) (nonnull (rows_of vs)) /\ carried (cw_kind c) (nonnull (rows_of vs))) segs ->
  writeStripes deflate F o stride c segs = Ok out ->
  Forall2 (fun q rows => reads_back inflate o (cw_kind c) (hasNulls c) (fst q) (snd q) rows) out
    (stripesBack (cw_kind c) (hasNulls c) (presentStale (hasNulls c) its) (dataStale (hasNulls c) its) segs).
Proof.
  induction segs as [|vs t IH]; intros c its out Hc Hl Hall H.
  - cbn in H. assert (out = []) as -> by congruence. constructor.
  - inversion Hall as [|? ? [Hty Hca] Hall']; subst. cbn [writeStripes] in H. apply rbind_inv in H. destruct H as ([[bs infos] c1] & Hw & H).
    pose proof (stripe_reads_back _ its vs bs infos c1 Hc Hl Hty Hca Hw) as Hrb.
    destruct (column_stripe _ its vs bs infos c1 Hc Hl Hty Hw) as (_ & _ & _ & Hnext).
    destruct t as [|v2 t].
    + assert (out = [(bs, infos)]) as -> by congruence. cbn [stripesBack]. constructor; [exact Hrb|constructor].
    + apply rbind_inv in H. destruct H as (c2 & Hr & H). apply rbind_inv in H. destruct H as (r & H2 & H).
      assert (out = (bs, infos) :: r) as -> by congruence.
      destruct (Hnext c2 Hr) as (its' & Hc2 & Hk2 & Hn2 & _ & Hsp & Hsd).
      constructor; [exact Hrb|]. rewrite <- Hk2 in Hall', Hl.
      pose proof (IH c2 its' r Hc2 Hl Hall' H2) as Hf. rewrite Hk2, Hn2 in Hf. rewrite Hsp, Hsd in Hf. exact Hf.
Qed.
Definition whole8 {A} (l : list A) : Prop := (length l mod 8 = 0)%nat.
Lemma next_stale_whole bits : whole8 bits -> next_stale [] bits = [].
Proof. unfold next_stale, whole8. intros ->. destruct bits; reflexivity. Qed.
Lemma stripesBack_whole k hn segs : 
  Forall (fun vs => Forall (typed k) (nonnull (rows_of vs))) segs ->
  (hn = false -> Forall (fun vs => Forall (fun v => Null v = false) vs) segs) ->
  (hn = true -> Forall whole8 (removelast segs)) ->
  (k = KBool -> Forall (fun vs => whole8 (nonnull (rows_of vs))) (removelast segs)) ->
  Forall2 (fun rows vs => exists x, rows = rows_of vs ++ x) (stripesBack k hn [] [] segs) segs.
Proof.
  induction segs as [|vs t IH]; intros Hty Hn Hw Hb; [constructor|]. inversion Hty; subst.
  cbn [stripesBack]. constructor.
  { apply rowsBack_fresh; [assumption|]. intros E. specialize (Hn E). inversion Hn; assumption. }
  destruct t as [|v2 t]; [constructor|].
  replace (if hn then next_stale [] (bitsOf vs) else []) with (@nil bool).
  2: { destruct hn; [|reflexivity]. symmetry. apply next_stale_whole. specialize (Hw eq_refl). inversion Hw; subst.
       unfold whole8, bitsOf in *. rewrite map_length. assumption. }
  replace (match k with KBool => next_stale [] (map bool_of (nonnull (rows_of vs))) | _ => [] end) with (@nil bool).
  2: { destruct k; try reflexivity. symmetry. apply next_stale_whole. specialize (Hb eq_refl). inversion Hb; subst.
       unfold whole8 in *. rewrite map_length. assumption. }
  apply IH; [assumption| | |].
  - intros E. specialize (Hn E). inversion Hn; assumption.
  - intros E. specialize (Hw E). inversion Hw; assumption.
  - intros E. specialize (Hb E). inversion Hb; assumption.
Qed.
Lemma column_stripes_round_trip id k hn segs out : leaf k = true ->
  Forall (fun vs => Forall (typed k) (nonnull (rows_of vs)) /\ carried k (nonnull (rows_of vs))) segs ->
  (hn = false -> Forall (fun vs => Forall (fun v => Null v = false) vs) segs) ->
  (hn = true -> Forall (fun vs => (length vs mod 8 = 0)%nat) (removelast segs)) ->
  (k = KBool -> Forall (fun vs => (length (nonnull (rows_of vs)) mod 8 = 0)%nat) (removelast segs)) ->
  writeStripes deflate F o stride (newColW o id k hn) segs = Ok out ->
  Forall2 (fun q vs => reads_back inflate o k hn (fst q) (snd q) (rows_of vs)) out segs.
Proof.
  intros Hl Hall Hn Hw Hb H. destruct (Clean_new id k hn Hl) as (its & Hc & Hsp & Hsd).
  assert (Hhn : hasNulls (newColW o id k hn) = hn) by (destruct hn; reflexivity).
  pose proof (stripes_read_back segs _ its out Hc Hl Hall H) as H1. rewrite Hhn in H1. cbn [newColW cw_kind] in H1. rewrite Hsp, Hsd in H1.
  assert (H2 : Forall2 (fun rows vs => exists x, rows = rows_of vs ++ x) (stripesBack k hn [] [] segs) segs).
  { apply stripesBack_whole; auto. eapply Forall_impl; [|exact Hall]. intros vs [Ht _]. exact Ht. }
  clear - H1 H2. revert H1 H2. generalize (stripesBack k hn [] [] segs). intros l H1. revert segs. induction H1 as [|q rows out l Hq Hr IH]; intros segs H2; inversion H2 as [|? vs ? segs' (x & Hx) H2']; subst; constructor.
  - eapply reads_back_prefix. exact Hq.
  - apply IH. assumption.
Qed.
End Serve.
