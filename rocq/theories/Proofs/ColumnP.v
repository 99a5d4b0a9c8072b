(** Column writers and readers: what the streams hold and what reading them gives. *)
From Coq Require Import ZifyBool ZifyNat.
From Verif.Model Require Import Go Codec ByteBool IntRle Chunk Stream Time File Column.
From Verif.Spec Require Import BoolSpec Session StreamSpec ChunkSpec ColumnSpec.
From Verif.Proofs Require Import Base CodecP SessionP ByteBoolP OrcIntP StreamP StreamClaimsP IntBytesP ReadP TimeP CodecClaimsP.

(** ** Encoders behind the interface *)
Definition lift {E E'} (C : E -> E') (r : res (E * list Z)) : res (E' * list Z) :=
  match r with Ok (e, b) => Ok (C e, b) | Err => Err | Panic => Panic end.

Section Lift.
Variables E V : Type.
Variable en : E -> V -> res (E * list Z).
Variable fl : E -> res (E * list Z).
Variable C : E -> enc.
Variable g : V -> gval.
Variable P : E -> Prop.
Hypothesis Henc : forall e x, P e -> encode (C e) (g x) = lift C (en e x).
Hypothesis Hpres : forall e x e' b, P e -> en e x = Ok (e', b) -> P e'.
Hypothesis Hfl : forall e, encFlush (C e) = lift C (fl e).

Lemma feed_lift vs : forall e, P e -> feed encode (C e) (map g vs) = lift C (feed en e vs).
Proof.
  induction vs as [|v t IH]; intros e He; cbn [map feed]; [reflexivity|].
  rewrite Henc by exact He. destruct (en e v) as [[e1 o1]| |] eqn:E1; cbn [lift rbind]; try reflexivity.
  rewrite IH by (eapply Hpres; eauto).
  destruct (feed en e1 t) as [[e2 o2]| |]; reflexivity.
Qed.
Lemma segment_lift vs e : P e -> segment encode encFlush (C e) (map g vs) = lift C (segment en fl e vs).
Proof.
  intros He. unfold segment. rewrite feed_lift by exact He.
  destruct (feed en e vs) as [[e1 o1]| |]; cbn [lift rbind]; try reflexivity.
  rewrite Hfl. destruct (fl e1) as [[e2 o2]| |]; reflexivity.
Qed.
End Lift.

Lemma seg_int64 e xs : i_signed e = true ->
  segment encode encFlush (EInt e) (map GInt64 xs) = lift EInt (segment int_Encode int_Flush e xs).
Proof.
  intros H. apply (segment_lift _ _ int_Encode int_Flush EInt GInt64 (fun e => i_signed e = true)).
  - intros e' x He. cbn [encode]. rewrite He. destruct (int_Encode e' x) as [[? ?]| |]; reflexivity.
  - intros e' x e'' b He Hx. apply int_Encode_signed in Hx. congruence.
  - intros e'. cbn [encFlush]. destruct (int_Flush e') as [[? ?]| |]; reflexivity.
  - exact H.
Qed.
Lemma seg_uint64 e xs : i_signed e = false ->
  segment encode encFlush (EInt e) (map GUint64 xs) = lift EInt (segment int_Encode int_Flush e xs).
Proof.
  intros H. apply (segment_lift _ _ int_Encode int_Flush EInt GUint64 (fun e => i_signed e = false)).
  - intros e' x He. cbn [encode]. rewrite He. destruct (int_Encode e' x) as [[? ?]| |]; reflexivity.
  - intros e' x e'' b He Hx. apply int_Encode_signed in Hx. congruence.
  - intros e'. cbn [encFlush]. destruct (int_Flush e') as [[? ?]| |]; reflexivity.
  - exact H.
Qed.
Lemma seg_byte e xs :
  segment encode encFlush (EByte e) (map GByte xs) = lift EByte (segment byte_Encode byte_Flush e xs).
Proof.
  apply (segment_lift _ _ byte_Encode byte_Flush EByte GByte (fun _ => True)); auto.
Qed.
Lemma seg_bool e xs :
  segment encode encFlush (EBool e) (map GBool xs) = lift EBool (segment bool_Encode bool_Flush e xs).
Proof.
  apply (segment_lift _ _ bool_Encode bool_Flush EBool GBool (fun _ => True)); auto.
Qed.
Lemma seg_raw {V} (C : enc) (g : V -> gval) (f : V -> list Z) vs :
  (forall x, encode C (g x) = Ok (C, f x)) -> encFlush C = Ok (C, []) ->
  segment encode encFlush C (map g vs) = Ok (C, flat_map f vs).
Proof.
  intros He Hf. unfold segment.
  assert (H : feed encode C (map g vs) = Ok (C, flat_map f vs)).
  { induction vs as [|v t IH]; cbn [map feed flat_map]; [reflexivity|]. rewrite He. cbn [rbind]. rewrite IH. reflexivity. }
  rewrite H. cbn [rbind]. rewrite Hf. cbn [rbind]. rewrite app_nil_r. reflexivity.
Qed.

(** Both readings of a boolean stream. *)
Lemma bool_segment_bytes seg e st : bool_inv e st [] -> b_values (o_brl e) = [] ->
  exists e' o bs, segment bool_Encode bool_Flush e seg = Ok (e', o) /\
    bool_inv e' (next_stale st seg) [] /\ b_values (o_brl e') = [] /\ bytes o /\
    Runs DecodeByteRL o bs /\ flat_map DecodeBoolsFromByte bs = BoolSpec.stored st seg.
Proof.
  intros He Hv. destruct (bool_segment_spec seg e st He Hv) as (e1 & o1 & H1 & Hi & Hv1 & Hb & _).
  destruct (bool_segment_gen seg e st [] He) as (e2 & o2 & bs & H2 & Hr & Hf).
  rewrite H1 in H2. assert (o2 = o1) as -> by congruence.
  rewrite Hv in Hr. cbn [app] in Hr, Hf. exists e1, o1, bs. unfold BoolSpec.stored. auto 10.
Qed.

(** ** Writers: every stream gets its values in order *)
Section Write.
Variable deflate : list (list Z) -> list Z -> res (list Z).
Variable inflate : list Z -> res (list Z).
Variable F : floats.
Variable o : opts.
Variable stride : Z.
Notation c_Write := (c_Write deflate F o stride).
Notation writeRows := (writeRows deflate F o stride).
Notation writeAll := (writeAll deflate encode o).

(** The streams of a column, PRESENT first. *)
Definition streams (c : colW) : list (Z * writer enc) :=
  (match cw_present c with Some p => [(sPRESENT, p)] | None => [] end) ++ cw_data c.

(** What one row puts into stream [i] after PRESENT. *)
Definition input (k : ckind) (v : value) (i : nat) : list gval :=
  if Null v then [] else
  match puts k (V v) with
  | Ok l => match nth i l None with Some x => [x] | None => [] end
  | _ => []
  end.
Definition inputs (k : ckind) (vs : list value) (i : nat) : list gval := flat_map (fun v => input k v i) vs.
Definition bitsOf (vs : list value) : list bool := map (fun v => negb (Null v)) vs.

(** Stream [i] of [ss'] is stream [i] of [ss] after [ins i]. *)
Fixpoint Fed (ss ss' : list (Z * writer enc)) (ins : nat -> list gval) : Prop :=
  match ss, ss' with
  | [], [] => True
  | (k, w) :: r, (k', w') :: r' => k' = k /\ writeAll w (ins O) = Ok w' /\ Fed r r' (fun i => ins (S i))
  | _, _ => False
  end.
Lemma Fed_ext ss : forall ss' a b, (forall i, a i = b i) -> Fed ss ss' a -> Fed ss ss' b.
Proof.
  induction ss as [|[k w] r IH]; intros [|[k' w'] r'] a b Hab H; cbn in *; auto.
  destruct H as (-> & H1 & H2). rewrite <- Hab. split; [reflexivity|]. split; [exact H1|].
  eapply IH; [|exact H2]. intros; apply Hab.
Qed.
Lemma Fed_nil ss : forall ins, (forall i, ins i = []) -> Fed ss ss ins.
Proof.
  induction ss as [|[k w] r IH]; intros ins H; cbn; auto. rewrite H. split; [reflexivity|]. split; [reflexivity|].
  apply IH. intros; apply H.
Qed.
Lemma writeAll_app w a b : writeAll w (a ++ b) = (let! w' := writeAll w a in writeAll w' b).
Proof.
  revert w. induction a as [|x t IH]; intros w; [reflexivity|]. cbn [app Verif.Spec.StreamSpec.writeAll].
  destruct (w_Write deflate encode o w x); cbn [rbind]; [apply IH|reflexivity|reflexivity].
Qed.
Lemma Fed_trans ss : forall ss1 ss2 a b, Fed ss ss1 a -> Fed ss1 ss2 b -> Fed ss ss2 (fun i => a i ++ b i).
Proof.
  induction ss as [|[k w] r IH]; intros [|[k1 w1] r1] [|[k2 w2] r2] a b H1 H2; cbn in *; try contradiction; auto.
  destruct H1 as (-> & H1 & H1'), H2 as (-> & H2 & H2'). split; [reflexivity|].
  split; [rewrite writeAll_app, H1; exact H2|]. eapply IH; eauto.
Qed.
Lemma writeEach_Fed ss : forall vs ss', writeEach deflate o ss vs = Ok ss' ->
  Fed ss ss' (fun i => match nth i vs None with Some x => [x] | None => [] end).
Proof.
  induction ss as [|[k w] r IH]; intros vs ss' H; cbn [writeEach] in H.
  - assert (ss' = []) as -> by congruence. exact I.
  - destruct vs as [|v vs].
    + assert (ss' = (k, w) :: r) as -> by congruence. apply Fed_nil. intros [|i]; reflexivity.
    + apply rbind_inv in H. destruct H as (w' & Hw & H). apply rbind_inv in H. destruct H as (r' & Hr & H).
      assert (ss' = (k, w') :: r') as -> by congruence. cbn [Fed]. split; [reflexivity|]. split.
      * cbn [nth]. destruct v as [x|]; [|exact Hw]. cbn [Verif.Spec.StreamSpec.writeAll]. unfold s_Write in Hw. rewrite Hw. reflexivity.
      * apply IH in Hr. eapply Fed_ext; [|exact Hr]. reflexivity.
Qed.
Lemma indexStep_same c v c' : indexStep F o stride c v = Ok c' ->
  cw_id c' = cw_id c /\ cw_kind c' = cw_kind c /\ cw_present c' = cw_present c /\ cw_data c' = cw_data c /\
  cw_pending c' = cw_pending c /\ cw_stats c' = cw_stats c.
Proof.
  unfold indexStep. match goal with |- context [if ?b then (?x, ?y, ?z) else ?e] => destruct (if b then (x, y, z) else e) as [[i s] n] end.
  intros H. apply rbind_inv in H. destruct H as (is & _ & H).
  match type of H with Ok ?x = _ => assert (c' = x) as -> by congruence end. cbn. auto 10.
Qed.
(** A struct column without nulls is left alone by Write. *)
Definition active (k : ckind) (hn : bool) : bool := negb (isKStruct k && negb hn).

Definition ins1 (hn : bool) (k : ckind) (v : value) (i : nat) : list gval :=
  if hn then match i with O => [GBool (negb (Null v))] | S j => input k v j end else input k v i.
Lemma c_Write_streams c v c' : active (cw_kind c) (hasNulls c) = true -> c_Write c v = Ok c' ->
  cw_id c' = cw_id c /\ cw_kind c' = cw_kind c /\ hasNulls c' = hasNulls c /\
  Fed (streams c) (streams c') (ins1 (hasNulls c) (cw_kind c) v).
Proof.
  intros Ha H. unfold Column.c_Write in H. unfold active in Ha.
  destruct (isKStruct (cw_kind c) && negb (hasNulls c)); [discriminate|]. clear Ha.
  apply rbind_inv in H. destruct H as (p & Hp & H).
  apply rbind_inv in H. destruct H as (d & Hd & H).
  apply rbind_inv in H. destruct H as (st & Hst & H).
  match type of H with (if _ then indexStep _ _ _ ?x _ else _) = _ => set (c0 := x) in * end.
  assert (Hc : cw_id c' = cw_id c /\ cw_kind c' = cw_kind c /\ cw_present c' = p /\ cw_data c' = d).
  { destruct (WriteIndex o && indexes (cw_kind c) (Null v)).
    - apply indexStep_same in H. destruct H as (H1 & H2 & H3 & H4 & _).
      rewrite H1, H2, H3, H4. cbn. auto.
    - assert (c' = c0) as -> by congruence. cbn. auto. }
  destruct Hc as (H1 & H2 & H3 & H4). clear H c0. split; [exact H1|]. split; [exact H2|].
  assert (Hdf : Fed (cw_data c) d (input (cw_kind c) v)).
  { destruct (Null v) eqn:En.
    - assert (d = cw_data c) as -> by congruence. apply Fed_nil. intros i. unfold input. rewrite En. reflexivity.
    - apply rbind_inv in Hd. destruct Hd as (vs & Hvs & Hd). apply writeEach_Fed in Hd.
      eapply Fed_ext; [|exact Hd]. intros i. unfold input. rewrite En, Hvs. reflexivity. }
  unfold hasNulls, streams in *. rewrite H3, H4. destruct (cw_present c) as [q|]; cbn [optM] in Hp.
  - apply rbind_inv in Hp. destruct Hp as (q' & Hq & Hp). assert (p = Some q') as -> by congruence.
    split; [reflexivity|]. cbn [app Fed ins1]. split; [reflexivity|]. split; [|exact Hdf].
    unfold s_Write in Hq. cbn [Verif.Spec.StreamSpec.writeAll]. rewrite Hq. reflexivity.
  - assert (p = None) as -> by congruence. split; [reflexivity|]. exact Hdf.
Qed.

Definition insAll (hn : bool) (k : ckind) (vs : list value) (i : nat) : list gval :=
  flat_map (fun v => ins1 hn k v i) vs.
Lemma writeRows_streams vs : forall c c', active (cw_kind c) (hasNulls c) = true -> writeRows c vs = Ok c' ->
  cw_id c' = cw_id c /\ cw_kind c' = cw_kind c /\ hasNulls c' = hasNulls c /\
  Fed (streams c) (streams c') (insAll (hasNulls c) (cw_kind c) vs).
Proof.
  induction vs as [|v t IH]; intros c c' Ha H; cbn [ColumnSpec.writeRows] in H.
  - assert (c' = c) as -> by congruence. do 3 (split; [reflexivity|]). apply Fed_nil. reflexivity.
  - apply rbind_inv in H. destruct H as (c1 & H1 & H).
    destruct (c_Write_streams _ _ _ Ha H1) as (I1 & K1 & N1 & F1).
    rewrite <- K1, <- N1 in Ha. destruct (IH _ _ Ha H) as (I2 & K2 & N2 & F2).
    split; [congruence|]. split; [congruence|]. split; [congruence|].
    rewrite K1, N1 in F2. eapply Fed_ext; [|eapply Fed_trans; eassumption]. reflexivity.
Qed.

(** Flush. *)
Fixpoint Flushed (ss ss' : list (Z * writer enc)) : Prop :=
  match ss, ss' with
  | [], [] => True
  | (k, w) :: r, (k', w') :: r' => k' = k /\ s_Flush deflate o w = Ok w' /\ Flushed r r'
  | _, _ => False
  end.
Lemma mapM_Flushed ss : forall ss', mapM (onWriter (s_Flush deflate o)) ss = Ok ss' -> Flushed ss ss'.
Proof.
  induction ss as [|[k w] r IH]; intros ss' H; cbn [mapM] in H.
  - assert (ss' = []) as -> by congruence. exact I.
  - apply rbind_inv in H. destruct H as ([k' w'] & Hw & H). apply rbind_inv in H. destruct H as (r' & Hr & H).
    assert (ss' = (k', w') :: r') as -> by congruence. unfold onWriter in Hw. apply rbind_inv in Hw.
    destruct Hw as (w1 & Hw & Hk). cbn [fst snd] in *. assert (k' = k /\ w' = w1) as [-> ->] by (split; congruence).
    cbn [Flushed]. auto.
Qed.
Lemma c_Flush_streams c c' : cw_kind c <> KDict -> c_Flush deflate o c = Ok c' ->
  cw_id c' = cw_id c /\ cw_kind c' = cw_kind c /\ hasNulls c' = hasNulls c /\ cw_flushed c' = true /\
  Flushed (streams c) (streams c').
Proof.
  intros Hk H. unfold c_Flush in H. apply rbind_inv in H. destruct H as (d0 & Hd0 & H).
  assert (d0 = cw_data c) as ->.
  { unfold dictFill in Hd0. destruct (cw_kind c); try congruence. }
  apply rbind_inv in H. destruct H as (p & Hp & H). apply rbind_inv in H. destruct H as (d & Hd & H).
  match type of H with Ok ?x = _ => assert (c' = x) as -> by congruence end. clear H. cbn.
  do 2 (split; [reflexivity|]). unfold hasNulls, streams. cbn [cw_present cw_data].
  apply mapM_Flushed in Hd. destruct (cw_present c) as [q|]; cbn [optM] in Hp.
  - apply rbind_inv in Hp. destruct Hp as (q' & Hq & Hp). assert (p = Some q') as -> by congruence.
    split; [reflexivity|]. split; [reflexivity|]. cbn [app Flushed]. auto.
  - assert (p = None) as -> by congruence. auto.
Qed.

(** WriteOut. *)
Definition drained (w : writer enc) : writer enc := snd (w_WriteOut o w).
Lemma c_WriteOut_streams c bs n c' : c_WriteOut o c = Ok (bs, n, c') ->
  bs = concat (map (fun q => stored o (snd q)) (streams c)) /\ n = zlen bs /\
  cw_id c' = cw_id c /\ cw_kind c' = cw_kind c /\ hasNulls c' = hasNulls c /\
  streams c' = map (fun q => (fst q, drained (snd q))) (streams c).
Proof.
  unfold c_WriteOut. destruct (checksFlushed (cw_kind c) && negb (cw_flushed c)); [discriminate|].
  intros H. match type of H with Ok (?x, ?y, ?z) = _ => assert (bs = x) as Hb by congruence; assert (n = y) as Hn by congruence; assert (c' = z) as -> by congruence end.
  clear H. rewrite <- Hb in Hn. rewrite Hb. split; [|split; [rewrite <- Hb; exact Hn|]].
  - unfold streams. destruct (cw_present c) as [p|]; cbn [fst snd app map concat];
      rewrite !map_map; unfold stored.
    + destruct (w_WriteOut o p) as [b p'] eqn:E. cbn [fst snd]. f_equal. f_equal. apply map_ext.
      intros [k w]. cbn [snd]. destruct (w_WriteOut o w). reflexivity.
    + f_equal. apply map_ext. intros [k w]. cbn [snd]. destruct (w_WriteOut o w). reflexivity.
  - cbn. do 2 (split; [reflexivity|]). unfold hasNulls, streams, drained. cbn [cw_present cw_data]. rewrite map_map.
    destruct (cw_present c) as [p|]; cbn [snd map app fst].
    + destruct (w_WriteOut o p) as [b p']. cbn [snd app]. split; [reflexivity|]. f_equal. apply map_ext.
      intros [k w]. cbn. destruct (w_WriteOut o w). reflexivity.
    + split; [reflexivity|]. apply map_ext. intros [k w]. cbn. destruct (w_WriteOut o w). reflexivity.
Qed.
Lemma c_Infos_streams c : c_Infos c = map (fun q => info (cw_id c) (fst q) (snd q)) (streams c).
Proof. unfold c_Infos, streams. rewrite map_app. destruct (cw_present c); reflexivity. Qed.
Lemma drained_length w : w_length (drained w) = w_length w.
Proof. unfold drained, w_WriteOut. destruct (isNone _); reflexivity. Qed.
Lemma drained_enc w : w_enc (drained w) = w_enc w.
Proof. unfold drained, w_WriteOut. destruct (isNone _); reflexivity. Qed.

(** Reset. *)
Lemma w_Reset_new (w w' : writer enc) : w_Reset o w = Ok w' -> w' = newWriter (w_enc w) /\ CompressionKind o <> NONE.
Proof.
  unfold w_Reset. destruct (CompressionKind o); cbn [isNone]; try discriminate; intros H; split; try discriminate; unfold newWriter; congruence.
Qed.
Lemma c_Reset_streams c c' : c_Reset o c = Ok c' ->
  cw_id c' = cw_id c /\ cw_kind c' = cw_kind c /\ hasNulls c' = hasNulls c /\
  streams c' = map (fun q => (fst q, newWriter (w_enc (snd q)))) (streams c).
Proof.
  unfold c_Reset. intros H. apply rbind_inv in H. destruct H as (p & Hp & H). apply rbind_inv in H. destruct H as (d & Hd & H).
  match type of H with Ok ?x = _ => assert (c' = x) as -> by congruence end. clear H. cbn.
  do 2 (split; [reflexivity|]).
  assert (Hd' : d = map (fun q => (fst q, newWriter (w_enc (snd q)))) (cw_data c)).
  { revert d Hd. induction (cw_data c) as [|[k w] r IH]; intros d Hd; cbn [mapM] in Hd; [cbn; congruence|].
    apply rbind_inv in Hd. destruct Hd as ([k' w'] & Hw & Hd). apply rbind_inv in Hd. destruct Hd as (r' & Hr & Hd).
    unfold onWriter in Hw. apply rbind_inv in Hw. destruct Hw as (w1 & Hw & Hk). cbn [fst snd] in *.
    apply w_Reset_new in Hw. destruct Hw as [-> _].
    assert (d = (k', w') :: r') as -> by congruence. cbn [map fst snd]. rewrite <- (IH _ Hr). congruence. }
  unfold hasNulls, streams. cbn [cw_present cw_data]. rewrite map_app, Hd'. destruct (cw_present c) as [q|]; cbn [optM] in Hp.
  - apply rbind_inv in Hp. destruct Hp as (q' & Hq & Hp). apply w_Reset_new in Hq. destruct Hq as [-> _].
    assert (p = Some (newWriter (w_enc q))) as -> by congruence. auto.
  - assert (p = None) as -> by congruence. auto.
Qed.
End Write.
