(** The integer encoder emits bytes only, and what it emits does not depend on the
    position counter. *)
From Verif.Model Require Import Go Codec IntRle.
From Verif.Spec Require Import Session.
From Verif.Proofs Require Import Base CodecP SessionP.

Local Ltac byt := repeat (apply Forall_cons); try (apply Forall_nil).

Lemma u8_byte x : is_u8 (u8 x).
Proof. unfold is_u8, u8. apply Z.mod_pos_bound. lia. Qed.
Lemma is_u8_testbit x : 0 <= x -> (forall n, 8 <= n -> Z.testbit x n = false) -> is_u8 x.
Proof.
  intros H0 H. split; [assumption|]. destruct (Z.eq_dec x 0); [lia|].
  apply (Z.log2_lt_pow2 x 8); [lia|]. destruct (Z.lt_ge_cases (Z.log2 x) 8) as [|Hl]; [assumption|].
  specialize (H _ Hl). rewrite Z.bit_log2 in H by lia. discriminate.
Qed.
Lemma testbit_u8 x n : is_u8 x -> 8 <= n -> Z.testbit x n = false.
Proof.
  intros [H0 H1] Hn. destruct (Z.eq_dec x 0) as [->|]; [apply Z.bits_0|].
  apply Z.bits_above_log2; [lia|]. assert (Z.log2 x < 8) by (apply Z.log2_lt_pow2; lia). lia.
Qed.
Lemma lor_byte a b : is_u8 a -> is_u8 b -> is_u8 (Z.lor a b).
Proof.
  intros Ha Hb. apply is_u8_testbit; [apply Z.lor_nonneg; split; [apply Ha|apply Hb]|].
  intros n Hn. rewrite Z.lor_spec, !testbit_u8 by assumption. reflexivity.
Qed.
Lemma land_byte a b : is_u8 a -> is_u8 (Z.land a b).
Proof.
  intros Ha. apply is_u8_testbit; [apply Z.land_nonneg; left; apply Ha|].
  intros n Hn. rewrite Z.land_spec, testbit_u8 by assumption. reflexivity.
Qed.
Lemma land_byte_r a b : is_u8 b -> is_u8 (Z.land a b).
Proof. rewrite Z.land_comm. apply land_byte. Qed.

Local Ltac b8 :=
  first [apply u8_byte | apply lor_byte; b8 | apply land_byte; b8 | apply land_byte_r; b8
        | unfold is_u8; lia].

Lemma wb_loop_bytes f : forall v t, bytes (fst (wb_loop f v t)).
Proof.
  induction f as [|f IH]; intros v t; cbn [wb_loop]; [constructor|].
  destruct (t <? 8); [constructor|]. specialize (IH v (t - 8)).
  destruct (wb_loop f v (t - 8)) as [bs r]. cbn [fst] in *. constructor; [b8|exact IH].
Qed.
Lemma writeBits_bytes st v b st' o : writeBits st v b = Ok (st', o) -> bytes o.
Proof.
  unfold writeBits. destruct st as [lb bl]. destruct (64 <? bl + b); [discriminate|].
  match goal with |- context [wb_loop 8 ?v ?t] => pose proof (wb_loop_bytes 8 v t); destruct (wb_loop 8 v t) end.
  intros Heq. assert (l = o) as <- by congruence. assumption.
Qed.
Lemma writeBitsAll_bytes vs : forall st b st' o, writeBitsAll st vs b = Ok (st', o) -> bytes o.
Proof.
  induction vs as [|v t IH]; intros st b st' o; cbn [writeBitsAll].
  - intros H. assert (o = []) as -> by congruence. constructor.
  - destruct (writeBits st v b) as [[st1 o1]| |] eqn:E1; cbn [rbind]; try discriminate.
    destruct (writeBitsAll st1 t b) as [[st2 o2]| |] eqn:E2; cbn [rbind]; try discriminate.
    intros H. assert (o = o1 ++ o2) as -> by congruence.
    apply bytes_app. split; [eapply writeBits_bytes; eauto|eapply IH; eauto].
Qed.
Lemma packBits_bytes vs b o : packBits vs b = Ok o -> bytes o.
Proof.
  unfold packBits. destruct (writeBitsAll (0, 0) vs b) as [[st o1]| |] eqn:E1; cbn [rbind]; try discriminate.
  intros H. assert (o = o1 ++ writeLeftBits st) as -> by congruence.
  apply bytes_app. split; [eapply writeBitsAll_bytes; eauto|].
  unfold writeLeftBits. destruct st as [lb bl]. destruct (negb (bl =? 0)); byt. b8.
Qed.
Lemma writeDirect_bytes vs a o : writeDirect vs a = Ok o -> bytes o.
Proof.
  unfold writeDirect. destruct (widthEncoding _) as [ew| |]; cbn [rbind]; try discriminate.
  destruct (packBits vs _) as [p| |] eqn:Ep; cbn [rbind]; try discriminate.
  intros H. match type of H with Ok ?x = _ => assert (o = x) as -> by congruence end.
  constructor; [b8|]. constructor; [b8|]. eapply packBits_bytes; eauto.
Qed.
Lemma pack2_bytes : forall l, bytes (pack2 l).
Proof.
  fix IH 1. intros [|a [|b [|c [|d t]]]]; cbn [pack2]; byt; try b8. apply IH.
Qed.
Lemma pack4_bytes : forall l, bytes (pack4 l).
Proof. fix IH 1. intros [|a [|b t]]; cbn [pack4]; byt; try b8. apply IH. Qed.
Lemma be_bytes_bytes n v : bytes (be_bytes n v).
Proof. induction n; cbn [be_bytes]; constructor; [b8|assumption]. Qed.
Lemma packDeltas_bytes w ds o : packDeltas w ds = Ok o -> bytes o.
Proof.
  unfold packDeltas. destruct ds as [|d t]; [intros H; assert (o = []) as -> by congruence; constructor|].
  remember (d :: t) as l.
  destruct (w =? 2); [intros H; assert (o = pack2 l) as -> by congruence; apply pack2_bytes|].
  destruct (w =? 4); [intros H; assert (o = pack4 l) as -> by congruence; apply pack4_bytes|].
  match goal with |- (if ?b then _ else _) = _ -> _ => destruct b end; [|discriminate].
  intros H. match type of H with Ok ?x = _ => assert (o = x) as -> by congruence end.
  clear. induction l; cbn [flat_map]; [constructor|]. apply bytes_app. split; [apply be_bytes_bytes|assumption].
Qed.
Lemma PutUvarint_bytes room : forall x o, PutUvarint room x = Ok o -> bytes o.
Proof.
  induction room as [|r IH]; intros x o; cbn [PutUvarint]; try discriminate.
  destruct (x <? 128); [intros H; injection H as <-; byt; b8|].
  destruct (PutUvarint r _) as [t| |] eqn:Et; cbn [rbind]; try discriminate.
  intros H. injection H as <-. constructor; [b8|eapply IH; eauto].
Qed.
Lemma writeDelta_bytes first db len ds o : bytes first -> writeDelta first db len ds = Ok o -> bytes o.
Proof.
  intros Hf. unfold writeDelta. destruct (widthEncoding _) as [w| |]; cbn [rbind]; try discriminate.
  destruct (PutVarint 8 db) as [b| |] eqn:Eb; cbn [rbind]; try discriminate.
  destruct (packDeltas _ ds) as [p| |] eqn:Ep; cbn [rbind]; try discriminate.
  intros H. match type of H with Ok ?x = _ => assert (o = x) as -> by congruence end.
  constructor; [b8|]. constructor; [b8|]. apply bytes_app; split; [assumption|].
  apply bytes_app; split; [eapply PutUvarint_bytes; eauto|eapply packDeltas_bytes; eauto].
Qed.
Lemma sr_loop_bytes n : forall x w, bytes (snd (sr_loop n x w)).
Proof.
  induction n as [|n IH]; intros x w; cbn [sr_loop]; [constructor|].
  destruct (negb _); [|apply IH].
  match goal with |- context [sr_loop n x ?w'] => specialize (IH x w'); destruct (sr_loop n x w') end.
  cbn [snd] in *. constructor; [b8|assumption].
Qed.
Lemma writeShortRepeat_bytes c x : bytes (writeShortRepeat c x).
Proof.
  unfold writeShortRepeat. pose proof (sr_loop_bytes 8 x 0) as H. destruct (sr_loop 8 x 0) as [w bb].
  cbn [snd] in H. constructor; [b8|assumption].
Qed.
Lemma writePatch_bytes p o : writePatch p = Ok o -> bytes o.
Proof.
  unfold writePatch. destruct (widthEncoding (p_width p)) as [w| |]; cbn [rbind]; try discriminate.
  destruct (widthEncoding (maxWidth _ _)) as [pw| |]; cbn [rbind]; try discriminate.
  destruct (packBits (p_values p) _) as [vs| |] eqn:Ev; cbn [rbind]; try discriminate.
  match goal with |- context [if ?b then Err else _] => destruct b end; try discriminate.
  destruct (packBits (zipPatch _ _ _) _) as [ps| |] eqn:Eps; cbn [rbind]; try discriminate.
  intros H. match type of H with Ok ?x = _ => assert (o = x) as -> by congruence end.
  do 4 (constructor; [b8|]). apply bytes_app; split; [apply be_bytes_bytes|].
  apply bytes_app; split; eapply packBits_bytes; eauto.
Qed.
Lemma putFirst_bytes s v o : putFirst s v = Ok o -> bytes o.
Proof. unfold putFirst. destruct s; apply PutUvarint_bytes. Qed.
Lemma writeStep_bytes s e vs rest o : writeStep s e vs = Ok (rest, o) -> bytes o.
Proof.
  unfold writeStep. destruct vs as [|v0 t]; [discriminate|]. remember (v0 :: t) as vs.
  destruct (3 <=? getRepeats vs)%nat.
  - destruct (getRepeats vs <=? 10)%nat.
    + intros H. match type of H with Ok (_, ?x) = _ => assert (o = x) as -> by congruence end.
      apply writeShortRepeat_bytes.
    + destruct (putFirst s v0) as [f| |] eqn:Ef; cbn [rbind]; try discriminate.
      destruct (writeDelta f 0 _ []) as [w| |] eqn:Ew; cbn [rbind]; try discriminate.
      intros H. match type of H with Ok (_, ?x) = _ => assert (o = x) as -> by congruence end.
      eapply writeDelta_bytes; [eapply putFirst_bytes; eauto|eauto].
  - match goal with |- rbind ?x _ = _ -> _ => assert (Hx : forall r q, x = Ok (r, q) -> bytes q); [|destruct x as [[r q]| |]] end;
      cbn [rbind]; try discriminate.
    { intros r q. destruct (tryDelta s vs) as [[base ds]|].
      - destruct (putFirst s v0) as [f| |] eqn:Ef; cbn [rbind]; try discriminate.
        destruct (writeDelta f _ _ _) as [w| |] eqn:Ew; cbn [rbind]; try discriminate.
        intros H. assert (q = w) as -> by congruence.
        eapply writeDelta_bytes; [eapply putFirst_bytes; eauto|eauto].
      - destruct s.
        + destruct (tryPatch vs) as [[p|]| |]; cbn [rbind]; try discriminate.
          * destruct (writePatch p) as [w| |] eqn:Ew; cbn [rbind]; try discriminate.
            intros H. assert (q = w) as -> by congruence. eapply writePatch_bytes; eauto.
          * intros H. assert (q = []) as -> by congruence. constructor.
        + intros H. assert (q = []) as -> by congruence. constructor. }
    specialize (Hx r q eq_refl). destruct r as [|r0 r]; [intros H; assert (o = q) as -> by congruence; assumption|].
    destruct e.
    + destruct (writeDirect _ _) as [o'| |] eqn:Ed; cbn [rbind]; try discriminate.
      intros H. assert (o = q ++ o') as -> by congruence.
      apply bytes_app; split; [assumption|eapply writeDirect_bytes; eauto].
    + intros H. assert (o = q) as -> by congruence. assumption.
Qed.
Lemma writeToEnd_bytes f : forall s vs o, writeToEnd f s vs = Ok o -> bytes o.
Proof.
  induction f as [|f IH]; intros s vs o; cbn [writeToEnd]; destruct vs as [|v t]; try discriminate;
    try (intros H; assert (o = []) as -> by congruence; constructor).
  destruct (writeStep _ _ _) as [[rest o1]| |] eqn:E1; cbn [rbind]; try discriminate.
  destruct (writeToEnd f s rest) as [o2| |] eqn:E2; cbn [rbind]; try discriminate.
  intros H. assert (o = o1 ++ o2) as -> by congruence.
  apply bytes_app; split; [eapply writeStep_bytes; eauto|eapply IH; eauto].
Qed.
Lemma write_bytes s e vs rest o : write s e vs = Ok (rest, o) -> bytes o.
Proof.
  unfold write. destruct (length vs <=? 3)%nat.
  - destruct (writeDirect _ _) as [w| |] eqn:Ew; cbn [rbind]; try discriminate.
    intros H. assert (o = w) as -> by congruence. eapply writeDirect_bytes; eauto.
  - destruct e; [|apply writeStep_bytes].
    destruct (writeToEnd _ _ _) as [w| |] eqn:Ew; cbn [rbind]; try discriminate.
    intros H. assert (o = w) as -> by congruence. eapply writeToEnd_bytes; eauto.
Qed.
Lemma int_Encode_bytes e v e' o : int_Encode e v = Ok (e', o) -> bytes o.
Proof.
  unfold int_Encode.
  match goal with |- rbind (if ?b then ?x else _) _ = _ -> _ => destruct b; [destruct x as [[vs' o']| |] eqn:Ew|] end;
    cbn [rbind]; try discriminate; intros H.
  - assert (o = o') as -> by congruence. eapply write_bytes; eauto.
  - assert (o = []) as -> by congruence. constructor.
Qed.
Lemma int_Flush_bytes e e' o : int_Flush e = Ok (e', o) -> bytes o.
Proof.
  unfold int_Flush. destruct (i_values e) as [|v t]; [intros H; assert (o = []) as -> by congruence; constructor|].
  destruct (write _ _ _) as [[vs' o']| |] eqn:Ew; cbn [rbind]; try discriminate; intros H.
  assert (o = o') as -> by congruence. eapply write_bytes; eauto.
Qed.
Lemma int_feed_bytes vs : forall e e' o, feed int_Encode e vs = Ok (e', o) -> bytes o.
Proof.
  induction vs as [|v t IH]; intros e e' o; cbn [feed]; [intros H; assert (o = []) as -> by congruence; constructor|].
  destruct (int_Encode e v) as [[e1 o1]| |] eqn:E1; cbn [rbind]; try discriminate.
  destruct (feed int_Encode e1 t) as [[e2 o2]| |] eqn:E2; cbn [rbind]; try discriminate.
  intros H. assert (o = o1 ++ o2) as -> by congruence.
  apply bytes_app; split; [eapply int_Encode_bytes; eauto|eapply IH; eauto].
Qed.
Lemma int_segment_bytes e vs e' o : segment int_Encode int_Flush e vs = Ok (e', o) -> bytes o.
Proof.
  unfold segment. destruct (feed int_Encode e vs) as [[e1 o1]| |] eqn:E1; cbn [rbind]; try discriminate.
  destruct (int_Flush e1) as [[e2 o2]| |] eqn:E2; cbn [rbind]; try discriminate.
  intros H. assert (o = o1 ++ o2) as -> by congruence.
  apply bytes_app; split; [eapply int_feed_bytes; eauto|eapply int_Flush_bytes; eauto].
Qed.

(** ** Encoders that differ in the position only *)
Definition sameInt (a b : intEnc) : Prop := i_values a = i_values b /\ i_signed a = i_signed b.
Definition sameRes (a b : res (intEnc * list Z)) : Prop :=
  match a, b with
  | Ok (x, p), Ok (y, q) => sameInt x y /\ p = q
  | Err, Err | Panic, Panic => True
  | _, _ => False
  end.
Lemma int_Encode_same a b v : sameInt a b -> sameRes (int_Encode a v) (int_Encode b v).
Proof.
  intros [H1 H2]. unfold int_Encode. rewrite <- H1, <- H2.
  match goal with |- sameRes (rbind ?x _) (rbind ?x _) => destruct x as [[vs o]| |] end; cbn; auto.
  split; [split; reflexivity|reflexivity].
Qed.
Lemma int_Flush_same a b : sameInt a b -> sameRes (int_Flush a) (int_Flush b).
Proof.
  intros [H1 H2]. unfold int_Flush. rewrite <- H1, <- H2. destruct (i_values a) eqn:E; [cbn; split; [split; congruence|reflexivity]|].
  destruct (write _ _ _) as [[vs o]| |]; cbn; auto. split; [split; reflexivity|reflexivity].
Qed.
Lemma int_feed_same vs : forall a b, sameInt a b -> sameRes (feed int_Encode a vs) (feed int_Encode b vs).
Proof.
  induction vs as [|v t IH]; intros a b H; cbn [feed]; [cbn; auto|].
  pose proof (int_Encode_same a b v H) as Hs.
  destruct (int_Encode a v) as [[x p]| |], (int_Encode b v) as [[y q]| |]; cbn in Hs; try contradiction; cbn [rbind]; auto.
  destruct Hs as [Hs ->]. specialize (IH x y Hs).
  destruct (feed int_Encode x t) as [[x2 p2]| |], (feed int_Encode y t) as [[y2 q2]| |]; cbn in IH; try contradiction; cbn [rbind]; auto.
  destruct IH as [IH ->]. cbn. auto.
Qed.
Lemma int_segment_same vs a b : sameInt a b ->
  sameRes (segment int_Encode int_Flush a vs) (segment int_Encode int_Flush b vs).
Proof.
  intros H. unfold segment. pose proof (int_feed_same vs a b H) as Hs.
  destruct (feed int_Encode a vs) as [[x p]| |], (feed int_Encode b vs) as [[y q]| |]; cbn in Hs; try contradiction; cbn [rbind]; auto.
  destruct Hs as [Hs ->]. pose proof (int_Flush_same x y Hs) as Hf.
  destruct (int_Flush x) as [[x2 p2]| |], (int_Flush y) as [[y2 q2]| |]; cbn in Hf; try contradiction; cbn [rbind]; auto.
  destruct Hf as [Hf ->]. cbn. auto.
Qed.
Lemma int_Encode_signed e v e' o : int_Encode e v = Ok (e', o) -> i_signed e' = i_signed e.
Proof.
  unfold int_Encode. match goal with |- rbind ?x _ = _ -> _ => destruct x as [[vs q]| |] end; cbn [rbind]; try discriminate.
  intros H. match type of H with Ok (?x, _) = _ => assert (e' = x) as -> by congruence end. reflexivity.
Qed.
Lemma int_feed_signed vs : forall e e' o, feed int_Encode e vs = Ok (e', o) -> i_signed e' = i_signed e.
Proof.
  induction vs as [|v t IH]; intros e e' o; cbn [feed]; [intros H; congruence|].
  destruct (int_Encode e v) as [[e1 o1]| |] eqn:E1; cbn [rbind]; try discriminate.
  destruct (feed int_Encode e1 t) as [[e2 o2]| |] eqn:E2; cbn [rbind]; try discriminate.
  intros H. assert (e' = e2) as -> by congruence. rewrite (IH _ _ _ E2). eapply int_Encode_signed; eauto.
Qed.
(** After a flush nothing is buffered. *)
Lemma writeToEnd_rest s vs rest o : write s true vs = Ok (rest, o) -> rest = [].
Proof.
  unfold write. destruct (length vs <=? 3)%nat.
  - destruct (writeDirect _ _); cbn [rbind]; congruence.
  - destruct (writeToEnd _ _ _); cbn [rbind]; congruence.
Qed.
Lemma int_Flush_clean e e' o : int_Flush e = Ok (e', o) -> i_values e' = [] /\ i_signed e' = i_signed e.
Proof.
  unfold int_Flush. destruct (i_values e) as [|v t] eqn:E; [intros H; assert (e' = e) as -> by congruence; auto|].
  destruct (write _ _ _) as [[vs q]| |] eqn:Ew; cbn [rbind]; try discriminate.
  intros H. match type of H with Ok (?x, _) = _ => assert (e' = x) as -> by congruence end. cbn.
  split; [eapply writeToEnd_rest; eauto|reflexivity].
Qed.
Lemma int_segment_clean e vs e' o : segment int_Encode int_Flush e vs = Ok (e', o) ->
  i_values e' = [] /\ i_signed e' = i_signed e.
Proof.
  unfold segment. destruct (feed int_Encode e vs) as [[e1 o1]| |] eqn:E1; cbn [rbind]; try discriminate.
  destruct (int_Flush e1) as [[e2 o2]| |] eqn:E2; cbn [rbind]; try discriminate.
  intros H. assert (e' = e2) as -> by congruence. destruct (int_Flush_clean _ _ _ E2) as [Ha Hb].
  split; [exact Ha|]. rewrite Hb. eapply int_feed_signed; eauto.
Qed.
