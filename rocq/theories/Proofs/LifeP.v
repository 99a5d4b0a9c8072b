(** Calls on a writer that was closed. *)
From Verif.Model Require Import Go Chunk Stream Schema Rows File Column Io Life.
From Verif.Spec Require Import FileSpec AssemblySpec IoSpec LifeSpec.
From Verif.Proofs Require Import Base IoOutP.

Lemma compressed_some deflate k n src cb rest : CompressingAllInChunks deflate k n src = Ok (cb, rest) -> cb <> [].
Proof.
  unfold CompressingAllInChunks. destruct (CompressingChunks deflate k n src) as [[d s]| |]; cbn [rbind]; try discriminate.
  unfold CompressingLeft. destruct k; cbn [rbind]; try discriminate.
  unfold zlibCompressingLeft. destruct (n <? zlen s); cbn [rbind]; try discriminate.
  destruct (deflate [] s) as [c| |]; cbn [rbind]; try discriminate.
  destruct (zlen s <? zlen c); intros E; injection E as <- _; intros H; apply app_eq_nil in H; destruct H as [_ H]; discriminate H.
Qed.

Section Life.
Context {W : Type} (osWrite : list Z -> W -> Z * bool * W) (osClose : W -> bool * W) (dead : W -> Prop).
Hypothesis Hend : ends osWrite osClose dead.
Context (deflate : list (list Z) -> list Z -> res (list Z)) {C V ST : Type} (I : iface C V ST)
        (streams : C -> list (list Z)) (P : proto ST) (o : opts) (StripeSize : Z).

Lemma dead_put p f x : dead f -> put W osWrite p f <> Ok x.
Proof. intros Hd E. unfold put in E. destruct (proj2 Hend p f Hd) as (n & _ & E1). rewrite E1 in E. discriminate E. Qed.
Lemma dead_WriteTo b f n f' : dead f -> WriteTo W osWrite b f = Ok (n, f') -> b = [] /\ f' = f.
Proof.
  intros Hd E. unfold WriteTo in E. destruct (Z.eqb_spec (zlen b) 0) as [E0|E0].
  - injection E as _ <-. split; [|reflexivity]. destruct b; [reflexivity|]. rewrite zlen_cons in E0. pose proof (zlen_nonneg b). lia.
  - destruct (proj2 Hend b f Hd) as (m & Hm & E1). rewrite E1 in E. replace (zlen b <? m) with false in E by lia. discriminate E.
Qed.
Lemma dead_streams l : forall f f', dead f -> writeStreams W osWrite l f = Ok f' -> f' = f.
Proof.
  induction l as [|b l IH]; intros f f' Hd E; cbn [writeStreams] in E; [congruence|].
  destruct (WriteTo W osWrite b f) as [[n f1]| |] eqn:E1; cbn [rbind] in E; try discriminate E.
  destruct (dead_WriteTo _ _ _ _ Hd E1) as [_ ->]. exact (IH _ _ Hd E).
Qed.
Lemma dead_index cs : forall n f n' f', dead f -> io_writeIndexes W osWrite C (i_Index I) cs n f = Ok (n', f') -> f' = f.
Proof.
  destruct cs as [|c cs]; intros n f n' f' Hd E; cbn [io_writeIndexes] in E; [congruence|].
  destruct (i_Index I c) as [d| |]; cbn [rbind] in E; try discriminate E.
  destruct (put W osWrite d f) as [[m f1]| |] eqn:E1; cbn [rbind] in E; try discriminate E. destruct (dead_put _ _ _ Hd E1).
Qed.
Lemma dead_out cs : forall n f n' cs' f', dead f -> io_writeOutAll W osWrite C (i_WriteOut I) streams cs n f = Ok (n', cs', f') -> f' = f.
Proof.
  induction cs as [|c cs IH]; intros n f n' cs' f' Hd E; cbn [io_writeOutAll] in E; [congruence|].
  destruct (i_WriteOut I c) as [[[b m] c']| |]; cbn [rbind] in E; try discriminate E.
  destruct (writeStreams W osWrite (streams c) f) as [f1| |] eqn:E1; cbn [rbind] in E; try discriminate E.
  apply dead_streams in E1; [|exact Hd]. subst f1.
  destruct (io_writeOutAll W osWrite C (i_WriteOut I) streams cs _ f) as [[[n2 cs2] f2]| |] eqn:E2; cbn [rbind] in E; try discriminate E.
  injection E as _ _ <-. exact (IH _ _ _ _ _ Hd E2).
Qed.

Notation ioFlush := (io_flushOut W osWrite deflate C (i_Flush I) (i_Index I) (i_WriteOut I) streams (i_Infos I) (pb_SF P) o).
Notation mFlush := (flushOut deflate (i_Flush I) (i_Index I) (i_WriteOut I) (i_Infos I) (pb_SF P) o).
Notation lfLoop := (lf_writeLoop W osWrite deflate C V (i_Write I) (i_Size I) (i_Flush I) (i_Index I) (i_WriteOut I)
                      streams (i_Infos I) (i_Reset I) (pb_SF P) o StripeSize).
Notation mLoop := (writeLoop deflate (i_Write I) (i_Size I) (i_Flush I) (i_Index I) (i_WriteOut I) (i_Infos I)
                      (i_Reset I) (pb_SF P) o StripeSize).

(** A stripe always has a footer, so it cannot be flushed. *)
Lemma dead_flush w f x : dead f -> ioFlush w f <> Ok x.
Proof.
  intros Hd E. unfold io_flushOut in E. destruct (mapM (i_Flush I) (sw_cols w)) as [cs| |]; cbn [rbind] in E; try discriminate E.
  assert (L : forall il f1, (if WriteIndex o then io_writeIndexes W osWrite C (i_Index I) cs (IndexLength (sw_info w)) f
                             else Ok (IndexLength (sw_info w), f)) = Ok (il, f1) -> f1 = f).
  { intros il f1. destruct (WriteIndex o); [apply dead_index; exact Hd|congruence]. }
  destruct (if WriteIndex o then io_writeIndexes _ _ _ _ _ _ _ else _) as [[il f1]| |]; cbn [rbind] in E; try discriminate E.
  rewrite (L _ _ eq_refl) in E. destruct (io_writeOutAll _ _ _ _ _ _ _ f) as [[[dl cs'] f2]| |] eqn:E2; cbn [rbind] in E; try discriminate E.
  apply dead_out in E2; [|exact Hd]. subst f2.
  destruct (pb_SF P _) as [fb| |]; cbn [rbind] in E; try discriminate E.
  destruct (CompressingAllInChunks deflate _ _ fb) as [[cb rest]| |] eqn:Ec; cbn [rbind] in E; try discriminate E.
  destruct (WriteTo W osWrite cb f) as [[n f3]| |] eqn:Ew; cbn [rbind] in E; try discriminate E.
  exact (compressed_some _ _ _ _ _ _ Ec (proj1 (dead_WriteTo _ _ _ _ Hd Ew))).
Qed.

Lemma mLoop_infos v : forall n i count w w', mLoop n i count v w = Ok w' -> exists l, sw_infos w' = sw_infos w ++ l.
Proof.
  induction n as [|n IH]; intros i count w w' E; cbn [writeLoop] in E.
  - injection E as <-. exists []. rewrite app_nil_r. reflexivity.
  - destruct (writeValue (i_Write I) i v (sw_cols w)) as [cs| |]; cbn [rbind] in E; try discriminate E.
    destruct (_ <=? _).
    + destruct (mFlush _) as [w1| |] eqn:E1; cbn [rbind] in E; try discriminate E.
      destruct (forward (i_Reset I) w1) as [w2| |] eqn:E2; cbn [rbind] in E; try discriminate E.
      destruct (IH _ _ _ _ E) as [l ->]. exists (sw_info w1 :: l).
      assert (S1 : sw_infos w1 = sw_infos w).
      { unfold flushOut in E1. destruct (mapM _ _) as [x| |]; cbn [rbind] in E1; try discriminate E1.
        match type of E1 with rbind ?y _ = _ => destruct y as [ib| |] end; cbn [rbind] in E1; try discriminate E1.
        destruct (writeOutAll _ _) as [[[db m] c]| |]; cbn [rbind] in E1; try discriminate E1.
        destruct (pb_SF P _) as [fb| |]; cbn [rbind] in E1; try discriminate E1.
        destruct (CompressingAllInChunks _ _ _ _) as [[cb r]| |]; cbn [rbind] in E1; try discriminate E1.
        injection E1 as <-. reflexivity. }
      unfold forward in E2. destruct (mapM _ _) as [x| |]; cbn [rbind] in E2; try discriminate E2. injection E2 as <-. cbn [sw_infos].
      rewrite S1, <- app_assoc. reflexivity.
    + destruct (IH _ _ _ _ E) as [l ->]. exists l. reflexivity.
Qed.
Lemma mLoop_cut v n i count w cs w' : writeValue (i_Write I) i v (sw_cols w) = Ok cs -> StripeSize <= sw_size (i_Size I) cs ->
  mLoop (S n) i count v w = Ok w' -> sw_infos w' <> sw_infos w.
Proof.
  intros Ev Hs E. cbn [writeLoop] in E. rewrite Ev in E. cbn [rbind] in E. replace (StripeSize <=? _) with true in E by lia.
  destruct (mFlush _) as [w1| |] eqn:E1; cbn [rbind] in E; try discriminate E.
  destruct (forward (i_Reset I) w1) as [w2| |] eqn:E2; cbn [rbind] in E; try discriminate E.
  destruct (mLoop_infos _ _ _ _ _ _ E) as [l ->].
  assert (S1 : sw_infos w1 = sw_infos w).
  { unfold flushOut in E1. destruct (mapM _ _) as [x| |]; cbn [rbind] in E1; try discriminate E1.
    match type of E1 with rbind ?y _ = _ => destruct y as [ib| |] end; cbn [rbind] in E1; try discriminate E1.
    destruct (writeOutAll _ _) as [[[db m] c]| |]; cbn [rbind] in E1; try discriminate E1.
    destruct (pb_SF P _) as [fb| |]; cbn [rbind] in E1; try discriminate E1.
    destruct (CompressingAllInChunks _ _ _ _) as [[cb r]| |]; cbn [rbind] in E1; try discriminate E1.
    injection E1 as <-. reflexivity. }
  unfold forward in E2. destruct (mapM _ _) as [x| |]; cbn [rbind] in E2; try discriminate E2. injection E2 as <-. cbn [sw_infos].
  rewrite S1, <- app_assoc. intros H. apply (f_equal (@length _)) in H. rewrite !app_length in H. cbn [length] in H. lia.
Qed.

(** A Write to a closed file succeeds exactly if it would not have completed a stripe. *)
Lemma dead_loop v : forall n i count w k f s, dead f ->
  (lfLoop n i count v w k f = Ok s <->
   exists w', s = (w', k, f) /\ mLoop n i count v w = Ok w' /\ sw_infos w' = sw_infos w).
Proof.
  induction n as [|n IH]; intros i count w k f s Hd.
  - cbn [lf_writeLoop writeLoop]. split.
    + intros E. injection E as <-. eexists. split; [reflexivity|]. split; reflexivity.
    + intros (w' & -> & E & _). injection E as <-. reflexivity.
  - destruct (writeValue (i_Write I) i v (sw_cols w)) as [cs| |] eqn:Ev.
    2, 3: cbn [lf_writeLoop writeLoop]; rewrite Ev; cbn [rbind]; split; [discriminate|intros (w' & _ & E & _); discriminate E].
    destruct (Z.leb_spec StripeSize (sw_size (i_Size I) cs)) as [Hs|Hs].
    + split.
      * intros E. cbn [lf_writeLoop] in E. rewrite Ev in E. cbn [rbind] in E. replace (StripeSize <=? _) with true in E by lia.
        match type of E with rbind ?y _ = _ => destruct y as [[w1 f1]| |] eqn:E1 end; cbn [rbind] in E; try discriminate E.
        destruct (dead_flush _ _ _ Hd E1).
      * intros (w' & _ & E & Hi). destruct (mLoop_cut _ _ _ _ _ _ _ Ev Hs E Hi).
    + cbn [lf_writeLoop writeLoop]. rewrite Ev. cbn [rbind]. replace (StripeSize <=? _) with false by lia.
      rewrite (IH (S i) _ (setCols cs w) k f s Hd). reflexivity.
Qed.

Notation useI := (lf_use W osWrite osClose deflate C V ST (i_Write I) (i_Size I) (i_Flush I) (i_Index I) (i_WriteOut I)
    streams (i_Infos I) (i_Stats I) (i_Reset I) (pb_SF P) (pb_Footer P) (pb_PS P) o StripeSize).
Lemma dead_close w k f s : dead f -> useI UClose (w, k, f) <> Ok s.
Proof.
  intros Hd E. cbn [lf_use] in E. unfold lf_Close in E.
  match type of E with rbind ?y _ = _ => destruct y as [[w1 f1]| |] eqn:E1 end; cbn [rbind] in E; try discriminate E.
  exact (dead_flush _ _ _ Hd E1).
Qed.
Lemma close_dead w k f w' k' f' : useI UClose (w, k, f) = Ok (w', k', f') -> dead f'.
Proof.
  intros E. cbn [lf_use] in E. unfold lf_Close in E.
  match type of E with rbind ?y _ = _ => destruct y as [[w1 f1]| |] eqn:E1 end; cbn [rbind] in E; try discriminate E.
  match type of E with rbind ?y _ = _ => destruct y as [f2| |] eqn:E2 end; cbn [rbind] in E; try discriminate E.
  destruct (osClose f2) as [b f3] eqn:E3. injection E as _ _ <-. pose proof (proj1 Hend f2) as H. rewrite E3 in H. exact H.
Qed.
Notation usesI := (uses osWrite osClose deflate I streams P o StripeSize).
Lemma dead_uses l : forall w k f w' k' f', dead f -> usesI l (w, k, f) = Ok (w', k', f') -> ~ In UClose l /\ f' = f.
Proof.
  unfold uses. induction l as [|u l IH]; intros w k f w' k' f' Hd E; cbn [lf_uses] in E.
  - split; [intros []|congruence].
  - destruct u as [v|].
    + match type of E with rbind ?y _ = _ => destruct y as [[[w1 k1] f1]| |] eqn:E1 end; cbn [rbind] in E; try discriminate E.
      cbn [lf_use] in E1. unfold lf_Write in E1. apply dead_loop in E1; [|exact Hd]. destruct E1 as (w2 & Es & _).
      assert (f1 = f) as -> by congruence. destruct (IH _ _ _ _ _ _ Hd E) as [Hn ->]. split; [|reflexivity].
      intros [H|H]; [discriminate H|exact (Hn H)].
    + match type of E with rbind ?y _ = _ => destruct y as [s1| |] eqn:E1 end; cbn [rbind] in E; try discriminate E.
      destruct (dead_close _ _ _ _ Hd E1).
Qed.
Lemma uses_app l m s : usesI (l ++ m) s = (let! s1 := usesI l s in usesI m s1).
Proof.
  unfold uses. revert s. induction l as [|u l IH]; intros s; cbn [app lf_uses]; [reflexivity|].
  match goal with |- rbind ?y _ = _ => destruct y as [s1| |] end; cbn [rbind]; [apply IH|reflexivity..].
Qed.
Lemma closed_uses m l s w k f w' k' f' : usesI (m ++ [UClose]) s = Ok (w, k, f) -> usesI l (w, k, f) = Ok (w', k', f') ->
  ~ In UClose l /\ f' = f.
Proof.
  intros Em E. rewrite uses_app in Em. destruct (usesI m s) as [[[w1 k1] f1]| |]; cbn [rbind] in Em; try discriminate Em.
  apply (dead_uses l w k f w' k' f'); [|exact E].
  unfold uses in Em. cbn [lf_uses] in Em.
  match type of Em with rbind ?y _ = _ => destruct y as [[[w2 k2] f2]| |] eqn:E1 end; cbn [rbind] in Em; try discriminate Em.
  assert (f2 = f) as -> by congruence. exact (close_dead _ _ _ _ _ _ E1).
Qed.
Lemma closed_write m s w k f v x : usesI (m ++ [UClose]) s = Ok (w, k, f) ->
  (usesI [UWrite v] (w, k, f) = Ok x <->
   exists w', x = (w', k, f) /\ write1 deflate I P o StripeSize w v = Ok w' /\ sw_infos w' = sw_infos w).
Proof.
  intros Em. rewrite uses_app in Em. destruct (usesI m s) as [[[w1 k1] f1]| |]; cbn [rbind] in Em; try discriminate Em.
  assert (Hd : dead f).
  { unfold uses in Em. cbn [lf_uses] in Em.
    match type of Em with rbind ?y _ = _ => destruct y as [[[w2 k2] f2]| |] eqn:E1 end; cbn [rbind] in Em; try discriminate Em.
    assert (f2 = f) as -> by congruence. exact (close_dead _ _ _ _ _ _ E1). }
  unfold uses. cbn [lf_uses lf_use]. unfold lf_Write, write1, Write. rewrite <- (dead_loop v (vlen v) 0%nat 0 w k f x Hd).
  destruct (lfLoop (vlen v) 0%nat 0 v w k f); cbn [rbind]; split; congruence.
Qed.
End Life.

(** Before Close: the calls of C61. *)
Section Same.
Context {W : Type} (osWrite : list Z -> W -> Z * bool * W) (osClose osCreate : W -> bool * W)
        (deflate : list (list Z) -> list Z -> res (list Z)) {C V ST : Type} (I : iface C V ST)
        (streams : C -> list (list Z)) (P : proto ST) (o : opts) (StripeSize : Z).
Lemma loop_same v : forall n i count w f,
  lf_writeLoop W osWrite deflate C V (i_Write I) (i_Size I) (i_Flush I) (i_Index I) (i_WriteOut I)
     streams (i_Infos I) (i_Reset I) (pb_SF P) o StripeSize n i count v w 0%nat f =
  (let! (w', f') := io_writeLoop W osWrite deflate C V (i_Write I) (i_Size I) (i_Flush I) (i_Index I) (i_WriteOut I)
                      streams (i_Infos I) (i_Reset I) (pb_SF P) o StripeSize n i count v w f in Ok (w', 0%nat, f')).
Proof.
  induction n as [|n IH]; intros i count w f; cbn [lf_writeLoop io_writeLoop]; [reflexivity|].
  destruct (writeValue _ _ _ _) as [cs| |]; cbn [rbind]; [|reflexivity..].
  destruct (_ <=? _); [|apply IH].
  match goal with |- rbind ?y _ = _ => destruct y as [[w1 f1]| |] end; cbn [rbind]; [|reflexivity..].
  assert (aliased C 0 w1 = w1) as ->. { destruct w1. unfold aliased. cbn. rewrite app_nil_r. reflexivity. }
  destruct (forward (i_Reset I) w1) as [w2| |]; cbn [rbind]; [|reflexivity..]. apply IH.
Qed.
Lemma uses_same vs : forall w f,
  uses osWrite osClose deflate I streams P o StripeSize (map UWrite vs ++ [UClose]) (w, 0%nat, f) =
  (let! (w1, f1) := io_writeAll W osWrite deflate C V (i_Write I) (i_Size I) (i_Flush I) (i_Index I) (i_WriteOut I)
                      streams (i_Infos I) (i_Reset I) (pb_SF P) o StripeSize vs w f in
   lf_Close W osWrite osClose deflate C ST (i_Flush I) (i_Index I) (i_WriteOut I) streams (i_Infos I) (i_Stats I)
     (pb_SF P) (pb_Footer P) (pb_PS P) o w1 0%nat f1).
Proof.
  unfold uses. induction vs as [|v vs IH]; intros w f; cbn [map app lf_uses io_writeAll lf_use].
  - cbn [rbind]. match goal with |- rbind ?y _ = _ => destruct y as [s| |] end; reflexivity.
  - unfold lf_Write. rewrite loop_same. unfold io_Write.
    match goal with |- rbind (rbind ?y _) _ = _ => destruct y as [[w1 f1]| |] end; cbn [rbind]; [|reflexivity..]. apply IH.
Qed.
(** Writes and a Close after the creation are the client of C61. *)
Lemma whole_client schema vs f g : osCreate f = (true, g) ->
  whole osWrite osClose osCreate deflate I streams P o StripeSize schema (map UWrite vs ++ [UClose]) f =
  client osWrite osClose deflate I streams P o StripeSize schema vs g.
Proof.
  intros Hc. unfold whole, create, NewOSFileWriter, client, io_writeFile, io_newFileWriter. rewrite Hc.
  destruct (Flat schema) as [schemas| |]; cbn [rbind]; [|reflexivity..].
  unfold put. destruct (osWrite Magic g) as [[n ok] f1]. destruct ok; cbn [rbind]; [|reflexivity].
  destruct (mapM (i_New I) schemas) as [cs| |]; cbn [rbind]; [|reflexivity..].
  rewrite uses_same. match goal with |- context [io_writeAll _ _ _ _ _ _ _ _ _ _ _ _ _ _ _ _ vs ?w f1] => generalize w; intros w0 end.
  destruct (io_writeAll _ _ _ _ _ _ _ _ _ _ _ _ _ _ _ _ vs w0 f1) as [[w1 f2]| |]; cbn [rbind]; [|reflexivity..].
  unfold lf_Close, io_Close.
  match goal with |- rbind (rbind ?y _) _ = _ => destruct y as [[w2 f3]| |] end; cbn [rbind]; [|reflexivity..].
  unfold aliased. cbn [repeat].
  match goal with |- rbind (rbind ?y _) _ = _ => destruct y as [f4| |] end; cbn [rbind]; [|reflexivity..].
  destruct (osClose f4) as [b f5]. reflexivity.
Qed.
End Same.

(** What creating a writer leaves of a file that was there. *)
Lemma created {W} osWrite osCreate (disk : W -> list Z) {C V ST} (I : iface C V ST) schema f g :
  appends osWrite disk -> osCreate f = (true, g) -> disk g = [] ->
  (forall p h, exists n h', osWrite p h = (n, true, h')) ->
  disk (snd (create osWrite osCreate I schema f)) = (match Flat schema with Ok _ => Magic | _ => [] end).
Proof.
  intros Ha Hc Hg Hw. unfold create, NewOSFileWriter. rewrite Hc. destruct (Flat schema); [|exact Hg..].
  destruct (Hw Magic g) as (n & h & E). rewrite E. cbn [snd]. destruct (Ha _ _ _ _ _ E) as [_ H]. destruct (H eq_refl) as [_ ->].
  rewrite Hg. reflexivity.
Qed.
Lemma osf_ends : ends osf_Write osf_Close (fun f => fst f = false).
Proof.
  split; [reflexivity|]. intros p f Hf. exists 0. split; [pose proof (zlen_nonneg p); lia|]. unfold osf_Write. rewrite Hf. reflexivity.
Qed.
Lemma osf_appends : appends osf_Write snd.
Proof.
  intros p f n ok f' E. unfold osf_Write in E. destruct (fst f); injection E as <- <- <-.
  - split; [lia|]. intros _. split; reflexivity.
  - pose proof (zlen_nonneg p). split; [lia|discriminate].
Qed.
