(** Writing to a file whose writes can fail. *)
From Verif.Model Require Import Go Chunk Stream Schema Rows File Column Io.
From Verif.Spec Require Import FileSpec AssemblySpec IoSpec.
From Verif.Proofs Require Import Base.

Section Out.
Context {W : Type} (osWrite : list Z -> W -> Z * bool * W) (osClose : W -> bool * W) (disk : W -> list Z).
Hypothesis Happ : appends osWrite disk.
(** Any relation that successful writes preserve. *)
Context (Q : W -> W -> Prop) (Qrefl : forall f, Q f f) (Qtrans : forall f g h, Q f g -> Q g h -> Q f h).
Hypothesis Qwrite : forall p f n f', osWrite p f = (n, true, f') -> Q f f'.

Lemma put_ok p f :
  match put W osWrite p f with
  | Ok (n, f') => n = zlen p /\ disk f' = disk f ++ p /\ Q f f'
  | Err => faulty osWrite
  | Panic => False
  end.
Proof.
  unfold put. destruct (osWrite p f) as [[n ok] f'] eqn:E. destruct ok.
  - destruct (Happ _ _ _ _ _ E) as (_ & X). destruct (X eq_refl). eauto.
  - unfold faulty. eauto 6.
Qed.
Lemma WriteTo_ok p f :
  match WriteTo W osWrite p f with
  | Ok (n, f') => n = zlen p /\ disk f' = disk f ++ p /\ Q f f'
  | Err => faulty osWrite
  | Panic => False
  end.
Proof.
  unfold WriteTo. destruct (Z.eqb_spec (zlen p) 0) as [E0|E0].
  - split; [lia|]. split; [|apply Qrefl].
    destruct p; [rewrite app_nil_r; reflexivity|]. rewrite zlen_cons in E0. pose proof (zlen_nonneg p). lia.
  - destruct (osWrite p f) as [[n ok] f'] eqn:E. destruct (Happ _ _ _ _ _ E) as (Hn & X).
    replace (zlen p <? n) with false by lia. destruct ok; cbn [andb].
    + destruct (X eq_refl) as [-> Hd]. rewrite Z.eqb_refl. eauto.
    + unfold faulty. eauto 6.
Qed.
Lemma writeStreams_ok l : forall f,
  match writeStreams W osWrite l f with
  | Ok f' => disk f' = disk f ++ concat l /\ Q f f'
  | Err => faulty osWrite
  | Panic => False
  end.
Proof.
  induction l as [|b l IH]; intros f; cbn [writeStreams concat].
  - rewrite app_nil_r. auto.
  - pose proof (WriteTo_ok b f) as L. destruct (WriteTo W osWrite b f) as [[n f1]| |]; cbn [rbind]; [|exact L..].
    destruct L as (_ & Hd & HQ). specialize (IH f1). destruct (writeStreams W osWrite l f1) as [f2| |]; [|exact IH..].
    destruct IH as (Hd2 & HQ2). split; [rewrite Hd2, Hd, app_assoc; reflexivity|eauto].
Qed.

Context (deflate : list (list Z) -> list Z -> res (list Z)) {C V ST : Type} (I : iface C V ST)
        (streams : C -> list (list Z)) (P : proto ST) (o : opts) (StripeSize : Z).
Hypothesis Hstreams : streams_ok I streams.

Definition setOut (d : list Z) (w : stripeW C) : stripeW C :=
  {| sw_schemas := sw_schemas w; sw_cols := sw_cols w; sw_info := sw_info w; sw_infos := sw_infos w; sw_out := d |}.

(** What a step over the file says about the step over the ideal file. *)
Definition follows (f : W) (x : res (stripeW C * W)) (y : res (stripeW C)) : Prop :=
  match x with
  | Ok (w', f') => y = Ok (setOut (disk f') w') /\ Q f f'
  | Err => y = Err \/ faulty osWrite
  | Panic => y = Panic
  end.


Lemma writeIndexes_ok cs : forall n f, is_u64 n ->
  match io_writeIndexes W osWrite C (i_Index I) cs n f with
  | Ok (n', f') => exists l, mapM (i_Index I) cs = Ok l /\ n' = u64 (n + zlen (concat l)) /\
                             disk f' = disk f ++ concat l /\ Q f f'
  | Err => mapM (i_Index I) cs = Err \/ faulty osWrite
  | Panic => mapM (i_Index I) cs = Panic
  end.
Proof.
  induction cs as [|c cs IH]; intros n f Hn; cbn [io_writeIndexes mapM].
  - exists []. cbn [concat]. rewrite app_nil_r, zlen_nil, Z.add_0_r, u64_id by exact Hn. auto.
  - destruct (i_Index I c) as [d| |]; cbn [rbind]; [|auto..].
    pose proof (put_ok d f) as L. destruct (put W osWrite d f) as [[m f1]| |]; cbn [rbind]; [|auto|contradiction].
    destruct L as (-> & Hd & HQ). specialize (IH (u64 (n + u64 (zlen d))) f1 (u64_range _)).
    destruct (io_writeIndexes _ _ _ _ _ _ f1) as [[n' f2]| |].
    + destruct IH as (l & -> & -> & Hd2 & HQ2). exists (d :: l). cbn [concat]. split; [reflexivity|].
      split; [|split; [rewrite Hd2, Hd, app_assoc; reflexivity|eauto]].
      rewrite u64_add_r, u64_add_l, zlen_app, Z.add_assoc. reflexivity.
    + destruct IH as [->|X]; auto.
    + rewrite IH. reflexivity.
Qed.

Lemma writeOutAll_ok cs : forall n f, is_u64 n ->
  match io_writeOutAll W osWrite C (i_WriteOut I) streams cs n f with
  | Ok (n', cs', f') => exists b m, writeOutAll (i_WriteOut I) cs = Ok (b, m, cs') /\ n' = u64 (n + m) /\
                                    disk f' = disk f ++ b /\ Q f f'
  | Err => writeOutAll (i_WriteOut I) cs = Err \/ faulty osWrite
  | Panic => writeOutAll (i_WriteOut I) cs = Panic
  end.
Proof.
  induction cs as [|c cs IH]; intros n f Hn; cbn [io_writeOutAll writeOutAll].
  - exists [], 0. rewrite app_nil_r, Z.add_0_r, u64_id by exact Hn. auto.
  - destruct (i_WriteOut I c) as [[[b m] c']| |] eqn:Ec; cbn [rbind]; [|auto..].
    pose proof (writeStreams_ok (streams c) f) as L. rewrite (Hstreams _ _ _ _ Ec) in L.
    destruct (writeStreams W osWrite (streams c) f) as [f1| |]; cbn [rbind]; [|auto|contradiction].
    destruct L as (Hd & HQ). specialize (IH (u64 (n + u64 m)) f1 (u64_range _)).
    destruct (io_writeOutAll _ _ _ _ _ _ _ f1) as [[[n' cs'] f2]| |]; cbn [rbind].
    + destruct IH as (b2 & m2 & -> & -> & Hd2 & HQ2). cbn [rbind]. eexists _, _. split; [reflexivity|].
      split; [|split; [rewrite Hd2, Hd, app_assoc; reflexivity|eauto]].
      rewrite (u64_add_r n (u64 m + m2)), !u64_add_l. apply f_equal with (f := u64).
      rewrite <- Z.add_assoc. reflexivity.
    + destruct IH as [->|X]; auto.
    + rewrite IH. reflexivity.
Qed.

Definition lengths_ok (w : stripeW C) : Prop := is_u64 (IndexLength (sw_info w)) /\ is_u64 (DataLength (sw_info w)).

Notation ioFlush := (io_flushOut W osWrite deflate C (i_Flush I) (i_Index I) (i_WriteOut I) streams (i_Infos I) (pb_SF P) o).
Notation mFlush := (flushOut deflate (i_Flush I) (i_Index I) (i_WriteOut I) (i_Infos I) (pb_SF P) o).

Lemma flushOut_ok w f : lengths_ok w -> follows f (ioFlush w f) (mFlush (setOut (disk f) w)) /\
  (forall w' f', ioFlush w f = Ok (w', f') -> lengths_ok w').
Proof.
  intros (Hi & Hd). unfold io_flushOut, flushOut. cbn [setOut sw_cols sw_info sw_schemas sw_infos sw_out].
  destruct (mapM (i_Flush I) (sw_cols w)) as [cs| |]; cbn [rbind]; [|split; cbn; auto; discriminate..].
  assert (Lx : match (if WriteIndex o then io_writeIndexes W osWrite C (i_Index I) cs (IndexLength (sw_info w)) f
                   else Ok (IndexLength (sw_info w), f)) with
               | Ok (n', f') => exists b, (if WriteIndex o then let! l := mapM (i_Index I) cs in Ok (concat l) else Ok []) = Ok b /\
                                  n' = u64 (IndexLength (sw_info w) + zlen b) /\ disk f' = disk f ++ b /\ Q f f'
               | Err => (if WriteIndex o then let! l := mapM (i_Index I) cs in Ok (concat l) else Ok []) = Err \/ faulty osWrite
               | Panic => (if WriteIndex o then let! l := mapM (i_Index I) cs in Ok (concat l) else Ok []) = Panic
               end).
  { destruct (WriteIndex o).
    - pose proof (writeIndexes_ok cs _ f Hi) as L. destruct (io_writeIndexes _ _ _ _ _ _ f) as [[n' f']| |].
      + destruct L as (l & -> & L). cbn [rbind]. eauto.
      + destruct L as [->|L]; auto.
      + rewrite L. reflexivity.
    - exists []. rewrite zlen_nil, Z.add_0_r, u64_id, app_nil_r by exact Hi. auto. }
  destruct (if WriteIndex o then io_writeIndexes _ _ _ _ _ _ _ else _) as [[il f1]| |]; cbn [rbind];
    [|split; [|discriminate]; destruct Lx as [->|Lx]; cbn [follows rbind]; auto
     |rewrite Lx; split; [reflexivity|discriminate]].
  destruct Lx as (ib & -> & Hil & Hdisk1 & HQ1). cbn [rbind].
  pose proof (writeOutAll_ok cs (DataLength (sw_info w)) f1 Hd) as L.
  destruct (io_writeOutAll _ _ _ _ _ _ _ f1) as [[[dl cs'] f2]| |]; cbn [rbind];
    [|split; [|discriminate]; destruct L as [->|L]; cbn [follows rbind]; auto
     |rewrite L; split; [reflexivity|discriminate]].
  destruct L as (db & m & -> & Hdl & Hdisk2 & HQ2). cbn [rbind].
  destruct (pb_SF P _) as [fb| |]; cbn [rbind]; [|split; cbn; auto; discriminate..].
  destruct (CompressingAllInChunks deflate (CompressionKind o) (ChunkSize o) fb) as [[cb rest]| |]; cbn [rbind];
    [|split; cbn; auto; discriminate..].
  pose proof (WriteTo_ok cb f2) as L. destruct (WriteTo W osWrite cb f2) as [[n f3]| |]; cbn [rbind];
    [|split; [cbn; auto|discriminate]|contradiction].
  destruct L as (-> & Hdisk3 & HQ3). split.
  - cbn [follows]. unfold setOut. cbn [sw_cols sw_info sw_schemas sw_infos sw_out].
    rewrite Hdisk3, Hdisk2, Hdisk1, Hil, Hdl, <- !app_assoc. split; [reflexivity|eauto].
  - intros w' f' E. injection E as <- <-. split; cbn; subst; apply u64_range.
Qed.

Lemma forward_ok w d : forward (i_Reset I) (setOut d w) = (let! w' := forward (i_Reset I) w in Ok (setOut d w')).
Proof. unfold forward. cbn [setOut sw_cols]. destruct (mapM (i_Reset I) (sw_cols w)); reflexivity. Qed.
Lemma forward_lengths w w' : forward (i_Reset I) w = Ok w' -> lengths_ok w'.
Proof.
  unfold forward. destruct (mapM (i_Reset I) (sw_cols w)); try discriminate. intros E. injection E as <-.
  split; cbn; unfold is_u64; lia.
Qed.

Notation ioLoop := (io_writeLoop W osWrite deflate C V (i_Write I) (i_Size I) (i_Flush I) (i_Index I) (i_WriteOut I)
                      streams (i_Infos I) (i_Reset I) (pb_SF P) o StripeSize).
Notation mLoop := (writeLoop deflate (i_Write I) (i_Size I) (i_Flush I) (i_Index I) (i_WriteOut I) (i_Infos I)
                      (i_Reset I) (pb_SF P) o StripeSize).

Lemma writeLoop_ok v : forall n i count w f, lengths_ok w ->
  follows f (ioLoop n i count v w f) (mLoop n i count v (setOut (disk f) w)) /\
  (forall w' f', ioLoop n i count v w f = Ok (w', f') -> lengths_ok w').
Proof.
  induction n as [|n IH]; intros i count w f Hw; cbn [io_writeLoop writeLoop].
  - split; [cbn; auto|]. intros w' f' E. injection E as <- <-. exact Hw.
  - cbn [setOut sw_cols]. destruct (writeValue (i_Write I) i v (sw_cols w)) as [cs| |]; cbn [rbind];
      [|split; cbn; auto; discriminate..].
    destruct (_ <=? _).
    + destruct (flushOut_ok (addRows (u64 (count + 1)) (setCols cs w)) f Hw) as (L & Lk).
      change (setOut (disk f) (addRows ?a ?b)) with (addRows a (setOut (disk f) b)) in L.
      change (addRows (u64 (count + 1)) (setCols cs (setOut (disk f) w))) with
             (addRows (u64 (count + 1)) (setOut (disk f) (setCols cs w))).
      match type of L with follows _ ?x ?y => 
        change (mFlush (addRows (u64 (count + 1)) (setOut (disk f) (setCols cs w)))) with y;
        destruct x as [[w1 f1]| |]; cbn [rbind]; cbn [follows] in L end.
      * destruct L as (-> & HQ). cbn [rbind]. rewrite forward_ok.
        destruct (forward (i_Reset I) w1) as [w2| |] eqn:Ef; cbn [rbind]; [|split; cbn; auto; discriminate..].
        destruct (IH (S i) 0 w2 f1 (forward_lengths _ _ Ef)) as (L2 & L2k). split; [|exact L2k].
        destruct (ioLoop n (S i) 0 v w2 f1) as [[w3 f3]| |]; cbn [follows] in *; [|exact L2..].
        destruct L2 as (-> & HQ2). eauto.
      * split; [|discriminate]. destruct L as [->|L]; cbn [follows rbind]; auto.
      * split; [|discriminate]. rewrite L. reflexivity.
    + apply (IH (S i) _ (setCols cs w) f Hw).
Qed.

Notation ioAll := (io_writeAll W osWrite deflate C V (i_Write I) (i_Size I) (i_Flush I) (i_Index I) (i_WriteOut I)
                      streams (i_Infos I) (i_Reset I) (pb_SF P) o StripeSize).
Lemma writeAll_ok vs : forall w f, lengths_ok w ->
  follows f (ioAll vs w f) (writeBatches (write1 deflate I P o StripeSize) (setOut (disk f) w) vs) /\
  (forall w' f', ioAll vs w f = Ok (w', f') -> lengths_ok w').
Proof.
  induction vs as [|v vs IH]; intros w f Hw; cbn [io_writeAll writeBatches].
  - split; [cbn; auto|]. intros w' f' E. injection E as <- <-. exact Hw.
  - unfold io_Write, write1 at 1, Write.
    destruct (writeLoop_ok v (vlen v) 0%nat 0 w f Hw) as (L & Lk).
    destruct (ioLoop (vlen v) 0%nat 0 v w f) as [[w1 f1]| |]; cbn [rbind]; cbn [follows] in L.
    + destruct L as (-> & HQ). cbn [rbind]. destruct (IH w1 f1 (Lk _ _ eq_refl)) as (L2 & L2k). split; [|exact L2k].
      destruct (ioAll vs w1 f1) as [[w3 f3]| |]; cbn [follows] in *; [|exact L2..].
      destruct L2 as (-> & HQ2). eauto.
    + split; [|discriminate]. destruct L as [->|L]; cbn [follows rbind]; auto.
    + split; [|discriminate]. rewrite L. reflexivity.
Qed.

Definition followsB (f : W) (x : res W) (y : res (list Z)) : Prop :=
  match x with
  | Ok f' => exists g, y = Ok (disk g) /\ Q f g /\ f' = snd (osClose g)
  | Err => y = Err \/ faulty osWrite
  | Panic => y = Panic
  end.

Notation ioTail := (io_writeFileTail W osWrite deflate C ST (i_Stats I) (pb_Footer P) (pb_PS P) o).
Notation mTail := (writeFileTail deflate (i_Stats I) (pb_Footer P) (pb_PS P) o).
Lemma tail_ok w f :
  match ioTail w f with
  | Ok f' => mTail (setOut (disk f) w) = Ok (disk f') /\ Q f f'
  | Err => mTail (setOut (disk f) w) = Err \/ faulty osWrite
  | Panic => mTail (setOut (disk f) w) = Panic
  end.
Proof.
  unfold io_writeFileTail, writeFileTail.
  change (fileFooter (i_Stats I) (setOut (disk f) w)) with (fileFooter (i_Stats I) w).
  destruct (pb_Footer P _) as [raw| |]; cbn [rbind]; [|auto..]. cbn [setOut sw_out].
  set (X := match CompressionKind o with NONE => Ok raw | _ => _ end).
  set (Y := match CompressionKind o with NONE => rbind (put _ _ _ _) _ | _ => _ end).
  assert (L : match Y with
              | Ok (n, f1) => exists fb, X = Ok fb /\ n = zlen fb /\ disk f1 = disk f ++ fb /\ Q f f1
              | Err => X = Err \/ faulty osWrite
              | Panic => X = Panic
              end).
  { subst X Y. destruct (CompressionKind o).
    1: { pose proof (put_ok raw f) as L. destruct (put W osWrite raw f) as [[n f1]| |]; cbn [rbind]; [|auto|contradiction].
         destruct L as (_ & Hd & HQ). eauto. }
    all: destruct (CompressingAllInChunks deflate _ (ChunkSize o) raw) as [[c rest]| |]; cbn [rbind]; [|auto..];
         pose proof (WriteTo_ok c f) as L; destruct (WriteTo W osWrite c f) as [[n f1]| |]; cbn [rbind]; [|auto|contradiction];
         destruct L as (_ & Hd & HQ); eauto. }
  destruct Y as [[n f1]| |]; cbn [rbind].
  2: { destruct L as [->|L]; auto. }
  2: { rewrite L. reflexivity. }
  destruct L as (fb & -> & -> & Hd & HQ). cbn [rbind].
  destruct (pb_PS P _) as [psb| |]; cbn [rbind]; [|auto..].
  pose proof (put_ok psb f1) as L. destruct (put W osWrite psb f1) as [[m f2]| |]; cbn [rbind]; [|auto|contradiction].
  destruct L as (-> & Hd2 & HQ2).
  pose proof (put_ok [u8 (zlen psb)] f2) as L.
  destruct (put W osWrite [u8 (zlen psb)] f2) as [[m f3]| |]; cbn [rbind]; [|auto|contradiction].
  destruct L as (_ & Hd3 & HQ3). rewrite Hd3, Hd2, Hd, <- !app_assoc. split; [reflexivity|eauto].
Qed.

(** The whole client. *)
Lemma client_ok schema vs f : disk f = [] ->
  match client osWrite osClose deflate I streams P o StripeSize schema vs f with
  | Ok f' => exists g, closed deflate I P o StripeSize schema vs (disk g) /\ Q f g /\ f' = snd (osClose g)
  | Err => faulty osWrite \/
           (let! w0 := newFileWriter (i_New I) schema in
            let! w := writeBatches (write1 deflate I P o StripeSize) w0 vs in
            closeFile deflate I P o w) = Err
  | Panic => (let! w0 := newFileWriter (i_New I) schema in
            let! w := writeBatches (write1 deflate I P o StripeSize) w0 vs in
            closeFile deflate I P o w) = Panic
  end.
Proof.
  intros H0. unfold client, io_writeFile, io_newFileWriter, newFileWriter, closed.
  unfold newFileWriter.
  destruct (Flat schema) as [schemas| |]; cbn [rbind]; [|auto..].
  pose proof (put_ok Magic f) as L. destruct (put W osWrite Magic f) as [[n f1]| |]; cbn [rbind]; [|auto|contradiction].
  destruct L as (_ & Hd & HQ). rewrite H0 in Hd. cbn [app] in Hd.
  destruct (mapM (i_New I) schemas) as [cs| |]; cbn [rbind]; [|auto..].
  set (w0 := {| sw_schemas := schemas; sw_cols := cs; sw_info := newInfo 3; sw_infos := []; sw_out := [] |}).
  assert (Hw0 : lengths_ok w0) by (split; cbn; unfold is_u64; lia).
  change {| sw_schemas := schemas; sw_cols := cs; sw_info := newInfo 3; sw_infos := []; sw_out := Magic |}
    with (setOut Magic w0). rewrite <- Hd.
  destruct (writeAll_ok vs w0 f1 Hw0) as (L & Lk).
  destruct (ioAll vs w0 f1) as [[w1 f2]| |]; cbn [rbind]; cbn [follows] in L.
  2: { destruct L as [->|L]; auto. }
  2: { rewrite L. reflexivity. }
  destruct L as (E1 & HQ1). specialize (Lk _ _ eq_refl).
  unfold io_Close. unfold closeFile, Close. rewrite E1. cbn [rbind].
  destruct (flushOut_ok w1 f2 Lk) as (L & _).
  destruct (ioFlush w1 f2) as [[w2 f3]| |]; cbn [rbind]; cbn [follows] in L.
  2: { destruct L as [->|L]; cbn [rbind]; auto. }
  2: { rewrite L. reflexivity. }
  destruct L as (E2 & HQ2). rewrite E2. cbn [rbind].
  cbn [setOut sw_schemas sw_cols sw_info sw_infos sw_out].
  set (w3 := {| sw_schemas := sw_schemas w2; sw_cols := sw_cols w2; sw_info := sw_info w2;
                sw_infos := sw_infos w2 ++ [sw_info w2]; sw_out := sw_out w2 |}).
  pose proof (tail_ok w3 f3) as L.
  change {| sw_schemas := sw_schemas w2; sw_cols := sw_cols w2; sw_info := sw_info w2;
            sw_infos := sw_infos w2 ++ [sw_info w2]; sw_out := disk f3 |} with (setOut (disk f3) w3).
  destruct (ioTail w3 f3) as [f4| |]; cbn [rbind].
  2: { destruct L as [->|L]; auto. }
  2: { exact L. }
  destruct L as (E3 & HQ3). destruct (osClose f4) as [b f5] eqn:Ec. exists f4.
  split; [|split; [eauto 10|rewrite Ec; reflexivity]].
  exists (setOut (disk f1) w0), (setOut (disk f2) w1). split; [reflexivity|]. split; [exact E1|].
  rewrite E2. exact E3.
Qed.
End Out.

Lemma columns_streams deflate F o stride : streams_ok (columns deflate F o stride) (c_Streams o).
Proof.
  intros c b n c' E. cbn [columns i_WriteOut] in E. unfold c_WriteOut in E.
  destruct (_ && _); [discriminate|]. unfold c_Streams.
  assert (Em : map fst (map (fun q => let (b, w) := w_WriteOut o (snd q) in (b, (fst q, w))) (cw_data c)) =
               map (fun q => fst (w_WriteOut o (snd q))) (cw_data c)).
  { rewrite map_map. apply map_ext. intros q. destruct (w_WriteOut o (snd q)); reflexivity. }
  rewrite Em in E. injection E as <- _ _. rewrite concat_app. f_equal.
  destruct (cw_present c) as [p|]; [|reflexivity]. destruct (w_WriteOut o p). cbn. rewrite app_nil_r. reflexivity.
Qed.
