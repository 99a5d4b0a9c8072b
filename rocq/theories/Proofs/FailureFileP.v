(** Files written by a client whose Writes sometimes fail. *)
From Coq Require Import ZifyBool ZifyNat.
From Verif.Model Require Import Go Codec ByteBool IntRle Chunk Stream Schema Rows Time File Column Wire Assembled Failure.
From Verif.Spec Require Import BoolSpec Session StreamSpec ChunkSpec SchemaSpec RowsSpec FileSpec ColumnSpec AssemblySpec EndSpec FailureSpec.
From Verif.Proofs Require Import Base SchemaP ChunkP TailP RowsP SessionP ReadP FileP OpenP FileClaimsP WireP ColumnP ColumnReadP StatsP AssembledP BatchP EndP EndColP OpenTreeP EndFileP EndMainP EndClaimsP FailureP.

(** ** The invariant of a column writer *)
Section Columns.
Variable deflate : list (list Z) -> list Z -> res (list Z).
Variable F : floats.
Variable o : opts.
Variable stride : Z.
(** The first stream of a binary column is one of bytes. *)
Definition heads (c : colW) : Prop := exists n w l, cw_data c = (n, w) :: l /\ w_enc w = EString.
Definition keeps (c c' : colW) : Prop :=
  cw_kind c' = cw_kind c /\ (cw_present c = None -> cw_present c' = None) /\ (cw_kind c = KBinary -> heads c -> heads c').
Lemma write_string w x w' : s_Write deflate o w x = Ok w' -> w_enc w = EString -> w_enc w' = EString.
Proof.
  unfold s_Write, w_Write. intros H E. rewrite E in H. apply rbind_inv in H. destruct H as ([e b] & He & H).
  assert (e = EString) as -> by (destruct x; cbn in He; congruence).
  destruct (negb (isNone (CompressionKind o)) && _).
  - apply rbind_inv in H. destruct H as ([c r] & _ & H). match type of H with Ok ?z = _ => assert (w' = z) as -> by congruence end. reflexivity.
  - match type of H with Ok ?z = _ => assert (w' = z) as -> by congruence end. reflexivity.
Qed.
Lemma flush_string w w' : s_Flush deflate o w = Ok w' -> w_enc w = EString -> w_enc w' = EString.
Proof.
  unfold s_Flush, w_Flush. intros H E. rewrite E in H. cbn [encFlush rbind] in H. destruct (isNone (CompressionKind o)).
  - match type of H with Ok ?z = _ => assert (w' = z) as -> by congruence end. reflexivity.
  - apply rbind_inv in H. destruct H as ([c r] & _ & H). match type of H with Ok ?z = _ => assert (w' = z) as -> by congruence end. reflexivity.
Qed.
Lemma mapM_head (f : writer enc -> res (writer enc)) (Hf : forall w w', f w = Ok w' -> w_enc w = EString -> w_enc w' = EString) n w l d :
  mapM (onWriter f) ((n, w) :: l) = Ok d -> w_enc w = EString -> exists n w l, d = (n, w) :: l /\ w_enc w = EString.
Proof.
  intros H E. cbn [mapM] in H. apply rbind_inv in H. destruct H as ([n' w'] & H1 & H). apply rbind_inv in H. destruct H as (r & _ & H).
  unfold onWriter in H1. cbn [fst snd] in H1. apply rbind_inv in H1. destruct H1 as (w1 & Hw & H1).
  assert (w1 = w') as -> by congruence. exists n', w', r. split; [congruence|]. eapply Hf; eassumption.
Qed.
Lemma keeps_Write c v c' : c_Write deflate F o stride c v = Ok c' -> keeps c c'.
Proof.
  unfold c_Write. intros H. destruct (isKStruct (cw_kind c) && negb (hasNulls c)); [assert (c' = c) as -> by congruence; repeat split; auto|].
  apply rbind_inv in H. destruct H as (p & Hp & H). apply rbind_inv in H. destruct H as (d & Hd & H).
  apply rbind_inv in H. destruct H as (st & _ & H).
  assert (Hp' : cw_present c = None -> p = None) by (intros E; rewrite E in Hp; cbn in Hp; congruence).
  assert (Hd' : cw_kind c = KBinary -> heads c -> exists n w l, d = (n, w) :: l /\ w_enc w = EString).
  { intros Ek (n & w & l & E1 & E2). rewrite Ek, E1 in Hd. destruct (Null v); [exists n, w, l; split; [congruence|exact E2]|].
    cbn [puts rbind writeEach] in Hd. apply rbind_inv in Hd. destruct Hd as (w' & Hw & Hd). apply rbind_inv in Hd. destruct Hd as (r & _ & Hd).
    exists n, w', r. split; [congruence|]. eapply write_string; eassumption. }
  destruct (WriteIndex o && indexes (cw_kind c) (Null v)).
  - apply indexStep_same in H. destruct H as (_ & H2 & H3 & H4 & _). unfold keeps, heads. rewrite H2, H3, H4. auto.
  - match type of H with Ok ?x = _ => assert (c' = x) as -> by congruence end. split; [reflexivity|]. split; [exact Hp'|exact Hd'].
Qed.
Lemma keeps_Flush c c' : c_Flush deflate o c = Ok c' -> keeps c c'.
Proof.
  unfold c_Flush. intros H. apply rbind_inv in H. destruct H as (d0 & Hd0 & H). apply rbind_inv in H. destruct H as (p & Hp & H).
  apply rbind_inv in H. destruct H as (d & Hd & H). match type of H with Ok ?x = _ => assert (c' = x) as -> by congruence end.
  split; [reflexivity|]. split; [intros E; rewrite E in Hp; cbn in *; congruence|].
  intros Ek (n & w & l & E1 & E2). unfold heads. cbn [cw_data]. unfold dictFill in Hd0. rewrite Ek in Hd0. cbn in Hd0.
  assert (d0 = cw_data c) as -> by congruence. rewrite E1 in Hd. eapply mapM_head; [|exact Hd|exact E2]. apply flush_string.
Qed.
Lemma keeps_WriteOut c b n c' : c_WriteOut o c = Ok (b, n, c') -> keeps c c'.
Proof.
  unfold c_WriteOut. destruct (checksFlushed (cw_kind c) && negb (cw_flushed c)); [discriminate|]. intros H.
  match type of H with Ok (_, _, ?z) = _ => assert (c' = z) as -> by congruence end.
  split; [reflexivity|]. split; [intros E; cbn [cw_present]; rewrite E; reflexivity|].
  intros _ (m & w & l & E1 & E2). unfold heads. cbn [cw_data]. rewrite E1. cbn [map snd fst]. unfold w_WriteOut.
  destruct (isNone (CompressionKind o)); cbn [snd]; (do 3 eexists; split; [reflexivity|exact E2]).
Qed.
Lemma keeps_Reset c c' : c_Reset o c = Ok c' -> keeps c c'.
Proof.
  unfold c_Reset. intros H. apply rbind_inv in H. destruct H as (p & Hp & H). apply rbind_inv in H. destruct H as (d & Hd & H).
  match type of H with Ok ?x = _ => assert (c' = x) as -> by congruence end.
  split; [reflexivity|]. split; [intros E; rewrite E in Hp; cbn in *; congruence|].
  intros _ (n & w & l & E1 & E2). unfold heads. cbn [cw_data]. rewrite E1 in Hd. eapply mapM_head; [|exact Hd|exact E2].
  intros w1 w2 Hw E. unfold w_Reset in Hw. destruct (isNone (CompressionKind o)); [discriminate|].
  match type of Hw with Ok ?z = _ => assert (w2 = z) as -> by congruence end. exact E.
Qed.

Variable schema : td.
Definition sound_column (id : nat) (c : colW) : Prop :=
  exists t k, nth_error (flatten schema) id = Some t /\ writerKind (td_kind t) (td_enc t) = Ok k /\ cw_kind c = k /\
    (cw_present c = None \/ forall y, refuses k y = false) /\ (k = KBinary -> heads c).
Lemma sound_keeps id c c' : sound_column id c -> keeps c c' -> sound_column id c'.
Proof.
  intros (t & k & H1 & H2 & H3 & H4 & H5) (K1 & K2 & K3). exists t, k. split; [exact H1|]. split; [exact H2|]. split; [congruence|].
  split; [destruct H4 as [H4|H4]; [left; auto|right; exact H4]|]. intros E. apply K3; [congruence|auto].
Qed.
Lemma sound_left id c x c' : sound_column id c -> c_Write deflate F o stride c x = Err -> c_Left deflate o c x = Some c' ->
  c' = c /\ refused_by schema id x.
Proof.
  intros (t & k & H1 & H2 & H3 & H4 & _) _ H. unfold c_Left in H.
  destruct (Null x) eqn:En; [discriminate|]. destruct (refuses (cw_kind c) (V x)) eqn:Er; [|discriminate]. cbn [orb negb] in H.
  split; [|exists t, k; rewrite H3 in Er; auto].
  destruct H4 as [H4|H4]; [|rewrite H3, H4 in Er; discriminate].
  rewrite H4 in H. cbn [optM] in H. assert (Hc : {| cw_id := cw_id c; cw_kind := cw_kind c; cw_present := None; cw_data := cw_data c;
                         cw_stats := cw_stats c; cw_indexInRows := cw_indexInRows c;
                         cw_indexStats := cw_indexStats c; cw_index := cw_index c;
                         cw_flushed := cw_flushed c; cw_pending := cw_pending c |} = c').
  { congruence. }
  rewrite <- Hc. destruct c. cbn in *. congruence.
Qed.
Lemma refuses_puts k v vs s s' : refuses k v = true -> puts k v = Ok vs -> addStats F k v s = Ok s' -> k = KBinary.
Proof. destruct k, v; cbn; intros; try discriminate; try reflexivity; unfold addStats in *; destruct (cs_detail s) as [[]|]; discriminate. Qed.
Lemma sound_accepts id c x c' : sound_column id c -> c_Write deflate F o stride c x = Ok c' -> ~ refused_by schema id x.
Proof.
  intros (t & k & H1 & H2 & H3 & _ & H5) H (t' & k' & R1 & R2 & R3 & R4).
  assert (t' = t) as -> by congruence. assert (k' = k) as -> by congruence. unfold c_Write in H. rewrite R3, H3 in H.
  destruct (isKStruct k && negb (hasNulls c)) eqn:E; [destruct k; discriminate|].
  apply rbind_inv in H. destruct H as (p & _ & H). apply rbind_inv in H. destruct H as (d & Hd & H).
  apply rbind_inv in H. destruct H as (st & Hst & _). apply rbind_inv in Hd. destruct Hd as (vs & Hvs & Hd).
  pose proof (refuses_puts _ _ _ _ _ R4 Hvs Hst) as ->. destruct (H5 eq_refl) as (n & w & l & E1 & E2).
  cbn [puts] in Hvs. assert (vs = [Some (V x); None]) as -> by congruence. rewrite E1 in Hd. cbn [writeEach] in Hd.
  apply rbind_inv in Hd. destruct Hd as (w' & Hw & _). unfold s_Write, w_Write in Hw. rewrite E2 in Hw.
  destruct (V x); cbn in R4, Hw; discriminate.
Qed.
Lemma sound_new w0 : newFileWriter (i_New (columns deflate F o stride)) schema = Ok w0 ->
  sw_schemas w0 = flatten schema -> plain_refusals schema -> AllK colW sound_column (sw_cols w0).
Proof.
  intros H Hs Hp. unfold newFileWriter in H. apply rbind_inv in H. destruct H as (l & Hl & H).
  apply rbind_inv in H. destruct H as (cs & Hcs & H).
  match type of H with Ok ?x = _ => assert (w0 = x) as -> by congruence end. cbn [sw_schemas sw_cols] in *. subst l.
  destruct (mapM_spec _ _ _ Hcs) as [Hlen Hk]. intros id c Hc.
  destruct (nth_error (flatten schema) id) as [t|] eqn:Et.
  2: { apply nth_error_None in Et. assert (id < length cs)%nat by (apply nth_error_Some; congruence). lia. }
  destruct (Hk _ _ Et) as (c' & Hc' & Hnew). assert (c' = c) as -> by congruence.
  cbn [i_New columns] in Hnew. unfold NewWriter in Hnew. apply rbind_inv in Hnew. destruct Hnew as (k & Hkw & Hnew).
  assert (c = newColW o (td_id t) k (td_hasNulls t)) as -> by congruence. exists t, k. split; [exact Et|]. split; [exact Hkw|].
  split; [reflexivity|]. unfold plain_refusals in Hp. rewrite Forall_forall in Hp. specialize (Hp t (nth_error_In _ _ Et)).
  split; [destruct (td_hasNulls t) eqn:Eh; [right; intros y; apply Hp; auto|left; reflexivity]|].
  intros ->. do 3 eexists. split; reflexivity.
Qed.
End Columns.

Lemma given_segs x given k : given_ok x given -> readerKind (td_kind x) (td_enc x) = Ok k -> (leaf k = true \/ k = KStruct) ->
  segs_ok k (td_hasNulls x) (map (column_of (col x)) given).
Proof.
  intros (H1 & H2 & H3) Hk Hl. split; [|split].
  - intros Hlk. rewrite Forall_map. apply (H1 k Hk). destruct k; discriminate.
  - intros Hh. rewrite removelast_map, Forall_map. exact (H2 Hh).
  - intros ->. rewrite removelast_map, Forall_map. apply H3. eapply readerKind_bool. exact Hk.
Qed.

(** ** The file *)
Section Main.
Variable deflate : list (list Z) -> list Z -> res (list Z).
Variable inflate : list Z -> res (list Z).
Variable F : floats.
Variable o : opts.
Variables stride StripeSize : Z.
Hypothesis Hflate : flate_ok deflate inflate.
Hypothesis Hcs : 1 <= ChunkSize o < 2 ^ 23.
Variables (t0 schema : td) (l : list (cvec value * bool)) (file : list Z).
Hypothesis Hsize : size t0 <= 2 ^ 32.
Hypothesis Hnorm : NormalizeSchema t0 = Ok schema.
Hypothesis Hplain : plain_refusals schema.
Hypothesis Htried : tried deflate F o stride StripeSize schema l file.
Hypothesis Hfile : zlen file < 2 ^ 62.
Variable r : fileR colstats.
Hypothesis Hopen : newFileReader inflate cs_hasNull unmarshalPS unmarshalFooter file = Ok r.
Variable bopt : batchOption.
Hypothesis Hread : readable_schema bopt false schema = true.
Hypothesis Hinc : IsInclude bopt 0 = true.
Hypothesis Hrow : RowSize bopt <> 0.

Lemma tried_read : exists ps g, Attempts (refused_by schema) l ([], empty_page) (ps, g) /\
  forall ls last, Forall2 reads_as (ps ++ [g]) (ls ++ [last]) -> zlen (concat (ls ++ [last])) < 2 ^ 62 ->
  comes_back inflate bopt schema file r ls last (map pg_cells (ps ++ [g])).
Proof.
  assert (Hs32 : size t0 <= 4294967296) by exact Hsize.
  destruct (normalize_spec _ _ Hs32 Hnorm) as (_ & Hnum & Hun).
  assert (Hflat : Flat schema = Ok (flatten schema)).
  { unfold Flat. rewrite (Numbered_CheckId _ Hnum Hun), Hun. reflexivity. }
  destruct Htried as (w0 & w & Hnew & Htr & Hcl).
  destruct (columns_contract deflate F o stride) as (Hws & _).
  assert (Hsch : sw_schemas w0 = flatten schema /\ mapM (i_New (columns deflate F o stride)) (flatten schema) = Ok (sw_cols w0)).
  { unfold newFileWriter in Hnew. rewrite Hflat in Hnew. cbn [rbind] in Hnew. apply rbind_inv in Hnew. destruct Hnew as (cs & Hm & Hnew).
    match type of Hnew with Ok ?x = _ => assert (w0 = x) as -> by congruence end. auto. }
  destruct Hsch as [Hsch Hcols].
  pose proof (sound_new deflate F o stride schema w0 Hnew Hsch Hplain) as Hsnd.
  assert (Hf64 : zlen file < W64) by (change (2 ^ 62) with 4611686018427387904 in Hfile; lia).
  destruct (attempts_file deflate colW value colstats (i_Write (columns deflate F o stride)) (c_Left deflate o) (i_Size (columns deflate F o stride))
    (i_Flush (columns deflate F o stride)) (i_Index (columns deflate F o stride)) (i_WriteOut (columns deflate F o stride)) (i_Infos (columns deflate F o stride))
    (i_Stats (columns deflate F o stride)) (i_Reset (columns deflate F o stride)) (i_New (columns deflate F o stride)) (pb_SF wire) (pb_Footer wire) (pb_PS wire) o StripeSize
    Hws (sound_column schema) (refused_by schema)) with (schema := schema) (w0 := w0) (l := l) (w := w) (file := file) as (ps & g & Ha & Hall); auto.
  { intros id c x c' Hs He Hlf. apply (sound_left deflate F o stride schema id c x c' Hs He Hlf). }
  { intros id c x c' Hs Hw. exact (sound_accepts deflate F o stride schema id c x c' Hs Hw). }
  { intros id c x c' Hs Hw. eapply sound_keeps; [exact Hs|]. eapply keeps_Write. exact Hw. }
  { intros id c c' Hs Hw. eapply sound_keeps; [exact Hs|]. eapply keeps_Flush. exact Hw. }
  { intros id c b n c' Hs Hw. eapply sound_keeps; [exact Hs|]. eapply keeps_WriteOut. exact Hw. }
  { intros id c c' Hs Hw. eapply sound_keeps; [exact Hs|]. eapply keeps_Reset. exact Hw. }
  exists ps, g. split; [exact Ha|]. intros ls last Hra Hn62.
  assert (Hlens : Forall2 (fun (g : page value) rows => length rows = pg_rows g) (ps ++ [g]) (ls ++ [last])).
  { clear - Hra. induction Hra as [|a b ? ? H]; constructor; auto. apply H. }
  destruct (Hall _ Hlens ltac:(change (2 ^ 62) with 4611686018427387904 in Hn62; lia)) as (ms & csf & raw & fb & psb & I1 & I2 & I3 & I4 & I5 & I6).
  rewrite Hsch in *.
  assert (Hzl : CompressionKind o = ZLIB).
  { destruct (CompressionKind o) eqn:E; [exfalso| reflexivity|exfalso|exfalso|exfalso|exfalso]; eapply (only_zlib deflate); try exact Hcl; rewrite E; discriminate. }
  rewrite Hzl in *.
  destruct (stored_batches deflate inflate F o stride StripeSize Hflate Hcs t0 schema file Hsize Hnorm Hfile r Hopen bopt Hread Hinc Hrow
              (flatten schema) (sw_cols w0) csf (map pg_cells (ps ++ [g])) (ls ++ [last]) ms raw fb psb Hflat Hcols I1 I2 I3 I4 Hzl I5 I6 Hn62) as (S1 & S2 & S3).
  { clear - Hra. induction Hra as [|a b ? ? H]; cbn [map]; constructor; auto. apply H. }
  split; [exact S1|]. split; [exact S2|]. intros Hne Hst Hgv.
  destruct (S3 Hne Hst) as (x & Hx & Hfl & Hsim0).
  { intros t p k Hp Hk Hl. rewrite Forall_forall in Hgv. specialize (Hgv _ Hp). cbn [fst] in Hgv. eapply given_segs; eassumption. }
  pose proof (SimW_opened _ _ _ _ _ _ Hsim0 ltac:(destruct ls; discriminate)) as Hsim. exists x. split; [exact Hx|].
  assert (Hids : td_id schema = 0 /\ NoDup (map td_id (flatten schema))).
  { rewrite (Numbered_flat _ _ Hnum). split; [destruct schema; exact (proj1 (proj1 (Numbered_eq _ _ _ _ _ _ _) Hnum))|apply count_up_NoDup]. }
  destruct Hids as [Hid Hnd]. assert (Hincs : IsInclude bopt (td_id schema) = true) by (rewrite Hid; exact Hinc).
  apply client_of; auto. eapply Forall_impl; [|exact Hst]. intros q Hq. apply Hq.
Qed.
End Main.
