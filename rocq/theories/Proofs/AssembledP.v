(** The concrete column writers satisfy the contract the file layer is proved under. *)
From Coq Require Import ZifyBool ZifyNat.
From Verif.Model Require Import Go Codec ByteBool IntRle Chunk Stream Schema Rows Time File Column Wire Assembled.
From Verif.Spec Require Import BoolSpec Session StreamSpec ChunkSpec FileSpec ColumnSpec AssemblySpec.
From Verif.Proofs Require Import Base FileP ColumnP StatsP.

Section Contract.
Variable deflate : list (list Z) -> list Z -> res (list Z).
Variable F : floats.
Variable o : opts.
Variable stride : Z.

Definition kinds (c : colW) : list Z := map fst (cw_data c).

Lemma writeEach_kinds ss : forall vs ss', writeEach deflate o ss vs = Ok ss' -> map fst ss' = map fst ss.
Proof.
  induction ss as [|[k w] r IH]; intros vs ss' H; cbn [writeEach] in H; [assert (ss' = []) as -> by congruence; reflexivity|].
  destruct vs as [|v vs]; [assert (ss' = (k, w) :: r) as -> by congruence; reflexivity|].
  apply rbind_inv in H. destruct H as (w' & _ & H). apply rbind_inv in H. destruct H as (r' & Hr & H).
  assert (ss' = (k, w') :: r') as -> by congruence. cbn [map fst]. f_equal. eapply IH. exact Hr.
Qed.
Lemma c_Write_kinds c v c' : c_Write deflate F o stride c v = Ok c' -> cw_id c' = cw_id c /\ kinds c' = kinds c.
Proof.
  unfold c_Write. intros H. destruct (isKStruct (cw_kind c) && negb (hasNulls c)); [assert (c' = c) as -> by congruence; auto|].
  apply rbind_inv in H. destruct H as (p & Hp & H). apply rbind_inv in H. destruct H as (d & Hd & H).
  apply rbind_inv in H. destruct H as (st & Hst & H).
  assert (Hk : map fst d = kinds c).
  { destruct (Null v); [assert (d = cw_data c) as -> by congruence; reflexivity|].
    apply rbind_inv in Hd. destruct Hd as (vs & _ & Hd). eapply writeEach_kinds. exact Hd. }
  destruct (WriteIndex o && indexes (cw_kind c) (Null v)).
  - apply indexStep_same in H. destruct H as (H1 & _ & _ & H4 & _). unfold kinds. rewrite H1, H4. cbn. auto.
  - match type of H with Ok ?x = _ => assert (c' = x) as -> by congruence end. cbn. auto.
Qed.
Lemma onWriter_kinds (f : writer enc -> res (writer enc)) d : forall d', mapM (onWriter f) d = Ok d' -> map fst d' = map fst d.
Proof.
  induction d as [|[k w] r IH]; intros d' H; cbn [mapM] in H; [assert (d' = []) as -> by congruence; reflexivity|].
  apply rbind_inv in H. destruct H as ([k' w'] & Hw & H). apply rbind_inv in H. destruct H as (r' & Hr & H).
  unfold onWriter in Hw. apply rbind_inv in Hw. destruct Hw as (w1 & _ & Hw). cbn [fst] in Hw.
  assert (d' = (k', w') :: r') as -> by congruence. cbn [map fst]. f_equal; [congruence|]. apply IH. exact Hr.
Qed.
Lemma dictFill_kinds c d : dictFill deflate o c = Ok d -> map fst d = kinds c.
Proof.
  unfold dictFill. intros H.
  assert (Hd : d = cw_data c -> map fst d = kinds c) by (intros ->; reflexivity).
  destruct (cw_kind c); try (apply Hd; congruence).
  destruct (cw_data c) as [|[k1 w1] [|[k2 w2] [|[k3 w3] [|q r]]]] eqn:E; try (apply Hd; congruence).
  apply rbind_inv in H. destruct H as (x1 & _ & H). apply rbind_inv in H. destruct H as (x2 & _ & H).
  apply rbind_inv in H. destruct H as (x3 & _ & H). apply rbind_inv in H. destruct H as (x4 & _ & H).
  match type of H with Ok ?x = _ => assert (d = x) as -> by congruence end. unfold kinds. rewrite E. reflexivity.
Qed.
Lemma c_Flush_kinds c c' : c_Flush deflate o c = Ok c' -> cw_id c' = cw_id c /\ kinds c' = kinds c /\
  Forall (fun q => w_length (snd q) = zlen (stored o (snd q))) (streams c').
Proof.
  unfold c_Flush. intros H. apply rbind_inv in H. destruct H as (d0 & Hd0 & H). apply rbind_inv in H. destruct H as (p & Hp & H).
  apply rbind_inv in H. destruct H as (d & Hd & H). match type of H with Ok ?x = _ => assert (c' = x) as -> by congruence end.
  unfold kinds, streams. cbn [cw_id cw_data cw_present]. split; [reflexivity|].
  split; [rewrite (onWriter_kinds _ _ _ Hd); apply dictFill_kinds; exact Hd0|]. apply Forall_app. split.
  - destruct (cw_present c) as [q|]; cbn [optM] in Hp.
    + apply rbind_inv in Hp. destruct Hp as (q' & Hq & Hp). assert (p = Some q') as -> by congruence.
      constructor; [|constructor]. cbn [snd]. eapply s_Flush_length. exact Hq.
    + assert (p = None) as -> by congruence. constructor.
  - apply mapM_Flushed in Hd. clear - Hd. revert d Hd. induction d0 as [|[k w] r IH]; intros [|[k' w'] r'] H; cbn in H; try contradiction; constructor.
    + destruct H as (_ & H & _). cbn [snd]. eapply s_Flush_length. exact H.
    + apply IH. apply H.
Qed.
Lemma c_WriteOut_kinds c b n c' : c_WriteOut o c = Ok (b, n, c') -> cw_id c' = cw_id c /\ kinds c' = kinds c.
Proof.
  unfold c_WriteOut. destruct (checksFlushed (cw_kind c) && negb (cw_flushed c)); [discriminate|]. intros H.
  match type of H with Ok (_, _, ?z) = _ => assert (c' = z) as -> by congruence end. unfold kinds. cbn [cw_id cw_data].
  split; [reflexivity|]. rewrite !map_map. apply map_ext. intros [k w]. cbn. destruct (w_WriteOut o w). reflexivity.
Qed.
Lemma c_Reset_kinds c c' : c_Reset o c = Ok c' -> cw_id c' = cw_id c /\ kinds c' = kinds c.
Proof.
  unfold c_Reset. intros H. apply rbind_inv in H. destruct H as (p & _ & H). apply rbind_inv in H. destruct H as (d & Hd & H).
  match type of H with Ok ?x = _ => assert (c' = x) as -> by congruence end. split; [reflexivity|].
  unfold kinds. cbn [cw_data]. eapply onWriter_kinds. exact Hd.
Qed.

Lemma columns_contract : contract (columns deflate F o stride).
Proof.
  unfold contract, columns, keeps_id, writes_streams. cbn [i_New i_Write i_Flush i_WriteOut i_Infos i_Reset i_of].
  split; [|split; [split; [|split; [|split; [|split]]]|]].
  - intros c1 c2 bs n c' Hf Hw. destruct (c_Flush_kinds _ _ Hf) as (_ & _ & Hl).
    destruct (c_WriteOut_streams _ _ _ _ _ Hw) as (Hb & Hn & _ & _ & _ & Hs). split; [exact Hn|].
    exists (map (fun q => stored o (snd q)) (streams c2)). split; [exact Hb|].
    rewrite c_Infos_streams, Hs, !map_map. cbn [fst snd info st_length]. 
    clear - Hl. induction Hl as [|q r Hq Hr IH]; [reflexivity|]. cbn [map]. rewrite IH, drained_length, Hq. reflexivity.
  - intros c v c' i H [Hi Hf]. apply c_Write_kinds in H. destruct H as [H1 H2]. unfold kinds in H2. rewrite H1, H2. auto.
  - intros c c' i H [Hi Hf]. apply c_Flush_kinds in H. destruct H as (H1 & H2 & _). unfold kinds in H2. rewrite H1, H2. auto.
  - intros c b n c' i H [Hi Hf]. apply c_WriteOut_kinds in H. destruct H as [H1 H2]. unfold kinds in H2. rewrite H1, H2. auto.
  - intros c c' i H [Hi Hf]. apply c_Reset_kinds in H. destruct H as [H1 H2]. unfold kinds in H2. rewrite H1, H2. auto.
  - intros c s i [Hi Hf] Hs. rewrite c_Infos_streams in Hs. apply in_map_iff in Hs. destruct Hs as ([k w] & <- & Hin).
    cbn [info st_column st_kind fst]. split; [exact Hi|]. unfold streams in Hin. apply in_app_iff in Hin. destruct Hin as [Hin|Hin].
    + destruct (cw_present c); [|contradiction]. destruct Hin as [E|[]]. assert (k = 0) as -> by congruence. lia.
    + rewrite Forall_forall in Hf. apply Hf. apply in_map_iff. exists (k, w). auto.
  - intros t c H. unfold NewWriter in H. apply rbind_inv in H. destruct H as (k & _ & H).
    assert (c = newColW o (td_id t) k (td_hasNulls t)) as -> by congruence. unfold newColW. cbn [cw_id cw_data].
    split; [reflexivity|]. rewrite map_map. cbn [fst]. destruct k; cbn; repeat (constructor; [lia|]); constructor.
Qed.
End Contract.
