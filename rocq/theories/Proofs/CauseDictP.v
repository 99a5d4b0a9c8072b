(** Dictionaries of which nothing is known. *)
From Coq Require Import ZifyBool ZifyNat.
From Verif.Model Require Import Go Codec ByteBool IntRle Chunk Stream Schema Rows Time File Column Wire Nested Tree Assembled.
From Verif.Spec Require Import ChunkSpec PatchSpec RowsSpec EndSpec ProjectSpec ProgressSpec CrashSpec CauseSpec.
From Verif.Proofs Require Import Base ChunkP OpenBatchP StripeNpP SchemaP TreeP BatchP ProjectP ProgressP CrashP PatchPanicP OrcIntP CrashSeekP SeekP SkipP CauseP.

Section Dict.
Variable inflate : list Z -> res (list Z).
Variable o : opts.
Hypothesis Htame : tame inflate.
Hypothesis Hchunk : CompressionKind o = NONE -> 0 < ChunkSize o.
Variable Back : Prop.
(** A reader of unsigned integers of which [n] were taken. *)
Definition taken (f0 : stretch) (n : nat) (v : vreader Z) : Prop :=
  exists hist us used, past inflate o Back f0 hist (v_s v) /\ Runs false hist us /\ us = used ++ v_vals v /\ length used = n.
Lemma take_next f0 n v : taken f0 n v -> fine (fun x => taken f0 (S n) (snd x) /\ exists h us, unpacks inflate o f0 h /\ Runs false h us /\ In (fst x) us) (v_Next inflate o DecodeUInt v).
Proof.
  intros (hist & us & used & H & R & Eu & En). unfold v_Next. destruct (v_vals v) as [|x t].
  - pose proof (run_past inflate o Htame Hchunk Back f0 DecodeUInt hist (v_s v) H) as F. unfold outcome in F. destruct (r_run inflate o DecodeUInt (v_s v)) as [[xs s]| |]; [|exact I|].
    + destruct F as (bs & P & B & E). unfold DecodeUInt in E. pose proof (decode_nonempty false bs xs [] B E) as Hne. cbn [rbind]. destruct xs as [|y ys]; [congruence|]. cbn [fine fst snd].
      pose proof (R_snoc false hist us bs (y :: ys) R E) as R'. split.
      * exists (hist ++ bs), (us ++ y :: ys), (us ++ [y]). split; [exact P|]. split; [exact R'|]. split; [cbn [v_vals]; rewrite <- app_assoc; reflexivity|]. rewrite app_nil_r in Eu. rewrite app_length, Eu. cbn. lia.
      * exists (hist ++ bs), (us ++ y :: ys). split; [eapply past_unpacks; exact P|]. split; [exact R'|]. apply in_or_app. right. left. reflexivity.
    + destruct F as (bs & _ & B & E). apply (panic_all false bs B) in E. destruct E as [E _]. discriminate E.
  - cbn [fine fst snd]. split.
    * exists hist, us, (used ++ [x]). split; [exact H|]. split; [exact R|]. split; [cbn [v_vals]; rewrite <- app_assoc; exact Eu|]. rewrite app_length. cbn. lia.
    * exists hist, us. split; [eapply past_unpacks; exact H|]. split; [exact R|]. rewrite Eu. apply in_or_app. right. left. reflexivity.
Qed.

Variables GD GL : stretch -> Prop.
Hypothesis Hlen : forall f0, GL f0 -> ~ negative_length inflate o f0.
Hypothesis Hidx : forall fl fd, GL fl -> GD fd -> ~ stray_index inflate o fl fd.
Definition numbers (d : option (vreader Z)) : Prop := match d with Some v => exists fd n, GD fd /\ taken fd n v | None => False end.
(** The words, loaded or not. *)
Definition words_ok (r : dictR) : Prop :=
  if dr_loaded r then exists fl bs us, GL fl /\ exhausts inflate o fl bs /\ Runs false bs us /\ zlen us = zlen (dr_strings r)
  else exists v w fl, dr_length r = Some v /\ dr_dict r = Some w /\ okR w /\ GL fl /\ taken fl (length (dr_strings r)) v.
Definition dict_ok (r : dictR) : Prop := okP (dr_present r) /\ numbers (dr_data r) /\ words_ok r.
Definition loading (x : vreader Z * option reader * list (list Z)) : Prop :=
  exists w fl, snd (fst x) = Some w /\ okR w /\ GL fl /\ taken fl (length (snd x)) (fst (fst x)).
Lemma load_one x : loading x -> fine loading (loadOne inflate o x).
Proof.
  destruct x as [[l d] acc]. intros (w & fl & E & Hw & Hg & Ht). cbn [fst snd] in *. subst d. unfold loadOne. eapply fine_bind; [apply take_next; exact Ht|]. intros [n l'] [Ht' (h & us & Hu & Hr & Hin)]. cbn [fst snd] in *.
  eapply fine_bind; [apply (run_fine inflate o Htame Hchunk (fun _ => True)); [|exact Hw]|].
  - unfold DecodeBytes. destruct (Z.ltb_spec (i64 n) 0) as [Hn|Hn]; [|cbn; auto]. exfalso. apply (Hlen fl Hg). exists h, us. split; [exact Hu|]. split; [exact Hr|]. apply Exists_exists. exists n. auto.
  - intros [s d'] [_ Hd]. cbn [fine]. exists d', fl. cbn [fst snd]. split; [reflexivity|]. split; [exact Hd|]. split; [exact Hg|]. rewrite app_length. cbn [length]. rewrite Nat.add_1_r. exact Ht'.
Qed.
Lemma load_many n : forall x, loading x -> fine loading (loadMany inflate o n x).
Proof.
  induction n as [|n IH]; intros x H; cbn [loadMany]; (destruct (v_Finished _); [exact H|]); [apply load_one; exact H|]. eapply fine_bind; [apply IH; exact H|]. intros y Hy. apply IH. exact Hy.
Qed.
Lemma load_ok r : dict_ok r -> fine (fun r' => dict_ok r' /\ dr_loaded r' = true) (loadDict inflate o r).
Proof.
  intros (P & N & W). unfold loadDict. destruct (dr_loaded r) eqn:El; [cbn; unfold dict_ok; auto|]. unfold words_ok in W. rewrite El in W. destruct W as (v & w & fl & E1 & E2 & Hw & Hg & Ht). rewrite E1, E2.
  eapply fine_bind; [apply (load_many 64 (v, Some w, dr_strings r)); exists w, fl; cbn; auto|]. intros [[l' d] ss] (w' & fl' & E & Hw' & Hg' & Ht'). cbn [fst snd] in *. destruct (v_Finished l') eqn:Ef; [|exact I]. cbn [fine].
  split; [|reflexivity]. split; [exact P|]. split; [exact N|]. unfold words_ok. cbn [dict_loaded dict_words dr_loaded dr_strings].
  destruct Ht' as (hist & us & used & Hp & Hr & Eu & En). unfold v_Finished, r_finished in Ef.
  assert (Ev : v_vals l' = []) by (destruct (v_vals l'); [reflexivity|cbn in Ef; rewrite ?andb_false_r in Ef; discriminate Ef || lia]).
  assert (Eb : r_buf (v_s l') = []) by (destruct (r_buf (v_s l')); [reflexivity|cbn in Ef; rewrite ?andb_false_r in Ef; discriminate Ef || lia]).
  destruct Hp as (_ & _ & U & LN & RL & _). rewrite Eb, app_nil_r in U. exists fl', hist, us. split; [exact Hg'|]. split; [exists (r_rest (v_s l')); split; [exact U|rewrite <- LN, <- RL; lia]|]. split; [exact Hr|].
  rewrite Eu, Ev, app_nil_r. unfold zlen. lia.
Qed.
Lemma number_next d : numbers d -> fine (fun x => numbers (Some (snd x)) /\ exists fd h us, GD fd /\ unpacks inflate o fd h /\ Runs false h us /\ In (fst x) us) (nextSecond inflate o DecodeUInt d).
Proof.
  intros H. destruct d as [v|]; [|destruct H]. destruct H as (fd & n & Hg & Ht). cbn [nextSecond]. eapply fine_impl; [apply take_next; exact Ht|]. intros [x v'] [Ht' (h & us & H)]. cbn [fst snd] in *.
  split; [exists fd, (S n); auto|exists fd, h, us; tauto].
Qed.
Lemma rows_dict ss : (exists fl bs us, GL fl /\ exhausts inflate o fl bs /\ Runs false bs us /\ zlen us = zlen ss) ->
  forall vec p d, okP p -> numbers d -> fine (fun x => okP (snd (fst x)) /\ numbers (snd x)) (dictRows inflate o ss p d vec).
Proof.
  intros (fl & bs & us & Hg & Hx & Hr & Hl). induction vec as [|old r IH]; intros p d P N; cbn [dictRows]; [cbn; auto|].
  apply (fine_bind (fun x => okP (snd x))).
  - destruct p as [b|]; [|exact I]. eapply fine_bind; [apply (bnext_fine inflate o Htame Hchunk); exact P|]. intros [x b'] Hb. exact Hb.
  - intros [null p1] P1. cbn [snd] in P1. destruct null.
    + eapply fine_bind; [apply (IH p1 d P1 N)|]. intros [[xs p2] d2] H. exact H.
    + eapply fine_bind; [apply number_next; exact N|]. intros [i d1] [N1 (fd & h & is & Hd & Hu & Hri & Hin)]. cbn [fst snd] in *.
      assert (Hi : 0 <= i < zlen us).
      { destruct (Z_le_gt_dec 0 i) as [H0|H0]; [destruct (Z_lt_ge_dec i (zlen us)) as [H1|H1]; [auto|]|]; exfalso; apply (Hidx fl fd Hg Hd); exists bs, us, h, is; (split; [exact Hx|]); (split; [exact Hr|]); (split; [exact Hu|]); (split; [exact Hri|]); apply Exists_exists; exists i; (split; [exact Hin|lia]). }
      destruct (Z.ltb_spec i (zlen ss)); [|lia]. destruct (nth_error ss (Z.to_nat i)) as [s|] eqn:En; [|apply nth_error_None in En; unfold zlen in *; lia].
      eapply fine_bind; [apply (IH p1 (Some d1) P1 N1)|]. intros [[xs p2] d2] H2. exact H2.
Qed.
Lemma dict_batch r vec : dict_ok r -> fine (fun x => dict_ok (snd x)) (dict_NextBatch inflate o r vec).
Proof.
  intros H. unfold dict_NextBatch. eapply fine_bind; [apply load_ok; exact H|]. intros r' [(P & N & W) El]. pose proof W as W'. unfold words_ok in W. rewrite El in W.
  eapply fine_bind; [apply (rows_dict _ W vec _ _ P N)|]. intros [[xs p] d] [P' N']. cbn [fine fst snd] in *. split; [exact P'|]. split; [exact N'|]. exact W'.
Qed.
Lemma dict_skip r : dict_ok r -> fine dict_ok (dict_Skip1 inflate o r).
Proof.
  intros (P & N & W). unfold dict_Skip1. apply (fine_bind (fun x => okP (snd x))).
  - destruct (dr_present r) as [b|]; [|exact I]. eapply fine_bind; [apply (bnext_fine inflate o Htame Hchunk); exact P|]. intros [x b'] Hb. exact Hb.
  - intros [null p] P'. cbn [snd] in P'. destruct null; [split; [exact P'|]; split; [exact N|exact W]|]. eapply fine_bind; [apply number_next; exact N|]. intros [i d] [N' _]. cbn [fst snd fine] in *. split; [exact P'|]. split; [exact N'|exact W].
Qed.
End Dict.

Section DictBack.
Variable inflate : list Z -> res (list Z).
Variable o : opts.
Hypothesis Htame : tame inflate.
Hypothesis Hchunk : CompressionKind o = NONE -> 0 < ChunkSize o.
Variables GD GL : stretch -> Prop.
Hypothesis Hlen : forall f0, GL f0 -> ~ negative_length inflate o f0.
Hypothesis Hidx : forall fl fd, GL fl -> GD fd -> ~ stray_index inflate o fl fd.
Hypothesis Hpos : forall f0, GD f0 -> 0 < fst f0.
Lemma dict_back r : dict_ok inflate o True GD GL r -> fine (dict_ok inflate o True GD GL) (dict_SeekStride inflate o 0 r).
Proof.
  intros (P & N & W). unfold dict_SeekStride. cbn [Z.eqb]. unfold dict_seekTo. apply (fine_bind okP).
  - destruct (dr_present r) as [b|]; [|exact I]. eapply fine_bind; [apply (bseek_ok inflate o Htame Hchunk); exact P|]. intros b' Hb. exact Hb.
  - intros p P'. destruct (dr_data r) as [v|] eqn:Ed; [|destruct N]. destruct N as (fd & n & Hg & hist & us & used & Hp & _). unfold seekRun, v_Seek.
    apply (fine_bind (fun v' => taken inflate o True fd 0 v')).
    + eapply fine_bind; [eapply (seek_past inflate o Htame Hchunk GD (fun _ => False)); [intros f0 [Hq|[]]; exact (Hpos f0 Hq)|exact (Hpos fd Hg)|exact Hp]|]. intros s Hs. change (Z.to_nat (i64 0)) with O. cbn [v_skip fine].
      exists [], [], []. split; [exact Hs|]. split; [constructor|]. split; reflexivity.
    + intros v' Hv. cbn [fine]. split; [exact P'|]. split; [exists fd, O; auto|exact W].
Qed.
Lemma dict_steady r : dict_ok inflate o True GD GL r -> steady inflate o (RDict r).
Proof.
  intros H l _. revert r H. induction l as [|a l IH]; intros r H; cbn [doDeeds]; [discriminate|].
  assert (F : fine (fun x => exists r', x = RDict r' /\ dict_ok inflate o True GD GL r') (doDeed inflate o (RDict r) a)).
  { destruct a as [vec| |]; cbn [doDeed].
    - eapply fine_bind; [apply (dict_batch inflate o Htame Hchunk True GD GL Hlen Hidx r vec H)|]. intros [x r'] H'. exists r'. auto.
    - eapply fine_bind; [apply (dict_back r H)|]. intros r' H'. exists r'. auto.
    - eapply fine_bind; [apply (dict_skip inflate o Htame Hchunk True GD GL r H)|]. intros r' H'. exists r'. auto. }
  destruct (doDeed inflate o (RDict r) a) as [x| |]; [|discriminate|destruct F]. destruct F as (r' & -> & H'). cbn [rbind]. apply IH. exact H'.
Qed.
End DictBack.

(** ** Opening *)
Section OpenDict.
Variable inflate : list Z -> res (list Z).
Variable o : opts.
Variable file : list Z.
Hypothesis Hf : bytes file.
Hypothesis Hsize : zlen file < 2 ^ 64.
Variable L : list (strm * Z).
Variable Back : Prop.
Hypothesis Hback : Back -> forall s st, In (s, st) L -> is_u64 st.
Definition part_dict (r : dictR) : Prop :=
  okP (dr_present r) /\ (dr_data r = None \/ numbers inflate o Back (starts file L sDATA) (dr_data r)) /\
  (dr_dict r = None \/ exists w, dr_dict r = Some w /\ okR w) /\
  (dr_length r = None \/ exists v fl, dr_length r = Some v /\ starts file L sLENGTH fl /\ taken inflate o Back fl 0 v) /\
  dr_loaded r = false /\ dr_strings r = [].
Lemma new_taken n s st : In (s, st) L -> st_kind s = n -> is_u64 (st_length s) -> exists f0, starts file L n f0 /\ taken inflate o Back f0 0 (newVreader (newReader file st (st_length s))).
Proof.
  intros Hin Hn Hl. exists (stretch_of file (s, st)). split; [exists s, st; auto|]. exists [], [], []. split; [apply (new_past inflate o file Hf Hsize L Back Hback); assumption|]. split; [constructor|]. split; reflexivity.
Qed.
Definition kept {A} (b : Prop) (x y : option A) : Prop := b \/ x <> None -> y <> None.
Lemma init_dict r r' s st : In (s, st) L -> is_u64 (st_length s) -> part_dict r -> dict_InitStream file r s st = Ok r' ->
  part_dict r' /\ kept (st_kind s = sDATA) (dr_data r) (dr_data r') /\ kept (st_kind s = sDICT) (dr_dict r) (dr_dict r') /\ kept (st_kind s = sLENGTH) (dr_length r) (dr_length r').
Proof.
  intros Hin Hl (P & D & W & N & Ld & Ss) H. pose proof (okR_new file st _ Hf Hl) as Hr. pose proof (fun n E => new_taken n s st Hin E Hl) as Hh. unfold dict_InitStream in H. set (x := newReader file st (st_length s)) in *. unfold kept.
  destruct (Z.eqb_spec (st_kind s) sPRESENT) as [E|E]; [destruct (dr_hasNulls r); [|discriminate H]|destruct (Z.eqb_spec (st_kind s) sDATA) as [E1|E1]; [|destruct (Z.eqb_spec (st_kind s) sDICT) as [E2|E2]; [|destruct (Z.eqb_spec (st_kind s) sLENGTH) as [E3|E3]; [|discriminate H]]]];
    match type of H with Ok ?z = _ => assert (r' = z) as -> by congruence end; unfold part_dict; cbn.
  - split; [split; [split; [exact Hr|constructor]|tauto]|]. rewrite E. split; [intros [X|X]; [discriminate X|exact X]|]. split; (intros [X|X]; [discriminate X|exact X]).
  - destruct (Hh sDATA E1) as (f0 & Hg & Ht). split; [split; [exact P|]; split; [right; exists f0, O; auto|tauto]|]. rewrite E1. split; [discriminate|]. split; (intros [X|X]; [discriminate X|exact X]).
  - split; [split; [exact P|]; split; [exact D|]; split; [right; exists x; auto|tauto]|]. rewrite E2. split; [intros [X|X]; [discriminate X|exact X]|]. split; [discriminate|]. intros [X|X]; [discriminate X|exact X].
  - destruct (Hh sLENGTH E3) as (f0 & Hg & Ht). split; [split; [exact P|]; split; [exact D|]; split; [exact W|]; split; [right; eexists _, f0; split; [reflexivity|auto]|tauto]|]. rewrite E3. split; [intros [X|X]; [discriminate X|exact X]|]. split; [intros [X|X]; [discriminate X|exact X]|discriminate].
Qed.
Lemma open_dict l : (forall p, In p l -> In p L) -> lengths_ok l -> forall r x, part_dict r -> openColumn inflate o file (RDict r) l = Ok x ->
  exists r', x = RDict r' /\ part_dict r' /\ kept (has_stream sDATA l) (dr_data r) (dr_data r') /\ kept (has_stream sDICT l) (dr_dict r) (dr_dict r') /\ kept (has_stream sLENGTH l) (dr_length r) (dr_length r').
Proof.
  induction l as [|[s st] l IH]; intros HL Hl r x Hc H; cbn [openColumn] in H.
  - assert (x = RDict r) as -> by congruence. exists r. split; [reflexivity|]. split; [exact Hc|]. unfold kept. split; [|split]; (intros [(s & st & [] & _)|E]; exact E).
  - inversion Hl as [|? ? Hs Hl']; subst. apply rbind_inv in H. destruct H as (r1 & H1 & H).
    assert (exists c1, r1 = RDict c1 /\ part_dict c1 /\ kept (st_kind s = sDATA) (dr_data r) (dr_data c1) /\ kept (st_kind s = sDICT) (dr_dict r) (dr_dict c1) /\ kept (st_kind s = sLENGTH) (dr_length r) (dr_length c1)) as (c1 & -> & I1 & D1 & S1 & L1).
    { destruct (Z.eqb_spec (st_kind s) 6) as [E|_]; cbn [any_InitIndex any_InitStream] in H1; apply rbind_inv in H1; destruct H1 as (c1 & H1 & E1).
      - assert (r1 = RDict (dict_setIndex c1 r)) as -> by congruence. exists (dict_setIndex c1 r). split; [reflexivity|]. split; [exact Hc|]. unfold kept. rewrite E. cbn. split; [|split]; (intros [X|X]; [discriminate X|exact X]).
      - assert (r1 = RDict c1) as -> by congruence. exists c1. split; [reflexivity|]. apply (init_dict r c1 s st); auto. apply HL. left. reflexivity. }
    destruct (IH (fun p Hp => HL p (or_intror Hp)) Hl' _ _ I1 H) as (c' & -> & I' & D' & S' & L'). exists c'. split; [reflexivity|]. split; [exact I'|]. unfold kept in *.
    split; [|split]; (intros Hd; first [apply D'|apply S'|apply L']; destruct Hd as [(s0 & st0 & [E0|Hin] & Hk)|E0]; [injection E0 as <- <-; right; first [apply D1|apply S1|apply L1]; left; exact Hk|left; exists s0, st0; auto|right; first [apply D1|apply S1|apply L1]; right; exact E0]).
Qed.
Lemma opened_dict h x : lengths_ok L -> has_stream sDATA L -> has_stream sDICT L -> has_stream sLENGTH L -> openColumn inflate o file (RDict (newDictR h)) L = Ok x ->
  exists r, x = RDict r /\ dict_ok inflate o Back (starts file L sDATA) (starts file L sLENGTH) r.
Proof.
  intros Hl H1 H2 H3 H. destruct (open_dict L (fun p Hp => Hp) Hl (newDictR h) x) as (r & -> & (P & D & W & N & Ld & Ss) & K1 & K2 & K3); [|exact H|].
  { split; [exact I|]. split; [left; reflexivity|]. split; [left; reflexivity|]. split; [left; reflexivity|]. split; reflexivity. }
  exists r. split; [reflexivity|]. split; [exact P|]. split; [destruct D as [D|D]; [exfalso; apply (K1 (or_introl H1)); exact D|exact D]|].
  unfold words_ok. rewrite Ld, Ss. destruct W as [W|(w & Ew & Hw)]; [exfalso; apply (K2 (or_introl H2)); exact W|]. destruct N as [N|(v & fl & Ev & Hg & Ht)]; [exfalso; apply (K3 (or_introl H3)); exact N|]. exists v, w, fl. auto.
Qed.
End OpenDict.

(** ** Columns of any kind *)
Lemma ckind_eq_dec (a b : ckind) : {a = b} + {a <> b}.
Proof. decide equality. Qed.
Lemma any_calm inflate o file k h l r0 r : tame inflate -> (CompressionKind o = NONE -> 0 < ChunkSize o) -> bytes file -> zlen file < 2 ^ 64 -> lengths_ok l ->
  k <> KStruct -> clean_column inflate o file k l -> r0 = match k with KDict => RDict (newDictR h) | _ => RCol (newColR k h) end -> openColumn inflate o file r0 l = Ok r -> calm inflate o r.
Proof.
  intros Ht Hch Hf Hz Hl N Hc -> H. destruct (ckind_eq_dec k KDict) as [->|Nd].
  - destruct Hc as (H1 & H2 & H3 & Hc). destruct (opened_dict inflate o file Hf Hz l False (fun B => match B with end) h r Hl H1 H2 H3 H) as (d & -> & Hd). intros vec. eapply fine_np. apply (dict_batch inflate o Ht Hch False (starts file l sDATA) (starts file l sLENGTH)); [..|exact Hd].
    + intros f0 (s & st & Hin & E & ->). exact (proj1 (Hc (s, st) Hin E)).
    + intros fl fd (s & st & Hin & E & ->) (s' & st' & Hin' & E' & ->). exact (proj2 (Hc (s, st) Hin E) (s', st') Hin' E').
  - assert (Hc' : complete k l /\ clean_streams inflate o file k l) by (destruct k; try exact Hc; congruence). assert (E : match k with KDict => RDict (newDictR h) | _ => RCol (newColR k h) end = RCol (newColR k h)) by (destruct k; congruence). rewrite E in H.
    eapply (clean_calm inflate o file k h l r); try eassumption; apply Hc'.
Qed.
Lemma any_steady inflate o file k h l r0 r : tame inflate -> (CompressionKind o = NONE -> 0 < ChunkSize o) -> bytes file -> zlen file < 2 ^ 64 -> lengths_ok l -> places_ok l -> nonempty_streams k l ->
  k <> KStruct -> clean_column inflate o file k l -> r0 = match k with KDict => RDict (newDictR h) | _ => RCol (newColR k h) end -> openColumn inflate o file r0 l = Ok r -> steady inflate o r.
Proof.
  intros Ht Hch Hf Hz Hl Hp Hn N Hc -> H. destruct (ckind_eq_dec k KDict) as [->|Nd].
  - destruct Hc as (H1 & H2 & H3 & Hc). unfold places_ok in Hp. rewrite Forall_forall in Hp. destruct (opened_dict inflate o file Hf Hz l True (fun _ s st Hin => Hp (s, st) Hin) h r Hl H1 H2 H3 H) as (d & -> & Hd). apply (dict_steady inflate o Ht Hch (starts file l sDATA) (starts file l sLENGTH)); [..|exact Hd].
    + intros f0 (s & st & Hin & E & ->). exact (proj1 (Hc (s, st) Hin E)).
    + intros fl fd (s & st & Hin & E & ->) (s' & st' & Hin' & E' & ->). exact (proj2 (Hc (s, st) Hin E) (s', st') Hin' E').
    + intros f0 (s & st & Hin & E & ->). cbn. apply (Hn s st Hin). left. exact E.
  - assert (Hc' : complete k l /\ clean_streams inflate o file k l) by (destruct k; try exact Hc; congruence). assert (E : match k with KDict => RDict (newDictR h) | _ => RCol (newColR k h) end = RCol (newColR k h)) by (destruct k; congruence). rewrite E in H.
    eapply (clean_steady inflate o file k h l r); try eassumption; apply Hc'.
Qed.

(** ** Files *)
Lemma own_all (P : strm * Z -> Prop) id l : Forall P l -> Forall P (own id l).
Proof. intros H. unfold own. rewrite Forall_forall in *. intros z Hz. apply filter_In in Hz. apply H. apply Hz. Qed.
Lemma kind_of b schema y e r0 : not_nested b schema -> In y (flatten schema) -> IsInclude b (td_id y) = true -> td_kind y <> STRUCT -> newAnyR (td_kind y) e (td_hasNulls y) = Ok r0 ->
  exists k, readerKind (td_kind y) e = Ok k /\ k <> KStruct /\ r0 = match k with KDict => RDict (newDictR (td_hasNulls y)) | _ => RCol (newColR k (td_hasNulls y)) end.
Proof.
  intros Hnn Hy Hi Hk A2. specialize (Hnn y Hy Hi). unfold newAnyR in A2.
  assert (A3' : (let! c0 := readerKind (td_kind y) e in Ok (match c0 with KDict => RDict (newDictR (td_hasNulls y)) | _ => RCol (newColR c0 (td_hasNulls y)) end)) = Ok r0) by (destruct (td_kind y); try exact A2; contradiction).
  apply rbind_inv in A3'. destruct A3' as (k & Ek & A4). exists k. split; [exact Ek|]. split; [|congruence].
  intros ->. unfold readerKind in Ek. destruct (td_kind y); try congruence; repeat match type of Ek with (if ?z then _ else _) = _ => destruct z end; discriminate Ek.
Qed.
Lemma crash_any inflate b file schema r x w n : reading inflate b file schema r x w -> tame inflate -> bytes file -> zlen file < 2 ^ 64 ->
  fr_stripes r <> [] -> not_nested b schema -> flat_nulls b schema ->
  (forall fs f, stripe_footers inflate b file r fs -> In f fs -> lengths_ok (snd f) /\
    forall y e k, In y (flatten schema) -> IsInclude b (td_id y) = true -> td_kind y <> STRUCT ->
      nth_error (fst f) (Z.to_nat (td_id y)) = Some e -> readerKind (td_kind y) e = Ok k ->
      clean_column inflate (readerOpts r) file k (own (td_id y) (snd f))) ->
  calls inflate r x (batchOf w) (repeat CNext n) <> Panic.
Proof.
  intros H Ht Hf Hsz Hne Hnn Hflat Hfs. pose proof (open_chunk _ _ _ _ _ (rd_open _ _ _ _ _ _ _ H)) as Hch. apply (crash inflate b file schema r x w n H Ht Hf Hne Hnn Hflat).
  intros fs E. split; [apply Forall_forall; intros f Hin; apply (Hfs fs f E Hin)|]. intros f y c Hin Hy Hi Hk (e & r0 & A1 & A2 & A3).
  destruct (Hfs fs f E Hin) as [Hl Hd]. destruct (kind_of b schema y e r0 Hnn Hy Hi Hk A2) as (k & Ek & Nk & E0).
  apply (any_calm inflate (readerOpts r) file k (td_hasNulls y) (own (td_id y) (snd f)) r0 c Ht Hch Hf Hsz (own_all _ _ _ Hl) Nk (Hd y e k Hy Hi Hk A1 Ek) E0 A3).
Qed.
Lemma crash_any_seek inflate b file schema r x w l : reading inflate b file schema r x w -> tame inflate -> bytes file -> zlen file < 2 ^ 64 ->
  fr_stripes r <> [] -> not_nested b schema -> flat_nulls b schema -> u64 (fr_stride r) <> 0 ->
  (forall fs f, stripe_footers inflate b file r fs -> In f fs -> lengths_ok (snd f) /\ places_ok (snd f) /\
    forall y e k, In y (flatten schema) -> IsInclude b (td_id y) = true -> td_kind y <> STRUCT ->
      nth_error (fst f) (Z.to_nat (td_id y)) = Some e -> readerKind (td_kind y) e = Ok k ->
      clean_column inflate (readerOpts r) file k (own (td_id y) (snd f)) /\ nonempty_streams k (own (td_id y) (snd f))) ->
  calls inflate r x (batchOf w) l <> Panic.
Proof.
  intros H Ht Hf Hsz Hne Hnn Hflat Hstr Hfs. pose proof (open_chunk _ _ _ _ _ (rd_open _ _ _ _ _ _ _ H)) as Hch. apply (crash_seek inflate b file schema r x w l H Ht Hf Hne Hnn Hflat Hstr).
  intros fs E. split; [apply Forall_forall; intros f Hin; apply (Hfs fs f E Hin)|]. intros f y c Hin Hy Hi Hk (e & r0 & A1 & A2 & A3).
  destruct (Hfs fs f E Hin) as (Hl & Hpl & Hd). destruct (kind_of b schema y e r0 Hnn Hy Hi Hk A2) as (k & Ek & Nk & E0). destruct (Hd y e k Hy Hi Hk A1 Ek) as [Hc Hn].
  apply (any_steady inflate (readerOpts r) file k (td_hasNulls y) (own (td_id y) (snd f)) r0 c Ht Hch Hf Hsz (own_all _ _ _ Hl) (own_all _ _ _ Hpl) Hn Nk Hc E0 A3).
Qed.
