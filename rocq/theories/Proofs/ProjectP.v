(** Reading some of the columns: a simulation between two readers of one file. *)
From Coq Require Import ZifyBool ZifyNat.
From Verif.Model Require Import Go Codec ByteBool IntRle Chunk Stream Schema Rows Time File Column Wire Nested Tree Assembled.
From Verif.Spec Require Import EndSpec ProjectSpec.
From Verif.Proofs Require Import Base OpenBatchP SchemaP TreeP BatchP OpenTreeP.

Section BvecInd.
Variable P : bvec -> Prop.
Hypothesis H : forall i k s cs, Forall P cs -> P (BVec i k s cs).
Fixpoint bvec_ind' (v : bvec) : P v :=
  match v with
  | BVec i k s cs => H i k s cs ((fix go (l : list bvec) : Forall P l :=
      match l with [] => Forall_nil _ | x :: r => Forall_cons _ (bvec_ind' x) (go r) end) cs)
  end.
End BvecInd.
Definition all {A} (P : A -> Prop) (l : list A) : Prop := fold_right (fun x p => P x /\ p) True l.
Lemma all_Forall {A} (P : A -> Prop) l : all P l <-> Forall P l.
Proof.
  induction l as [|x l IH]; cbn [all fold_right]; [split; [constructor|auto]|]. fold (all P l). rewrite IH.
  split; [intros [A1 A2]; constructor; auto|intros H; inversion H; auto].
Qed.

Lemma tkind_dec (k : tkind) : {k = STRUCT} + {k <> STRUCT}.
Proof. destruct k; (left; reflexivity) || (right; discriminate). Qed.

(** ** The columns of a batch *)
Fixpoint ids (v : bvec) : list Z := match v with BVec i _ _ cs => i :: flat_map ids cs end.
Lemma held_none j v : ~ In j (ids v) -> held j v = [].
Proof.
  induction v as [i k s cs IH] using bvec_ind'. cbn [ids held]. intros Hn. destruct (Z.eqb_spec i j) as [->|_]; [exfalso; apply Hn; left; reflexivity|].
  cbn [app]. assert (Hn' : ~ In j (flat_map ids cs)) by (intros X; apply Hn; right; exact X). clear Hn.
  induction IH as [|c cs Hc Hcs IHl]; [reflexivity|]. cbn [flat_map] in *. rewrite Hc, IHl; [reflexivity|..]; intros X; apply Hn'; apply in_or_app; auto.
Qed.
(** The columns of a batch without the values: no operation changes these. *)
Fixpoint skel (v : bvec) : bvec := match v with BVec i k _ cs => BVec i k None (map skel cs) end.
Lemma ids_skel v : ids (skel v) = ids v.
Proof.
  induction v as [i k s cs IH] using bvec_ind'. cbn [skel ids]. f_equal.
  induction IH as [|c cs Hc Hcs IHl]; [reflexivity|]. cbn [map flat_map]. rewrite Hc, IHl. reflexivity.
Qed.
Lemma skel_Clear v : skel (Clear v) = skel v.
Proof.
  induction v as [i k s cs IH] using bvec_ind'. cbn [Clear skel]. f_equal.
  induction IH as [|c cs Hc Hcs IHl]; [reflexivity|]. cbn [map]. rewrite Hc, IHl. reflexivity.
Qed.
Lemma skel_truncate v : skel (truncate v) = skel v.
Proof. destruct v. reflexivity. Qed.
Definition putL : list bvec -> list vtree -> list bvec :=
  fix go (cs : list bvec) (ts : list vtree) : list bvec :=
    match cs, ts with
    | c :: cs', t :: ts' => put c t :: go cs' ts'
    | _, _ => cs
    end.
Lemma put_eq i k s cs l ts : put (BVec i k s cs) (VT l ts) = BVec i k (putVals s l) (putL cs ts).
Proof. reflexivity. Qed.
Lemma skel_put v : forall t, skel (put v t) = skel v.
Proof.
  induction v as [i k s cs IH] using bvec_ind'. intros [l ts]. rewrite put_eq. cbn [skel]. f_equal. revert ts.
  induction IH as [|c cs Hc Hcs IHl]; intros [|t ts]; try reflexivity. cbn [putL map]. fold putL. rewrite Hc, IHl. reflexivity.
Qed.
Section Size.
Variable hs : list bool.
Definition sizeL (n : Z) : list bvec -> res (list bvec) := mapM (setVectorSize hs n).
Lemma setVectorSize_struct n i s cs : setVectorSize hs n (BVec i STRUCT s cs) =
  match nth_error hs (Z.to_nat i) with
  | None => Panic
  | Some h => let! s' := (if h then reslice n s else Ok s) in let! cs' := sizeL n cs in Ok (BVec i STRUCT s' cs')
  end.
Proof.
  cbn [setVectorSize]. destruct (nth_error hs (Z.to_nat i)) as [h|]; [|reflexivity]. destruct (if h then _ else _) as [s'| |]; cbn [rbind]; try reflexivity.
  match goal with |- rbind (?f cs) _ = _ => assert (E : f cs = sizeL n cs) end; [|rewrite E; reflexivity].
  induction cs as [|c cs IH]; [reflexivity|]. cbn [sizeL mapM]. destruct (setVectorSize hs n c); cbn [rbind]; try reflexivity. rewrite IH. reflexivity.
Qed.
(** For the other kinds the children keep their values, or are truncated. *)
Lemma setVectorSize_other n i k s cs v' : k <> STRUCT -> setVectorSize hs n (BVec i k s cs) = Ok v' ->
  exists s' cs', reslice n s = Ok s' /\ v' = BVec i k s' cs' /\ Forall2 (fun c c' => c' = c \/ c' = truncate c) cs cs'.
Proof.
  intros Hk Hv. assert (Hrefl : forall l : list bvec, Forall2 (fun c c' => c' = c \/ c' = truncate c) l l) by (induction l; constructor; auto).
  assert (Hleaf : (let! s' := reslice n s in Ok (BVec i k s' cs)) = Ok v' -> exists s' cs', reslice n s = Ok s' /\ v' = BVec i k s' cs' /\ Forall2 (fun c c' => c' = c \/ c' = truncate c) cs cs').
  { intros X. apply rbind_inv in X. destruct X as (s' & E & X). exists s', cs. split; [exact E|]. split; [congruence|apply Hrefl]. }
  destruct k; try (exact (Hleaf Hv)); try discriminate Hv; try congruence; apply rbind_inv in Hv; destruct Hv as (s' & E & Hv).
  - destruct cs as [|c r]; [discriminate|]. exists s', (truncate c :: r). split; [exact E|]. split; [congruence|]. constructor; auto.
  - destruct cs as [|c [|d r]]; [discriminate..|]. exists s', (truncate c :: truncate d :: r). split; [exact E|]. split; [congruence|]. constructor; [auto|constructor; auto].
Qed.
Lemma skel_size n v : forall v', setVectorSize hs n v = Ok v' -> skel v' = skel v.
Proof.
  induction v as [i k s cs IH] using bvec_ind'. intros v' Hv. destruct (tkind_dec k) as [->|Hk].
  - rewrite setVectorSize_struct in Hv. destruct (nth_error hs (Z.to_nat i)) as [h|]; [|discriminate]. apply rbind_inv in Hv. destruct Hv as (s' & _ & Hv).
    apply rbind_inv in Hv. destruct Hv as (cs' & Hc & Hv). assert (v' = BVec i STRUCT s' cs') as -> by congruence. cbn [skel]. f_equal.
    clear - IH Hc. revert cs' Hc. induction IH as [|c cs Hx Hxs IHl]; intros cs' Hc; cbn [sizeL mapM] in Hc; [congruence|].
    apply rbind_inv in Hc. destruct Hc as (c' & H1 & Hc). apply rbind_inv in Hc. destruct Hc as (r' & H2 & Hc).
    assert (cs' = c' :: r') as -> by congruence. cbn [map]. rewrite (Hx _ H1), (IHl _ H2). reflexivity.
  - destruct (setVectorSize_other _ _ _ _ _ _ Hk Hv) as (s' & cs' & _ & -> & Hf). cbn [skel]. f_equal. clear - Hf.
    induction Hf as [|c c' l l' Hc Hl IH]; [reflexivity|]. cbn [map]. rewrite IH. destruct Hc as [->| ->]; [reflexivity|]. rewrite skel_truncate. reflexivity.
Qed.

(** ** Batches with slices of one length and one capacity *)
Fixpoint quiet (v : bvec) : Prop :=
  match v with BVec _ _ s cs => match s with Some (a, _) => a = [] | None => True end /\ all quiet cs end.
Definition slice (n c : Z) (s : option (list value * list value)) : Prop :=
  exists a b, s = Some (a, b) /\ zlen a = n /\ zlen (a ++ b) = c.
(** Outside of lists and maps. *)
Fixpoint uni (n c : Z) (v : bvec) : Prop :=
  match v with
  | BVec i k s cs =>
      match k with
      | STRUCT => match nth_error hs (Z.to_nat i) with
                  | Some h => if h then slice n c s else s = None
                  | None => False
                  end /\ all (uni n c) cs
      | _ => slice n c s /\ (n = 0 -> all quiet cs)
      end
  end.
(** The first slice on the way down along first children. *)
Fixpoint leads (v : bvec) : Prop :=
  match v with
  | BVec i STRUCT _ cs =>
      match nth_error hs (Z.to_nat i), cs with
      | Some true, _ => True
      | _, c :: _ => leads c
      | _, [] => False
      end
  | _ => True
  end.
Lemma uni_struct n c i s cs : uni n c (BVec i STRUCT s cs) <->
  match nth_error hs (Z.to_nat i) with Some h => if h then slice n c s else s = None | None => False end /\ all (uni n c) cs.
Proof. reflexivity. Qed.
Lemma uni_other n c i k s cs : k <> STRUCT -> (uni n c (BVec i k s cs) <-> slice n c s /\ (n = 0 -> all quiet cs)).
Proof. intros H. destruct k; try reflexivity. congruence. Qed.
Lemma leads_skel v : leads (skel v) <-> leads v.
Proof.
  induction v as [i k s cs IH] using bvec_ind'. cbn [skel leads]. destruct k; try reflexivity. destruct (nth_error hs (Z.to_nat i)) as [[|]|]; [reflexivity|..];
    (destruct cs as [|c r]; [reflexivity|]; inversion IH; auto).
Qed.
Lemma leads_same v w : skel v = skel w -> leads v -> leads w.
Proof. intros E H. apply leads_skel. rewrite <- E. apply leads_skel. exact H. Qed.
Lemma quiet_Len v : quiet v -> Len v = 0.
Proof.
  induction v as [i k s cs IH] using bvec_ind'. cbn [quiet Len]. intros [Hs Hq].
  assert (Hc : match cs with c :: _ => Len c | [] => 0 end = 0) by (destruct cs as [|c r]; [reflexivity|]; inversion IH; destruct Hq; auto).
  destruct s as [[a b]|]; [subst a|]; exact Hc.
Qed.
Lemma quiet_Clear v : quiet (Clear v).
Proof.
  induction v as [i k s cs IH] using bvec_ind'. cbn [Clear quiet]. split; [destruct s as [[a b]|]; [reflexivity|exact I]|].
  induction IH as [|c cs Hc Hcs IHl]; [exact I|]. split; assumption.
Qed.
Lemma slice_nil c s : slice 0 c s -> match s with Some (a, _) => a = [] | None => True end.
Proof. intros (a & b & -> & H & _). destruct a; [reflexivity|]. unfold zlen in H. cbn in H. lia. Qed.
Lemma uni_quiet c v : uni 0 c v -> quiet v.
Proof.
  induction v as [i k s cs IH] using bvec_ind'. intros Hu. destruct (tkind_dec k) as [->|Hk].
  - rewrite uni_struct in Hu. destruct Hu as [Hs Hc]. cbn [quiet]. split.
    + destruct (nth_error hs (Z.to_nat i)) as [[|]|]; [|subst s; exact I|contradiction]. eapply slice_nil; exact Hs.
    + clear Hs. induction IH as [|x r Hx Hr IHl]; [exact I|]. destruct Hc as [H1 H2]. split; auto.
  - rewrite uni_other in Hu by exact Hk. destruct Hu as [Hs Hc]. split; [eapply slice_nil; exact Hs|auto].
Qed.
Lemma uni_Len n c v : uni n c v -> leads v -> Len v = n.
Proof.
  intros Hu Hl. destruct (Z.eq_dec n 0) as [->|Hn]; [apply quiet_Len; eapply uni_quiet; exact Hu|]. revert Hu Hl.
  assert (Hslice : forall s i k cs, slice n c s -> Len (BVec i k s cs) = n).
  { intros s i k cs (a & b & -> & Ha & _). cbn [Len]. destruct a; [exfalso; apply Hn; subst n; reflexivity|exact Ha]. }
  induction v as [i k s cs IH] using bvec_ind'. intros Hu Hl. destruct (tkind_dec k) as [->|Hk].
  - rewrite uni_struct in Hu. destruct Hu as [Hs Hc]. cbn [leads] in Hl. destruct (nth_error hs (Z.to_nat i)) as [[|]|]; [auto|subst s|contradiction].
    destruct cs as [|x r]; [contradiction|]. inversion IH; subst. destruct Hc. cbn [Len]. auto.
  - rewrite uni_other in Hu by exact Hk. apply Hslice. apply Hu.
Qed.
Lemma uni_Cap n c v : uni n c v -> leads v -> Cap v = c.
Proof.
  assert (Hslice : forall s i k cs, slice n c s -> Cap (BVec i k s cs) = c) by (intros s i k cs (a & b & -> & _ & Ha); exact Ha).
  induction v as [i k s cs IH] using bvec_ind'. intros Hu Hl. destruct (tkind_dec k) as [->|Hk].
  - rewrite uni_struct in Hu. destruct Hu as [Hs Hc]. cbn [leads] in Hl. destruct (nth_error hs (Z.to_nat i)) as [[|]|]; [auto|subst s|contradiction].
    destruct cs as [|x r]; [contradiction|]. inversion IH; subst. destruct Hc. cbn [Cap]. auto.
  - rewrite uni_other in Hu by exact Hk. apply Hslice. apply Hu.
Qed.
Lemma uni_leads n c v : uni n c v -> Cap v <> 0 -> leads v.
Proof.
  induction v as [i k s cs IH] using bvec_ind'. intros Hu Hl. destruct (tkind_dec k) as [->|Hk]; [|destruct k; try exact I; congruence].
  rewrite uni_struct in Hu. destruct Hu as [Hs Hc]. cbn [leads]. destruct (nth_error hs (Z.to_nat i)) as [[|]|]; [exact I|subst s|contradiction].
  destruct cs as [|x r]; [cbn in Hl; congruence|]. inversion IH; subst. destruct Hc. cbn [Cap] in Hl. auto.
Qed.
Lemma uni_Clear n c v : uni n c v -> uni 0 c (Clear v).
Proof.
  assert (Hslice : forall s, slice n c s -> slice 0 c (clearVals s)) by (intros s (a & b & -> & _ & Ha); exists [], (a ++ b); auto).
  induction v as [i k s cs IH] using bvec_ind'. intros Hu. cbn [Clear]. destruct (tkind_dec k) as [->|Hk].
  - rewrite uni_struct in *. destruct Hu as [Hs Hc]. split.
    + destruct (nth_error hs (Z.to_nat i)) as [[|]|]; [auto|subst s; reflexivity|contradiction].
    + clear Hs. induction IH as [|x r Hx Hr IHl]; [exact I|]. destruct Hc as [H1 H2]. split; auto.
  - rewrite uni_other in * by exact Hk. destruct Hu as [Hs _]. split; [auto|]. intros _. clear. induction cs as [|x r IH]; [exact I|]. split; [apply quiet_Clear|exact IH].
Qed.
Lemma reslice_slice n c m s s' : slice n c s -> reslice m s = Ok s' -> slice m c s'.
Proof.
  intros (a & b & -> & Ha & Hc) H. cbn [reslice] in H. destruct (_ || _) eqn:E; [discriminate|].
  assert (s' = Some (ztake m (a ++ b), zdrop m (a ++ b))) as -> by congruence. eexists _, _. split; [reflexivity|].
  unfold ztake, zdrop. rewrite firstn_skipn. split; [|exact Hc]. unfold zlen in *. rewrite firstn_length. lia.
Qed.
Lemma quiet_truncate v : quiet v -> quiet (truncate v).
Proof. destruct v as [i k s cs]. cbn [truncate quiet]. intros [H1 H2]. split; [destruct s as [[? ?]|]; [reflexivity|exact I]|exact H2]. Qed.
Lemma uni_size n c m v : (m = 0 -> n = 0) -> forall v', uni n c v -> setVectorSize hs m v = Ok v' -> uni m c v'.
Proof.
  intros Hm. induction v as [i k s cs IH] using bvec_ind'. intros v' Hu Hv. destruct (tkind_dec k) as [->|Hk].
  - rewrite uni_struct in Hu. destruct Hu as [Hs Hc]. rewrite setVectorSize_struct in Hv. destruct (nth_error hs (Z.to_nat i)) as [h|] eqn:Eh; [|discriminate].
    apply rbind_inv in Hv. destruct Hv as (s' & Hr & Hv). apply rbind_inv in Hv. destruct Hv as (cs' & Hcs & Hv). assert (v' = BVec i STRUCT s' cs') as -> by congruence.
    rewrite uni_struct, Eh. split.
    + destruct h; [eapply reslice_slice; eauto|congruence].
    + clear - IH Hcs Hc. revert cs' Hcs. induction IH as [|x r Hx Hr IHl]; intros cs' Hcs; cbn [sizeL mapM] in Hcs; [assert (cs' = []) as -> by congruence; exact I|].
      apply rbind_inv in Hcs. destruct Hcs as (c' & H1 & Hcs). apply rbind_inv in Hcs. destruct Hcs as (r' & H2 & Hcs). assert (cs' = c' :: r') as -> by congruence.
      destruct Hc as [A B]. split; [auto|]. apply IHl; assumption.
  - rewrite uni_other in Hu by exact Hk. destruct Hu as [Hs Hq]. destruct (setVectorSize_other _ _ _ _ _ _ Hk Hv) as (s' & cs' & Hr & -> & Hf).
    rewrite uni_other by exact Hk. split; [eapply reslice_slice; eauto|]. intros Hz. specialize (Hq (Hm Hz)). clear - Hf Hq.
    induction Hf as [|x x' l l' Hx Hl IH]; [exact I|]. destruct Hq as [A B]. split; [destruct Hx as [->| ->]; [exact A|apply quiet_truncate; exact A]|]. apply IH. exact B.
Qed.
End Size.

(** ** Two trees, two batches *)
Section Keep.
Variables narrow wide : batchOption.

Section Kids.
Context {A : Type}.
Variable R : td -> A -> A -> Prop.
Variable E : td -> A -> Prop.
(** Children for the columns [cs]: those of [wide], and those of [narrow]. *)
Fixpoint kids (cs : list td) (l1 l2 : list A) : Prop :=
  match cs with
  | [] => l1 = [] /\ l2 = []
  | c :: r =>
      if IsInclude wide (td_id c) then
        exists a l1', l1 = a :: l1' /\
          (if IsInclude narrow (td_id c) then exists b l2', l2 = b :: l2' /\ R c a b /\ kids r l1' l2'
           else E c a /\ kids r l1' l2)
      else kids r l1 l2
  end.
End Kids.
Lemma kids_mapM {A} (R : td -> A -> A -> Prop) (E : td -> A -> Prop) f cs :
  Forall (fun c => forall a b a', R c a b -> f a = Ok a' -> exists b', f b = Ok b' /\ R c a' b') cs ->
  (forall c a a', E c a -> f a = Ok a' -> E c a') ->
  forall l1 l2 l1', kids R E cs l1 l2 -> mapM f l1 = Ok l1' -> exists l2', mapM f l2 = Ok l2' /\ kids R E cs l1' l2'.
Proof.
  intros HR HE. induction HR as [|c cs Hc Hcs IH]; intros l1 l2 l1' Hk Hm; cbn [kids] in *.
  - destruct Hk as [-> ->]. assert (l1' = []) as -> by (cbn in Hm; congruence). exists []. auto.
  - destruct (IsInclude wide (td_id c)); [|apply (IH l1 l2); assumption]. destruct Hk as (a & t1 & -> & Hk). cbn [mapM] in Hm.
    apply rbind_inv in Hm. destruct Hm as (a' & Ha & Hm). apply rbind_inv in Hm. destruct Hm as (t1' & Ht & Hm). assert (l1' = a' :: t1') as -> by congruence.
    destruct (IsInclude narrow (td_id c)).
    + destruct Hk as (b & t2 & -> & Hr & Hk). destruct (Hc _ _ _ Hr Ha) as (b' & Hb & Hr'). destruct (IH _ _ _ Hk Ht) as (t2' & Ht2 & Hk').
      exists (b' :: t2'). cbn [mapM]. rewrite Hb. cbn [rbind]. rewrite Ht2. split; [reflexivity|]. exists a', t1'. split; [reflexivity|]. exists b', t2'. auto.
    + destruct Hk as [He Hk]. destruct (IH _ _ _ Hk Ht) as (t2' & Ht2 & Hk'). exists t2'. split; [exact Ht2|]. exists a', t1'. eauto.
Qed.

(** Readers. *)
Fixpoint keepT (t : td) (a b : ctree) : Prop :=
  match t with
  | Td _ k _ _ _ cs =>
      match k with
      | STRUCT => exists p i ks ls, a = CStruct p i ks /\ b = CStruct p i ls /\ kids keepT (fun _ _ => True) cs ks ls
      | _ => b = a /\ match a with CStruct _ _ _ => False | _ => True end
      end
  end.
(** What a batch shows to the readers. *)
Fixpoint keepX (t : td) (x y : vtree) : Prop :=
  match t with
  | Td _ k _ _ _ cs =>
      match k with
      | STRUCT => exists vals ks ls, x = VT vals ks /\ y = VT vals ls /\ kids keepX (fun _ _ => True) cs ks ls
      | _ => y = x
      end
  end.
(** Batches. *)
Definition within (c : td) (v : bvec) : Prop := incl (ids v) (map td_id (flatten c)).
Definition bv_kind (v : bvec) : tkind := match v with BVec _ k _ _ => k end.
Fixpoint keepV (t : td) (w v : bvec) : Prop :=
  match t with
  | Td id k _ _ _ cs =>
      match k with
      | STRUCT => exists s ks ls, w = BVec id STRUCT s ks /\ v = BVec id STRUCT s ls /\ kids keepV within cs ks ls
      | _ => v = w /\ bv_kind w <> STRUCT
      end
  end.
Lemma keepT_struct id ns e h cs a b : keepT (Td id STRUCT ns e h cs) a b <->
  exists p i ks ls, a = CStruct p i ks /\ b = CStruct p i ls /\ kids keepT (fun _ _ => True) cs ks ls.
Proof. reflexivity. Qed.
Lemma keepX_struct id ns e h cs a b : keepX (Td id STRUCT ns e h cs) a b <->
  exists vals ks ls, a = VT vals ks /\ b = VT vals ls /\ kids keepX (fun _ _ => True) cs ks ls.
Proof. reflexivity. Qed.
Lemma keepV_struct id ns e h cs a b : keepV (Td id STRUCT ns e h cs) a b <->
  exists s ks ls, a = BVec id STRUCT s ks /\ b = BVec id STRUCT s ls /\ kids keepV within cs ks ls.
Proof. reflexivity. Qed.
Lemma keepT_other id k ns e h cs a b : k <> STRUCT -> (keepT (Td id k ns e h cs) a b <-> b = a /\ match a with CStruct _ _ _ => False | _ => True end).
Proof. intros Hk. destruct k; try reflexivity. congruence. Qed.
Lemma keepX_other id k ns e h cs a b : k <> STRUCT -> (keepX (Td id k ns e h cs) a b <-> b = a).
Proof. intros Hk. destruct k; try reflexivity. congruence. Qed.
Lemma keepV_other id k ns e h cs a b : k <> STRUCT -> (keepV (Td id k ns e h cs) a b <-> b = a /\ bv_kind a <> STRUCT).
Proof. intros Hk. destruct k; try reflexivity. congruence. Qed.
Lemma fillL_mapM p l : fillL p l = mapM (fillNulls p) l.
Proof. induction l as [|x l IH]; [reflexivity|]. cbn [fillL mapM]. fold (fillL p). rewrite IH. reflexivity. Qed.
Lemma keep_fill t : forall p x y x', keepX t x y -> fillNulls p x = Ok x' -> exists y', fillNulls p y = Ok y' /\ keepX t x' y'.
Proof.
  induction t as [id k ns e h cs IH] using td_rect'. intros p x y x' Hk Hf. destruct (tkind_dec k) as [->|Hs].
  - rewrite keepX_struct in Hk. destruct Hk as (vals & ks & ls & -> & -> & Hk). rewrite fillNulls_eq in *.
    apply rbind_inv in Hf. destruct Hf as (vals' & Hv & Hf). apply rbind_inv in Hf. destruct Hf as (ks' & Hks & Hf).
    rewrite fillL_mapM in Hks. destruct (kids_mapM keepX (fun _ _ => True) (fillNulls vals') cs) with (l1 := ks) (l2 := ls) (l1' := ks') as (ls' & Hls & Hk'); auto.
    { eapply Forall_impl; [|exact IH]. cbn. intros c Hc a b a' Ha. apply Hc. exact Ha. }
    rewrite Hv. cbn [rbind]. rewrite fillL_mapM, Hls. cbn [rbind]. eexists. split; [reflexivity|]. rewrite keepX_struct.
    assert (x' = VT vals' ks') as -> by congruence. eauto 10.
  - rewrite keepX_other in Hk by exact Hs. subst y. exists x'. split; [exact Hf|]. apply keepX_other; auto.
Qed.

Section Tree.
Variable inflate : list Z -> res (list Z).
Variable o : opts.
Notation next := (tree_NextBatch inflate o).

Lemma keep_nextKids cs : Forall (fun c => forall t u x y x' t', keepT c t u -> keepX c x y -> next t x = Ok (x', t') ->
    exists y' u', next u y = Ok (y', u') /\ keepX c x' y' /\ keepT c t' u') cs ->
  forall ts us xs ys xs' ts', kids keepT (fun _ _ => True) cs ts us -> kids keepX (fun _ _ => True) cs xs ys -> nextKids next ts xs = Ok (xs', ts') ->
  exists ys' us', nextKids next us ys = Ok (ys', us') /\ kids keepX (fun _ _ => True) cs xs' ys' /\ kids keepT (fun _ _ => True) cs ts' us'.
Proof.
  intros H. induction H as [|c cs Hc Hcs IH]; intros ts us xs ys xs' ts' Ht Hx Hn; cbn [kids] in *.
  - destruct Ht as [-> ->], Hx as [-> ->]. cbn [nextKids] in *. exists [], []. split; [reflexivity|]. split; split; congruence.
  - destruct (IsInclude wide (td_id c)); [|apply (IH ts us xs ys); assumption].
    destruct Ht as (t & ts1 & -> & Ht), Hx as (x & xs1 & -> & Hx). cbn [nextKids] in Hn.
    apply rbind_inv in Hn. destruct Hn as ([x' t'] & H1 & Hn). apply rbind_inv in Hn. destruct Hn as ([xs1' ts1'] & H2 & Hn).
    assert (xs' = x' :: xs1' /\ ts' = t' :: ts1') as [-> ->] by (split; congruence). destruct (IsInclude narrow (td_id c)).
    + destruct Ht as (u & us1 & -> & Hu & Ht), Hx as (y & ys1 & -> & Hy & Hx).
      destruct (Hc _ _ _ _ _ _ Hu Hy H1) as (y' & u' & E1 & Hy' & Hu'). destruct (IH _ _ _ _ _ _ Ht Hx H2) as (ys' & us' & E2 & Hx' & Ht').
      exists (y' :: ys'), (u' :: us'). cbn [nextKids]. rewrite E1. cbn [rbind]. rewrite E2. cbn [rbind]. split; [reflexivity|].
      split; [exists x', xs1'|exists t', ts1']; (split; [reflexivity|]); eauto 10.
    + destruct Ht as [_ Ht], Hx as [_ Hx]. destruct (IH _ _ _ _ _ _ Ht Hx H2) as (ys' & us' & E2 & Hx' & Ht'). exists ys', us'. split; [exact E2|].
      split; [exists x', xs1'|exists t', ts1']; auto.
Qed.
Lemma other_stays t x x' t' : match t with CStruct _ _ _ => False | _ => True end -> next t x = Ok (x', t') -> match t' with CStruct _ _ _ => False | _ => True end.
Proof.
  intros H Hn. destruct t as [c|d|p i ks|r i c|r i k w]; [| |contradiction| |].
  - destruct x. rewrite tree_NextBatch_leaf in Hn. apply rbind_inv in Hn. destruct Hn as ([? ?] & _ & Hn). assert (t' = CLeaf c0) as -> by congruence. exact I.
  - destruct x. rewrite tree_NextBatch_dict in Hn. apply rbind_inv in Hn. destruct Hn as ([? d'] & _ & Hn). assert (t' = CDict d') as -> by congruence. exact I.
  - rewrite tree_NextBatch_list in Hn. apply rbind_inv in Hn. destruct Hn as ([? [r' c']] & _ & Hn). assert (t' = CList r' i c') as -> by congruence. exact I.
  - rewrite tree_NextBatch_map in Hn. apply rbind_inv in Hn. destruct Hn as ([? [[r' k'] w']] & _ & Hn). assert (t' = CMap r' i k' w') as -> by congruence. exact I.
Qed.
Lemma keep_next c : forall t u x y x' t', keepT c t u -> keepX c x y -> next t x = Ok (x', t') ->
  exists y' u', next u y = Ok (y', u') /\ keepX c x' y' /\ keepT c t' u'.
Proof.
  induction c as [id k ns e h cs IH] using td_rect'. intros t u x y x' t' Ht Hx Hn. destruct (tkind_dec k) as [->|Hs].
  - rewrite keepT_struct in Ht. destruct Ht as (p & i & ts & us & -> & -> & Ht). rewrite keepX_struct in Hx. destruct Hx as (vals & xs & ys & -> & -> & Hx).
    rewrite tree_NextBatch_struct in *. apply rbind_inv in Hn. destruct Hn as ([[vals' xs1] p'] & H1 & Hn). apply rbind_inv in Hn. destruct Hn as ([xs2 ts'] & H2 & Hn).
    assert (Hy : exists ys1, match p with None => Ok (vals, ys, None) | Some b => let! (vals', b') := readNulls inflate o b vals in
         let! cs' := mapM (fillNulls vals') ys in Ok (vals', cs', Some b') end = Ok (vals', ys1, p') /\ kids keepX (fun _ _ => True) cs xs1 ys1).
    { destruct p as [b|].
      - apply rbind_inv in H1. destruct H1 as ([v1 b1] & E1 & H1). apply rbind_inv in H1. destruct H1 as (xs3 & E3 & H1).
        assert (v1 = vals' /\ xs3 = xs1 /\ p' = Some b1) as (-> & -> & ->) by (repeat split; congruence).
        destruct (kids_mapM keepX (fun _ _ => True) (fillNulls vals') cs) with (l1 := xs) (l2 := ys) (l1' := xs1) as (ys1 & Hys & Hk); auto.
        { apply Forall_forall. intros c _ a0 b0 a' Ha. apply keep_fill. exact Ha. }
        exists ys1. rewrite E1. cbn [rbind]. rewrite Hys. auto.
      - assert (vals = vals' /\ xs = xs1 /\ p' = None) as (-> & -> & ->) by (repeat split; congruence). eauto. }
    destruct Hy as (ys1 & E1 & Hy). destruct (keep_nextKids cs IH _ _ _ _ _ _ Ht Hy H2) as (ys2 & us' & E2 & Hx' & Ht').
    rewrite E1. cbn [rbind]. rewrite E2. cbn [rbind]. eexists _, _. split; [reflexivity|].
    assert (x' = VT vals' xs2 /\ t' = CStruct p' i ts') as [-> ->] by (split; congruence). rewrite keepX_struct, keepT_struct. split; eauto 10.
  - rewrite keepT_other in Ht by exact Hs. rewrite keepX_other in Hx by exact Hs. destruct Ht as [-> Ht]. subst y.
    exists x', t'. split; [exact Hn|]. rewrite keepX_other, keepT_other by exact Hs. split; [reflexivity|]. split; [reflexivity|]. eapply other_stays; eauto.
Qed.

Lemma skipKids_mapM f l : skipKids f l = mapM f l.
Proof. induction l as [|x l IH]; [reflexivity|]. cbn [skipKids mapM]. rewrite IH. reflexivity. Qed.
Lemma keep_skip1 c : forall t u t', keepT c t u -> tree_Skip1 inflate o t = Ok t' -> exists u', tree_Skip1 inflate o u = Ok u' /\ keepT c t' u'.
Proof.
  induction c as [id k ns e h cs IH] using td_rect'. intros t u t' Ht Hn. destruct (tkind_dec k) as [->|Hs].
  - rewrite keepT_struct in Ht. destruct Ht as (p & i & ts & us & -> & -> & Ht).
    rewrite tree_Skip1_struct in *. apply rbind_inv in Hn. destruct Hn as ([q p'] & H1 & Hn). apply rbind_inv in Hn. destruct Hn as (ts' & H2 & Hn).
    rewrite H1. cbn [rbind].
    assert (Hu : exists us', (if q then skipKids (tree_Skip1 inflate o) us else Ok us) = Ok us' /\ kids keepT (fun _ _ => True) cs ts' us').
    { destruct q; [|exists us; split; [reflexivity|]; assert (ts = ts') as <- by congruence; exact Ht]. rewrite skipKids_mapM in *.
      apply (kids_mapM keepT (fun _ _ => True) (tree_Skip1 inflate o) cs) with (l1 := ts); auto. }
    destruct Hu as (us' & E & Hu). rewrite E. cbn [rbind]. eexists. split; [reflexivity|]. assert (t' = CStruct p' i ts') as -> by congruence.
    rewrite keepT_struct. eauto 10.
  - rewrite keepT_other in Ht by exact Hs. destruct Ht as [-> Ht]. exists t'. split; [exact Hn|]. rewrite keepT_other by exact Hs. split; [reflexivity|].
    destruct t as [d|d|p i ks|r i d|r i k1 w]; [| |contradiction| |].
    + cbn in Hn. apply rbind_inv in Hn. destruct Hn as (c' & _ & Hn). assert (t' = CLeaf c') as -> by congruence. exact I.
    + cbn in Hn. apply rbind_inv in Hn. destruct Hn as (c' & _ & Hn). assert (t' = CDict c') as -> by congruence. exact I.
    + rewrite tree_Skip1_list in Hn. apply rbind_inv in Hn. destruct Hn as ([r' c'] & _ & Hn). assert (t' = CList r' i c') as -> by congruence. exact I.
    + rewrite tree_Skip1_map in Hn. apply rbind_inv in Hn. destruct Hn as ([[r' k'] w'] & _ & Hn). assert (t' = CMap r' i k' w') as -> by congruence. exact I.
Qed.
Lemma keep_skip c n : forall t u t', keepT c t u -> treeSkip inflate o n t = Ok t' -> exists u', treeSkip inflate o n u = Ok u' /\ keepT c t' u'.
Proof.
  unfold treeSkip. induction n as [|n IH]; intros t u t' Ht Hn; cbn [times] in *; [exists u; split; [reflexivity|]; assert (t = t') as <- by congruence; exact Ht|].
  apply rbind_inv in Hn. destruct Hn as (t1 & H1 & Hn). destruct (keep_skip1 c _ _ _ Ht H1) as (u1 & E1 & Hu). rewrite E1. cbn [rbind]. exact (IH _ _ _ Hu Hn).
Qed.
Lemma SeekStride_struct stride present index ks : tree_SeekStride inflate o stride (CStruct present index ks) =
  let! present' :=
    (match present with
     | None => Ok None
     | Some b =>
         let! p := (if stride =? 0 then Ok [0; 0; 0; 0]
                    else let! l := strideEntry index stride in streamPos o 2 l 0) in
         let! b' := seekBool inflate o p b in Ok (Some b')
     end) in
  let! kids' := mapM (tree_SeekStride inflate o stride) ks in
  Ok (CStruct present' index kids').
Proof.
  cbn [tree_SeekStride]. destruct (match present with None => _ | Some _ => _ end) as [p| |]; cbn [rbind]; try reflexivity.
  match goal with |- rbind (?f ks) _ = _ => assert (E : f ks = mapM (tree_SeekStride inflate o stride) ks) end; [|rewrite E; reflexivity].
  induction ks as [|c ks IH]; [reflexivity|]. cbn [mapM]. destruct (tree_SeekStride inflate o stride c); cbn [rbind]; try reflexivity. rewrite IH. reflexivity.
Qed.
Lemma keep_seek c stride : forall t u t', keepT c t u -> tree_SeekStride inflate o stride t = Ok t' -> exists u', tree_SeekStride inflate o stride u = Ok u' /\ keepT c t' u'.
Proof.
  induction c as [id k ns e h cs IH] using td_rect'. intros t u t' Ht Hn. destruct (tkind_dec k) as [->|Hs].
  - rewrite keepT_struct in Ht. destruct Ht as (p & i & ts & us & -> & -> & Ht).
    rewrite SeekStride_struct in *. apply rbind_inv in Hn. destruct Hn as (p' & H1 & Hn). apply rbind_inv in Hn. destruct Hn as (ts' & H2 & Hn).
    rewrite H1. cbn [rbind].
    destruct (kids_mapM keepT (fun _ _ => True) (tree_SeekStride inflate o stride) cs) with (l1 := ts) (l2 := us) (l1' := ts') as (us' & E & Hu); auto.
    rewrite E. cbn [rbind]. eexists. split; [reflexivity|]. assert (t' = CStruct p' i ts') as -> by congruence. rewrite keepT_struct. eauto 10.
  - rewrite keepT_other in Ht by exact Hs. destruct Ht as [-> Ht]. exists t'. split; [exact Hn|]. rewrite keepT_other by exact Hs. split; [reflexivity|].
    destruct t as [d|d|p i ks|r i d|r i k1 w]; [| |contradiction| |]; cbn [tree_SeekStride] in Hn.
    + apply rbind_inv in Hn. destruct Hn as (c' & _ & Hn). assert (t' = CLeaf c') as -> by congruence. exact I.
    + apply rbind_inv in Hn. destruct Hn as (c' & _ & Hn). assert (t' = CDict c') as -> by congruence. exact I.
    + apply rbind_inv in Hn. destruct Hn as (r' & _ & Hn). apply rbind_inv in Hn. destruct Hn as (c' & _ & Hn). assert (t' = CList r' i c') as -> by congruence. exact I.
    + apply rbind_inv in Hn. destruct Hn as (r' & _ & Hn). apply rbind_inv in Hn. destruct Hn as (k' & _ & Hn). apply rbind_inv in Hn. destruct Hn as (w' & _ & Hn).
      assert (t' = CMap r' i k' w') as -> by congruence. exact I.
Qed.
End Tree.

(** ** Operations on batches *)
Lemma within_same c v w : skel v = skel w -> within c v -> within c w.
Proof. unfold within. intros E H. rewrite <- (ids_skel w), <- E, ids_skel. exact H. Qed.
Lemma kind_same v w : skel v = skel w -> bv_kind v = bv_kind w.
Proof. destruct v, w. cbn. congruence. Qed.
Lemma kids_impl {A B} (R : td -> A -> A -> Prop) (E : td -> A -> Prop) (R' : td -> B -> B -> Prop) (E' : td -> B -> Prop) (f : A -> B) cs :
  Forall (fun c => forall a b, R c a b -> R' c (f a) (f b)) cs -> (forall c a, E c a -> E' c (f a)) ->
  forall l1 l2, kids R E cs l1 l2 -> kids R' E' cs (map f l1) (map f l2).
Proof.
  intros H HE. induction H as [|c cs Hc Hcs IH]; intros l1 l2 Hk; cbn [kids] in *; [destruct Hk as [-> ->]; auto|].
  destruct (IsInclude wide (td_id c)); [|auto]. destruct Hk as (a & t1 & -> & Hk). exists (f a), (map f t1). split; [reflexivity|].
  destruct (IsInclude narrow (td_id c)); [|destruct Hk; auto]. destruct Hk as (b & t2 & -> & Hr & Hk). exists (f b), (map f t2). auto.
Qed.
Lemma keep_Clear t : forall w v, keepV t w v -> keepV t (Clear w) (Clear v).
Proof.
  induction t as [id k ns e h cs IH] using td_rect'. intros w v Hk. destruct (tkind_dec k) as [->|Hs].
  - rewrite keepV_struct in *. destruct Hk as (s & ks & ls & -> & -> & Hk). cbn [Clear]. eexists _, _, _. split; [reflexivity|]. split; [reflexivity|].
    eapply kids_impl; [exact IH| |exact Hk]. intros c a. apply within_same. symmetry. apply skel_Clear.
  - rewrite keepV_other in * by exact Hs. destruct Hk as [-> Hk]. split; [reflexivity|]. rewrite (kind_same _ w); [exact Hk|apply skel_Clear].
Qed.
Lemma keep_size hs m t : forall w v w', keepV t w v -> setVectorSize hs m w = Ok w' -> exists v', setVectorSize hs m v = Ok v' /\ keepV t w' v'.
Proof.
  induction t as [id k ns e h cs IH] using td_rect'. intros w v w' Hk Hw. destruct (tkind_dec k) as [->|Hs].
  - rewrite keepV_struct in Hk. destruct Hk as (s & ks & ls & -> & -> & Hk). rewrite setVectorSize_struct in *. destruct (nth_error hs (Z.to_nat id)) as [g|]; [|discriminate].
    apply rbind_inv in Hw. destruct Hw as (s' & E & Hw). apply rbind_inv in Hw. destruct Hw as (ks' & Hks & Hw). rewrite E. cbn [rbind].
    destruct (kids_mapM keepV within (setVectorSize hs m) cs IH) with (l1 := ks) (l2 := ls) (l1' := ks') as (ls' & Hls & Hk'); auto.
    { intros c a a' Ha Ea. eapply within_same; [|exact Ha]. symmetry. eapply skel_size. exact Ea. }
    unfold sizeL. rewrite Hls. cbn [rbind]. eexists. split; [reflexivity|]. rewrite keepV_struct. assert (w' = BVec id STRUCT s' ks') as -> by congruence. eauto 10.
  - rewrite keepV_other in Hk by exact Hs. destruct Hk as [-> Hk]. exists w'. split; [exact Hw|]. rewrite keepV_other by exact Hs. split; [reflexivity|].
    rewrite (kind_same _ w); [exact Hk|eapply skel_size; exact Hw].
Qed.
Lemma keep_view t : forall w v, keepV t w v -> keepX t (view w) (view v).
Proof.
  induction t as [id k ns e h cs IH] using td_rect'. intros w v Hk. destruct (tkind_dec k) as [->|Hs].
  - rewrite keepV_struct in Hk. destruct Hk as (s & ks & ls & -> & -> & Hk). rewrite keepX_struct. cbn [view]. eexists _, _, _. split; [reflexivity|]. split; [reflexivity|].
    eapply kids_impl; [exact IH| |exact Hk]. auto.
  - rewrite keepV_other in Hk by exact Hs. rewrite keepX_other by exact Hs. destruct Hk as [-> _]. reflexivity.
Qed.
Lemma keep_put t : forall w v x y, keepV t w v -> keepX t x y -> keepV t (put w x) (put v y).
Proof.
  induction t as [id k ns e h cs IH] using td_rect'. intros w v x y Hk Hx. destruct (tkind_dec k) as [->|Hs].
  - rewrite keepV_struct in *. destruct Hk as (s & ks & ls & -> & -> & Hk). rewrite keepX_struct in Hx. destruct Hx as (vals & xs & ys & -> & -> & Hx).
    rewrite !put_eq. eexists _, _, _. split; [reflexivity|]. split; [reflexivity|]. revert ks ls xs ys Hk Hx.
    induction IH as [|c cs Hc Hcs IHl]; intros ks ls xs ys Hk Hx; cbn [kids] in *; [destruct Hk as [-> ->], Hx as [-> ->]; auto|].
    destruct (IsInclude wide (td_id c)); [|auto]. destruct Hk as (a & t1 & -> & Hk), Hx as (a' & t1' & -> & Hx). exists (put a a'), (putL t1 t1'). split; [reflexivity|].
    destruct (IsInclude narrow (td_id c)).
    + destruct Hk as (b & t2 & -> & Hr & Hk), Hx as (b' & t2' & -> & Hr' & Hx). exists (put b b'), (putL t2 t2'). split; [reflexivity|]. auto.
    + destruct Hk as [Hw Hk], Hx as [_ Hx]. split; [|auto]. eapply within_same; [|exact Hw]. symmetry. apply skel_put.
  - rewrite keepV_other in * by exact Hs. rewrite keepX_other in Hx by exact Hs. destruct Hk as [-> Hk]. subst y. split; [reflexivity|].
    rewrite (kind_same _ w); [exact Hk|apply skel_put].
Qed.
Lemma kids_all {A} (R : td -> A -> A -> Prop) (E : td -> A -> Prop) (P : A -> Prop) cs :
  Forall (fun c => forall a b, R c a b -> P a -> P b) cs -> forall l1 l2, kids R E cs l1 l2 -> all P l1 -> all P l2.
Proof.
  intros H. induction H as [|c cs Hc Hcs IH]; intros l1 l2 Hk Ha; cbn [kids] in *; [destruct Hk as [-> ->]; auto|].
  destruct (IsInclude wide (td_id c)); [|eauto]. destruct Hk as (a & t1 & -> & Hk), Ha as [H1 H2].
  destruct (IsInclude narrow (td_id c)); [|destruct Hk; eauto]. destruct Hk as (b & t2 & -> & Hr & Hk). split; eauto.
Qed.
Lemma keep_uni hs n c t : forall w v, keepV t w v -> uni hs n c w -> uni hs n c v.
Proof.
  induction t as [id k ns e h cs IH] using td_rect'. intros w v Hk Hu. destruct (tkind_dec k) as [->|Hs].
  - rewrite keepV_struct in Hk. destruct Hk as (s & ks & ls & -> & -> & Hk). rewrite uni_struct in *. destruct Hu as [H1 H2]. split; [exact H1|].
    eapply kids_all; eauto.
  - rewrite keepV_other in Hk by exact Hs. destruct Hk as [-> _]. exact Hu.
Qed.

(** The values of a column that both have. *)
Lemma keep_held j t : (forall x c, In x (flatten t) -> In c (td_children x) -> IsInclude narrow (td_id c) = true -> IsInclude narrow (td_id x) = true) ->
  IsInclude narrow j = true -> forall w v, keepV t w v -> held j v = held j w.
Proof.
  induction t as [id k ns e h cs IH] using td_rect'. intros Hroot Hj w v Hk. destruct (tkind_dec k) as [->|Hs].
  - rewrite keepV_struct in Hk. destruct Hk as (s & ks & ls & -> & -> & Hk). cbn [held]. f_equal.
    assert (Hsub : forall c x, In c cs -> In x (flatten c) -> In x (flatten (Td id STRUCT ns e h cs))).
    { intros c x Hc Hx. rewrite flatten_eq. right. apply in_flat_map. eauto. }
    clear s. revert ks ls Hk. assert (Hcs : incl cs cs) by (intros x Hx; exact Hx). revert Hcs. generalize cs at 1 3 as l.
    induction l as [|c l IHl]; intros Hcs ks ls Hk; cbn [kids] in *; [destruct Hk as [-> ->]; reflexivity|].
    assert (Hc : In c cs) by (apply Hcs; left; reflexivity). assert (Hl : incl l cs) by (intros x Hx; apply Hcs; right; exact Hx).
    destruct (IsInclude wide (td_id c)); [|auto]. destruct Hk as (a & t1 & -> & Hk). cbn [flat_map].
    destruct (IsInclude narrow (td_id c)) eqn:En.
    + destruct Hk as (b & t2 & -> & Hr & Hk). cbn [flat_map]. rewrite (IHl Hl _ _ Hk). f_equal. rewrite Forall_forall in IH. apply (IH c Hc); auto.
      intros x y Hx Hy. apply Hroot; [eapply Hsub; eauto|exact Hy].
    + destruct Hk as [Hw Hk]. rewrite (IHl Hl _ _ Hk). rewrite held_none; [reflexivity|]. intros Hin. apply Hw in Hin. apply in_map_iff in Hin.
      destruct Hin as (x & <- & Hx).
      assert (Hno : forall d, (forall x c, In x (flatten d) -> In c (td_children x) -> IsInclude narrow (td_id c) = true -> IsInclude narrow (td_id x) = true) ->
        IsInclude narrow (td_id d) = false -> forall x, In x (flatten d) -> IsInclude narrow (td_id x) = false).
      { clear. intros d. induction d as [id k ns e h cs IH] using td_rect'. intros Hr Hd x Hx. rewrite flatten_eq in Hx. destruct Hx as [<-|Hx]; [exact Hd|].
        apply in_flat_map in Hx. destruct Hx as (c & Hc & Hx). rewrite Forall_forall in IH. apply (IH c Hc); [| |exact Hx].
        - intros y z Hy. apply Hr. rewrite flatten_eq. right. apply in_flat_map. eauto.
        - destruct (IsInclude narrow (td_id c)) eqn:E; [|reflexivity]. rewrite <- Hd. symmetry. apply (Hr _ c); [rewrite flatten_eq; left; reflexivity|exact Hc|exact E]. }
      rewrite (Hno c) in Hj; [discriminate| |exact En|exact Hx]. intros y z Hy. apply Hroot. eapply Hsub; eauto.
  - rewrite keepV_other in Hk by exact Hs. destruct Hk as [-> _]. reflexivity.
Qed.
End Keep.

(** ** NextBatch keeps the lengths *)
Fixpoint quietX (x : vtree) : Prop := match x with VT vals cs => vals = [] /\ all quietX cs end.
Section Lengths.
Variable wide : batchOption.
Notation Keeps R := (kids wide wide R (fun _ _ => True)).
Fixpoint sameX (t : td) (x x' : vtree) : Prop :=
  match t with
  | Td _ k _ _ _ cs =>
      match k with
      | STRUCT => exists a ks a' ks', x = VT a ks /\ x' = VT a' ks' /\ zlen a' = zlen a /\ kids wide wide sameX (fun _ _ => True) cs ks ks'
      | _ => zlen (vt_vals x') = zlen (vt_vals x) /\ (quietX x -> x' = x)
      end
  end.
Lemma sameX_struct id ns e h cs x x' : sameX (Td id STRUCT ns e h cs) x x' <->
  exists a ks a' ks', x = VT a ks /\ x' = VT a' ks' /\ zlen a' = zlen a /\ Keeps sameX cs ks ks'.
Proof. reflexivity. Qed.
Lemma sameX_other id k ns e h cs x x' : k <> STRUCT -> (sameX (Td id k ns e h cs) x x' <-> zlen (vt_vals x') = zlen (vt_vals x) /\ (quietX x -> x' = x)).
Proof. intros H. destruct k; try reflexivity. congruence. Qed.
Lemma sameX_trans t : forall x y z, sameX t x y -> sameX t y z -> sameX t x z.
Proof.
  induction t as [id k ns e h cs IH] using td_rect'. intros x y z H1 H2. destruct (tkind_dec k) as [->|Hs].
  - rewrite sameX_struct in *. destruct H1 as (a & ks & a1 & ks1 & -> & -> & Ha & H1), H2 as (a2 & ks2 & a3 & ks3 & E & -> & Ha' & H2).
    injection E as <- <-. exists a, ks, a3, ks3. split; [reflexivity|]. split; [reflexivity|]. split; [congruence|]. clear - IH H1 H2. revert ks ks1 ks3 H1 H2.
    induction IH as [|c cs Hc Hcs IHl]; intros ks ks1 ks3 H1 H2; cbn [kids] in *; [destruct H1 as [-> ->], H2 as [_ ->]; auto|].
    destruct (IsInclude wide (td_id c)); [|eauto]. destruct H1 as (u & t1 & -> & v & t2 & -> & Hr & H1), H2 as (v' & t2' & E & w & t3 & -> & Hr' & H2).
    injection E as <- <-. exists u, t1. split; [reflexivity|]. exists w, t3. eauto.
  - rewrite sameX_other in * by exact Hs. destruct H1 as [A1 B1], H2 as [A2 B2]. split; [congruence|]. intros Hn. specialize (B1 Hn). subst y. auto.
Qed.
Lemma diag_mapM {A} (R S : td -> A -> A -> Prop) f cs : Forall (fun c => forall a a', R c a a -> f a = Ok a' -> S c a a') cs ->
  forall l l', Keeps R cs l l -> mapM f l = Ok l' -> Keeps S cs l l'.
Proof.
  intros H. induction H as [|c cs Hc Hcs IH]; intros l l' Hk Hm; cbn [kids] in *; [destruct Hk as [-> _]; split; [reflexivity|cbn in Hm; congruence]|].
  destruct (IsInclude wide (td_id c)); [|auto]. destruct Hk as (a & t & -> & b & t' & E & Hr & Hk). injection E as <- <-. cbn [mapM] in Hm.
  apply rbind_inv in Hm. destruct Hm as (a' & Ha & Hm). apply rbind_inv in Hm. destruct Hm as (r' & Ht & Hm). assert (l' = a' :: r') as -> by congruence.
  exists a, t. split; [reflexivity|]. exists a', r'. auto.
Qed.
Lemma copyNulls_len p : forall l l', copyNulls p l = Ok l' -> zlen l' = zlen l.
Proof.
  induction p as [|x p IH]; intros l l' H; [cbn [copyNulls] in H; congruence|]. destruct l as [|y l]; cbn [copyNulls] in H; [discriminate|].
  apply rbind_inv in H. destruct H as (t & Ht & H). specialize (IH _ _ Ht). match type of H with Ok ?v = _ => assert (l' = v) as -> by congruence end. rewrite !zlen_cons. lia.
Qed.
Fixpoint fill_nil (x : vtree) : quietX x -> fillNulls [] x = Ok x.
Proof.
  destruct x as [vals cs]. intros [-> Hq]. rewrite fillNulls_eq. cbn [copyNulls rbind].
  assert (E : fillL [] cs = Ok cs); [|rewrite E; reflexivity].
  revert Hq. induction cs as [|c cs IH]; intros Hq; [reflexivity|]. destruct Hq as [Hq Hr]. cbn [fillL]. rewrite (fill_nil c Hq). cbn [rbind]. fold (fillL []). rewrite (IH Hr). reflexivity.
Qed.
Lemma readNulls_len inflate o l : forall b l' b', readNulls inflate o b l = Ok (l', b') -> zlen l' = zlen l.
Proof.
  induction l as [|x l IH]; intros b l' b' H; cbn [readNulls] in H; [congruence|]. apply rbind_inv in H. destruct H as ([q b1] & _ & H).
  apply rbind_inv in H. destruct H as ([r b2] & E & H). match type of H with Ok (?v, _) = _ => assert (l' = v) as -> by congruence end. rewrite !zlen_cons, (IH _ _ _ E). reflexivity.
Qed.
Lemma same_fill c : forall p x x', keepX wide wide c x x -> fillNulls p x = Ok x' -> sameX c x x'.
Proof.
  induction c as [id k ns e h cs IH] using td_rect'. intros p x x' Hk Hf. destruct x as [vals ks]. rewrite fillNulls_eq in Hf.
  apply rbind_inv in Hf. destruct Hf as (vals' & Hv & Hf). apply rbind_inv in Hf. destruct Hf as (ks' & Hks & Hf). assert (x' = VT vals' ks') as -> by congruence.
  destruct (tkind_dec k) as [->|Hs].
  - rewrite keepX_struct in Hk. destruct Hk as (v0 & k0 & l0 & E1 & E2 & Hk). assert (v0 = vals /\ k0 = ks /\ l0 = ks) as (-> & -> & ->) by (repeat split; congruence). clear E1 E2.
    rewrite sameX_struct. exists vals, ks, vals', ks'. split; [reflexivity|]. split; [reflexivity|]. split; [eapply copyNulls_len; eauto|]. rewrite fillL_mapM in Hks.
    eapply diag_mapM; [|exact Hk|exact Hks]. eapply Forall_impl; [|exact IH]. cbn. eauto.
  - rewrite sameX_other by exact Hs. split; [eapply copyNulls_len; eauto|]. intros Hq. destruct p; [|destruct Hq as [-> _]; discriminate Hv].
    cbn [copyNulls] in Hv. assert (E : fillNulls [] (VT vals ks) = Ok (VT vals ks)) by (apply fill_nil; exact Hq). rewrite fillNulls_eq in E. cbn [copyNulls rbind] in E.
    assert (vals' = vals) as -> by congruence. rewrite Hks in E. cbn [rbind] in E. congruence.
Qed.
Section Next.
Variable inflate : list Z -> res (list Z).
Variable o : opts.
Notation next := (tree_NextBatch inflate o).
Lemma NextBatch_len l : forall c l' c', NextBatch inflate o c l = Ok (l', c') -> zlen l' = zlen l.
Proof.
  induction l as [|x l IH]; intros c l' c' H; cbn [NextBatch] in H; [congruence|]. apply rbind_inv in H. destruct H as ([y c1] & _ & H).
  apply rbind_inv in H. destruct H as ([r c2] & E & H). assert (l' = y :: r) as -> by congruence. rewrite !zlen_cons, (IH _ _ _ E). reflexivity.
Qed.
Lemma dictRows_len ss l : forall p d l' p' d', dictRows inflate o ss p d l = Ok (l', p', d') -> zlen l' = zlen l.
Proof.
  induction l as [|x l IH]; intros p d l' p' d' H; cbn [dictRows] in H; [congruence|]. apply rbind_inv in H. destruct H as ([n p1] & _ & H). destruct n.
  - apply rbind_inv in H. destruct H as ([[r p2] d2] & E & H). match type of H with Ok (?v, _, _) = _ => assert (l' = v) as -> by congruence end. rewrite !zlen_cons, (IH _ _ _ _ _ E). reflexivity.
  - apply rbind_inv in H. destruct H as ([i d1] & _ & H). destruct (if _ <? _ then _ else _); [|discriminate].
    apply rbind_inv in H. destruct H as ([[r p2] d2] & E & H). match type of H with Ok (?v, _, _) = _ => assert (l' = v) as -> by congruence end. rewrite !zlen_cons, (IH _ _ _ _ _ E). reflexivity.
Qed.
Lemma list_len {C} (f : C -> vtree -> res (vtree * C)) l : forall r c cv l' cv' r' c', list_NextBatch inflate o C f r c l cv = Ok (l', cv', r', c') -> zlen l' = zlen l.
Proof.
  induction l as [|x l IH]; intros r c cv l' cv' r' c' H; cbn [list_NextBatch] in H; [congruence|]. apply rbind_inv in H. destruct H as ([n r1] & _ & H).
  cbv zeta in H. apply rbind_inv in H. destruct H as ([cv1 c1] & _ & H). apply rbind_inv in H. destruct H as ([[[xs cv2] r2] c2] & E & H).
  match type of H with Ok (?v, _, _, _) = _ => assert (l' = v) as -> by congruence end. rewrite !zlen_cons, (IH _ _ _ _ _ _ _ E). reflexivity.
Qed.
Lemma map_len {K W} (f : K -> vtree -> res (vtree * K)) (g : W -> vtree -> res (vtree * W)) l :
  forall r k w kv wv l' kv' wv' r' k' w', map_NextBatch inflate o K W f g r k w l kv wv = Ok (l', kv', wv', r', k', w') -> zlen l' = zlen l.
Proof.
  induction l as [|x l IH]; intros r k w kv wv l' kv' wv' r' k' w' H; cbn [map_NextBatch] in H; [congruence|]. apply rbind_inv in H. destruct H as ([n r1] & _ & H).
  cbv zeta in H. apply rbind_inv in H. destruct H as ([kv1 k1] & _ & H). apply rbind_inv in H. destruct H as ([wv1 w1] & _ & H). apply rbind_inv in H. destruct H as ([[[[[xs kv2] wv2] r2] k2] w2] & E & H).
  match type of H with Ok (?v, _, _, _, _, _) = _ => assert (l' = v) as -> by congruence end. rewrite !zlen_cons, (IH _ _ _ _ _ _ _ _ _ _ _ E). reflexivity.
Qed.
Lemma other_len t x x' t' : match t with CStruct _ _ _ => False | _ => True end -> next t x = Ok (x', t') ->
  zlen (vt_vals x') = zlen (vt_vals x) /\ (quietX x -> x' = x).
Proof.
  intros H Hn. destruct x as [vals cs]. destruct t as [c|d|p i ks|r i c|r i k w]; [| |contradiction| |].
  - rewrite tree_NextBatch_leaf in Hn. apply rbind_inv in Hn. destruct Hn as ([v' c'] & E & Hn). assert (x' = VT v' cs) as -> by congruence.
    split; [eapply NextBatch_len; eauto|]. intros [-> _]. cbn [NextBatch] in E. congruence.
  - rewrite tree_NextBatch_dict in Hn. apply rbind_inv in Hn. destruct Hn as ([v' d'] & E & Hn). assert (x' = VT v' cs) as -> by congruence.
    unfold dict_NextBatch in E. apply rbind_inv in E. destruct E as (d1 & _ & E). apply rbind_inv in E. destruct E as ([[xs p] d2] & E & E').
    assert (xs = v') as -> by congruence. split; [eapply dictRows_len; eauto|]. intros [-> _]. cbn [dictRows] in E. congruence.
  - rewrite tree_NextBatch_list in Hn. apply rbind_inv in Hn. destruct Hn as ([v' [r' c']] & E & Hn). assert (x' = v') as -> by congruence.
    unfold list_next in E. destruct cs as [|cv cs].
    + destruct vals; [|apply rbind_inv in E; destruct E as (? & _ & E); discriminate]. assert (v' = VT [] []) as -> by congruence. auto.
    + apply rbind_inv in E. destruct E as ([[[v1 cv1] r1] c1] & E & E'). assert (v' = VT v1 (cv1 :: cs)) as -> by congruence.
      split; [eapply list_len; eauto|]. intros [-> _]. cbn [list_NextBatch] in E. congruence.
  - rewrite tree_NextBatch_map in Hn. apply rbind_inv in Hn. destruct Hn as ([v' [[r' k'] w']] & E & Hn). assert (x' = v') as -> by congruence.
    unfold map_next in E. assert (Hno : match vals with [] => Ok (VT vals cs, (r, k, w)) | old :: _ => let! _ := listHead inflate o r (Null old) in Panic end = Ok (v', (r', k', w')) ->
      zlen (vt_vals v') = zlen vals /\ (quietX (VT vals cs) -> v' = VT vals cs)).
    { clear E. intros E. destruct vals; [|apply rbind_inv in E; destruct E as (? & _ & E); discriminate]. assert (v' = VT [] cs) as -> by congruence. auto. }
    destruct cs as [|kv [|wv cs]]; [exact (Hno E)..|]. clear Hno.
    apply rbind_inv in E. destruct E as ([[[[[v1 kv1] wv1] r1] k1] w1] & E & E'). assert (v' = VT v1 (kv1 :: wv1 :: cs)) as -> by congruence.
    split; [eapply map_len; eauto|]. intros [-> _]. cbn [map_NextBatch] in E. congruence.
Qed.
Lemma same_nextKids cs : Forall (fun c => forall t x x' t', keepT wide wide c t t -> keepX wide wide c x x -> next t x = Ok (x', t') -> sameX c x x') cs ->
  forall ts xs xs' ts', Keeps (keepT wide wide) cs ts ts -> Keeps (keepX wide wide) cs xs xs -> nextKids next ts xs = Ok (xs', ts') -> Keeps sameX cs xs xs'.
Proof.
  intros H. induction H as [|c cs Hc Hcs IH]; intros ts xs xs' ts' Ht Hx Hn; cbn [kids] in *.
  - destruct Ht as [-> _], Hx as [-> _]. cbn [nextKids] in Hn. split; congruence.
  - destruct (IsInclude wide (td_id c)); [|eauto]. destruct Ht as (t & ts1 & -> & t0 & ts2 & E & Ht & Hts), Hx as (x & xs1 & -> & x0 & xs2 & E' & Hx & Hxs).
    injection E as <- <-. injection E' as <- <-. cbn [nextKids] in Hn. apply rbind_inv in Hn. destruct Hn as ([x' t'] & H1 & Hn). apply rbind_inv in Hn. destruct Hn as ([xs1' ts1'] & H2 & Hn).
    assert (xs' = x' :: xs1') as -> by congruence. exists x, xs1. split; [reflexivity|]. exists x', xs1'. eauto.
Qed.
Lemma sameX_refl c : forall x, keepX wide wide c x x -> sameX c x x.
Proof.
  induction c as [id k ns e h cs IH] using td_rect'. intros x Hx. destruct (tkind_dec k) as [->|Hs]; [|rewrite sameX_other by exact Hs; auto].
  rewrite keepX_struct in Hx. destruct Hx as (vals & xs & ys & -> & E & Hx). assert (ys = xs) as -> by congruence. clear E.
  rewrite sameX_struct. exists vals, xs, vals, xs. repeat (split; [reflexivity|]). clear - IH Hx. revert xs Hx.
  induction IH as [|c cs Hc Hcs IHl]; intros xs Hx; cbn [kids] in *; [exact Hx|].
  destruct (IsInclude wide (td_id c)); [|auto]. destruct Hx as (x & xs1 & -> & x0 & xs2 & E' & Hx & Hxs). injection E' as <- <-. exists x, xs1. split; [reflexivity|]. exists x, xs1. auto.
Qed.
Lemma same_next c : forall t x x' t', keepT wide wide c t t -> keepX wide wide c x x -> next t x = Ok (x', t') -> sameX c x x'.
Proof.
  induction c as [id k ns e h cs IH] using td_rect'. intros t x x' t' Ht Hx Hn. destruct (tkind_dec k) as [->|Hs].
  - rewrite keepT_struct in Ht. destruct Ht as (p & i & ts & us & -> & E & Ht). assert (us = ts) as -> by congruence. clear E.
    rewrite keepX_struct in Hx. destruct Hx as (vals & xs & ys & -> & E & Hx). assert (ys = xs) as -> by congruence. clear E.
    rewrite tree_NextBatch_struct in *. apply rbind_inv in Hn. destruct Hn as ([[vals' xs1] p'] & H1 & Hn). apply rbind_inv in Hn. destruct Hn as ([xs2 ts'] & H2 & Hn).
    assert (x' = VT vals' xs2) as -> by congruence. clear Hn.
    assert (Hm : zlen vals' = zlen vals /\ Keeps (keepX wide wide) cs xs1 xs1 /\ Keeps sameX cs xs xs1).
    { destruct p as [b|].
      - apply rbind_inv in H1. destruct H1 as ([v1 b1] & E1 & H1). apply rbind_inv in H1. destruct H1 as (xs3 & E3 & H1).
        assert (v1 = vals' /\ xs3 = xs1) as (-> & ->) by (repeat split; congruence). split; [eapply readNulls_len; eauto|].
        destruct (kids_mapM wide wide (keepX wide wide) (fun _ _ => True) (fillNulls vals') cs) with (l1 := xs) (l2 := xs) (l1' := xs1) as (ys1 & Hys & Hk); auto.
        { apply Forall_forall. intros c _ a0 b0 a' Ha. apply keep_fill. exact Ha. }
        assert (ys1 = xs1) as -> by congruence. split; [exact Hk|]. eapply diag_mapM; [|exact Hx|exact E3].
        apply Forall_forall. intros c _ a a'. apply same_fill.
      - assert (vals = vals' /\ xs = xs1) as (-> & ->) by (repeat split; congruence). split; [reflexivity|]. split; [exact Hx|].
        pose proof (sameX_refl (Td id STRUCT ns e h cs) (VT vals' xs1)) as Hr. rewrite keepX_struct, sameX_struct in Hr. destruct Hr as (a & ks & a' & ks' & Ea & Eb & _ & Hr); [eauto 10|].
        assert (ks = xs1 /\ ks' = xs1) as [-> ->] by (split; congruence). exact Hr. }
    destruct Hm as (Hl & Hx1 & Hs1). pose proof (same_nextKids cs IH _ _ _ _ Ht Hx1 H2) as Hs2.
    eapply (sameX_trans (Td id STRUCT ns e h cs)) with (y := VT vals' xs1); rewrite sameX_struct; eauto 10.
  - rewrite keepT_other in Ht by exact Hs. rewrite sameX_other by exact Hs. eapply other_len; [apply Ht|exact Hn].
Qed.
End Next.
Lemma quiet_view v : quiet v -> quietX (view v).
Proof.
  induction v as [i k s cs IH] using bvec_ind'. intros [Hs Hc]. cbn [view quietX]. split; [destruct s as [[a b]|]; [exact Hs|reflexivity]|].
  induction IH as [|c cs H1 H2 IHl]; [exact I|]. destruct Hc as [A B]. split; [auto|]. apply IHl. exact B.
Qed.
Lemma quiet_put v : quiet v -> quiet (put v (view v)).
Proof.
  induction v as [i k s cs IH] using bvec_ind'. intros [Hs Hc]. cbn [view]. rewrite put_eq. split; [destruct s as [[a b]|]; cbn; [exact Hs|exact I]|].
  induction IH as [|c cs H1 H2 IHl]; [exact I|]. destruct Hc as [A B]. split; [auto|]. apply IHl. exact B.
Qed.
Lemma slice_put n c s vals : slice n c s -> zlen vals = n -> slice n c (putVals s vals).
Proof.
  intros (a & b & -> & Ha & Hc) Hv. cbn [putVals]. exists vals, (zdrop (zlen vals) (a ++ b)). split; [reflexivity|]. split; [exact Hv|].
  unfold zlen, zdrop in *. rewrite app_length, skipn_length. rewrite app_length in *. lia.
Qed.
Lemma uni_put hs n cap c : forall w x', keepV wide wide c w w -> sameX c (view w) x' -> uni hs n cap w -> uni hs n cap (put w x').
Proof.
  induction c as [id k ns e h cs IH] using td_rect'. intros w x' Hw Hx Hu. destruct (tkind_dec k) as [->|Hs].
  - rewrite keepV_struct in Hw. destruct Hw as (s & ks & ls & -> & E & Hw). assert (ls = ks) as -> by congruence. clear E.
    rewrite sameX_struct in Hx. destruct Hx as (a & xs & a' & xs' & E & -> & Hl & Hx). cbn [view] in E. injection E as <- <-.
    rewrite put_eq. rewrite uni_struct in *. destruct Hu as [H1 H2]. split.
    + destruct (nth_error hs (Z.to_nat id)) as [[|]|]; [|subst s|exact H1].
      * apply slice_put; [exact H1|]. destruct H1 as (a & b & -> & Ha & _). lia.
      * cbn in Hl. destruct a'; [reflexivity|]. pose proof (zlen_nonneg a'). rewrite zlen_cons in Hl. change (zlen (@nil value)) with 0 in Hl. lia.
    + clear - IH Hw Hx H2. revert ks xs' Hw Hx H2. induction IH as [|c cs Hc Hcs IHl]; intros ks xs' Hw Hx Hu; cbn [kids] in *.
      * destruct Hw as [-> _], Hx as [_ ->]. exact I.
      * destruct (IsInclude wide (td_id c)); [|eauto]. destruct Hw as (w & ws & -> & w0 & ws0 & E & Hw & Hws). injection E as <- <-.
        destruct Hx as (x & xs & E & x' & xs1 & -> & Hx & Hxs). cbn [map] in E. injection E as <- <-. destruct Hu as [U1 U2].
        split; [apply Hc; assumption|]. apply IHl; assumption.
  - rewrite keepV_other in Hw by exact Hs. rewrite sameX_other in Hx by exact Hs. destruct w as [i k' s ks]. destruct Hw as [_ Hk]. cbn [bv_kind] in Hk.
    rewrite uni_other in Hu by exact Hk. destruct Hu as [H1 H2]. destruct Hx as [Hl Hx]. destruct x' as [vals xs]. rewrite put_eq. rewrite uni_other by exact Hk. split.
    + apply slice_put; [exact H1|]. destruct H1 as (a & b & -> & Ha & _). cbn in Hl. lia.
    + intros Hn. specialize (H2 Hn). assert (Hq : quiet (BVec i k' s ks)).
      { split; [|exact H2]. destruct H1 as (a & b & -> & Ha & _). destruct a; [reflexivity|]. pose proof (zlen_nonneg a). rewrite zlen_cons in Ha. lia. }
      pose proof (quiet_put _ Hq) as Hp. cbn [view] in Hp. rewrite put_eq in Hp. destruct Hp as [_ Hp].
      specialize (Hx (quiet_view _ Hq)). cbn [view] in Hx. injection Hx as -> ->. exact Hp.
Qed.
End Lengths.

(** ** Two clients *)
Section Sim.
Variables narrow wide : batchOption.
Variable inflate : list Z -> res (list Z).
Variable o : opts.
Variable hs : list bool.
Variable schema : td.
Variable cap : Z.
Definition twin (n : Z) (w v : bvec) : Prop :=
  keepV narrow wide schema w v /\ keepV wide wide schema w w /\ uni hs n cap w /\ leads hs w /\ leads hs v.
Definition twinT (a b : option ctree) : Prop :=
  exists x y, a = Some x /\ b = Some y /\ keepT narrow wide schema x y /\ keepT wide wide schema x x.
Definition twinS (s t : stripeRd) : Prop :=
  sr_rows t = sr_rows s /\ sr_cursor t = sr_cursor s /\ 0 <= sr_rows s < W63 /\ twinT (sr_tree s) (sr_tree t).
Lemma twin_Len n w v : twin n w v -> Len w = n /\ Len v = n /\ Cap w = cap /\ Cap v = cap.
Proof.
  intros (H1 & H2 & H3 & H4 & H5). pose proof (keep_uni narrow wide hs n cap schema w v H1 H3) as Hv.
  pose proof (uni_Len hs n cap w H3 H4). pose proof (uni_Len hs n cap v Hv H5). pose proof (uni_Cap hs n cap w H3 H4). pose proof (uni_Cap hs n cap v Hv H5). auto.
Qed.
Lemma twin_Clear n w v : twin n w v -> twin 0 (Clear w) (Clear v).
Proof.
  intros (H1 & H2 & H3 & H4 & H5). split; [apply keep_Clear; exact H1|]. split; [apply keep_Clear; exact H2|]. split; [eapply uni_Clear; exact H3|].
  split; [apply (leads_same hs w)|apply (leads_same hs v)]; try assumption; symmetry; apply skel_Clear.
Qed.
Lemma sim_stripe n w v s t s' w' e : twin n w v -> twinS s t -> n = 0 \/ (n < cap /\ u64 (sr_rows s - sr_cursor s) <> 0) ->
  stripeNext inflate o hs s w = Ok (s', w', e) ->
  exists t' v' m, stripeNext inflate o hs t v = Ok (t', v', e) /\ twin m w' v' /\ twinS s' t' /\ (e = false -> u64 (sr_rows s' - sr_cursor s') <> 0) /\
    m = (let left := i64 (u64 (sr_rows s - sr_cursor s)) in if left <? cap - n then left else cap - n) /\
    sr_rows s' = sr_rows s /\ sr_cursor s' = u64 (sr_cursor s + m) /\ e = (sr_rows s <=? u64 (u64 (sr_cursor s + m) + 1)).
Proof.
  intros Hv (Er & Ec & Hr & a & b & Ea & Eb & Hab & Haa) Hn H. destruct (twin_Len _ _ _ Hv) as (L1 & L2 & C1 & C2). destruct Hv as (K1 & K2 & U & D1 & D2).
  unfold stripeNext in *. rewrite L1, C1 in H. rewrite L2, C2, Er, Ec. rewrite Ea in H. rewrite Eb.
  set (left := i64 (u64 (sr_rows s - sr_cursor s))) in *. set (page := if left <? cap - n then left else cap - n) in *. cbv zeta in *.
  assert (Hm : page = 0 -> n = 0).
  { intros Hp. destruct Hn as [Hn|[Hn Hu]]; [exact Hn|exfalso]. pose proof (u64_range (sr_rows s - sr_cursor s)) as Hur. subst page. destruct (left <? cap - n) eqn:El; [|lia].
    unfold left, i64 in Hp. clear - Hp Hu Hur. unfold is_u64 in Hur. rewrite Z.mod_small in Hp by lia. cbv zeta in Hp. destruct (_ <? _) in Hp; lia. }
  apply rbind_inv in H. destruct H as (w1 & E1 & H). apply rbind_inv in H. destruct H as ([x a'] & E2 & H).
  destruct (keep_size narrow wide hs page schema w v w1 K1 E1) as (v1 & F1 & K1'). destruct (keep_size wide wide hs page schema w w w1 K2 E1) as (w1' & F1' & K2').
  assert (w1' = w1) as -> by congruence. rewrite F1. cbn [rbind].
  destruct (keep_next narrow wide inflate o schema _ _ _ _ _ _ Hab (keep_view _ _ _ _ _ K1') E2) as (y & b' & F2 & X1 & T1).
  destruct (keep_next wide wide inflate o schema _ _ _ _ _ _ Haa (keep_view _ _ _ _ _ K2') E2) as (y0 & a0 & F2' & X2 & T2).
  assert (y0 = x /\ a0 = a') as [-> ->] by (split; congruence). rewrite F2. cbn [rbind].
  assert (U1 : uni hs page cap w1) by (eapply uni_size; [exact Hm|exact U|exact E1]).
  assert (Hsx : sameX wide schema (view w1) x) by (eapply same_next; [exact Haa|apply keep_view; exact K2'|exact E2]).
  assert (Tw : twin page (put w1 x) (put v1 y)).
  { split; [apply keep_put; assumption|]. split; [apply keep_put; assumption|]. split; [eapply uni_put; eassumption|].
    split; [apply (leads_same hs w)|apply (leads_same hs v)]; try assumption; rewrite skel_put; symmetry; eapply skel_size; eassumption. }
  destruct (twin_Len _ _ _ Tw) as (L1' & L2' & _). rewrite L1' in H. rewrite L2'.
  assert (e = (sr_rows s <=? u64 (u64 (sr_cursor s + page) + 1))) as -> by congruence.
  assert (w' = put w1 x) as -> by congruence.
  assert (s' = {| sr_rows := sr_rows s; sr_cursor := u64 (sr_cursor s + page); sr_tree := Some a' |}) as -> by congruence.
  eexists _, _, page. split; [reflexivity|]. split; [exact Tw|]. split; [|split; [|split; [reflexivity|split; [reflexivity|split; reflexivity]]]].
  - split; [reflexivity|]. split; [reflexivity|]. split; [exact Hr|]. exists a', b'. cbn [sr_tree]. auto.
  - cbn [sr_rows sr_cursor]. intros He Hu. pose proof (u64_range (sr_cursor s + page)) as Hc. unfold is_u64 in Hc.
    set (q := u64 (sr_cursor s + page)) in *. clearbody q. unfold u64 in He, Hu.
    rewrite (Z.mod_small (q + 1)) in He; [lia|]. split; [lia|]. 
    assert (Hq : sr_rows s = q); [|lia]. pose proof (Z.div_mod (sr_rows s - q) 18446744073709551616 ltac:(lia)). nia.
Qed.
Lemma twins_nth l l' : Forall2 twinS l l' -> forall i,
  match nth_error l i, nth_error l' i with Some a, Some b => twinS a b | None, None => True | _, _ => False end.
Proof. intros H. induction H as [|a b l l' Hab Hl IH]; intros [|i]; cbn [nth_error]; [exact I|exact I|exact Hab|apply IH]. Qed.
Lemma twins_set l l' a b : Forall2 twinS l l' -> twinS a b -> forall i, Forall2 twinS (set_nth l i a) (set_nth l' i b).
Proof. intros H Hab. induction H as [|x y l l' Hxy Hl IH]; intros [|i]; cbn [set_nth]; constructor; auto. Qed.
Lemma twins_length l l' : Forall2 twinS l l' -> length l' = length l.
Proof. intros H. induction H; cbn [length]; congruence. Qed.
Lemma sim_loop fuel : forall i ss ts n w v ss' j w', twin n w v -> Forall2 twinS ss ts ->
  n = 0 \/ (n < cap /\ match nth_error ss i with Some s => u64 (sr_rows s - sr_cursor s) <> 0 | None => True end) ->
  readLoop inflate o hs fuel ss i w = Ok (ss', j, w') ->
  exists ts' v' m, readLoop inflate o hs fuel ts i v = Ok (ts', j, v') /\ twin m w' v' /\ Forall2 twinS ss' ts'.
Proof.
  induction fuel as [|fuel IH]; intros i ss ts n w v ss' j w' Hv Hs Hn H; [discriminate|]. cbn [readLoop] in *.
  pose proof (twins_nth _ _ Hs i) as Hi. destruct (nth_error ss i) as [s|] eqn:Es; destruct (nth_error ts i) as [t|]; try contradiction.
  - apply rbind_inv in H. destruct H as ([[s' w1] e] & E & H). destruct (sim_stripe n w v s t s' w1 e Hv Hi Hn E) as (t' & v1 & m & F & Hv1 & Hi' & He & _).
    rewrite F. cbn [rbind]. pose proof (twins_set _ _ _ _ Hs Hi' i) as Hs'. destruct e.
    + assert (ss' = set_nth ss i s' /\ j = S i /\ w' = w1) as (-> & -> & ->) by (repeat split; congruence). eexists _, _, m. split; [reflexivity|]. auto.
    + destruct (twin_Len _ _ _ Hv1) as (L1 & L2 & C1 & C2). rewrite L1, C1 in H. rewrite L2, C2. destruct (cap <=? m) eqn:Em.
      * assert (ss' = set_nth ss i s' /\ j = i /\ w' = w1) as (-> & -> & ->) by (repeat split; congruence). eexists _, _, m. split; [reflexivity|]. auto.
      * eapply IH; [exact Hv1|exact Hs'| |exact H]. right. split; [lia|]. clear - Es He. specialize (He eq_refl).
        assert (E : nth_error (set_nth ss i s') i = Some s').
        { revert i Es. induction ss as [|x ss IH]; intros [|i] Es; cbn [set_nth nth_error] in *; try discriminate; [reflexivity|apply IH; exact Es]. }
        rewrite E. exact He.
  - rewrite (twins_length _ _ Hs). destruct (_ <? _)%nat; [discriminate|].
    assert (ss' = ss /\ j = i /\ w' = w) as (-> & -> & ->) by (repeat split; congruence). exists ts, v, n. auto.
Qed.
Definition twinB (x y : batchRd) : Prop :=
  Forall2 twinS (br_stripes x) (br_stripes y) /\ br_index y = br_index x /\ br_total y = br_total x /\ br_cursor y = br_cursor x.
Lemma sim_next n w v x y x' w' e : twin n w v -> twinB x y -> readNext inflate o hs x w = Ok (x', w', e) ->
  exists y' v' m, readNext inflate o hs y v = Ok (y', v', e) /\ twin m w' v' /\ twinB x' y'.
Proof.
  intros Hv (Hs & Hi & Ht & Hc) H. apply twin_Clear in Hv. unfold readNext in *. rewrite Hi, Ht, Hc. destruct (_ <=? _).
  - assert (x' = x /\ w' = Clear w /\ e = true) as (-> & -> & ->) by (repeat split; congruence). eexists _, _, 0. split; [reflexivity|]. split; [exact Hv|]. split; auto.
  - apply rbind_inv in H. destruct H as ([[ss' j] w1] & E & H). rewrite (twins_length _ _ Hs).
    destruct (sim_loop _ _ _ _ _ _ _ _ _ _ Hv Hs (or_introl eq_refl) E) as (ts' & v1 & m & F & Hv1 & Hs'). rewrite F. cbn [rbind].
    rewrite (twins_length _ _ Hs'). destruct (twin_Len _ _ _ Hv1) as (L1 & L2 & _). rewrite L1 in H. rewrite L2. cbv zeta in *.
    match type of H with Ok (?a, ?b, ?c) = _ => assert (x' = a /\ w' = b /\ e = c) as (-> & -> & ->) by (repeat split; congruence) end.
    eexists _, _, m. split; [reflexivity|]. split; [exact Hv1|]. split; auto.
Qed.
Lemma sim_stripeSeek k row s t s' : twinS s t -> stripeSeek inflate o k s row = Ok s' -> exists t', stripeSeek inflate o k t row = Ok t' /\ twinS s' t'.
Proof.
  intros (Er & Ec & Hr & a & b & Ea & Eb & Hab & Haa) H. unfold stripeSeek in *. apply rbind_inv in H. destruct H as (off & E & H). rewrite E. cbn [rbind].
  rewrite Ea in H. rewrite Eb. apply rbind_inv in H. destruct H as (a1 & E1 & H). apply rbind_inv in H. destruct H as (a2 & E2 & H).
  destruct (keep_seek narrow wide inflate o schema 0 _ _ _ Hab E1) as (b1 & F1 & Hab1). destruct (keep_seek wide wide inflate o schema 0 _ _ _ Haa E1) as (a1' & F1' & Haa1).
  assert (a1' = a1) as -> by congruence. rewrite F1. cbn [rbind]. unfold tree_Skip in *.
  destruct (keep_skip narrow wide inflate o schema _ _ _ _ Hab1 E2) as (b2 & F2 & Hab2). destruct (keep_skip wide wide inflate o schema _ _ _ _ Haa1 E2) as (a2' & F2' & Haa2).
  assert (a2' = a2) as -> by congruence. rewrite F2. cbn [rbind]. eexists. split; [reflexivity|].
  match type of H with Ok ?v = _ => assert (s' = v) as -> by congruence end. split; [exact Er|]. split; [exact Ec|]. split; [exact Hr|]. exists a2, b2. cbn [sr_tree]. auto.
Qed.
Lemma sim_seekStripes k row ss ts : Forall2 twinS ss ts -> forall before ss', seekStripes inflate o k row before ss = Ok ss' ->
  exists ts', seekStripes inflate o k row before ts = Ok ts' /\ Forall2 twinS ss' ts'.
Proof.
  intros H. induction H as [|s t ss ts Hs Hss IH]; intros before ss' E; cbn [seekStripes] in *; [discriminate|]. pose proof Hs as (Er & _). rewrite Er.
  destruct (row <? _).
  - apply rbind_inv in E. destruct E as (s' & E1 & E). destruct (sim_stripeSeek _ _ _ _ _ Hs E1) as (t' & F & Hs'). rewrite F. cbn [rbind]. eexists. split; [reflexivity|].
    assert (ss' = s' :: ss) as -> by congruence. constructor; assumption.
  - apply rbind_inv in E. destruct E as (r' & E1 & E). destruct (IH _ _ E1) as (rt & F & Hr). rewrite F. cbn [rbind]. eexists. split; [reflexivity|].
    assert (ss' = s :: r') as -> by congruence. constructor; assumption.
Qed.
Lemma sim_seek k row x y x' : twinB x y -> readSeek inflate o k x row = Ok x' -> exists y', readSeek inflate o k y row = Ok y' /\ twinB x' y'.
Proof.
  intros (Hs & Hi & Ht & Hc) H. unfold readSeek in *. rewrite Hi, Ht, Hc. destruct (br_total x <? row); [discriminate|]. apply rbind_inv in H. destruct H as (ss & E & H).
  destruct (sim_seekStripes _ _ _ _ Hs _ _ E) as (ts & F & Hs'). rewrite F. cbn [rbind]. eexists. split; [reflexivity|].
  match type of H with Ok ?v = _ => assert (x' = v) as -> by congruence end. split; auto.
Qed.
End Sim.
Lemma sim_calls narrow wide inflate r schema cap : 
  (forall x c, In x (flatten schema) -> In c (td_children x) -> IsInclude narrow (td_id c) = true -> IsInclude narrow (td_id x) = true) ->
  forall l n w v x y out, twin narrow wide (fr_hasNulls r) schema cap n w v -> twinB narrow wide schema x y -> calls inflate r x w l = Ok out ->
  exists out', calls inflate r y v l = Ok out' /\ Forall2 (same_values narrow) out' out.
Proof.
  intros Hroot. induction l as [|[|row] l IH]; intros n w v x y out Hv Hx H; cbn [calls] in *.
  - assert (out = []) as -> by congruence. exists []. auto.
  - apply rbind_inv in H. destruct H as ([[x' w'] e] & E & H). apply rbind_inv in H. destruct H as (out1 & E1 & H).
    destruct (sim_next narrow wide inflate (readerOpts r) (fr_hasNulls r) schema cap _ _ _ _ _ _ _ _ Hv Hx E) as (y' & v' & m & F & Hv' & Hx').
    destruct (IH _ _ _ _ _ _ Hv' Hx' E1) as (out2 & F1 & Ho). unfold batchNext. rewrite F. cbn [rbind]. rewrite F1. cbn [rbind]. eexists. split; [reflexivity|].
    assert (out = (w', e) :: out1) as -> by congruence. constructor; [|exact Ho]. split; [reflexivity|]. intros i Hi. cbn [fst]. eapply keep_held; [|exact Hi|apply Hv']. exact Hroot.
  - apply rbind_inv in H. destruct H as (x' & E & H). destruct (sim_seek narrow wide inflate (readerOpts r) schema _ _ _ _ _ Hx E) as (y' & F & Hx').
    unfold batchSeek. rewrite F. cbn [rbind]. eauto.
Qed.

(** ** Opening *)
Section Open.
Variables narrow wide : batchOption.
Hypothesis Hnw : narrower narrow wide.
Variable inflate : list Z -> res (list Z).
Variable o : opts.
Variable nodes : list node.
Variable hs : list bool.
Fixpoint mask (i : Z) (rs : list (option anyR)) : list (option anyR) :=
  match rs with [] => [] | x :: t => (if IsInclude narrow i then x else None) :: mask (i + 1) t end.
Lemma mask_nth rs : forall i j, nth_error (mask i rs) j = option_map (fun x => if IsInclude narrow (i + Z.of_nat j) then x else None) (nth_error rs j).
Proof.
  induction rs as [|x rs IH]; intros i [|j]; cbn [mask nth_error option_map]; try reflexivity; [rewrite Z.add_0_r; reflexivity|]. rewrite IH.
  replace (i + 1 + Z.of_nat j) with (i + Z.of_nat (S j)) by lia. reflexivity.
Qed.
Lemma mask_set rs : forall i j x, mask i (set_nth rs j x) = set_nth (mask i rs) j (if IsInclude narrow (i + Z.of_nat j) then x else None).
Proof.
  induction rs as [|y rs IH]; intros i [|j] x; cbn [mask set_nth]; try reflexivity; [rewrite Z.add_0_r; reflexivity|]. rewrite IH.
  replace (i + 1 + Z.of_nat j) with (i + Z.of_nat (S j)) by lia. reflexivity.
Qed.
Lemma set_nth_id {A} (l : list A) : forall i x, nth_error l i = Some x -> set_nth l i x = l.
Proof. induction l as [|y l IH]; intros [|i] x H; cbn [set_nth nth_error] in *; try congruence. rewrite IH by exact H. reflexivity. Qed.
Lemma mask_newReaders ns : forall i hs encs rs, newReaders wide i ns hs encs = Ok rs -> newReaders narrow i ns hs encs = Ok (mask i rs).
Proof.
  induction ns as [|n ns IH]; intros i hs' encs rs H; cbn [newReaders] in *; [assert (rs = []) as -> by congruence; reflexivity|].
  destruct hs' as [|h hs']; [assert (rs = []) as -> by congruence; reflexivity|]. apply rbind_inv in H. destruct H as (r & E & H). apply rbind_inv in H. destruct H as (rs1 & E1 & H).
  assert (rs = r :: rs1) as -> by congruence. cbn [mask]. rewrite (IH _ _ _ _ E1). cbn [rbind]. destruct (IsInclude narrow i) eqn:En; [|reflexivity].
  rewrite (Hnw _ En) in E. rewrite E. reflexivity.
Qed.
Lemma mask_initAll file l : forall rs rs', initAll inflate o file rs l = Ok rs' -> initAll inflate o file (mask 0 rs) l = Ok (mask 0 rs').
Proof.
  induction l as [|[s st] l IH]; intros rs rs' H; cbn [initAll] in *; [congruence|]. rewrite mask_nth. cbn [Z.add].
  destruct (nth_error rs (Z.to_nat (st_column s))) as [[r|]|] eqn:E; [|cbn [option_map]|discriminate]; [|destruct (IsInclude narrow _); apply IH; exact H].
  apply rbind_inv in H. destruct H as (r' & E' & H). apply IH in H. rewrite mask_set in H. cbn [option_map]. cbn [Z.add] in H.
  destruct (IsInclude narrow (Z.of_nat (Z.to_nat (st_column s)))) eqn:En.
  - rewrite E'. cbn [rbind]. exact H.
  - rewrite set_nth_id in H; [exact H|]. rewrite mask_nth, E. cbn [option_map Z.add]. rewrite En. reflexivity.
Qed.
Lemma mask_checkChildren k p q l : (forall c, In c l -> IsInclude narrow c = true -> q = true) -> forall j, checkChildren wide k p j l = Ok tt -> checkChildren narrow k q j l = Ok tt.
Proof.
  induction l as [|c l IH]; intros Hq j H; cbn [checkChildren] in *; [reflexivity|]. apply rbind_inv in H. destruct H as (u & E & H).
  rewrite (IH (fun c' Hc => Hq c' (or_intror Hc)) _ H). destruct (IsInclude narrow c) eqn:En; [|reflexivity].
  rewrite (Hnw _ En) in E. rewrite (Hq c (or_introl eq_refl) En). destruct k; try discriminate; try reflexivity. destruct (j <=? 1); [reflexivity|discriminate].
Qed.
Lemma mask_checkParents ns : forall i, 0 <= i -> (forall j n c, nth_error ns j = Some n -> In c (n_sub n) -> IsInclude narrow c = true -> IsInclude narrow (i + Z.of_nat j) = true) ->
  checkParents wide i ns = Ok tt -> checkParents narrow i ns = Ok tt.
Proof.
  induction ns as [|n ns IH]; intros i Hi Hr H; cbn [checkParents] in *; [reflexivity|]. apply rbind_inv in H. destruct H as ([] & E & H).
  rewrite (fun P => mask_checkChildren (n_kind n) (IsInclude wide i) (IsInclude narrow i) (n_sub n) P 0 E);
    [|intros c Hc Hn; replace i with (i + Z.of_nat 0) by lia; eapply (Hr 0%nat); [reflexivity|exact Hc|exact Hn]].
  cbn [rbind]. apply IH; [lia| |exact H]. intros j m c Hj Hc Hn. replace (i + 1 + Z.of_nat j) with (i + Z.of_nat (S j)) by lia. eapply (Hr (S j)); eauto.
Qed.

(** What a reader is, by the kind of its column. *)
Definition classOf (k : tkind) (r : anyR) : Prop :=
  match k with
  | STRUCT => match r with RCol c => cr_kind c = KStruct | _ => False end
  | LIST => match r with RList _ _ => True | _ => False end
  | MAP => match r with RMap _ _ _ => True | _ => False end
  | _ => match r with RCol c => cr_kind c <> KStruct | RDict _ => True | _ => False end
  end.
Lemma class_new k e h r : newAnyR k e h = Ok r -> classOf k r.
Proof.
  unfold newAnyR, readerKind. destruct k; cbn [classOf]; intros H;
    repeat match type of H with context [if ?b then _ else _] => destruct b; cbn [rbind] in H end; try discriminate H;
    match type of H with Ok ?x = _ => assert (r = x) as -> by congruence end; cbn; try exact I; try reflexivity; discriminate.
Qed.
Lemma InitStream_kind file c s st c' : InitStream file c s st = Ok c' -> cr_kind c' = cr_kind c.
Proof.
  unfold InitStream. cbv zeta. intros H.
  repeat match type of H with context [if ?b then _ else _] => destruct b | context [match ?b with _ => _ end] => destruct b eqn:? end; try discriminate H;
    match type of H with Ok ?x = _ => assert (c' = x) as -> by congruence end; cbn; congruence.
Qed.
Lemma class_init file k r s st r' : classOf k r -> (if st_kind s =? 6 then any_InitIndex inflate o file r st (st_length s) else any_InitStream file r s st) = Ok r' -> classOf k r'.
Proof.
  intros Hc H. assert (Hk : match r with RCol c => exists c', r' = RCol c' /\ cr_kind c' = cr_kind c | RDict _ => exists d, r' = RDict d | RList _ _ => exists x i, r' = RList x i | RMap h _ _ => exists x i, r' = RMap h x i end).
  { destruct (st_kind s =? 6); destruct r as [c|d|x i|h x i]; cbn [any_InitIndex any_InitStream] in H; apply rbind_inv in H; destruct H as (y & E & H);
      match type of H with Ok ?z = _ => assert (r' = z) as -> by congruence end; eauto.
    - unfold InitIndex in E. apply rbind_inv in E. destruct E as (l & _ & E). exists y. split; [reflexivity|]. assert (y = setIndex l c) as -> by congruence. reflexivity.
    - exists y. split; [reflexivity|]. eapply InitStream_kind; exact E. }
  destruct r as [c|d|x i|h x i]; [destruct Hk as (c' & -> & E)|destruct Hk as (d' & ->)|destruct Hk as (x' & i' & ->)|destruct Hk as (x' & i' & ->)]; destruct k; cbn [classOf] in *; congruence || auto.
Qed.
Definition classed (ns : list node) (rs : list (option anyR)) : Prop :=
  forall j n r, nth_error ns j = Some n -> nth_error rs j = Some (Some r) -> classOf (n_kind n) r.
Lemma classed_new ns : forall i hs encs rs, newReaders wide i ns hs encs = Ok rs -> classed ns rs.
Proof.
  induction ns as [|n ns IH]; intros i hs' encs rs H; [intros [|j] ? ? Hj; discriminate Hj|]. cbn [newReaders] in H.
  destruct hs' as [|h hs']; [assert (rs = []) as -> by congruence; intros [|j] ? ? _ Hj; discriminate Hj|].
  apply rbind_inv in H. destruct H as (r & E & H). apply rbind_inv in H. destruct H as (rs1 & E1 & H). assert (rs = r :: rs1) as -> by congruence.
  intros [|j] m x Hm Hx; cbn [nth_error] in *; [|exact (IH _ _ _ _ E1 j m x Hm Hx)]. assert (m = n /\ r = Some x) as [-> ->] by (split; congruence).
  destruct (IsInclude wide i); [|discriminate]. destruct encs as [|e encs]; [discriminate|]. apply rbind_inv in E. destruct E as (y & E & E').
  assert (y = x) as -> by congruence. eapply class_new; exact E.
Qed.
Lemma classed_init file l : forall rs rs', classed nodes rs -> initAll inflate o file rs l = Ok rs' -> classed nodes rs'.
Proof.
  induction l as [|[s st] l IH]; intros rs rs' Hc H; cbn [initAll] in H; [assert (rs' = rs) as -> by congruence; exact Hc|].
  destruct (nth_error rs (Z.to_nat (st_column s))) as [[r|]|] eqn:E; [|eauto|discriminate]. apply rbind_inv in H. destruct H as (r' & E' & H).
  eapply IH; [|exact H]. intros j n x Hn Hx. destruct (Nat.eq_dec (Z.to_nat (st_column s)) j) as [<-|Hj]; [|rewrite set_nth_other in Hx by exact Hj; exact (Hc j n x Hn Hx)].
  rewrite set_nth_same in Hx by (apply nth_error_Some; rewrite E; discriminate). assert (x = r') as -> by congruence. eapply class_init; [|exact E']. exact (Hc _ _ _ Hn E).
Qed.
Lemma first_new n ns h t encs rs : IsInclude wide 0 = true -> newReaders wide 0 (n :: ns) (h :: t) encs = Ok rs -> exists r, nth_error rs 0 = Some (Some r).
Proof.
  intros H0 H. cbn [newReaders] in H. rewrite H0 in H. apply rbind_inv in H. destruct H as (r & E & H). apply rbind_inv in H. destruct H as (rs1 & E1 & H). assert (rs = r :: rs1) as -> by congruence.
  destruct encs as [|e encs]; [discriminate|]. apply rbind_inv in E. destruct E as (y & _ & E). exists y. cbn [nth_error]. congruence.
Qed.
Lemma first_init file l : forall rs rs' r, nth_error rs 0 = Some (Some r) -> initAll inflate o file rs l = Ok rs' -> exists r', nth_error rs' 0 = Some (Some r').
Proof.
  induction l as [|[s st] l IH]; intros rs rs' r Hr H; cbn [initAll] in H; [assert (rs' = rs) as -> by congruence; eauto|].
  destruct (nth_error rs (Z.to_nat (st_column s))) as [[x|]|] eqn:E; [|eauto|discriminate]. apply rbind_inv in H. destruct H as (x' & E' & H).
  destruct (Nat.eq_dec (Z.to_nat (st_column s)) 0) as [E0|Hj].
  - eapply IH; [|exact H]. rewrite E0. apply set_nth_same. rewrite <- E0. apply nth_error_Some. rewrite E. discriminate.
  - eapply IH; [|exact H]. rewrite set_nth_other by exact Hj. exact Hr.
Qed.
Lemma firstReader_0 rs r i : nth_error rs 0 = Some (Some r) -> firstReader i rs = Some i.
Proof. destruct rs as [|[x|] rs]; cbn; congruence. Qed.

(** *** The tree *)
Definition goT (b : batchOption) (f : nat) (rs : list (option anyR)) : list Z -> res (list ctree) :=
  fix go (l : list Z) : res (list ctree) :=
    match l with
    | [] => Ok []
    | c :: t => if IsInclude b c then let! x := buildTree nodes b f rs c in let! y := go t in Ok (x :: y) else go t
    end.
Definition subT (b : batchOption) (f : nat) (rs : list (option anyR)) (c : option Z) : res (option ctree) :=
  match c with None => Ok None | Some c => let! t := buildTree nodes b f rs c in Ok (Some t) end.
Lemma buildTree_eq b f rs i : buildTree nodes b (S f) rs i =
  match nth_error nodes (Z.to_nat i), nth_error rs (Z.to_nat i) with
  | Some n, Some (Some r) =>
      match r with
      | RCol c => match cr_kind c with KStruct => let! kids := goT b f rs (n_sub n) in Ok (CStruct (cr_present c) (cr_index c) kids) | _ => Ok (CLeaf c) end
      | RDict d => Ok (CDict d)
      | RList x index => let! t := subT b f rs (lastIncluded b (n_sub n)) in Ok (CList x index t)
      | RMap _ x index => let! k := subT b f rs (includedAt b 0 (n_sub n)) in let! w := subT b f rs (includedAt b 1 (n_sub n)) in Ok (CMap x index k w)
      end
  | _, _ => Panic
  end.
Proof. reflexivity. Qed.
Definition nodesOf (t : td) : Prop := forall x, In x (flatten t) -> 0 <= td_id x /\
  exists n, nth_error nodes (Z.to_nat (td_id x)) = Some n /\ n_kind n = td_kind x /\ n_sub n = map td_id (td_children x).
Lemma nodesOf_child id k ns e h cs c : nodesOf (Td id k ns e h cs) -> In c cs -> nodesOf c.
Proof. intros H Hc x Hx. apply H. rewrite flatten_eq. right. apply in_flat_map. eauto. Qed.
Definition agree (t : td) : Prop := forall x, In x (flatten t) -> IsInclude wide (td_id x) = true -> IsInclude narrow (td_id x) = true.
Lemma agree_child id k ns e h cs c : agree (Td id k ns e h cs) -> In c cs -> agree c.
Proof. intros H Hc x Hx. apply H. rewrite flatten_eq. right. apply in_flat_map. eauto. Qed.
Lemma flatten_self t : In t (flatten t).
Proof. destruct t. rewrite flatten_eq. left. reflexivity. Qed.
Lemma agree_same t : agree t -> IsInclude narrow (td_id t) = IsInclude wide (td_id t).
Proof.
  intros H. specialize (H t (flatten_self t)). destruct (IsInclude wide (td_id t)) eqn:E; [auto|]. destruct (IsInclude narrow (td_id t)) eqn:E'; [|reflexivity].
  rewrite (Hnw _ E') in E. discriminate.
Qed.
Lemma mask_get rs t : 0 <= td_id t -> IsInclude narrow (td_id t) = true -> nth_error (mask 0 rs) (Z.to_nat (td_id t)) = nth_error rs (Z.to_nat (td_id t)).
Proof. intros H0 H. rewrite mask_nth. cbn [Z.add]. rewrite Z2Nat.id by exact H0. rewrite H. destruct (nth_error _ _); reflexivity. Qed.
Lemma lastIncluded_same cs : Forall agree cs -> forall a, fold_left (fun a c => if IsInclude narrow c then Some c else a) (map td_id cs) a = fold_left (fun a c => if IsInclude wide c then Some c else a) (map td_id cs) a.
Proof. intros H. induction H as [|c cs Hc Hcs IH]; intros a; [reflexivity|]. cbn [map fold_left]. rewrite (agree_same c Hc). apply IH. Qed.
Lemma lastIncluded_in b l c : lastIncluded b l = Some c -> In c l /\ IsInclude b c = true.
Proof.
  unfold lastIncluded. assert (H : forall a, fold_left (fun a c => if IsInclude b c then Some c else a) l a = Some c -> a = Some c \/ (In c l /\ IsInclude b c = true)).
  { induction l as [|x l IH]; intros a H; cbn [fold_left] in H; [auto|]. destruct (IH _ H) as [E|[H1 H2]]; [|right; split; [right; exact H1|exact H2]].
    destruct (IsInclude b x) eqn:Ex; [right; split; [left; congruence|congruence]|auto]. }
  intros E. destruct (H None E) as [X|X]; [discriminate|exact X].
Qed.
Lemma includedAt_in b j l c : includedAt b j l = Some c -> In c l /\ IsInclude b c = true.
Proof.
  unfold includedAt. destruct (nth_error l j) as [x|] eqn:E; [|discriminate]. destruct (IsInclude b x) eqn:Ex; [|discriminate]. intros H. assert (x = c) as -> by congruence.
  split; [eapply nth_error_In; exact E|exact Ex].
Qed.
Lemma includedAt_same cs j : Forall agree cs -> includedAt narrow j (map td_id cs) = includedAt wide j (map td_id cs).
Proof.
  intros H. unfold includedAt. rewrite nth_error_map. destruct (nth_error cs j) as [c|] eqn:E; [|reflexivity]. cbn [option_map]. rewrite agree_same; [reflexivity|].
  rewrite Forall_forall in H. apply H. eapply nth_error_In; exact E.
Qed.
Lemma build_same rs fuel : forall t, nodesOf t -> agree t -> IsInclude narrow (td_id t) = true ->
  buildTree nodes narrow fuel (mask 0 rs) (td_id t) = buildTree nodes wide fuel rs (td_id t).
Proof.
  induction fuel as [|f IH]; intros t Hn Ha Hi; [reflexivity|]. rewrite !buildTree_eq. destruct (Hn t (flatten_self t)) as (H0 & n & En & _ & Es).
  rewrite (mask_get rs t H0 Hi). rewrite En. destruct (nth_error rs (Z.to_nat (td_id t))) as [[r|]|]; try reflexivity. rewrite Es.
  assert (Hcs : forall c, In c (td_children t) -> nodesOf c /\ agree c) by (destruct t as [id k ns e h cs]; intros c Hc; split; [eapply nodesOf_child|eapply agree_child]; eassumption).
  assert (Hf : Forall agree (td_children t)) by (apply Forall_forall; intros c Hc; apply Hcs; exact Hc).
  assert (Hsub : forall c, (c = None \/ exists y, c = Some y /\ In y (map td_id (td_children t)) /\ IsInclude narrow y = true) -> subT narrow f (mask 0 rs) c = subT wide f rs c).
  { intros c [->|(y & -> & Hy & Hin)]; [reflexivity|]. cbn [subT]. apply in_map_iff in Hy. destruct Hy as (d & <- & Hd). rewrite IH; [reflexivity|apply Hcs; exact Hd|apply Hcs; exact Hd|exact Hin]. }
  destruct r as [c|d|x ix|h x ix].
  - destruct (cr_kind c); try reflexivity. assert (E : goT narrow f (mask 0 rs) (map td_id (td_children t)) = goT wide f rs (map td_id (td_children t))); [|rewrite E; reflexivity].
    revert Hcs. clear Hf Hsub. generalize (td_children t) as l. induction l as [|y l IHl]; intros Hcs; [reflexivity|]. cbn [map goT].
    rewrite agree_same by (apply Hcs; left; reflexivity). fold (goT narrow f (mask 0 rs)). fold (goT wide f rs). rewrite IHl by (intros z Hz; apply Hcs; right; exact Hz).
    destruct (IsInclude wide (td_id y)) eqn:Ey; [|reflexivity]. rewrite IH; [reflexivity|apply Hcs; left; reflexivity|apply Hcs; left; reflexivity|]. rewrite agree_same by (apply Hcs; left; reflexivity). exact Ey.
  - reflexivity.
  - assert (E : lastIncluded narrow (map td_id (td_children t)) = lastIncluded wide (map td_id (td_children t))) by (unfold lastIncluded; apply lastIncluded_same; exact Hf).
    rewrite <- E. rewrite Hsub; [reflexivity|]. destruct (lastIncluded narrow _) as [y|] eqn:Ey; [right|left; reflexivity]. apply lastIncluded_in in Ey. eauto.
  - rewrite <- !(includedAt_same _ _ Hf). rewrite !Hsub; [reflexivity|..]; (destruct (includedAt narrow _ _) as [y|] eqn:Ey; [right; apply includedAt_in in Ey; eauto|left; reflexivity]).
Qed.
Definition wholeOf (t : td) : Prop := forall x, In x (flatten t) -> td_kind x = LIST \/ td_kind x = MAP -> IsInclude narrow (td_id x) = true -> agree x.
Lemma keep_build rs : classed nodes rs -> forall t, nodesOf t -> wholeOf t -> IsInclude narrow (td_id t) = true -> forall fuel a, buildTree nodes wide fuel rs (td_id t) = Ok a ->
  exists b, buildTree nodes narrow fuel (mask 0 rs) (td_id t) = Ok b /\ keepT narrow wide t a b.
Proof.
  intros Hcl t. induction t as [id k ns e h cs IH] using td_rect'. intros Hn Hw Hi fuel a Ha. cbn [td_id] in *. destruct fuel as [|f]; [discriminate|].
  pose proof (Hn _ (flatten_self _)) as (H0 & n & En & Ek & Es). pose proof (mask_get rs _ H0 Hi) as Eg. cbn [td_id td_kind td_children] in *.
  assert (Hsame : agree (Td id k ns e h cs) -> buildTree nodes narrow (S f) (mask 0 rs) id = Ok a) by (intros Hag; rewrite <- Ha; exact (build_same rs (S f) (Td id k ns e h cs) Hn Hag Hi)).
  rewrite buildTree_eq in Ha. rewrite En in Ha. destruct (nth_error rs (Z.to_nat id)) as [[r|]|] eqn:Er; try discriminate. pose proof (Hcl _ _ _ En Er) as Hc. rewrite Ek in Hc.
  destruct (tkind_dec k) as [->|Hk].
  - cbn [classOf] in Hc. destruct r as [c| | |]; try contradiction. rewrite Hc in Ha. apply rbind_inv in Ha. destruct Ha as (ks & Hks & Ha).
    rewrite buildTree_eq, En. rewrite Eg, Hc. rewrite Es in *.
    assert (Hcs : exists ls, goT narrow f (mask 0 rs) (map td_id cs) = Ok ls /\ kids narrow wide (keepT narrow wide) (fun _ _ => True) cs ks ls).
    { assert (Hcs : forall c, In c cs -> nodesOf c /\ wholeOf c).
      { intros d Hd. split; [eapply nodesOf_child; eassumption|]. intros x Hx. apply Hw. rewrite flatten_eq. right. apply in_flat_map. eauto. }
      clear - IH Hks Hcs Hnw. revert ks Hks Hcs. induction IH as [|c cs Hc Hcs' IHl]; intros ks Hks Hcs; cbn [map goT kids] in *; [assert (ks = []) as -> by congruence; exists []; auto|].
      fold (goT wide f rs) in Hks. fold (goT narrow f (mask 0 rs)). destruct (IsInclude narrow (td_id c)) eqn:Ein.
      - rewrite (Hnw _ Ein) in *. apply rbind_inv in Hks. destruct Hks as (a & Ha & Hks). apply rbind_inv in Hks. destruct Hks as (ks' & Hks & E). assert (ks = a :: ks') as -> by congruence.
        destruct (Hcs c (or_introl eq_refl)) as [N1 N2]. destruct (Hc N1 N2 eq_refl f a Ha) as (b & Hb & Hab). destruct (IHl _ Hks (fun d Hd => Hcs d (or_intror Hd))) as (ls & Hls & Hk).
        rewrite Hb. cbn [rbind]. rewrite Hls. cbn [rbind]. exists (b :: ls). split; [reflexivity|]. exists a, ks'. split; [reflexivity|]. exists b, ls. auto.
      - destruct (IsInclude wide (td_id c)).
        + apply rbind_inv in Hks. destruct Hks as (a & Ha & Hks). apply rbind_inv in Hks. destruct Hks as (ks' & Hks & E). assert (ks = a :: ks') as -> by congruence.
          destruct (IHl _ Hks (fun d Hd => Hcs d (or_intror Hd))) as (ls & Hls & Hk). exists ls. split; [exact Hls|]. exists a, ks'. auto.
        + apply IHl; [exact Hks|]. intros d Hd. apply Hcs. right. exact Hd. }
    destruct Hcs as (ls & Hls & Hk). rewrite Hls. cbn [rbind]. eexists. split; [reflexivity|]. rewrite keepT_struct. assert (a = CStruct (cr_present c) (cr_index c) ks) as -> by congruence. eauto 10.
  - exists a. rewrite keepT_other by exact Hk.
    assert (Hor : (k = LIST \/ k = MAP) \/ (k <> LIST /\ k <> MAP)) by (destruct k; auto; right; split; discriminate).
    destruct Hor as [Hlm|[Hl Hm]].
    + split; [apply Hsame; apply (Hw _ (flatten_self _)); [exact Hlm|exact Hi]|]. split; [reflexivity|].
      destruct Hlm as [->| ->]; cbn [classOf] in Hc; destruct r; try contradiction; apply rbind_inv in Ha; destruct Ha as (? & _ & Ha); [|apply rbind_inv in Ha; destruct Ha as (? & _ & Ha)];
        match type of Ha with Ok ?x = _ => assert (a = x) as -> by congruence; exact I end.
    + assert (Hleaf : match r with RCol c => cr_kind c <> KStruct | RDict _ => True | _ => False end) by (destruct k; try exact Hc; congruence).
      rewrite buildTree_eq, En. rewrite Eg.
      destruct r as [c|d| |]; try contradiction; [destruct (cr_kind c); try (exfalso; apply Hleaf; reflexivity)|];
        (split; [exact Ha|]; split; [reflexivity|]; match type of Ha with Ok ?x = _ => assert (a = x) as -> by congruence; exact I end).
Qed.
End Open.

Section Opened.
Variables narrow wide : batchOption.
Hypothesis Hnw : narrower narrow wide.
Variable inflate : list Z -> res (list Z).
Variable o : opts.
Variable nodes : list node.
Variable hs : list bool.
Variable schema : td.
Hypothesis Hid : td_id schema = 0.
Hypothesis Hnodes : nodesOf nodes schema.
Hypothesis Hhs : exists h t, hs = h :: t.
Hypothesis Hroot : rooted narrow nodes.
Hypothesis Hwhole : wholeOf narrow wide schema.
Lemma same_self t : wholeOf wide wide t.
Proof. intros x _ _ _ y _ H. exact H. Qed.
Lemma keep_stripe file rows x s : 0 <= rows < W63 -> newStripeRd inflate o nodes hs wide file rows x = Ok s ->
  exists t, newStripeRd inflate o nodes hs narrow file rows x = Ok t /\ twinS narrow wide schema s t.
Proof.
  intros Hr H. assert (Hww : narrower wide wide) by (intros i; auto). destruct Hroot as [Hr0 Hrp]. pose proof (Hnw _ Hr0) as Hw0.
  unfold newStripeRd in *. apply rbind_inv in H. destruct H as (rs & E1 & H). apply rbind_inv in H. destruct H as (rs' & E2 & H). apply rbind_inv in H. destruct H as ([] & E3 & H).
  pose proof (mask_newReaders narrow wide Hnw _ _ _ _ _ E1) as F1. pose proof (mask_newReaders wide wide Hww _ _ _ _ _ E1) as G1. assert (Gm : mask wide 0 rs = rs) by congruence.
  pose proof (mask_initAll narrow inflate o file _ _ _ E2) as F2. pose proof (mask_initAll wide inflate o file _ _ _ E2) as G2. rewrite Gm in G2. assert (Gm' : mask wide 0 rs' = rs') by congruence.
  rewrite F1. cbn [rbind]. rewrite F2. cbn [rbind]. rewrite (mask_checkParents narrow wide Hnw nodes 0) by (try lia; try exact E3; intros j n c; cbn [Z.add]; apply Hrp). cbn [rbind].
  destruct (Hnodes _ (flatten_self _)) as (_ & n & En & _). rewrite Hid in En. cbn in En. destruct Hhs as (h & t & ->).
  destruct nodes as [|n0 nds] eqn:Ends; [discriminate|]. destruct (first_new wide _ _ _ _ _ _ Hw0 E1) as (r0 & Hr0'). destruct (first_init inflate o _ _ _ _ _ Hr0' E2) as (r1 & Hr1).
  rewrite (firstReader_0 _ _ 0 Hr1) in H. rewrite (firstReader_0 (mask narrow 0 rs') r1 0); [|rewrite mask_nth, Hr1; cbn [option_map Z.add Z.of_nat]; rewrite Hr0; reflexivity].
  rewrite <- Ends in *. apply rbind_inv in H. destruct H as (tr & E4 & H). apply rbind_inv in E4. destruct E4 as (a & E4 & E5). assert (tr = Some a) as -> by congruence.
  assert (Hcl : classed nodes rs') by (eapply classed_init; [eapply classed_new; exact E1|exact E2]).
  rewrite <- Hid in E4 at 1. 
  destruct (keep_build narrow wide Hnw nodes rs' Hcl schema Hnodes Hwhole ltac:(rewrite Hid; exact Hr0) _ _ E4) as (b & F4 & Hab).
  destruct (keep_build wide wide Hww nodes rs' Hcl schema Hnodes (same_self _) ltac:(rewrite Hid; exact Hw0) _ _ E4) as (a' & G4 & Haa). rewrite Gm' in G4. assert (a' = a) as -> by congruence.
  rewrite Hid in F4. rewrite F4. cbn [rbind]. eexists. split; [reflexivity|]. match type of H with Ok ?z = _ => assert (s = z) as -> by congruence end.
  split; [reflexivity|]. split; [reflexivity|]. split; [exact Hr|]. exists a, b. cbn [sr_tree]. auto.
Qed.
Lemma keep_stripes file l : Forall (fun i => 0 <= NumberOfRows i < W63) l -> forall xs ss, newStripes inflate o nodes hs wide file l xs = Ok ss ->
  exists ts, newStripes inflate o nodes hs narrow file l xs = Ok ts /\ Forall2 (twinS narrow wide schema) ss ts.
Proof.
  intros H. induction H as [|i l Hi Hl IH]; intros xs ss E; cbn [newStripes] in *; [assert (ss = []) as -> by congruence; eauto|].
  destruct xs as [|x xs]; [assert (ss = []) as -> by congruence; eauto|]. apply rbind_inv in E. destruct E as (s & E1 & E). apply rbind_inv in E. destruct E as (r & E2 & E).
  destruct (keep_stripe _ _ _ _ Hi E1) as (t & F1 & Hst). destruct (IH _ _ E2) as (ts & F2 & Hts). rewrite F1. cbn [rbind]. rewrite F2. cbn [rbind]. eexists. split; [reflexivity|].
  assert (ss = s :: r) as -> by congruence. constructor; assumption.
Qed.
End Opened.

(** ** The first batches *)
Section Vectors.
Variables narrow wide : batchOption.
Hypothesis Hnw : narrower narrow wide.
Hypothesis Hsize : RowSize narrow = RowSize wide.
Hypothesis Hpos : 0 < RowSize wide.
Hypothesis Hn1 : NotCreateVector narrow = false.
Hypothesis Hn2 : NotCreateVector wide = false.
Definition goV (b : batchOption) : list td -> res (list (option vec)) :=
  fix go (l : list td) : res (list (option vec)) :=
    match l with
    | [] => Ok []
    | c :: r => let! v := createVector b c in let! vs := go r in Ok (match v with None => vs | _ => v :: vs end)
    end.
Lemma createVector_eq b id k ns e h cs : createVector b (Td id k ns e h cs) =
  if IsInclude b id then
    let rows := (if NotCreateVector b then 0 else RowSize b) in
    match k with
    | STRUCT => let! vs := goV b cs in Ok (Some (Vec id k (if h && negb (NotCreateVector b) then RowSize b else 0) vs))
    | LIST => match cs with c :: _ => let! v := createVector b c in Ok (Some (Vec id k rows [v])) | [] => Panic end
    | MAP => match cs with c :: d :: _ => let! v := createVector b c in let! w := createVector b d in Ok (Some (Vec id k (RowSize b) [v; w])) | _ => Panic end
    | UNION => Panic
    | _ => Ok (Some (Vec id k rows []))
    end
  else Ok None.
Proof. reflexivity. Qed.
Lemma create_same t : agree narrow wide t -> createVector narrow t = createVector wide t.
Proof.
  induction t as [id k ns e h cs IH] using td_rect'. intros Ha. rewrite !createVector_eq. pose proof (agree_same narrow wide Hnw _ Ha) as E. cbn [td_id] in E. rewrite E, Hn1, Hn2, Hsize.
  destruct (IsInclude wide id); [|reflexivity]. assert (Hcs : forall c, In c cs -> agree narrow wide c) by (intros c Hc; eapply agree_child; eassumption). cbv zeta.
  assert (Hg : goV narrow cs = goV wide cs).
  { clear - IH Hcs. induction IH as [|c cs Hc Hl IHl]; [reflexivity|]. cbn [goV]. fold (goV narrow). fold (goV wide). rewrite IHl by (intros d Hd; apply Hcs; right; exact Hd).
    rewrite Hc by (apply Hcs; left; reflexivity). reflexivity. }
  destruct k; try reflexivity.
  - destruct cs as [|c r]; [reflexivity|]. inversion IH as [|x y H1 H2]; subst. rewrite H1 by (apply Hcs; left; reflexivity). reflexivity.
  - destruct cs as [|c [|d r]]; try reflexivity. inversion IH as [|x y H1 H2]; subst. inversion H2 as [|x y H3 H4]; subst.
    rewrite H1 by (apply Hcs; left; reflexivity). rewrite H3 by (apply Hcs; right; left; reflexivity). reflexivity.
  - rewrite Hg. reflexivity.
Qed.
Lemma create_id b t w : createVector b t = Ok (Some w) -> exists rows cs, w = Vec (td_id t) (td_kind t) rows cs.
Proof.
  destruct t as [id k ns e h cs]. rewrite createVector_eq. intros H. destruct (IsInclude b id); [|discriminate]. cbv zeta in H. cbn [td_id td_kind].
  destruct k; try (match type of H with Ok (Some ?x) = _ => assert (w = x) as -> by congruence; eauto end); try discriminate.
  - destruct cs; [discriminate|]. apply rbind_inv in H. destruct H as (? & _ & H). match type of H with Ok (Some ?x) = _ => assert (w = x) as -> by congruence; eauto end.
  - destruct cs as [|? [|? ?]]; [discriminate..|]. apply rbind_inv in H. destruct H as (? & _ & H). apply rbind_inv in H. destruct H as (? & _ & H). match type of H with Ok (Some ?x) = _ => assert (w = x) as -> by congruence; eauto end.
  - apply rbind_inv in H. destruct H as (? & _ & H). match type of H with Ok (Some ?x) = _ => assert (w = x) as -> by congruence; eauto end.
Qed.
Definition unpack (cs : list (option vec)) : list bvec := flat_map (fun c => match c with Some w => [batchOf w] | None => [] end) cs.
Lemma batchOf_eq i k rows cs : batchOf (Vec i k rows cs) = BVec i k (if rows =? 0 then None else Some (repeat (initialValue k) (Z.to_nat rows), [])) (unpack cs).
Proof. reflexivity. Qed.
Lemma create_ids t : forall w, createVector wide t = Ok (Some w) -> within t (batchOf w).
Proof.
  unfold within. induction t as [id k ns e h cs IH] using td_rect'. intros w H.
  assert (Hopt : forall c v, In c cs -> createVector wide c = Ok v -> incl (flat_map ids (match v with Some w => [batchOf w] | None => [] end)) (flat_map (fun d => map td_id (flatten d)) cs)).
  { intros c v Hc Hv. destruct v as [w'|]; [|intros x []]. cbn [flat_map]. rewrite app_nil_r. rewrite Forall_forall in IH. intros x Hx. apply (IH c Hc _ Hv) in Hx. apply in_flat_map. eauto. }
  assert (Hgoal : forall rows vs, w = Vec id k rows vs -> incl (flat_map ids (unpack vs)) (flat_map (fun d => map td_id (flatten d)) cs) -> incl (ids (batchOf w)) (map td_id (flatten (Td id k ns e h cs)))).
  { intros rows vs -> Hi. rewrite batchOf_eq, flatten_eq. cbn [ids map td_id]. intros x [<-|Hx]; [left; reflexivity|right]. apply Hi in Hx. clear - Hx.
    apply in_flat_map in Hx. destruct Hx as (d & Hd & Hx). apply in_map_iff in Hx. destruct Hx as (y & <- & Hy). apply in_map. apply in_flat_map. eauto. }
  rewrite createVector_eq in H. destruct (IsInclude wide id); [|discriminate]. cbv zeta in H.
  destruct k; try discriminate; try (match type of H with Ok (Some (Vec _ _ ?r ?l)) = _ => apply (Hgoal r l); [congruence|intros x []] end).
  - destruct cs as [|c r]; [discriminate|]. apply rbind_inv in H. destruct H as (v & E & H). eapply Hgoal; [injection H as <-; reflexivity|].
    unfold unpack. cbn [flat_map]. rewrite app_nil_r. apply (Hopt c); [left; reflexivity|exact E].
  - destruct cs as [|c [|d r]]; [discriminate..|]. apply rbind_inv in H. destruct H as (v & E & H). apply rbind_inv in H. destruct H as (v' & E' & H). eapply Hgoal; [injection H as <-; reflexivity|].
    unfold unpack. cbn [flat_map]. rewrite app_nil_r, flat_map_app. apply incl_app; [apply (Hopt c); [left; reflexivity|exact E]|apply (Hopt d); [right; left; reflexivity|exact E']].
  - apply rbind_inv in H. destruct H as (vs & E & H). eapply Hgoal; [injection H as <-; reflexivity|]. clear - Hopt E.
    assert (Hl : forall l vs, incl l cs -> goV wide l = Ok vs -> incl (flat_map ids (unpack vs)) (flat_map (fun d => map td_id (flatten d)) cs)); [|apply (Hl cs); [intros x Hx; exact Hx|exact E]].
    clear E vs. induction l as [|c l IHl]; intros vs Hi E; cbn [goV] in E; [assert (vs = []) as -> by congruence; intros x []|]. fold (goV wide) in E.
    apply rbind_inv in E. destruct E as (v & E1 & E). apply rbind_inv in E. destruct E as (r & E2 & E).
    assert (Hr : incl (flat_map ids (unpack r)) (flat_map (fun d => map td_id (flatten d)) cs)) by (apply IHl; [intros x Hx; apply Hi; right; exact Hx|exact E2]).
    pose proof (Hopt c v (Hi c (or_introl eq_refl)) E1) as Hv. destruct v as [w'|]; [|assert (vs = r) as -> by congruence; exact Hr].
    assert (vs = Some w' :: r) as -> by congruence. unfold unpack. cbn [flat_map app]. apply incl_app; [|exact Hr]. cbn [flat_map] in Hv. rewrite app_nil_r in Hv. exact Hv.
Qed.
Variable hs : list bool.
Definition flagged (t : td) : Prop := forall x, In x (flatten t) -> nth_error hs (Z.to_nat (td_id x)) = Some (td_hasNulls x).
Lemma slice_new k : slice (RowSize wide) (RowSize wide) (if RowSize wide =? 0 then None else Some (repeat (initialValue k) (Z.to_nat (RowSize wide)), [])).
Proof.
  clear - Hpos. destruct (Z.eqb_spec (RowSize wide) 0); [lia|]. eexists _, _. split; [reflexivity|]. rewrite app_nil_r. unfold zlen. rewrite repeat_length. lia.
Qed.
Lemma create_uni t : flagged t -> forall w, createVector wide t = Ok (Some w) -> uni hs (RowSize wide) (RowSize wide) (batchOf w).
Proof.
  clear - Hpos Hn2. induction t as [id k ns e h cs IH] using td_rect'. intros Hf w H. destruct (create_id _ _ _ H) as (rows & vs & ->). cbn [td_id td_kind] in *. rewrite batchOf_eq.
  rewrite createVector_eq, Hn2 in H. destruct (IsInclude wide id); [|discriminate]. cbv zeta in H. destruct (tkind_dec k) as [->|Hk].
  - apply rbind_inv in H. destruct H as (vs' & E & H). assert (vs' = vs /\ rows = if h && negb false then RowSize wide else 0) as [-> ->] by (split; congruence).
    rewrite uni_struct. pose proof (Hf _ (flatten_self _)) as Hh. cbn [td_id td_hasNulls] in Hh. rewrite Hh. split.
    + destruct h; cbn [andb negb]; [apply slice_new|reflexivity].
    + assert (Hcs : forall c, In c cs -> flagged c) by (intros c Hc x Hx; apply Hf; rewrite flatten_eq; right; apply in_flat_map; eauto). clear - IH E Hcs. revert vs E.
      induction IH as [|c cs Hc Hl IHl]; intros vs E; cbn [goV] in E; [assert (vs = []) as -> by congruence; exact I|]. fold (goV wide) in E.
      apply rbind_inv in E. destruct E as (v & E1 & E). apply rbind_inv in E. destruct E as (r & E2 & E).
      pose proof (IHl (fun d Hd => Hcs d (or_intror Hd)) _ E2) as Hr. destruct v as [w|]; [|assert (vs = r) as -> by congruence; exact Hr].
      assert (vs = Some w :: r) as -> by congruence. unfold unpack. cbn [flat_map app]. split; [|exact Hr]. apply Hc; [apply Hcs; left; reflexivity|exact E1].
  - rewrite uni_other by exact Hk. split; [|lia]. assert (rows = RowSize wide) as ->; [|apply slice_new].
    destruct k; try congruence; [destruct cs; [discriminate|]; apply rbind_inv in H; destruct H as (? & _ & H); congruence|].
    destruct cs as [|? [|? ?]]; [discriminate..|]. apply rbind_inv in H. destruct H as (? & _ & H). apply rbind_inv in H. destruct H as (? & _ & H). congruence.
Qed.
Lemma keep_create t : wholeOf narrow wide t -> IsInclude narrow (td_id t) = true -> forall w, createVector wide t = Ok (Some w) ->
  exists v, createVector narrow t = Ok (Some v) /\ keepV narrow wide t (batchOf w) (batchOf v).
Proof.
  induction t as [id k ns e h cs IH] using td_rect'. intros Hw Hi w H. cbn [td_id] in Hi. destruct (tkind_dec k) as [->|Hk].
  - rewrite createVector_eq in *. rewrite Hi. rewrite (Hnw _ Hi) in H. cbv zeta in *. rewrite Hn1, Hsize. rewrite Hn2 in H. apply rbind_inv in H. destruct H as (vs & E & H).
    assert (Hcs : exists us, goV narrow cs = Ok us /\ kids narrow wide (keepV narrow wide) within cs (unpack vs) (unpack us)).
    { assert (Hcs : forall c, In c cs -> wholeOf narrow wide c) by (intros c Hc x Hx; apply Hw; rewrite flatten_eq; right; apply in_flat_map; eauto).
      clear - IH E Hcs Hnw. revert vs E. induction IH as [|c cs Hc Hl IHl]; intros vs E; cbn [goV] in *; [assert (vs = []) as -> by congruence; exists []; split; [reflexivity|split; reflexivity]|].
      fold (goV wide) in E. fold (goV narrow). apply rbind_inv in E. destruct E as (v & E1 & E). apply rbind_inv in E. destruct E as (r & E2 & E).
      destruct (IHl (fun d Hd => Hcs d (or_intror Hd)) _ E2) as (us & F2 & Hk). cbn [kids].
      assert (Hinc : forall b x, createVector b c = Ok x -> if IsInclude b (td_id c) then exists y, x = Some y else x = None).
      { intros b x Hx. destruct c as [id' k' ns' e' h' cs']. rewrite createVector_eq in Hx. cbn [td_id]. destruct (IsInclude b id'); [|congruence]. cbv zeta in Hx.
        destruct k'; try discriminate; try (match type of Hx with Ok (Some ?z) = _ => exists z; congruence end).
        - destruct cs'; [discriminate|]. apply rbind_inv in Hx. destruct Hx as (? & _ & Hx). match type of Hx with Ok (Some ?z) = _ => exists z; congruence end.
        - destruct cs' as [|? [|? ?]]; [discriminate..|]. apply rbind_inv in Hx. destruct Hx as (? & _ & Hx). apply rbind_inv in Hx. destruct Hx as (? & _ & Hx). match type of Hx with Ok (Some ?z) = _ => exists z; congruence end.
        - apply rbind_inv in Hx. destruct Hx as (? & _ & Hx). match type of Hx with Ok (Some ?z) = _ => exists z; congruence end. }
      pose proof (Hinc _ _ E1) as Hv. destruct (IsInclude narrow (td_id c)) eqn:Ein.
      - rewrite (Hnw _ Ein) in *. destruct Hv as (w & ->). destruct (Hc (Hcs c (or_introl eq_refl)) eq_refl w E1) as (u & F1 & Hu). rewrite F1. cbn [rbind]. rewrite F2. cbn [rbind].
        exists (Some u :: us). split; [reflexivity|]. assert (vs = Some w :: r) as -> by congruence. exists (batchOf w), (unpack r). split; [reflexivity|]. exists (batchOf u), (unpack us). auto.
      - assert (F1 : createVector narrow c = Ok None) by (destruct c as [id' k' ns' e' h' cs']; rewrite createVector_eq; cbn [td_id] in Ein; rewrite Ein; reflexivity).
        rewrite F1. cbn [rbind]. rewrite F2. cbn [rbind]. exists us. split; [reflexivity|]. destruct (IsInclude wide (td_id c)).
        + destruct Hv as (w & ->). assert (vs = Some w :: r) as -> by congruence. exists (batchOf w), (unpack r). split; [reflexivity|]. split; [apply create_ids; exact E1|exact Hk].
        + subst v. assert (vs = r) as -> by congruence. exact Hk. }
    destruct Hcs as (us & Hus & Hk). rewrite Hus. cbn [rbind]. eexists. split; [reflexivity|]. assert (w = Vec id STRUCT (if h && negb false then RowSize wide else 0) vs) as -> by congruence.
    rewrite !batchOf_eq, keepV_struct. eauto 10.
  - exists w. destruct (create_id _ _ _ H) as (rows & vs & ->). cbn [td_id td_kind] in *. rewrite keepV_other by exact Hk. split; [|split; [reflexivity|exact Hk]].
    assert (Hor : (k = LIST \/ k = MAP) \/ (k <> LIST /\ k <> MAP)) by (destruct k; auto; right; split; discriminate). destruct Hor as [Hlm|[Hl Hm]].
    + rewrite create_same; [exact H|]. apply (Hw _ (flatten_self _)); [exact Hlm|exact Hi].
    + rewrite createVector_eq in *. rewrite Hi. rewrite (Hnw _ Hi) in H. rewrite Hn1, Hsize. rewrite Hn2 in H. destruct k; try exact H; congruence.
Qed.
End Vectors.

Lemma project inflate narrow wide file r x schema w l out :
  narrower narrow wide -> rooted narrow (fr_nodes r) -> whole narrow wide schema -> unfolds r schema ->
  NotCreateVector narrow = false -> NotCreateVector wide = false -> RowSize narrow = RowSize wide -> 0 < RowSize wide ->
  Forall (fun i => 0 <= NumberOfRows i < W63) (fr_stripes r) ->
  openBatches inflate wide file = Ok (r, x) -> CreateVector wide schema = Ok (Some w) -> Cap (batchOf w) <> 0 ->
  calls inflate r x (batchOf w) l = Ok out ->
  exists y v, openBatches inflate narrow file = Ok (r, y) /\ CreateVector narrow schema = Ok (Some v) /\
    (Cap (batchOf v) <> 0 -> exists out', calls inflate r y (batchOf v) l = Ok out' /\ Forall2 (same_values narrow) out' out).
Proof.
  intros Hnw Hroot Hwhole [Hid Hu] Hn1 Hn2 Hsize Hpos Hrows Hopen Hvec Hcap Hcalls.
  assert (Hww : narrower wide wide) by (intros i; auto).
  assert (Hnodes : nodesOf (fr_nodes r) schema) by (intros t Ht; destruct (Hu t Ht) as (H0 & Hn & _); auto).
  assert (Hwo : wholeOf narrow wide schema) by (intros t Ht Hk Hi y Hy Hy'; exact (Hwhole t y Ht Hk Hi Hy Hy')).
  pose proof (Hu _ (flatten_self _)) as (_ & _ & Hh). rewrite Hid in Hh. cbn in Hh.
  assert (Hhs : exists h t, fr_hasNulls r = h :: t) by (destruct (fr_hasNulls r); [discriminate|eauto]).
  apply openBatches_ok in Hopen. apply rbind_inv in Hopen. destruct Hopen as (r' & E1 & Hopen). apply rbind_inv in Hopen. destruct Hopen as (xs & E2 & Hopen).
  apply rbind_inv in Hopen. destruct Hopen as (ss & E3 & Hopen). assert (r' = r) as -> by congruence.
  destruct (keep_stripes narrow wide Hnw inflate _ _ _ schema Hid Hnodes Hhs Hroot Hwo _ _ Hrows _ _ E3) as (ts & F3 & Hss).
  assert (Hnew : openBatches inflate narrow file = Ok (r, {| br_stripes := ts; br_index := 0; br_total := fr_rows r; br_cursor := 0 |})).
  { apply openBatches_ok. rewrite E1. cbn [rbind]. rewrite Hsize, E2. cbn [rbind]. rewrite F3. reflexivity. }
  unfold CreateVector in *. rewrite Hsize. destruct (RowSize wide =? 0); [discriminate|]. destruct (verifySchema schema); [|discriminate].
  assert (Hi : IsInclude narrow (td_id schema) = true) by (rewrite Hid; apply Hroot).
  destruct (keep_create narrow wide Hnw Hsize Hn1 Hn2 schema Hwo Hi _ Hvec) as (v & Fv & Hv).
  eexists _, v. split; [exact Hnew|]. split; [exact Fv|]. intros Hcap'.
  destruct (keep_create wide wide Hww eq_refl Hn2 Hn2 schema (same_self _ _) (Hnw _ Hi) _ Hvec) as (w' & Fw & Hw). assert (w' = w) as -> by congruence.
  assert (Huni : uni (fr_hasNulls r) (RowSize wide) (RowSize wide) (batchOf w)).
  { refine (create_uni wide Hpos Hn2 (fr_hasNulls r) schema _ w Hvec). intros t Ht. apply Hu. exact Ht. }
  assert (Huni' : uni (fr_hasNulls r) (RowSize wide) (RowSize wide) (batchOf v)) by (eapply keep_uni; [exact Hv|exact Huni]).
  eapply (sim_calls narrow wide inflate r schema (RowSize wide)); [| | |exact Hcalls].
  - intros t c Ht Hc Hin. destruct (Hu t Ht) as (H0 & (n & En & _ & Es) & _). rewrite <- (Z2Nat.id _ H0). eapply (proj2 Hroot); [exact En| |exact Hin]. rewrite Es. apply in_map. exact Hc.
  - split; [exact Hv|]. split; [exact Hw|]. split; [exact Huni|]. split; eapply uni_leads; eassumption.
  - assert (x = {| br_stripes := ss; br_index := 0; br_total := fr_rows r; br_cursor := 0 |}) as -> by congruence. split; [exact Hss|]. auto.
Qed.
