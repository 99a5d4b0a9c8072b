(** Lemmas about row iteration. *)
From Verif.Model Require Import Go Rows.
From Verif.Spec Require Import RowsSpec.
From Verif.Proofs Require Import Base ChunkP.

Section P.
Context {A : Type}.
Implicit Types (b : batchR A) (l out : list A) (ls ms : list (list A)).

Definition st (rows : list A) (a : Z) : stripeR A := {| s_rows := rows; s_cursor := a; s_pos := a |}.

Lemma stripe_next_st cap rows a : 0 <= a <= zlen rows -> zlen rows < W63 - 1 -> 0 <= cap ->
  stripe_next cap (st rows a) [] =
  Ok (st rows (Z.min (a + cap) (zlen rows)),
      ztake (Z.min cap (zlen rows - a)) (zdrop a rows),
      zlen rows <=? Z.min (a + cap) (zlen rows) + 1).
Proof.
  intros Ha Hn Hc. unfold stripe_next. cbn [s_rows s_cursor s_pos st].
  change (zlen (@nil A)) with 0. rewrite Z.sub_0_r.
  assert (E : i64 (u64 (zlen rows - a)) = zlen rows - a).
  { rewrite i64_u64. apply i64_id. unfold is_i64. lia. }
  rewrite E.
  assert (E2 : (if zlen rows - a <? cap then zlen rows - a else cap) = Z.min cap (zlen rows - a)).
  { destruct (Z.ltb_spec (zlen rows - a) cap); lia. }
  rewrite E2.
  destruct (Z.ltb_spec (Z.min cap (zlen rows - a)) 0); [lia|].
  destruct (Z.leb_spec (a + Z.min cap (zlen rows - a)) (zlen rows)); [|lia].
  assert (E3 : zlen (ztake (Z.min cap (zlen rows - a)) (zdrop a rows)) = Z.min cap (zlen rows - a)).
  { apply zlen_ztake. rewrite zlen_zdrop; lia. }
  rewrite E3. rewrite (u64_id (a + _)) by (unfold is_u64; lia).
  rewrite (u64_id (_ + 1)) by (unfold is_u64; lia).
  replace (a + Z.min cap (zlen rows - a)) with (Z.min (a + cap) (zlen rows)) by lia. reflexivity.
Qed.

Lemma set_nth_mid {B} (p : list B) x y q : set_nth (p ++ x :: q) (length p) y = p ++ y :: q.
Proof. induction p; cbn; congruence. Qed.
Lemma nth_mid {B} (p : list B) x q : nth_error (p ++ x :: q) (length p) = Some x.
Proof. induction p; cbn; auto. Qed.

Definition bst (pre : list (stripeR A)) (s : stripeR A) (post : list (stripeR A)) (i : nat) (N g : Z) : batchR A :=
  {| b_stripes := pre ++ s :: post; b_index := i; b_total := N; b_cursor := g |}.

(** One call in the middle of the file. *)
Lemma next_step cap pre rows a post N g : 0 <= a <= zlen rows -> zlen rows < W63 - 1 -> 0 < cap ->
  0 <= g < N - 1 -> N < W63 -> g + (zlen rows - a) <= N ->
  let a' := Z.min (a + cap) (zlen rows) in
  Next cap (bst pre (st rows a) post (length pre) N g) =
  Ok (bst pre (st rows a') post
        (if zlen rows <=? a' + 1
         then match post with [] => length pre | _ => S (length pre) end
         else length pre) N (g + (a' - a)),
      ztake (a' - a) (zdrop a rows), N - 1 <=? g + (a' - a)).
Proof.
  intros Ha Hn Hc Hg HN Hb a'. unfold Next, bst. cbn [b_total b_cursor b_stripes b_index].
  rewrite (u64_id (N - 1)) by (unfold is_u64; lia).
  destruct (Z.leb_spec (N - 1) g); [lia|].
  cbn [nextLoop]. rewrite nth_mid, stripe_next_st by lia. fold a'. cbn [rbind].
  rewrite set_nth_mid.
  replace (Z.min cap (zlen rows - a)) with (a' - a) by (unfold a'; lia).
  assert (E3 : zlen (ztake (a' - a) (zdrop a rows)) = a' - a).
  { apply zlen_ztake. rewrite zlen_zdrop; unfold a'; lia. }
  rewrite E3.
  assert (E4 : u64 (g + (a' - a)) = g + (a' - a)) by (apply u64_id; unfold is_u64, a'; lia).
  destruct (Z.leb_spec (zlen rows) (a' + 1)).
  - cbn [rbind]. rewrite E3, E4. rewrite app_length. cbn [length].
    destruct post as [|q post].
    + cbn [length]. unfold stepBack. replace (S (length pre) =? length pre + 1)%nat with true by (symmetry; apply Nat.eqb_eq; lia).
      rewrite Nat.add_1_r. reflexivity.
    + cbn [length]. unfold stepBack. replace (S (length pre) =? length pre + S (S (length post)))%nat with false
        by (symmetry; apply Nat.eqb_neq; lia). reflexivity.
  - destruct (Z.leb_spec cap (a' - a)); [|unfold a' in *; lia].
    cbn [rbind]. rewrite E3, E4. rewrite app_length. cbn [length].
    unfold stepBack. replace (length pre =? length pre + S (length post))%nat with false by (symmetry; apply Nat.eqb_neq; lia).
    reflexivity.
Qed.

Lemma next_end cap b : 0 <= b_total b - 1 < W63 -> b_total b - 1 <= b_cursor b -> Next cap b = Ok (b, [], true).
Proof.
  intros H1 H. unfold Next. rewrite u64_id by (unfold is_u64; lia).
  destruct (Z.leb_spec (b_total b - 1) (b_cursor b)); [reflexivity|lia].
Qed.
Lemma iter_end cap b : 0 <= b_total b - 1 < W63 -> b_total b - 1 <= b_cursor b ->
  forall out, Iter cap b out <-> out = [].
Proof.
  intros H1 H out. pose proof (next_end cap b H1 H) as E. split.
  - intros I. inversion I; subst; congruence.
  - intros ->. econstructor. exact E.
Qed.

Lemma iter_step cap b b' vec e : 0 <= b_total b - 1 < W63 -> b_total b' = b_total b ->
  Next cap b = Ok (b', vec, e) -> (e = true -> b_total b - 1 <= b_cursor b') ->
  forall out, Iter cap b out <-> exists o, out = vec ++ o /\ Iter cap b' o.
Proof.
  intros H1 HT HN He out. split.
  - intros I. inversion I as [? b2 v2 E|? b2 v2 o E I']; subst.
    + assert (b2 = b' /\ out = vec /\ true = e) as (-> & -> & <-) by (split; [|split]; congruence).
      exists []. split; [rewrite app_nil_r; reflexivity|]. apply iter_end; rewrite ?HT; auto.
    + assert (b2 = b' /\ v2 = vec) as (-> & ->) by (split; congruence). eauto.
  - intros (o & -> & I). destruct e.
    + apply (iter_end cap b') in I; rewrite ?HT; auto. subst. rewrite app_nil_r. econstructor. exact HN.
    + econstructor; eassumption.
Qed.

(** Slices. *)
Lemma skipn_skipn {B} : forall x y (l : list B), skipn x (skipn y l) = skipn (y + x) l.
Proof. induction y; intros l; [reflexivity|]. destruct l; cbn [skipn Nat.add]; [apply skipn_nil|apply IHy]. Qed.
Definition slice (l : list A) (a z : Z) : list A := ztake (z - a) (zdrop a l).
Lemma slice_split l a m z : 0 <= a <= m -> m <= z -> z <= zlen l -> slice l a z = slice l a m ++ slice l m z.
Proof.
  intros. unfold slice, ztake, zdrop.
  replace (Z.to_nat (z - a)) with (Z.to_nat (m - a) + Z.to_nat (z - m))%nat by lia.
  rewrite <- (firstn_skipn (Z.to_nat (m - a)) (skipn (Z.to_nat a) l)) at 1.
  assert (length (firstn (Z.to_nat (m - a)) (skipn (Z.to_nat a) l)) = Z.to_nat (m - a)).
  { rewrite firstn_length, skipn_length. unfold zlen in *. lia. }
  rewrite firstn_app. rewrite H2. rewrite firstn_all2 by lia. f_equal.
  rewrite skipn_skipn. replace (Z.to_nat (m - a) + Z.to_nat (z - m) - Z.to_nat (m - a))%nat with (Z.to_nat (z - m)) by lia.
  do 2 f_equal. lia.
Qed.
Lemma slice_nil l a : slice l a a = [].
Proof. unfold slice, ztake. rewrite Z.sub_diag. reflexivity. Qed.
Lemma slice_all l : slice l 0 (zlen l) = l.
Proof. unfold slice, ztake, zdrop, zlen. cbn [Z.to_nat skipn]. rewrite Z.sub_0_r. rewrite Nat2Z.id. apply firstn_all. Qed.
Lemma slice_0 l z : slice l 0 z = ztake z l.
Proof. unfold slice, zdrop. rewrite Z.sub_0_r. reflexivity. Qed.

(** Where a stripe that is being read from row [a] (a multiple of the batch size) is
    left. *)
Definition leave (c n : Z) : Z := if loses c n then n - 1 else n.

Lemma leave_reach c n a : 0 < c -> 0 <= a <= n -> a mod c = 0 -> (a = 0 /\ 1 <= n \/ a + 1 < n) ->
  n <= Z.min (a + c) n + 1 -> Z.min (a + c) n = leave c n.
Proof.
  intros Hc Ha Hm Hp H. unfold leave, loses.
  assert (Ea : a = c * (a / c)) by (pose proof (Z.div_mod a c); lia).
  destruct (Z.leb_spec 2 n); cbn [andb]; [|lia].
  destruct (Z.eqb_spec ((n - 1) mod c) 0) as [E|E].
  - assert (En : n - 1 = c * ((n - 1) / c)) by (pose proof (Z.div_mod (n - 1) c); lia).
    assert (a / c + 1 <= (n - 1) / c) by nia.
    assert (a + c <= n - 1) by nia. lia.
  - destruct (Z.le_gt_cases n (a + c)); [lia|].
    assert (a + c = n - 1) by lia. exfalso. apply E. rewrite <- H2.
    rewrite <- Z.add_mod_idemp_l, Hm by lia. cbn [Z.add]. apply Z.mod_same. lia.
Qed.

(** Reading a stripe that is not the last. *)
Lemma read_stripe c pre rows post N : 0 < c -> zlen rows < W63 - 1 -> N < W63 -> post <> [] ->
  forall a g, 0 <= a -> a mod c = 0 -> (a = 0 /\ 1 <= zlen rows \/ a + 1 < zlen rows) ->
  0 <= g -> g + (zlen rows - a) + 1 <= N ->
  forall out, Iter c (bst pre (st rows a) post (length pre) N g) out <->
    exists o, out = slice rows a (leave c (zlen rows)) ++ o /\
    Iter c (bst pre (st rows (leave c (zlen rows))) post (S (length pre)) N (g + (leave c (zlen rows) - a))) o.
Proof.
  intros Hc Hn HN Hp.
  enough (forall k a g, (Z.to_nat (zlen rows - a) <= k)%nat -> 0 <= a -> a mod c = 0 -> (a = 0 /\ 1 <= zlen rows \/ a + 1 < zlen rows) ->
     0 <= g -> g + (zlen rows - a) + 1 <= N ->
     forall out, Iter c (bst pre (st rows a) post (length pre) N g) out <->
    exists o, out = slice rows a (leave c (zlen rows)) ++ o /\
    Iter c (bst pre (st rows (leave c (zlen rows))) post (S (length pre)) N (g + (leave c (zlen rows) - a))) o)
    as G by (intros a g; exact (G (Z.to_nat (zlen rows - a)) a g (le_n _))).
  induction k as [|k IH]; intros a g Hk Ha Hm Hs Hg Hb out; [lia|].
  pose proof (next_step c pre rows a post N g) as S. cbn zeta in S.
  specialize (S ltac:(lia) Hn Hc ltac:(lia) HN ltac:(lia)).
  remember (Z.min (a + c) (zlen rows)) as a' eqn:Ea'.
  assert (HT : 0 <= N - 1 < W63) by lia.
  rewrite (fun x y => iter_step c _ _ _ _ x y S); [|exact HT|reflexivity|cbn [bst b_total b_cursor]; lia].
  destruct (Z.leb_spec (zlen rows) (a' + 1)) as [He|He].
  - assert (El : a' = leave c (zlen rows)) by (rewrite Ea' in *; apply leave_reach; lia).
    rewrite <- El. destruct post as [|q post]; [congruence|]. reflexivity.
  - assert (El : a' = a + c) by lia.
    split.
    + intros (o & -> & I). apply (IH a') in I; [|lia|lia| |lia|lia|lia].
      * destruct I as (o' & -> & I). exists o'. split.
        { rewrite app_assoc. f_equal. symmetry. apply slice_split; try lia; unfold leave; destruct (loses _ _); lia. }
        { replace (g + (leave c (zlen rows) - a)) with (g + (a' - a) + (leave c (zlen rows) - a')) by lia. exact I. }
      * rewrite El, <- Z.add_mod_idemp_r, Z.mod_same, Z.add_0_r by lia. exact Hm.
    + intros (o & -> & I). exists (slice rows a' (leave c (zlen rows)) ++ o). split.
      { rewrite app_assoc. f_equal. apply slice_split; try lia; unfold leave; destruct (loses _ _); lia. }
      apply (IH a'); [lia|lia| |lia|lia|lia|].
      * rewrite El, <- Z.add_mod_idemp_r, Z.mod_same, Z.add_0_r by lia. exact Hm.
      * exists o. split; [reflexivity|].
        replace (g + (a' - a) + (leave c (zlen rows) - a')) with (g + (leave c (zlen rows) - a)) by lia. exact I.
Qed.

(** Reading the last stripe: [k] rows have been lost before. *)
Lemma read_last c pre rows N : 0 < c -> zlen rows < W63 - 1 -> N < W63 ->
  forall k a g, 0 <= k <= 1 -> 0 <= a <= zlen rows -> (a mod c = 0 \/ k = 1) -> 
  (k = 0 -> a < zlen rows /\ (a = 0 \/ a + 1 < zlen rows)) ->
  0 <= g -> g + (zlen rows - a) + k = N -> 1 <= N ->
  Iter c (bst pre (st rows a) [] (length pre) N g)
    (slice rows a (if (k =? 0) && ((zlen rows - 1) mod c =? 0) then zlen rows - 1 else zlen rows)).
Proof.
  intros Hc Hn HN k.
  enough (forall j a g, (Z.to_nat (zlen rows - a) <= j)%nat -> 0 <= k <= 1 -> 0 <= a <= zlen rows ->
     (a mod c = 0 \/ k = 1) -> (k = 0 -> a < zlen rows /\ (a = 0 \/ a + 1 < zlen rows)) ->
     0 <= g -> g + (zlen rows - a) + k = N -> 1 <= N ->
     Iter c (bst pre (st rows a) [] (length pre) N g)
       (slice rows a (if (k =? 0) && ((zlen rows - 1) mod c =? 0) then zlen rows - 1 else zlen rows)))
    as G by (intros a g; exact (G (Z.to_nat (zlen rows - a)) a g (le_n _))).
  induction j as [|j IH]; intros a g Hj Hk Ha Hm Hs Hg Hb H1.
  - assert (a = zlen rows) by lia. assert (k = 1) by lia. subst a k. cbn [Z.eqb andb].
    rewrite slice_nil. apply iter_end; [cbn; lia|cbn; lia|reflexivity].
  - destruct (Z.le_gt_cases (N - 1) g) as [He|He].
    + (* one row left, or none *)
      apply iter_end; [cbn; lia|cbn; lia|].
      destruct (Z.eq_dec k 0) as [->|K].
      * specialize (Hs eq_refl). assert (a = 0 /\ zlen rows = 1) as [-> E] by lia. rewrite E. cbn [Z.sub Z.add Z.opp Z.pos_sub].
        rewrite Z.mod_0_l by lia. cbn [Z.eqb andb]. apply slice_nil.
      * assert (k = 1) by lia. subst k. assert (a = zlen rows) by lia. subst a.
        cbn [Z.eqb andb]. apply slice_nil.
    + pose proof (next_step c pre rows a [] N g) as S. cbn zeta in S.
      specialize (S ltac:(lia) Hn Hc ltac:(lia) HN ltac:(lia)).
      remember (Z.min (a + c) (zlen rows)) as a' eqn:Ea'.
      assert (Eif : forall x : bool, (if x then length pre else length pre) = length pre)
        by (intros []; reflexivity).
      rewrite Eif in S.
      eapply iter_step; [cbn; lia| |exact S|cbn [bst b_total b_cursor]; lia|]; [reflexivity|].
      destruct (Z.eq_dec k 0) as [->|K]; cbn [Z.eqb andb] in *.
      * destruct (Z.le_gt_cases (zlen rows) (a' + 1)) as [Hl|Hl].
        -- assert (El : a' = leave c (zlen rows)) by (rewrite Ea' in *; apply leave_reach; lia).
           exists []. split; [|apply iter_end; [cbn; lia|cbn; lia|reflexivity]].
           rewrite app_nil_r. unfold slice. do 2 f_equal.
           unfold leave, loses in El. destruct (Z.leb_spec 2 (zlen rows)); cbn [andb] in El; [congruence|].
           exfalso. lia.
        -- assert (El : a' = a + c) by lia.
           eexists. split; [|apply IH; try lia].
           { destruct ((zlen rows - 1) mod c =? 0); apply (slice_split rows a a'); lia. }
           left. rewrite El, <- Z.add_mod_idemp_r, Z.mod_same, Z.add_0_r by lia. lia.
      * assert (k = 1) by lia. subst k. cbn [Z.eqb andb] in *.
        eexists. split; [|apply IH; lia]. apply (slice_split rows a a'); lia.
Qed.

(** With two rows lost the end is never reported. *)
Lemma read_stuck c pre rows N : 0 < c -> zlen rows < W63 - 1 -> N < W63 ->
  forall a g out, 0 <= a <= zlen rows -> 0 <= g -> g + (zlen rows - a) + 2 <= N ->
  ~ Iter c (bst pre (st rows a) [] (length pre) N g) out.
Proof.
  intros Hc Hn HN a g out Ha Hg Hb I.
  remember (bst pre (st rows a) [] (length pre) N g) as b eqn:Eb.
  revert a g Ha Hg Hb Eb. induction I as [b b' vec E|b b' vec out E I IH]; intros a g Ha Hg Hb ->.
  - pose proof (next_step c pre rows a [] N g) as S. cbn zeta in S.
    specialize (S ltac:(lia) Hn Hc ltac:(lia) HN ltac:(lia)). rewrite S in E.
    assert ((N - 1 <=? g + (Z.min (a + c) (zlen rows) - a)) = true) by congruence. lia.
  - pose proof (next_step c pre rows a [] N g) as S. cbn zeta in S.
    specialize (S ltac:(lia) Hn Hc ltac:(lia) HN ltac:(lia)). rewrite S in E.
    apply (IH (Z.min (a + c) (zlen rows)) (g + (Z.min (a + c) (zlen rows) - a))); [lia..|].
    assert (Eif : forall x : bool, (if x then length pre else length pre) = length pre)
      by (intros []; reflexivity).
    rewrite Eif in E.
    congruence.
Qed.

(** ** Whole files *)
Lemma total_cons l ls : total (l :: ls) = zlen l + total ls.
Proof. unfold total. cbn [concat]. apply zlen_app. Qed.
Lemma total_nonneg ls : 0 <= total ls.
Proof. apply zlen_nonneg. Qed.
Lemma total_app ls ms : total (ls ++ ms) = total ls + total ms.
Proof. unfold total. rewrite concat_app. apply zlen_app. Qed.

Lemma delivered_slice c l : slice l 0 (leave c (zlen l)) = delivered c l.
Proof. unfold leave, delivered. destruct (loses c (zlen l)); [apply slice_0|apply slice_all]. Qed.

Definition passed (c : Z) (l : list A) : stripeR A := st l (leave c (zlen l)).

Lemma lost_cons c (l : list A) ls : lost c (l :: ls) = ((if loses c (zlen l) then 1 else 0) + lost c ls)%nat.
Proof. unfold lost. cbn [filter]. destruct (loses c (zlen l)); reflexivity. Qed.

Lemma read_stripes c N last : 0 < c -> N < W63 -> 1 <= zlen last -> zlen last < W63 - 1 ->
  forall ls pre g, Forall (fun l => 1 <= zlen l) ls -> 0 <= g -> g + total ls + zlen last <= N ->
  forall out, Iter c {| b_stripes := pre ++ map newStripeR (ls ++ [last]); b_index := length pre;
                        b_total := N; b_cursor := g |} out <->
   exists o, out = concat (map (delivered c) ls) ++ o /\
     Iter c (bst (pre ++ map (passed c) ls) (st last 0) [] (length (pre ++ map (passed c) ls)) N
                 (g + total ls - Z.of_nat (lost c ls))) o.
Proof.
  intros Hc HN Hl1 Hl2. induction ls as [|l ls IH]; intros pre g Hf Hg Hb out.
  - cbn [app map concat]. change (@total A []) with 0. change (@lost A c []) with 0%nat.
    replace (g + 0 - Z.of_nat 0) with g by lia. rewrite app_nil_r. split.
    + intros I. exists out. split; [reflexivity|exact I].
    + intros (o & -> & I). exact I.
  - inversion Hf as [|? ? Hl Hf']; subst. rewrite total_cons in *. pose proof (total_nonneg ls).
    pose proof (read_stripe c pre l (map newStripeR (ls ++ [last])) N Hc ltac:(lia) HN) as R.
    specialize (R ltac:(destruct ls; discriminate) 0 g ltac:(lia) (Z.mod_0_l c ltac:(lia)) ltac:(lia) Hg ltac:(lia)).
    cbn [app map]. change (newStripeR l) with (st l 0). unfold bst in R at 1. rewrite R.
    rewrite delivered_slice. fold (passed c l).
    assert (Eg : 0 <= leave c (zlen l) <= zlen l /\
      leave c (zlen l) = zlen l - Z.of_nat (if loses c (zlen l) then 1 else 0)).
    { unfold leave. destruct (loses c (zlen l)) eqn:El; [|lia]. unfold loses in El. lia. }
    destruct Eg as [Eg1 Eg2].
    assert (Es : forall o, Iter c (bst pre (passed c l) (map newStripeR (ls ++ [last])) (S (length pre)) N
                           (g + (leave c (zlen l) - 0))) o <->
                 Iter c {| b_stripes := (pre ++ [passed c l]) ++ map newStripeR (ls ++ [last]);
                           b_index := length (pre ++ [passed c l]); b_total := N; b_cursor := g + leave c (zlen l) |} o).
    { intros o. unfold bst. rewrite app_length, <- app_assoc, Z.sub_0_r. cbn [length app].
      rewrite Nat.add_1_r. reflexivity. }
    replace (pre ++ passed c l :: map (passed c) ls) with ((pre ++ [passed c l]) ++ map (passed c) ls)
      by (rewrite <- app_assoc; reflexivity).
    rewrite lost_cons, Nat2Z.inj_add.
    replace (g + (zlen l + total ls) - _) with (g + leave c (zlen l) + total ls - Z.of_nat (lost c ls)) by lia.
    split.
    + intros (o & -> & I). apply Es, IH in I; [|exact Hf'|lia|lia].
      destruct I as (o' & -> & I). exists o'. split; [cbn [concat]; rewrite app_assoc; reflexivity|exact I].
    + intros (o & -> & I). exists (concat (map (delivered c) ls) ++ o).
      split; [cbn [concat]; rewrite app_assoc; reflexivity|]. apply Es, IH; [exact Hf'|lia|lia|].
      exists o. split; [reflexivity|exact I].
Qed.

Notation fresh := (opened (A:=A)).

Lemma newBatchR_ok (ls : list (list A)) : Forall (fun l => 1 <= zlen l) ls -> newBatchR ls (total ls) = Ok (fresh ls).
Proof.
  intros H. unfold newBatchR. replace (existsb _ ls) with false; [reflexivity|].
  symmetry. induction H as [|l ls Hl H IH]; [reflexivity|]. cbn [existsb]. rewrite IH.
  destruct l; [cbn in Hl; lia|reflexivity].
Qed.

Lemma iter_fun c b x y : Iter c b x -> Iter c b y -> x = y.
Proof.
  intros I. revert y. induction I as [b b' v E|b b' v o E I IH]; intros y J; inversion J; subst; try congruence.
  assert (b'0 = b') by congruence. subst. f_equal; [congruence|]. apply IH. assumption.
Qed.

Lemma iterate_exact c ls last : 0 < c -> Forall (fun l => 1 <= zlen l) (ls ++ [last]) ->
  total (ls ++ [last]) < W63 - 1 ->
  ((lost c ls = 0)%nat -> Iter c (fresh (ls ++ [last])) (concat ls ++ delivered_last c last)) /\
  ((lost c ls = 1)%nat -> Iter c (fresh (ls ++ [last])) (concat (map (delivered c) ls) ++ last)) /\
  ((lost c ls >= 2)%nat -> forall out, ~ Iter c (fresh (ls ++ [last])) out).
Proof.
  intros Hc Hf Ht. apply Forall_app in Hf. destruct Hf as [Hf Hl]. inversion Hl as [|? ? Hl1 _]; subst.
  rewrite total_app in Ht. rewrite total_cons in Ht. change (@total A []) with 0 in Ht.
  rewrite Z.add_0_r in Ht. pose proof (total_nonneg ls).
  pose proof (read_stripes c (total ls + zlen last) last Hc ltac:(lia) Hl1 ltac:(lia) ls [] 0 Hf ltac:(lia) ltac:(lia)) as R.
  cbn [app length] in R.
  assert (Ef : fresh (ls ++ [last]) = {| b_stripes := map newStripeR (ls ++ [last]); b_index := 0;
       b_total := total ls + zlen last; b_cursor := 0 |}).
  { unfold opened. rewrite total_app, total_cons. change (@total A []) with 0. rewrite Z.add_0_r. reflexivity. }
  rewrite Ef. split; [|split]; intros Hk.
  - apply R. exists (delivered_last c last). split.
    + f_equal. clear - Hk. induction ls as [|l ls IH]; [reflexivity|].
      rewrite lost_cons in Hk. cbn [map concat].
      destruct (loses c (zlen l)) eqn:E; [lia|]. rewrite <- IH by lia. unfold delivered. rewrite E. reflexivity.
    + rewrite Hk. pose proof (read_last c (map (passed c) ls) last (total ls + zlen last) Hc ltac:(lia) ltac:(lia)
         0 0 (0 + total ls - Z.of_nat 0)) as L.
      cbn [Z.eqb andb] in L. unfold delivered_last.
      replace (if (zlen last - 1) mod c =? 0 then ztake (zlen last - 1) last else last)
        with (slice last 0 (if (zlen last - 1) mod c =? 0 then zlen last - 1 else zlen last))
        by (destruct ((zlen last - 1) mod c =? 0); [apply slice_0|apply slice_all]).
      apply L; try lia. left. apply Z.mod_0_l. lia.
  - apply R. exists last. split; [reflexivity|]. rewrite Hk.
    pose proof (read_last c (map (passed c) ls) last (total ls + zlen last) Hc ltac:(lia) ltac:(lia)
         1 0 (0 + total ls - Z.of_nat 1)) as L.
    cbn [Z.eqb andb] in L. rewrite slice_all in L. apply L; try lia.
    (* a row can only be lost by a stripe of two rows or more *)
    clear - Hk Hf. induction Hf as [|l ls Hl Hf IH]; [discriminate|]. rewrite lost_cons in Hk. rewrite total_cons.
    pose proof (total_nonneg ls). destruct (loses c (zlen l)) eqn:E; [unfold loses in E; lia|].
    specialize (IH ltac:(lia)). lia.
  - intros out I. apply R in I. destruct I as (o & _ & I). revert I. apply read_stuck; try lia.
    clear - Hf Hk. assert (Z.of_nat (lost c ls) <= total ls); [|lia].
    clear Hk. induction Hf as [|l ls Hl Hf IH]; [cbn; lia|]. rewrite lost_cons, total_cons.
    destruct (loses c (zlen l)); lia.
Qed.

(** All rows come back exactly when no stripe length is one more than a multiple of the
    batch size (one-row stripes that are not last excepted). *)
Lemma iterate_iff c ls last : 0 < c -> Forall (fun l => 1 <= zlen l) (ls ++ [last]) ->
  total (ls ++ [last]) < W63 - 1 ->
  (Iter c (fresh (ls ++ [last])) (concat (ls ++ [last])) <->
   Forall (fun l => zlen l = 1 \/ (zlen l - 1) mod c <> 0) ls /\ (zlen last - 1) mod c <> 0).
Proof.
  intros Hc Hf Ht. destruct (iterate_exact c ls last Hc Hf Ht) as (R0 & R1 & R2).
  rewrite concat_app. cbn [concat]. rewrite app_nil_r.
  apply Forall_app in Hf. destruct Hf as [Hf Hl]. inversion Hl as [|? ? Hl1 _]; subst.
  assert (Hlost : (lost c ls = 0)%nat <-> Forall (fun l => zlen l = 1 \/ (zlen l - 1) mod c <> 0) ls).
  { clear - Hf. induction Hf as [|l ls H1 Hf IH]; [split; constructor|].
    rewrite lost_cons. rewrite Forall_cons_iff, <- IH. unfold loses.
    destruct (Z.leb_spec 2 (zlen l)); cbn [andb]; [|lia].
    destruct (Z.eqb_spec ((zlen l - 1) mod c) 0); lia. }
  rewrite <- Hlost. split.
  - intros I. destruct (lost c ls) as [|[|k]] eqn:El.
    + split; [reflexivity|]. intros E. pose proof (iter_fun _ _ _ _ I (R0 eq_refl)) as X.
      apply app_inv_head in X. unfold delivered_last in X. apply Z.eqb_eq in E. rewrite E in X.
      apply (f_equal zlen) in X. rewrite zlen_ztake in X by lia. lia.
    + exfalso. pose proof (iter_fun _ _ _ _ I (R1 eq_refl)) as X. apply app_inv_tail in X.
      apply (f_equal zlen) in X. revert X. fold (total ls).
      assert (forall ms, zlen (concat (map (delivered c) ms)) + Z.of_nat (lost c ms) = total ms).
      { induction ms as [|m ms IH]; [reflexivity|]. cbn [map concat]. rewrite zlen_app, lost_cons, total_cons.
        unfold delivered at 1. destruct (loses c (zlen m)) eqn:E; [|lia].
        rewrite zlen_ztake; [lia|]. unfold loses in E. lia. }
      specialize (H ls). lia.
    + exfalso. exact (R2 ltac:(lia) _ I).
  - intros [E1 E2]. specialize (R0 E1). unfold delivered_last in R0.
    apply Z.eqb_neq in E2. rewrite E2 in R0. exact R0.
Qed.

(** ** Seek *)
Definition seekOffset (stride r : Z) : Z := if r <? stride then r else r mod (r / stride * stride).
Lemma seekOffset_mod stride r : 0 < stride -> 0 <= r -> seekOffset stride r = r mod stride.
Proof.
  intros Hs Hr. unfold seekOffset. destruct (Z.ltb_spec r stride) as [H|H].
  - symmetry. apply Z.mod_small. lia.
  - assert (1 <= r / stride) by (apply Z.div_le_lower_bound; lia).
    pose proof (Z.mod_pos_bound r stride Hs). pose proof (Z.div_mod r stride ltac:(lia)) as E.
    remember (r / stride) as q. remember (r mod stride) as m.
    symmetry. apply (Z.mod_unique_pos _ _ 1); [nia|nia].
Qed.

Lemma stripe_Seek_spec stride (rows : list A) r : 0 < stride < W63 -> 0 <= r < zlen rows -> zlen rows < W63 ->
  stripe_Seek stride (newStripeR rows) r =
  Ok {| s_rows := rows; s_cursor := 0; s_pos := r mod stride |}.
Proof.
  intros Hs Hr Hn. unfold stripe_Seek. rewrite (u64_id stride) by (unfold is_u64; lia).
  rewrite <- (seekOffset_mod stride r) by lia. unfold seekOffset.
  assert (E : forall o, 0 <= o <= zlen rows ->
    (if o <=? zlen (s_rows (newStripeR rows))
     then Ok {| s_rows := s_rows (newStripeR rows); s_cursor := s_cursor (newStripeR rows); s_pos := o |}
     else Err) = Ok {| s_rows := rows; s_cursor := 0; s_pos := o |}).
  { intros o Ho. cbn [newStripeR s_rows s_cursor]. destruct (Z.leb_spec o (zlen rows)); [reflexivity|lia]. }
  destruct (Z.ltb_spec r stride) as [H|H].
  - cbn [rbind]. apply E. lia.
  - destruct (Z.eqb_spec stride 0); [lia|]. cbn [rbind].
    assert (0 <= r / stride * stride <= r).
    { pose proof (Z.div_mod r stride ltac:(lia)). pose proof (Z.mod_pos_bound r stride ltac:(lia)).
      pose proof (Z.div_pos r stride). nia. }
    rewrite u64_id by (unfold is_u64; lia). apply E.
    assert (1 <= r / stride) by (apply Z.div_le_lower_bound; lia).
    pose proof (Z.mod_pos_bound r (r / stride * stride) ltac:(nia)). lia.
Qed.

Lemma seek_first stride l ls r : 0 < stride < W63 -> 0 <= r < zlen l -> total (l :: ls) < W63 ->
  Seek stride (fresh (l :: ls)) r =
  Ok {| b_stripes := {| s_rows := l; s_cursor := 0; s_pos := r mod stride |} :: map newStripeR ls;
        b_index := 0; b_total := total (l :: ls); b_cursor := 0 |}.
Proof.
  intros Hs Hr Ht. unfold Seek, opened. cbn [b_total b_stripes b_index b_cursor map seekLoop].
  pose proof (total_nonneg ls). rewrite total_cons in *.
  destruct (Z.ltb_spec (zlen l + total ls) r); [lia|].
  cbn [newStripeR s_rows]. rewrite Z.add_0_l, Z.sub_0_r.
  rewrite (u64_id (zlen l)) by (unfold is_u64; lia). rewrite (u64_id r) by (unfold is_u64; lia).
  destruct (Z.ltb_spec r (zlen l)); [|lia].
  change {| s_rows := l; s_cursor := 0; s_pos := 0 |} with (newStripeR l).
  rewrite stripe_Seek_spec by lia. reflexivity.
Qed.

(** Seeking into a later stripe leaves the first one, from which the next batch is
    read, as it is. *)
Lemma seek_later stride l ls r : 0 < stride < W63 -> Forall (fun l => 1 <= zlen l) ls ->
  zlen l <= r < total (l :: ls) -> total (l :: ls) < W63 ->
  exists ss, Seek stride (fresh (l :: ls)) r =
  Ok {| b_stripes := newStripeR l :: ss; b_index := 0; b_total := total (l :: ls); b_cursor := 0 |}.
Proof.
  intros Hs Hf Hr Ht. unfold Seek, opened. cbn [b_total b_stripes b_index b_cursor map seekLoop].
  destruct (Z.ltb_spec (total (l :: ls)) r); [lia|].
  rewrite total_cons in *. pose proof (total_nonneg ls).
  change (s_rows (newStripeR l)) with l. rewrite Z.add_0_l, (u64_id (zlen l)) by (unfold is_u64; pose proof (zlen_nonneg l); lia).
  destruct (Z.ltb_spec r (zlen l)); [lia|].
  assert (G : forall ms before, Forall (fun l => 1 <= zlen l) ms -> 0 <= before <= r -> r < before + total ms -> before + total ms < W63 ->
     exists ss, seekLoop stride r before (map newStripeR ms) = Ok (Some ss)).
  { clear - Hs. induction ms as [|m ms IH]; intros before Hf H1 H2 H3.
    - change (@total A []) with 0 in *. lia.
    - rewrite total_cons in *. pose proof (total_nonneg ms). pose proof (zlen_nonneg m).
      cbn [map seekLoop]. change (s_rows (newStripeR m)) with m.
      rewrite u64_id by (unfold is_u64; lia).
      destruct (Z.ltb_spec r (before + zlen m)).
      + rewrite (u64_id (r - before)) by (unfold is_u64; lia). rewrite stripe_Seek_spec by lia.
        cbn [rbind]. eauto.
      + destruct (IH (before + zlen m)) as [ss ->]; [inversion Hf; assumption|lia..|].
        cbn [rbind]. eauto. }
  destruct (G ls (zlen l)) as [ss ->]; [assumption|pose proof (zlen_nonneg l); lia|lia|lia|].
  cbn [rbind]. eauto.
Qed.

Lemma next_first cap l pos ss N : 0 < cap -> 1 <= zlen l -> 0 <= pos -> 2 <= N < W63 -> zlen l < W63 - 1 ->
  (exists b' vec e, Next cap {| b_stripes := {| s_rows := l; s_cursor := 0; s_pos := pos |} :: ss;
         b_index := 0; b_total := N; b_cursor := 0 |} = Ok (b', vec, e) /\
     vec = ztake (Z.min cap (zlen l)) (zdrop pos l)) /\ pos + Z.min cap (zlen l) <= zlen l \/
  Next cap {| b_stripes := {| s_rows := l; s_cursor := 0; s_pos := pos |} :: ss;
         b_index := 0; b_total := N; b_cursor := 0 |} = Err /\ zlen l < pos + Z.min cap (zlen l).
Proof.
  intros Hc Hl Hp HN Hn. unfold Next. cbn [b_total b_cursor b_stripes b_index].
  rewrite u64_id by (unfold is_u64; lia). destruct (Z.leb_spec (N - 1) 0); [lia|].
  cbn [nextLoop nth_error]. unfold stripe_next. cbn [s_rows s_cursor s_pos].
  change (zlen (@nil A)) with 0. rewrite !Z.sub_0_r.
  assert (Ei : i64 (u64 (zlen l)) = zlen l) by (rewrite i64_u64; apply i64_id; unfold is_i64; lia).
  rewrite Ei.
  assert (E2 : (if zlen l <? cap then zlen l else cap) = Z.min cap (zlen l)).
  { destruct (Z.ltb_spec (zlen l) cap); lia. }
  rewrite E2. destruct (Z.ltb_spec (Z.min cap (zlen l)) 0); [lia|].
  destruct (Z.leb_spec (pos + Z.min cap (zlen l)) (zlen l)) as [H'|H']; [left|right; split; [reflexivity|lia]].
  split; [|lia]. cbn [rbind].
  assert (E3 : zlen (ztake (Z.min cap (zlen l)) (zdrop pos l)) = Z.min cap (zlen l)).
  { apply zlen_ztake. rewrite zlen_zdrop; lia. }
  rewrite E3. rewrite Z.add_0_l. rewrite (u64_id (Z.min _ _)) by (unfold is_u64; lia).
  rewrite (u64_id (_ + 1)) by (unfold is_u64; lia).
  destruct (Z.leb_spec (zlen l) (Z.min cap (zlen l) + 1)).
  - cbn [rbind]. do 3 eexists. split; [reflexivity|reflexivity].
  - destruct (Z.leb_spec cap (Z.min cap (zlen l))); [|lia]. cbn [rbind].
    do 3 eexists. split; reflexivity.
Qed.

(** Where the first batch after a seek on a new reader starts. *)

Lemma ztake_zdrop_head n pos l x v : 0 < n -> 0 <= pos -> ztake n (zdrop pos l) = x :: v ->
  nth_error l (Z.to_nat pos) = Some x.
Proof.
  intros Hn Hp E. unfold ztake, zdrop in E. destruct (skipn (Z.to_nat pos) l) as [|y r] eqn:Es.
  - rewrite firstn_nil in E. discriminate.
  - destruct (Z.to_nat n) eqn:En; [lia|]. cbn [firstn] in E. assert (y = x) by congruence. subst.
    rewrite <- (firstn_skipn (Z.to_nat pos) l), Es.
    assert (Hl : (length (firstn (Z.to_nat pos) l) = Z.to_nat pos)%nat).
    { apply firstn_length_le. apply Nat.lt_le_incl.
      destruct (Nat.lt_ge_cases (Z.to_nat pos) (length l)); [assumption|].
      rewrite skipn_all2 in Es by assumption. discriminate. }
    rewrite nth_error_app2 by lia. rewrite Hl, Nat.sub_diag. reflexivity.
Qed.

Lemma next_head cap l pos ss N x : 0 < cap -> 1 <= zlen l -> 0 <= pos -> 2 <= N < W63 -> zlen l < W63 - 1 ->
  (starts_with cap {| b_stripes := {| s_rows := l; s_cursor := 0; s_pos := pos |} :: ss;
         b_index := 0; b_total := N; b_cursor := 0 |} x <->
   nth_error l (Z.to_nat pos) = Some x /\ pos + Z.min cap (zlen l) <= zlen l).
Proof.
  intros Hc Hl Hp HN Hn.
  destruct (next_first cap l pos ss N Hc Hl Hp HN Hn) as [((b' & vec & e & E & Ev) & H)|(E & H)]; split.
  - intros (b2 & v & e2 & E2). rewrite E in E2. split; [|lia].
    apply (ztake_zdrop_head (Z.min cap (zlen l)) _ _ _ v); [lia|lia|]. rewrite <- Ev. congruence.
  - intros [Hx _]. destruct vec as [|y v].
    + exfalso. apply (f_equal zlen) in Ev. rewrite zlen_ztake in Ev by (rewrite zlen_zdrop; lia).
      change (zlen (@nil A)) with 0 in Ev. lia.
    + symmetry in Ev. apply ztake_zdrop_head in Ev; [|lia|lia]. assert (y = x) by congruence. subst.
      do 3 eexists. exact E.
  - intros (b2 & v & e2 & E2). congruence.
  - intros [_ X]. lia.
Qed.

Lemma NoDup_app_l {B} (x y : list B) : NoDup (x ++ y) -> NoDup x.
Proof.
  induction x as [|a x IH]; intros H; [constructor|]. cbn [app] in H. inversion H; subst.
  constructor; [|auto]. intros Hi. apply H2. apply in_or_app. auto.
Qed.

Lemma seek_first_batch cap stride l ls r x : 0 < cap -> 0 < stride < W63 ->
  Forall (fun l => 1 <= zlen l) (l :: ls) -> NoDup (concat (l :: ls)) ->
  2 <= total (l :: ls) < W63 - 1 -> nth_error (concat (l :: ls)) (Z.to_nat r) = Some x -> 0 <= r ->
  ((exists b, Seek stride (fresh (l :: ls)) r = Ok b /\ starts_with cap b x) <->
   r < stride /\ r + Z.min cap (zlen l) <= zlen l).
Proof.
  intros Hc Hs Hf Hnd Ht Hx Hr. inversion Hf as [|? ? Hl Hf']; subst.
  assert (Hrt : r < total (l :: ls)).
  { unfold total, zlen. assert (nth_error (concat (l :: ls)) (Z.to_nat r) <> None) as Hne by congruence.
    apply nth_error_Some in Hne. lia. }
  pose proof Ht as Ht'. rewrite total_cons in Ht'. pose proof (total_nonneg ls).
  destruct (Z.lt_ge_cases r (zlen l)) as [Hrl|Hrl].
  - rewrite seek_first by lia.
    assert (Hx' : nth_error l (Z.to_nat r) = Some x).
    { cbn [concat] in Hx. rewrite nth_error_app1 in Hx; [exact Hx|]. unfold zlen in Hrl. lia. }
    pose proof (Z.mod_pos_bound r stride ltac:(lia)).
    pose proof (next_head cap l (r mod stride) (map newStripeR ls) (total (l :: ls)) x Hc Hl ltac:(lia) ltac:(lia) ltac:(lia)) as NH.
    split.
    + intros (b & E & SW). assert (b = {| b_stripes := {| s_rows := l; s_cursor := 0; s_pos := r mod stride |} :: map newStripeR ls;
        b_index := 0; b_total := total (l :: ls); b_cursor := 0 |}) by congruence. subst b.
      apply NH in SW. destruct SW as [S1 S2].
      assert (Z.to_nat (r mod stride) = Z.to_nat r).
      { cbn [concat] in Hnd. apply NoDup_app_l in Hnd. apply (proj1 (NoDup_nth_error l) Hnd).
        - apply nth_error_Some. congruence.
        - congruence. }
      pose proof (Z.mod_pos_bound r stride ltac:(lia)). lia.
    + intros [H1 H2]. eexists. split; [reflexivity|]. apply NH. rewrite Z.mod_small by lia. auto.
  - destruct (seek_later stride l ls r Hs Hf' ltac:(lia) ltac:(lia)) as [ss E]. rewrite E.
    pose proof (next_head cap l 0 ss (total (l :: ls)) x Hc Hl ltac:(lia) ltac:(lia) ltac:(lia)) as NH.
    split.
    + intros (b & Eb & SW). assert (b = {| b_stripes := newStripeR l :: ss; b_index := 0; b_total := total (l :: ls); b_cursor := 0 |}) by congruence.
      subst b. apply NH in SW. destruct SW as [S1 _]. exfalso.
      assert (Z.to_nat 0 = Z.to_nat r).
      { apply (proj1 (NoDup_nth_error _) Hnd).
        - cbn [concat]. rewrite app_length. unfold zlen in Hl. lia.
        - rewrite Hx. cbn [concat]. rewrite nth_error_app1; [exact S1|]. unfold zlen in Hl. lia. }
      lia.
    + intros [_ H2]. lia.
Qed.

(** With a footer that records no row index stride every seek to a row panics. *)
Lemma seek_panics ls r : Forall (fun l => 1 <= zlen l) ls -> 0 <= r < total ls -> total ls < W63 ->
  Seek 0 (fresh ls) r = Panic.
Proof.
  intros Hf Hr Ht. unfold Seek, opened. cbn [b_total b_stripes].
  destruct (Z.ltb_spec (total ls) r); [lia|].
  enough (G : forall ms before, 0 <= before <= r -> r < before + total ms -> before + total ms < W63 ->
     seekLoop 0 r before (map newStripeR ms) = Panic) by (rewrite G; [reflexivity|lia..]).
  induction ms as [|m ms IH]; intros before H1 H2 H3.
  - change (@total A []) with 0 in *. lia.
  - rewrite total_cons in *. pose proof (total_nonneg ms). pose proof (zlen_nonneg m).
    cbn [map seekLoop]. change (s_rows (newStripeR m)) with m.
    rewrite u64_id by (unfold is_u64; lia).
    destruct (Z.ltb_spec r (before + zlen m)).
    + unfold stripe_Seek. rewrite (u64_id (r - before)) by (unfold is_u64; lia).
      change (u64 0) with 0. destruct (Z.ltb_spec (r - before) 0); [lia|]. reflexivity.
    + rewrite IH by lia. reflexivity.
Qed.
End P.
