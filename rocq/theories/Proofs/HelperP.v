(** Proofs for C78-C80. *)
From Coq Require Import ZifyBool ZifyNat Sorted.
From Verif.Model Require Import Go Chunk Schema Helper.
From Verif.Spec Require Import ChunkSpec SchemaSpec HelperSpec.
From Verif.Proofs Require Import Base ChunkP SchemaP.

(** ** ReadChunks *)
Lemma le24_header l (orig : bool) : 0 <= l < 2 ^ 23 ->
  exists h0 h1 h2, le24 (2 * l + (if orig then 1 else 0)) = [h0; h1; h2] /\ DecChunkHeader h0 h1 h2 = (l, orig).
Proof.
  intros H. destruct (header_roundtrip l orig H) as (h0 & h1 & h2 & E & _ & _ & _ & D). exists h0, h1, h2. split; [|exact D].
  rewrite <- enc_le24 by exact H. exact E.
Qed.
Lemma readChunks_chunked inflate read spare size cs enc ds : greedy inflate read -> cs < 2 ^ 23 -> cs <= size ->
  Chunked inflate cs enc ds -> Forall (fun d => d <> []) ds ->
  forall fuel, (length enc <= fuel)%nat -> readChunks read spare ZLIB size fuel enc = Ok (concat ds).
Proof.
  intros Hg Hcs Hsz H. induction H as [|d enc ds Hd H IH|p d enc ds Hp Hd Hi H IH]; intros Hne fuel Hf.
  - destruct fuel; reflexivity.
  - inversion Hne as [|? ? Hdne Hne']; subst. destruct (le24_header (zlen d) true ltac:(pose proof (zlen_nonneg d); lia)) as (h0 & h1 & h2 & E & D).
    rewrite E in *. cbn [app] in *. destruct fuel as [|f]; [cbn in Hf; lia|]. cbn [readChunks].
    pose proof (zlen_nonneg d) as Hzd. pose proof (zlen_nonneg (d ++ enc)) as Hz. rewrite !zlen_cons.
    destruct (Z.ltb_spec (zlen (d ++ enc) + 1 + 1 + 1) 3); [lia|]. cbn [nth]. rewrite D.
    destruct (Z.ltb_spec size 0); [lia|]. destruct (Z.ltb_spec size (zlen d)); [lia|]. cbn [skipn].
    rewrite zlen_app. pose proof (zlen_nonneg enc). pose proof (zlen_nonneg spare).
    destruct (Z.ltb_spec (zlen d + zlen enc + zlen spare) (zlen d)); [lia|]. cbn [rbind].
    rewrite <- app_assoc, ztake_app, zdrop_app by reflexivity. rewrite (IH Hne') by (cbn [length] in Hf; rewrite app_length in Hf; lia). reflexivity.
  - inversion Hne as [|? ? Hdne Hne']; subst. destruct (le24_header (zlen p) false ltac:(pose proof (zlen_nonneg p); lia)) as (h0 & h1 & h2 & E & D).
    rewrite Z.add_0_r in E. rewrite E in *. cbn [app] in *. destruct fuel as [|f]; [cbn in Hf; lia|]. cbn [readChunks].
    pose proof (zlen_nonneg p) as Hzd. pose proof (zlen_nonneg (p ++ enc)) as Hz. rewrite !zlen_cons.
    destruct (Z.ltb_spec (zlen (p ++ enc) + 1 + 1 + 1) 3); [lia|]. cbn [nth]. rewrite D.
    destruct (Z.ltb_spec size 0); [lia|]. destruct (Z.ltb_spec size (zlen p)); [lia|]. cbn [skipn].
    rewrite zlen_app. pose proof (zlen_nonneg enc). pose proof (zlen_nonneg spare).
    destruct (Z.ltb_spec (zlen p + zlen enc + zlen spare) (zlen p)); [lia|].
    rewrite <- app_assoc, ztake_app, zdrop_app by reflexivity. rewrite (Hg p size d Hi) by lia. cbn [rbind].
    destruct (Z.eqb_spec (zlen d) 0) as [Ez|_]; [destruct d; [contradiction|rewrite zlen_cons in Ez; pose proof (zlen_nonneg d); lia]|]. cbn [rbind].
    rewrite (IH Hne') by (cbn [length] in Hf; rewrite app_length in Hf; lia). reflexivity.
Qed.
Lemma readChunks_long read h0 h1 h2 n orig rest spare k size : DecChunkHeader h0 h1 h2 = (n, orig) -> 0 <= size < n ->
  ReadChunks read (h0 :: h1 :: h2 :: rest) spare k size = Err.
Proof.
  intros E H. unfold ReadChunks. cbn [length readChunks nth]. rewrite !zlen_cons, E. pose proof (zlen_nonneg rest).
  destruct (Z.ltb_spec (zlen rest + 1 + 1 + 1) 3); [lia|]. destruct (Z.ltb_spec size 0); [lia|]. destruct (Z.ltb_spec size n); [reflexivity|lia].
Qed.
Lemma readChunks_agrees inflate read cs enc ds spare size : greedy inflate read -> cs < 2 ^ 23 -> cs <= size ->
  Chunked inflate cs enc ds -> Forall (fun d => d <> []) ds ->
  ReadChunks read enc spare ZLIB size = DecompressChunks inflate ZLIB enc.
Proof.
  intros Hg H1 H2 H3 H4. unfold ReadChunks. rewrite (readChunks_chunked inflate read spare size cs enc ds Hg H1 H2 H3 H4) by lia.
  destruct ds as [|d ds]; [inversion H3; reflexivity|]. symmetry. apply (decompress_spec inflate cs); [|exact H3].
  inversion H4; subst. pose proof (zlen_nonneg d). assert (zlen d <> 0) by (destruct d; [contradiction|rewrite zlen_cons; pose proof (zlen_nonneg d); lia]).
  inversion H3; subst; lia.
Qed.
Lemma readChunks_written deflate inflate read cs src out rest spare size :
  flate_ok deflate inflate -> greedy inflate read -> 1 <= cs < 2 ^ 23 -> cs <= size -> src <> [] ->
  CompressingAllInChunks deflate ZLIB cs src = Ok (out, rest) ->
  ReadChunks read out spare ZLIB size = Ok src.
Proof.
  intros Hfl Hg Hcs Hs Hne H. apply (all_spec inflate cs Hcs deflate Hfl) in H. destruct H as (-> & ds & last & Hch & Hcat & Hall & _ & Hlast).
  unfold ReadChunks. rewrite (readChunks_chunked inflate read spare size cs out (ds ++ [last]) Hg (proj2 Hcs) Hs Hch); [|apply Forall_app; split|lia].
  - f_equal. rewrite concat_app. cbn [concat]. rewrite app_nil_r. exact Hcat.
  - eapply Forall_impl; [|exact Hall]. intros d Hd ->. change (zlen (@nil Z)) with 0 in Hd. lia.
  - constructor; [apply Hlast, Hne|constructor].
Qed.
Lemma some_reads inflate (f : Z -> Z) : (forall n, 0 <= n -> 0 <= f n <= n) -> (forall n, 1 <= n -> 1 <= f n) ->
  reads inflate (fun p n => let! x := inflate p in Ok (ztake (f n) x)).
Proof.
  intros H0 H1. split.
  - intros p n d Hn H. apply rbind_inv in H. destruct H as (x & Hx & H). assert (d = ztake (f n) x) as -> by congruence.
    exists (zdrop (f n) x). unfold ztake, zdrop. rewrite firstn_skipn. split; [exact Hx|]. specialize (H0 n Hn).
    unfold zlen. rewrite firstn_length. split; [lia|]. intros E. apply (f_equal (@length Z)) in E. rewrite firstn_length in E. cbn [length] in E.
    destruct (Z.eq_dec n 0) as [|Hz]; [left; assumption|]. right. specialize (H1 n ltac:(lia)). destruct x as [|y x]; [apply skipn_nil|cbn [length] in E; lia].
  - intros p n x Hn Hx. rewrite Hx. eexists. reflexivity.
Qed.
Lemma full_reads inflate : reads inflate (fun p n => let! x := inflate p in Ok (ztake n x)) /\
  greedy inflate (fun p n => let! x := inflate p in Ok (ztake n x)).
Proof.
  split; [apply (some_reads inflate (fun n => n)); lia|]. intros p n x Hx Hn. rewrite Hx. cbn [rbind]. f_equal. unfold ztake. apply firstn_all2. unfold zlen in Hn. lia.
Qed.
Lemma short_reads inflate : reads inflate (fun p n => let! x := inflate p in Ok (ztake (Z.min n 2) x)).
Proof. apply (some_reads inflate (fun n => Z.min n 2)); lia. Qed.

(** ** marshallSchema *)
Definition type_of (s : td) : pbType :=
  {| t_kind := td_kind s; t_sub := map td_id (firstn (length (td_names s)) (td_children s)); t_names := td_names s |}.
Lemma walk_ok t : (forall s, Column t s -> (length (td_names s) <= length (td_children s))%nat) ->
  preOrderWalkSchema t = Ok (map type_of (flatten t)).
Proof.
  induction t as [id k names e h cs IH] using td_rect'. rewrite Forall_forall in IH. intros H. cbn [preOrderWalkSchema flatten map].
  pose proof (H _ (Column_refl _)) as H0. cbn [td_names td_children] in H0.
  destruct (Nat.ltb_spec (length cs) (length names)); [lia|].
  assert (E : (fix walk (cs : list td) : res (list pbType) :=
      match cs with [] => Ok [] | c :: r => let! ts := preOrderWalkSchema c in let! rs := walk r in Ok (ts ++ rs) end) cs
    = Ok (map type_of (flat_map flatten cs))).
  { assert (Hc : forall c, In c cs -> forall s, Column c s -> (length (td_names s) <= length (td_children s))%nat).
    { intros c Hin s Hs. apply H. eapply Column_child; [|exact Hs]. exact Hin. }
    clear H H0 H1. induction cs as [|c r IHr]; [reflexivity|]. rewrite (IH c) by (try (left; reflexivity); apply Hc; left; reflexivity). cbn [rbind].
    rewrite IHr; [|intros x Hx; apply IH; right; exact Hx|intros x Hx; apply Hc; right; exact Hx]. cbn [rbind flat_map]. rewrite map_app. reflexivity. }
  rewrite E. reflexivity.
Qed.
Lemma walk_needs t l : preOrderWalkSchema t = Ok l -> forall s, Column t s -> (length (td_names s) <= length (td_children s))%nat.
Proof.
  revert l. induction t as [id k names e h cs IH] using td_rect'. rewrite Forall_forall in IH. intros l H s Hs. cbn [preOrderWalkSchema] in H.
  destruct (Nat.ltb_spec (length cs) (length names)) as [|Hle]; [discriminate H|]. apply rbind_inv in H. destruct H as (l' & H & _).
  apply Column_inv in Hs. destruct Hs as [->|(c & Hin & Hs)]; [exact Hle|]. cbn [td_children] in Hin. clear Hle names.
  revert l' H. induction cs as [|c0 r IHr]; intros l' H; [destruct Hin|]. apply rbind_inv in H. destruct H as (ts & H1 & H).
  apply rbind_inv in H. destruct H as (rs & H2 & _). destruct Hin as [->|Hin].
  - eapply IH; [left; reflexivity|exact H1|exact Hs].
  - eapply IHr; [intros x Hx; apply IH; right; exact Hx|exact Hin|exact H2].
Qed.
Lemma walk_iff t : (exists l, preOrderWalkSchema t = Ok l) <-> forall s, Column t s -> (length (td_names s) <= length (td_children s))%nat.
Proof. split; [intros (l & H); eapply walk_needs; exact H|intros H; exists (map type_of (flatten t)); apply walk_ok; exact H]. Qed.
Lemma walk_no_err t : preOrderWalkSchema t <> Err.
Proof.
  induction t as [id k names e h cs IH] using td_rect'. cbn [preOrderWalkSchema]. destruct (_ <? _)%nat; [discriminate|].
  match goal with |- rbind ?w _ <> _ => assert (E : w <> Err) end.
  { induction IH as [|c r Hc _ IHr]; [discriminate|]. destruct (preOrderWalkSchema c); [|congruence|discriminate]. cbn [rbind]. match goal with |- rbind ?w _ <> _ => destruct w end; [discriminate|congruence|discriminate]. }
  match goal with |- rbind ?w _ <> _ => destruct w end; [discriminate|congruence|discriminate].
Qed.
Lemma walk_panic t : preOrderWalkSchema t = Panic <-> exists s, Column t s /\ (length (td_children s) < length (td_names s))%nat.
Proof.
  split.
  - intros H. assert (Hn : ~ (forall s, In s (flatten t) -> (length (td_names s) <= length (td_children s))%nat)).
    { intros Ha. assert (exists l, preOrderWalkSchema t = Ok l) as (l & E) by (apply walk_iff; intros s Hs; apply Ha; apply flatten_Column; exact Hs). congruence. }
    assert (Hx : exists s, In s (flatten t) /\ (length (td_children s) < length (td_names s))%nat).
    { clear H. induction (flatten t) as [|x r IH]; [exfalso; apply Hn; intros s []|]. destruct (Nat.lt_ge_cases (length (td_children x)) (length (td_names x))) as [Hx|Hx]; [exists x; split; [left; reflexivity|exact Hx]|].
      destruct IH as (s & Hs & Hl); [intros Ha; apply Hn; intros s [<-|Hs]; [exact Hx|apply Ha; exact Hs]|]. exists s. split; [right; exact Hs|exact Hl]. }
    destruct Hx as (s & Hs & Hl). exists s. split; [apply flatten_Column; exact Hs|exact Hl].
  - intros (s & Hs & Hl). destruct (preOrderWalkSchema t) as [l| |] eqn:E; [|destruct (walk_no_err t E)|reflexivity]. pose proof (walk_needs t l E s Hs). lia.
Qed.
Lemma walk_types t : preOrderWalkSchema t = Ok (SchemasToTypes (flatten t)) <-> evenly_named t.
Proof.
  split.
  - intros H s Hs. pose proof (walk_needs t _ H s Hs) as Hle. rewrite (walk_ok t (walk_needs t _ H)) in H.
    assert (E : map type_of (flatten t) = SchemasToTypes (flatten t)) by congruence. unfold SchemasToTypes in E.
    assert (Hin : In s (flatten t)) by (apply flatten_Column; exact Hs).
    assert (Es : t_sub (type_of s) = map td_id (td_children s)).
    { clear - E Hin. induction (flatten t) as [|x r IH]; [destruct Hin|]. cbn [map] in E. injection E as E1 E2.
      destruct Hin as [->|Hin]; [|apply IH; assumption]. unfold type_of. cbn [t_sub]. exact E1. }
    unfold type_of in Es. cbn [t_sub] in Es. apply (f_equal (@length Z)) in Es. rewrite !map_length, firstn_length in Es. lia.
  - intros H. rewrite walk_ok by (intros s Hs; rewrite (H s Hs); lia). f_equal. unfold SchemasToTypes. apply map_ext_in. intros s Hs.
    unfold type_of. f_equal. rewrite (H s) by (apply flatten_Column; exact Hs). rewrite firstn_all. reflexivity.
Qed.

(** ** findRepeatsInBytes *)
Lemma same_spec v l : (same v l <= length l)%nat /\ (forall i, (i < same v l)%nat -> nth_error l i = Some v) /\
  (forall x, nth_error l (same v l) = Some x -> x <> v).
Proof.
  induction l as [|y t (IH1 & IH2 & IH3)]; cbn [same length].
  - split; [lia|]. split; [lia|]. discriminate.
  - destruct (Z.eqb_spec y v) as [->|Hne].
    + split; [lia|]. split; [|exact IH3]. intros [|i] Hi; [reflexivity|]. cbn. apply IH2. lia.
    + split; [lia|]. split; [lia|]. cbn. congruence.
Qed.
(** A run that starts in front is the one the inner loop finds. *)
Definition run_from (l : list Z) (s c : nat) : Prop :=
  (1 <= c)%nat /\ (s + c <= length l)%nat /\
  exists v, (forall i, (s <= i < s + c)%nat -> nth_error l i = Some v) /\
    (forall x, s <> O -> nth_error l (s - 1) = Some x -> x <> v) /\ (forall x, nth_error l (s + c) = Some x -> x <> v).
Lemma run_here v t s c : let n := S (same v t) in
  (run_from (v :: t) s c /\ (s < n)%nat) <-> (s = O /\ c = n).
Proof.
  intros n. destruct (same_spec v t) as (Hl & Hin & Hend). split.
  - intros ((Hc & Hb & w & H1 & H2 & H3) & Hs).
    assert (Hv : forall i, (i < n)%nat -> nth_error (v :: t) i = Some v).
    { intros [|i] Hi; [reflexivity|]. cbn. apply Hin. unfold n in Hi. lia. }
    assert (w = v) as -> by (pose proof (H1 s ltac:(lia)) as E; rewrite (Hv s Hs) in E; congruence).
    assert (s = O) as ->.
    { destruct s as [|s]; [reflexivity|]. exfalso. apply (H2 v); [lia| |reflexivity]. apply Hv. lia. }
    split; [reflexivity|]. cbn [Nat.add] in *. destruct (Nat.lt_trichotomy c n) as [Hlt|[E|Hgt]]; [|exact E|].
    + exfalso. apply (H3 v); [|reflexivity]. apply Hv. lia.
    + exfalso. apply (Hend v); [|reflexivity]. pose proof (H1 n ltac:(lia)) as E. exact E.
  - intros [-> ->]. split; [|unfold n; lia]. split; [unfold n; lia|]. split; [cbn [length]; lia|]. exists v. split.
    + intros [|i] Hi; [reflexivity|]. cbn. apply Hin. lia.
    + split; [congruence|]. cbn [Nat.add nth_error n]. exact Hend.
Qed.
Lemma nth_error_skip {A} (l : list A) n i : nth_error (skipn n l) i = nth_error l (n + i).
Proof. revert l. induction n as [|n IH]; intros l; [reflexivity|]. destruct l as [|x l]; [destruct i; reflexivity|]. cbn. apply IH. Qed.
Lemma run_later v t s c : let n := S (same v t) in (n <= s)%nat ->
  (run_from (v :: t) s c <-> run_from (skipn n (v :: t)) (s - n) c).
Proof.
  intros n Hn. destruct (same_spec v t) as (Hl & Hin & Hend). unfold run_from. rewrite skipn_length.
  assert (Hlen : length (v :: t) = S (length t)) by reflexivity. split.
  - intros (Hc & Hb & w & H1 & H2 & H3). split; [exact Hc|]. split; [lia|]. exists w. split; [|split].
    + intros i Hi. rewrite nth_error_skip. apply H1. lia.
    + intros x Hs Hx. rewrite nth_error_skip in Hx. apply H2; [lia|]. rewrite <- Hx. f_equal. lia.
    + intros x Hx. rewrite nth_error_skip in Hx. apply H3. rewrite <- Hx. f_equal. lia.
  - intros (Hc & Hb & w & H1 & H2 & H3). split; [exact Hc|]. split; [unfold n in *; lia|]. exists w. split; [|split].
    + intros i Hi. pose proof (H1 (i - n)%nat ltac:(lia)) as E. rewrite nth_error_skip in E. rewrite <- E. f_equal. lia.
    + intros x Hs Hx. destruct (Nat.eq_dec s n) as [->|Hne].
      * intros ->. pose proof (H1 O ltac:(lia)) as E. rewrite nth_error_skip, Nat.add_0_r in E. apply (Hend w); [exact E|].
        assert (Hlast : nth_error (v :: t) (n - 1) = Some v).
        { unfold n. cbn [Nat.sub]. rewrite Nat.sub_0_r. destruct (same v t) as [|q] eqn:Eq; [reflexivity|]. cbn. apply Hin. lia. }
        congruence.
      * apply (H2 x); [lia|]. rewrite nth_error_skip, <- Hx. f_equal. lia.
    + intros x Hx. apply (H3 x). rewrite nth_error_skip, <- Hx. f_equal. lia.
Qed.
Lemma repeats_iff mn : forall fuel i l, (length l <= fuel)%nat -> forall a c,
  In (a, c) (repeats fuel mn i l) <-> exists s k, a = i + Z.of_nat s /\ c = Z.of_nat k /\ mn <= c /\ run_from l s k.
Proof.
  induction fuel as [|f IH]; intros i l Hf a c.
  - destruct l; [|cbn in Hf; lia]. split; [intros []|]. intros (s & k & _ & _ & _ & (Hk & Hb & _)). cbn in Hb. lia.
  - destruct l as [|v t]; [split; [intros []|]; intros (s & k & _ & _ & _ & (Hk & Hb & _)); cbn in Hb; lia|].
    cbn [repeats]. destruct (same_spec v t) as (Hl & _). set (n := S (same v t)).
    assert (IH' : forall a c, In (a, c) (repeats f mn (i + Z.of_nat n) (skipn n (v :: t))) <->
        exists s k, a = i + Z.of_nat s /\ c = Z.of_nat k /\ mn <= c /\ (n <= s)%nat /\ run_from (v :: t) s k).
    { intros a' c'. rewrite IH by (rewrite skipn_length; cbn [length] in *; unfold n; lia). split; intros (s & k & Ea & Ec & Hm & Hr).
      - exists (n + s)%nat, k. split; [lia|]. split; [exact Ec|]. split; [exact Hm|]. split; [lia|]. apply (run_later v t (n + s) k); [unfold n; lia|].
        replace (n + s - S (same v t))%nat with s by (unfold n; lia). exact Hr.
      - destruct Hr as [Hns Hr]. exists (s - n)%nat, k. split; [lia|]. split; [exact Ec|]. split; [exact Hm|]. apply (run_later v t s k); assumption. }
    assert (Hhere : forall k s, run_from (v :: t) s k -> (s < n)%nat -> s = O /\ k = n).
    { intros k s Hr Hs. apply (run_here v t s k). split; assumption. }
    assert (H0 : run_from (v :: t) 0 n) by (apply (run_here v t 0 n); auto).
    destruct (Z.leb_spec mn (Z.of_nat n)) as [Hle|Hgt].
    + cbn [In]. rewrite IH'. split.
      * intros [E|(s & k & Ea & Ec & Hm & _ & Hr)]; [|exists s, k; auto]. exists O, n. split; [injection E; lia|]. split; [injection E; lia|]. split; [injection E; lia|exact H0].
      * intros (s & k & Ea & Ec & Hm & Hr). destruct (Nat.lt_ge_cases s n) as [Hs|Hs]; [|right; exists s, k; auto].
        destruct (Hhere k s Hr Hs) as [-> ->]. left. f_equal; lia.
    + rewrite IH'. split; intros (s & k & Ea & Ec & Hm & Hr); [exists s, k; tauto|]. exists s, k. split; [exact Ea|]. split; [exact Ec|]. split; [exact Hm|].
      split; [|exact Hr]. destruct (Nat.lt_ge_cases s n) as [Hs|Hs]; [|exact Hs]. destruct (Hhere k s Hr Hs) as [-> ->]. lia.
Qed.
Lemma run_at_from l s c : run_at l s c <-> exists a k, s = Z.of_nat a /\ c = Z.of_nat k /\ run_from l a k.
Proof.
  split.
  - intros (Hs & Hc & Hb & v & H1 & H2 & H3). exists (Z.to_nat s), (Z.to_nat c). split; [lia|]. split; [lia|]. unfold zlen in Hb. split; [lia|]. split; [lia|].
    exists v. split; [|split].
    + intros i Hi. specialize (H1 (Z.of_nat i) ltac:(lia)). rewrite Nat2Z.id in H1. exact H1.
    + intros x Hx E. apply H2; [lia|]. replace (Z.to_nat (s - 1)) with (Z.to_nat s - 1)%nat by lia. exact E.
    + intros x E. apply H3. replace (Z.to_nat (s + c)) with (Z.to_nat s + Z.to_nat c)%nat by lia. exact E.
  - intros (a & k & -> & -> & (Hk & Hb & v & H1 & H2 & H3)). unfold run_at, zlen. split; [lia|]. split; [lia|]. split; [lia|]. exists v. split; [|split].
    + intros i Hi. apply H1. lia.
    + intros x Hx E. apply H2; [lia|]. replace (a - 1)%nat with (Z.to_nat (Z.of_nat a - 1)) by lia. exact E.
    + intros x E. apply H3. replace (a + k)%nat with (Z.to_nat (Z.of_nat a + Z.of_nat k)) by lia. exact E.
Qed.
Lemma find_iff l mn s c : In (s, c) (findRepeatsInBytes l mn) <-> run_at l s c /\ mn <= c.
Proof.
  unfold findRepeatsInBytes. rewrite repeats_iff by lia. rewrite run_at_from. split.
  - intros (a & k & Ea & Ec & Hm & Hr). split; [|exact Hm]. exists a, k. split; [lia|]. auto.
  - intros ((a & k & Ea & Ec & Hr) & Hm). exists a, k. split; [lia|]. auto.
Qed.
Lemma repeats_sorted mn : forall fuel i l, Sorted (fun a b => fst a + snd a <= fst b) (repeats fuel mn i l) /\
  Forall (fun a => i <= fst a /\ 1 <= snd a) (repeats fuel mn i l).
Proof.
  induction fuel as [|f IH]; intros i [|v t]; try (split; constructor). cbn [repeats].
  destruct (IH (i + Z.of_nat (S (same v t))) (skipn (S (same v t)) (v :: t))) as [Hs Hf].
  assert (Hf' : Forall (fun a : Z * Z => i <= fst a /\ 1 <= snd a) (repeats f mn (i + Z.of_nat (S (same v t))) (skipn (S (same v t)) (v :: t)))).
  { eapply Forall_impl; [|exact Hf]. cbn. intros a Ha. lia. }
  destruct (mn <=? _); [|auto]. split.
  - constructor; [exact Hs|]. destruct (repeats f mn _ _) as [|b r] eqn:E; [constructor|]. constructor. inversion Hf as [|? ? [H1 H2] ?]; subst. cbn [fst snd]. exact H1.
  - constructor; [cbn; lia|exact Hf'].
Qed.
