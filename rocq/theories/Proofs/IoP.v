(** Reading through handles that return short reads is reading the ideal file. *)
From Verif.Model Require Import Go Chunk Stream Schema Rows File Io.
From Verif.Spec Require Import IoSpec.
From Verif.Proofs Require Import Base ChunkP TailP.

Lemma zdrop_all {A} n (l : list A) : zlen l <= n -> zdrop n l = [].
Proof. intros. unfold zdrop, zlen in *. apply skipn_all2. lia. Qed.
Lemma zlen_zdrop' {A} n (l : list A) : 0 <= n -> zlen (zdrop n l) = Z.max 0 (zlen l - n).
Proof. intros. unfold zdrop, zlen in *. rewrite skipn_length. lia. Qed.
Lemma ztake_all {A} n (l : list A) : zlen l <= n -> ztake n l = l.
Proof. intros. unfold ztake, zlen in *. apply firstn_all2. lia. Qed.
Lemma ztake_split {A} n (d r : list A) : zlen d <= n -> ztake n (d ++ r) = d ++ ztake (n - zlen d) r.
Proof.
  intros. unfold ztake, zlen in *. rewrite firstn_app, firstn_all2 by lia. do 2 f_equal. lia.
Qed.
Lemma ztake_0 {A} n (l : list A) : n <= 0 -> ztake n l = [].
Proof. intros. unfold ztake. replace (Z.to_nat n) with O by lia. reflexivity. Qed.
Lemma zdrop_0 {A} n (l : list A) : n <= 0 -> zdrop n l = l.
Proof. intros. unfold zdrop. replace (Z.to_nat n) with O by lia. reflexivity. Qed.
Lemma zlen_0 {A} (l : list A) : zlen l = 0 -> l = [].
Proof. destruct l; [reflexivity|]. rewrite zlen_cons. pose proof (zlen_nonneg l). lia. Qed.

Section Handle.
Context {H : Type} (F : handle H) (content : list Z) (limit : Z) (at_ : H -> Z -> Prop).
Hypothesis ok : file_ok F content limit at_.

Lemma at_nonneg h p : at_ h p -> 0 <= p.
Proof. apply ok. Qed.
Lemma at_read h p k : at_ h p -> 0 < k ->
     exists d e h', h_Read F k h = Ok (d, e, h') /\ zlen d <= k /\
       zdrop p content = d ++ zdrop (p + zlen d) content /\ at_ h' (p + zlen d) /\
       (e = None -> d <> []) /\ (e <> None -> zdrop (p + zlen d) content = []).
Proof. apply ok. Qed.

Lemma readFullLoop_ok n : forall fuel got h p, at_ h p -> zlen got <= n -> n - zlen got <= Z.of_nat fuel ->
  if zlen (zdrop p content) <? n - zlen got
  then exists g e h', readFullLoop (h_Read F) fuel n got h = Ok (g, Some e, h')
  else exists h', readFullLoop (h_Read F) fuel n got h =
                    Ok (got ++ ztake (n - zlen got) (zdrop p content), None, h') /\
                  at_ h' (p + (n - zlen got)).
Proof.
  induction fuel as [|f IH]; intros got h p Hat Hg Hf; cbn [readFullLoop].
  - pose proof (zlen_nonneg (zdrop p content)).
    replace (n <=? zlen got) with true by lia.
    replace (_ <? _) with false by lia. exists h. rewrite ztake_0, app_nil_r by lia.
    split; [reflexivity|]. replace (p + _) with p by lia. exact Hat.
  - destruct (Z.leb_spec n (zlen got)) as [Hn|Hn].
    + pose proof (zlen_nonneg (zdrop p content)).
      replace (_ <? _) with false by lia. exists h. rewrite ztake_0, app_nil_r by lia.
      split; [reflexivity|]. replace (p + _) with p by lia. exact Hat.
    + destruct (at_read h p (n - zlen got) Hat ltac:(lia)) as (d & e & h' & Er & Hd & Eu & Hat' & He1 & He2).
      rewrite Er. cbn [rbind]. pose proof (zlen_nonneg d) as Hd0.
      destruct e as [e|].
      * specialize (He2 ltac:(discriminate)). rewrite He2, app_nil_r in Eu. rewrite Eu, zlen_app.
        destruct (Z.ltb_spec (zlen d) (n - zlen got)).
        -- replace (n <=? _) with false by lia. eauto.
        -- replace (n <=? _) with true by lia. exists h'. rewrite ztake_all by lia.
           split; [reflexivity|]. replace (p + _) with (p + zlen d) by lia. exact Hat'.
      * specialize (He1 eq_refl).
        assert (0 < zlen d) by (destruct d; [congruence|rewrite zlen_cons; pose proof (zlen_nonneg d); lia]).
        specialize (IH (got ++ d) h' _ Hat'). rewrite zlen_app in IH.
        specialize (IH ltac:(lia) ltac:(lia)). rewrite Eu, zlen_app.
        replace (zlen d + zlen (zdrop (p + zlen d) content) <? n - zlen got)
          with (zlen (zdrop (p + zlen d) content) <? n - (zlen got + zlen d)) by lia.
        destruct (_ <? _); [exact IH|]. destruct IH as (h2 & -> & Hat2). exists h2.
        rewrite ztake_split, <- app_assoc by lia.
        replace (n - zlen got - zlen d) with (n - (zlen got + zlen d)) by lia.
        split; [reflexivity|]. replace (p + _) with (p + zlen d + (n - (zlen got + zlen d))) by lia.
        exact Hat2.
Qed.

(** io.ReadFull: the next [n] bytes, or an error when there are fewer. *)
Lemma ReadFull_ok n h p : at_ h p -> 0 <= n ->
  if zlen (zdrop p content) <? n then ReadFull (h_Read F) n h = Err
  else exists h', ReadFull (h_Read F) n h = Ok (ztake n (zdrop p content), h') /\ at_ h' (p + n).
Proof.
  intros Hat Hn. unfold ReadFull.
  pose proof (readFullLoop_ok n (Z.to_nat n) [] h p Hat ltac:(rewrite zlen_nil; lia) ltac:(rewrite zlen_nil; lia)) as L.
  rewrite zlen_nil, Z.sub_0_r in L. destruct (_ <? _).
  - destruct L as (g & e & h' & ->). reflexivity.
  - destruct L as (h' & -> & Hat'). exists h'. split; [reflexivity|exact Hat'].
Qed.

Lemma readFrom_ok room : (forall i, 0 < room i) ->
  forall fuel buf n h p l, at_ h p -> Z.max 0 l < Z.of_nat fuel ->
  let U := zdrop p content in
  exists h', (if zlen U <? l
              then exists e, readFrom (h_Read F) room fuel buf n (h, l) = Ok (buf ++ U, n + zlen U, e, h')
              else exists e, readFrom (h_Read F) room fuel buf n (h, l) =
                     Ok (buf ++ ztake l U, n + Z.max 0 l, e, h') /\ at_ h' (p + Z.max 0 l) /\ (l <= 0 -> e = None)).
Proof.
  intros Hroom. induction fuel as [|f IH]; intros buf n h p l Hat Hf U.
  { lia. }
  cbn [readFrom]. unfold limitedRead. cbn [fst snd].
  destruct (Z.leb_spec l 0) as [Hl|Hl].
  - pose proof (zlen_nonneg U). replace (zlen U <? l) with false by lia. exists h. exists None.
    cbn [rbind isEOF fst]. rewrite ztake_0, zlen_nil by lia. replace (Z.max 0 l) with 0 by lia.
    rewrite !Z.add_0_r. repeat split. exact Hat.
  - destruct (at_read h p (Z.min (room f) l) Hat ltac:(specialize (Hroom f); lia))
      as (d & e & h' & Er & Hd & Eu & Hat' & He1 & He2).
    rewrite Er. cbn [rbind fst]. pose proof (zlen_nonneg d) as Hd0. fold U in Eu.
    destruct e as [e|].
    + specialize (He2 ltac:(discriminate)). rewrite He2, app_nil_r in Eu. rewrite Eu.
      exists h'. destruct (Z.ltb_spec (zlen d) l).
      * eexists. reflexivity.
      * eexists. rewrite ztake_all by lia. split; [|split].
        -- replace (Z.max 0 l) with (zlen d) by lia. reflexivity.
        -- replace (Z.max 0 l) with (zlen d) by lia. exact Hat'.
        -- lia.
    + specialize (He1 eq_refl).
      assert (0 < zlen d) by (destruct d; [congruence|rewrite zlen_cons; pose proof (zlen_nonneg d); lia]).
      specialize (IH (buf ++ d) (n + zlen d) h' _ (l - zlen d) Hat' ltac:(lia)). cbn zeta in IH.
      destruct IH as (h2 & IH). exists h2. rewrite Eu, zlen_app.
      replace (zlen d + zlen (zdrop (p + zlen d) content) <? l)
          with (zlen (zdrop (p + zlen d) content) <? l - zlen d) by lia.
      destruct (_ <? _).
      * destruct IH as (e & ->). exists e. rewrite <- app_assoc, Z.add_assoc. reflexivity.
      * destruct IH as (e & -> & Hat2 & He). exists e. split; [|split].
        -- rewrite ztake_split, <- app_assoc by lia.
           replace (n + Z.max 0 l) with (n + zlen d + Z.max 0 (l - zlen d)) by lia. reflexivity.
        -- replace (p + Z.max 0 l) with (p + zlen d + Z.max 0 (l - zlen d)) by lia. exact Hat2.
        -- lia.
Qed.

(** io.CopyN into a buffer: the next [n] bytes, or an error when there are fewer. *)
Lemma CopyN_ok room n buf h p : (forall i, 0 < room i) -> at_ h p ->
  if zlen (zdrop p content) <? n then CopyN (h_Read F) room n buf h = Err
  else exists h', CopyN (h_Read F) room n buf h = Ok (buf ++ ztake n (zdrop p content), h') /\
                  at_ h' (p + Z.max 0 n).
Proof.
  intros Hroom Hat. unfold CopyN.
  destruct (readFrom_ok room Hroom (Z.to_nat n + 1) buf 0 h p n Hat ltac:(lia)) as (h' & L).
  destruct (Z.ltb_spec (zlen (zdrop p content)) n) as [Hn|Hn].
  - destruct L as (e & ->). cbn [rbind]. rewrite Z.add_0_l.
    pose proof (zlen_nonneg (zdrop p content)).
    replace (_ =? _) with false by lia. replace (_ <? n) with true by lia. destruct e; reflexivity.
  - destruct L as (e & -> & Hat' & He). cbn [rbind]. rewrite Z.add_0_l. exists h'. split; [|exact Hat'].
    destruct (Z.eqb_spec (Z.max 0 n) n); [reflexivity|]. rewrite He by lia.
    replace (_ <? n) with false by lia. reflexivity.
Qed.

Lemma readAt_ok from n h p : at_ h p -> 0 <= from <= limit -> 0 <= n ->
  if zlen (zdrop from content) <? n then readAt F from n h = Err
  else exists h', readAt F from n h = Ok (ztake n (zdrop from content), h') /\ at_ h' (from + n).
Proof.
  intros Hat Hf Hn. unfold readAt.
  destruct ok as (_ & _ & Hseek & _). destruct (Hseek h p from Hat Hf) as (h1 & -> & Hat1).
  cbn [rbind]. apply ReadFull_ok; assumption.
Qed.

(** ** Streams *)
Section Streams.
Context (room : nat -> Z) (inflate : list Z -> res (list Z)) (o : opts) (bound : nat).
Hypothesis Hroom : forall i, 0 < room i.
Hypothesis Hchunk : 1 <= ChunkSize o < W63.
Hypothesis Hbound : (length content < bound)%nat.

(** The reader over the handle and the reader over the ideal file are in the same
    state. *)
Record sim (i : ioReader H) (r : reader) : Prop := {
  sim_file : r_file r = content;
  sim_start : ir_start i = r_start r;
  sim_length : ir_length i = r_length r;
  sim_readLength : ir_readLength i = r_readLength r;
  sim_buf : ir_buf i = r_buf r;
  sim_u1 : is_u64 (r_length r);
  sim_u2 : is_u64 (r_readLength r);
  sim_at : exists p, at_ (ir_h i) p /\ r_rest r = zdrop p content }.

Lemma rest_len p : (length (zdrop p content) <= length content)%nat.
Proof. clear. unfold zdrop. rewrite skipn_length. lia. Qed.

Lemma copyN_rest n p : 0 <= p -> zdrop n (zdrop p content) = zdrop (p + Z.max 0 n) content.
Proof.
  clear. intros. destruct (Z.le_gt_cases 0 n).
  - rewrite zdrop_zdrop by lia. f_equal. lia.
  - rewrite (zdrop_0 n) by lia. f_equal. lia.
Qed.

Lemma three (l : list Z) : zlen l <? 3 = match l with _ :: _ :: _ :: _ => false | _ => true end.
Proof.
  clear. destruct l as [|a [|b [|c l]]]; try reflexivity. rewrite !zlen_cons. pose proof (zlen_nonneg l). lia.
Qed.

Lemma readAChunk_sim i r : sim i r -> agree sim (io_readAChunk F room inflate o i) (readAChunk inflate o r).
Proof.
  clear Hbound bound. intros [Hf Hs Hl Hrl Hb Hu1 Hu2 (p & Hat & Er)].
  pose proof (at_nonneg _ _ Hat) as Hp.
  unfold io_readAChunk, readAChunk. rewrite Hs, Hl, Hrl, Hb, Er.
  set (l := if u64 (r_length r - r_readLength r) <? ChunkSize o then _ else _).
  assert (Hl63 : 0 <= l < W63).
  { subst l. pose proof (u64_range (r_length r - r_readLength r)) as Hu. unfold is_u64 in Hu.
    destruct (Z.ltb_spec (u64 (r_length r - r_readLength r)) (ChunkSize o)); lia. }
  rewrite (i64_id l) by (unfold is_i64; lia).
  assert (Hk : forall k, agree sim
     (let! (head, h) := ReadFull (h_Read F) 3 (ir_h i) in
      let (chunkLength, original) := DecChunkHeader (nth 0 head 0) (nth 1 head 0) (nth 2 head 0) in
      if ChunkSize o <? chunkLength then Err else
      let! (buf, h) :=
        (if original then CopyN (h_Read F) room chunkLength (r_buf r) h
         else let! (cmp, h) := CopyN (h_Read F) room chunkLength [] h in
              let! d := Decompress inflate k cmp in Ok (r_buf r ++ d, h)) in
      Ok {| ir_start := r_start r; ir_length := r_length r; ir_h := h;
            ir_readLength := u64 (r_readLength r + 3 + chunkLength); ir_buf := buf |})
     (match zdrop p content with
      | h0 :: h1 :: h2 :: rest =>
          let (chunkLength, original) := DecChunkHeader h0 h1 h2 in
          if ChunkSize o <? chunkLength then Err else
          let! (p, rest') := copyN chunkLength rest in
          let! d := (if original then Ok p else Decompress inflate k p) in
          Ok {| r_file := r_file r; r_start := r_start r; r_length := r_length r;
                r_rest := rest'; r_readLength := u64 (r_readLength r + 3 + chunkLength);
                r_buf := r_buf r ++ d |}
      | _ => Err
      end)).
  { intros k. pose proof (ReadFull_ok 3 _ _ Hat ltac:(lia)) as L. rewrite three in L.
    destruct (zdrop p content) as [|h0 [|h1 [|h2 rest]]] eqn:EU; try (rewrite L; exact I).
    destruct L as (h' & -> & Hat'). cbn [rbind].
    change (ztake 3 (h0 :: h1 :: h2 :: rest)) with [h0; h1; h2]. cbn [nth].
    assert (Erest : rest = zdrop (p + 3) content).
    { rewrite <- (zdrop_zdrop 3 p) by lia. rewrite EU. reflexivity. }
    destruct (DecChunkHeader h0 h1 h2) as [cl orig].
    destruct (ChunkSize o <? cl); [exact I|].
    unfold copyN. rewrite Erest.
    destruct orig.
    - pose proof (CopyN_ok room cl (r_buf r) _ _ Hroom Hat') as L.
      destruct (zlen (zdrop (p + 3) content) <? cl).
      + rewrite L. exact I.
      + destruct L as (h2' & -> & Hat2). cbn [rbind]. cbn [agree].
        constructor; cbn; auto. { apply u64_range. }
        exists (p + 3 + Z.max 0 cl). split; [exact Hat2|]. apply copyN_rest. lia.
    - pose proof (CopyN_ok room cl [] _ _ Hroom Hat') as L.
      destruct (zlen (zdrop (p + 3) content) <? cl).
      + rewrite L. exact I.
      + destruct L as (h2' & -> & Hat2). cbn [rbind app].
        destruct (Decompress inflate k _) as [d| |]; cbn [rbind]; [|exact I..]. cbn [agree].
        constructor; cbn; auto. { apply u64_range. }
        exists (p + 3 + Z.max 0 cl). split; [exact Hat2|]. apply copyN_rest. lia. }
  destruct (CompressionKind o); try apply Hk.
  clear Hk. pose proof (CopyN_ok room l (r_buf r) _ _ Hroom Hat) as L. unfold copyN.
  destruct (zlen (zdrop p content) <? l).
  - rewrite L. exact I.
  - destruct L as (h2' & -> & Hat2). cbn [rbind]. cbn [agree].
    constructor; cbn; auto. { apply u64_range. }
    exists (p + Z.max 0 l). split; [exact Hat2|]. apply copyN_rest. lia.
Qed.

Lemma ReadByte_sim i r : sim i r ->
  agree (fun x y => fst x = fst y /\ sim (snd x) (snd y))
        (io_ReadByte F room inflate o i) (r_ReadByte inflate o r).
Proof.
  intros S0. unfold io_ReadByte, r_ReadByte.
  pose proof S0 as [Hf Hs Hl Hrl Hb Hu1 Hu2 Hat]. rewrite Hb, Hl, Hrl.
  destruct (r_buf r) as [|b t] eqn:Eb.
  - destruct (_ <=? _); [exact I|].
    pose proof (readAChunk_sim i r S0) as L.
    destruct (io_readAChunk F room inflate o i) as [i'| |], (readAChunk inflate o r) as [r'| |];
      cbn [agree] in L; try contradiction; cbn [rbind]; [|exact I..].
    destruct L as [Hf' Hs' Hl' Hrl' Hb' Hu1' Hu2' Hat'].
    rewrite Hb'. destruct (r_buf r'); [exact I|]. cbn. split; [reflexivity|]. constructor; cbn; auto.
  - cbn. split; [reflexivity|]. constructor; cbn; auto.
Qed.

(** A chunk consumes at least one byte of the file. *)
Lemma chunk_consumes r r' : is_u64 (r_length r) -> is_u64 (r_readLength r) ->
  r_readLength r < r_length r -> readAChunk inflate o r = Ok r' ->
  (length (r_rest r') < length (r_rest r))%nat.
Proof.
  clear - Hchunk. intros Hu1 Hu2 Hlt E. unfold is_u64 in Hu1, Hu2. unfold readAChunk in E.
  assert (Hc : forall n s p rest, 0 < n -> copyN n s = Ok (p, rest) -> (length rest < length s)%nat).
  { intros n s p rest Hn Ec. unfold copyN in Ec. destruct (Z.ltb_spec (zlen s) n); [discriminate|].
    injection Ec as <- <-. unfold zdrop, zlen in *. rewrite skipn_length. lia. }
  assert (Hc' : forall n s p rest, copyN n s = Ok (p, rest) -> (length rest <= length s)%nat).
  { intros n s p rest Ec. unfold copyN in Ec. destruct (Z.ltb_spec (zlen s) n); [discriminate|].
    injection Ec as <- <-. unfold zdrop. rewrite skipn_length. lia. }
  destruct (CompressionKind o).
  1: { assert (Eu : u64 (r_length r - r_readLength r) = r_length r - r_readLength r)
         by (apply u64_id; unfold is_u64; lia).
       rewrite Eu in E.
       set (l := if _ <? ChunkSize o then _ else _) in E.
       assert (0 < l) by (subst l; destruct (_ <? _); lia).
       destruct (copyN l (r_rest r)) as [[p rest]| |] eqn:Ec; try discriminate.
       injection E as <-. eapply Hc; eassumption. }
  all: destruct (r_rest r) as [|h0 [|h1 [|h2 rest]]]; try discriminate;
       destruct (DecChunkHeader h0 h1 h2) as [cl orig];
       destruct (ChunkSize o <? cl); try discriminate;
       destruct (copyN cl rest) as [[p rest']| |] eqn:Ec; try discriminate; cbn [rbind] in E;
       apply rbind_inv in E as (d & _ & E); injection E as <-; cbn [r_rest];
       apply Hc' in Ec; cbn [length]; lia.
Qed.

Lemma fill_sim : forall f1 f2 n i r, sim i r ->
  (length (r_rest r) < f1)%nat -> (length (r_rest r) < f2)%nat ->
  agree sim (io_fill F room inflate o f1 (Z.of_nat n) i) (fill inflate o f2 n r).
Proof.
  induction f1 as [|f1 IH]; intros f2 n i r S0 H1 H2; [lia|].
  destruct f2 as [|f2]; [lia|].
  pose proof S0 as [Hf Hs Hl Hrl Hb Hu1 Hu2 Hat].
  cbn [io_fill fill]. rewrite Hb, Hl, Hrl.
  replace (zlen (r_buf r) <? Z.of_nat n) with (length (r_buf r) <? n)%nat by (unfold zlen; lia).
  destruct ((length (r_buf r) <? n)%nat && (r_readLength r <? r_length r)) eqn:Ec; [|exact S0].
  pose proof (readAChunk_sim i r S0) as L.
  destruct (io_readAChunk F room inflate o i) as [i'| |] eqn:E1,
           (readAChunk inflate o r) as [r'| |] eqn:E2;
      cbn [agree] in L; try contradiction; cbn [rbind]; [|exact I..].
  apply chunk_consumes in E2; try assumption; [|lia].
  apply IH; [exact L|lia..].
Qed.

Lemma Forall_rest r i : sim i r -> (length (r_rest r) < bound)%nat.
Proof. intros [? ? ? ? ? ? ? (p & _ & ->)]. pose proof (rest_len p). lia. Qed.

(** The chunk loop leaves either enough bytes or a used-up stream. *)
Lemma fill_end : forall f n r r', fill inflate o f n r = Ok r' ->
  (n <= length (r_buf r'))%nat \/ r_length r' <= r_readLength r'.
Proof.
  clear. induction f as [|f IH]; intros n r r' E; cbn [fill] in E.
  - destruct (_ && _) eqn:Ec; [discriminate|]. injection E as <-. lia.
  - destruct (_ && _) eqn:Ec; [|injection E as <-; lia].
    apply rbind_inv in E as (r1 & _ & E). eapply IH. eassumption.
Qed.

(** One Read of the stream under io.ReadFull. *)
Lemma ReadFull_sim n i r : sim i r ->
  agree (fun x y => fst x = fst y /\ sim (snd x) (snd y))
        (ReadFull (io_Read F room inflate o bound) (Z.of_nat n) i) (r_ReadFull inflate o n r).
Proof.
  intros S0. unfold ReadFull, r_ReadFull. rewrite Nat2Z.id.
  destruct n as [|n]; [cbn; split; [reflexivity|exact S0]|].
  cbn [Nat.eqb]. set (m := S n) in *.
  (* what a read from a filled stream gives *)
  assert (Tail : forall i' r', sim i' r' ->
     ((m <= length (r_buf r'))%nat \/ r_length r' <= r_readLength r') ->
     agree (fun x y => fst x = fst y /\ sim (snd x) (snd y))
       (let! (d, e, s') :=
          (let! (d, e, s') :=
             (if (zlen (ir_buf i') =? 0) && (0 <? Z.of_nat m) then Err else
              Ok (ztake (Z.of_nat m) (ir_buf i'), None,
                  {| ir_start := ir_start i'; ir_length := ir_length i'; ir_h := ir_h i';
                     ir_readLength := ir_readLength i'; ir_buf := zdrop (Z.of_nat m) (ir_buf i') |})) in
           match e with
           | None => readFullLoop (io_Read F room inflate o bound) n (Z.of_nat m) d s'
           | Some e => if Z.of_nat m <=? zlen d then Ok (d, None, s')
                       else Ok (d, Some (if (0 <? zlen d) && isEOF e then UnexpectedEOF else e), s')
           end) in
        match e with None => Ok (d, s') | Some _ => Err end)
       (if (m <=? length (r_buf r'))%nat then
          Ok (firstn m (r_buf r'),
             {| r_file := r_file r'; r_start := r_start r'; r_length := r_length r';
                r_rest := r_rest r'; r_readLength := r_readLength r'; r_buf := skipn m (r_buf r') |})
        else Err)).
  { intros i' r' S1 Hend. pose proof S1 as [Hf Hs Hl Hrl Hb Hu1 Hu2 Hat]. rewrite Hb, Hs, Hl, Hrl.
    unfold ztake, zdrop. rewrite !Nat2Z.id.
    destruct (Nat.leb_spec m (length (r_buf r'))) as [Hm|Hm].
    - replace (zlen (r_buf r') =? 0) with false by (unfold zlen; lia). cbn [andb rbind].
      assert (Elen : zlen (firstn m (r_buf r')) = Z.of_nat m)
        by (unfold zlen; rewrite firstn_length; lia).
      assert (Eloop : forall s, readFullLoop (io_Read F room inflate o bound) n (Z.of_nat m)
                                  (firstn m (r_buf r')) s = Ok (firstn m (r_buf r'), None, s)).
      { intros s. destruct n; cbn [readFullLoop]; rewrite Elen, Z.leb_refl; reflexivity. }
      rewrite Eloop. cbn [rbind agree fst snd]. split; [reflexivity|]. constructor; cbn; auto.
    - destruct ((zlen (r_buf r') =? 0) && (0 <? Z.of_nat m)) eqn:E0; [exact I|].
      cbn [rbind].
      rewrite (firstn_all2 (r_buf r')) by lia. rewrite (skipn_all2 (r_buf r')) by lia.
      destruct n as [|n'].
      { exfalso. unfold zlen in E0. subst m. lia. }
      cbn [readFullLoop].
      replace (Z.of_nat m <=? zlen (r_buf r')) with false by (unfold zlen; lia).
      unfold io_Read at 1. cbn [ir_buf ir_length ir_readLength].
      replace (Z.of_nat m - zlen (r_buf r') <=? zlen (@nil Z)) with false
        by (unfold zlen; cbn [length]; lia).
      replace (r_length r' <=? r_readLength r') with true by lia. exact I. }
  match goal with |- context [readFullLoop ?f m ?a ?b ?c] =>
    change (readFullLoop f m a b c) with (readFullLoop f (S n) a b c) end.
  cbn [readFullLoop]. rewrite zlen_nil, Z.sub_0_r.
  replace (Z.of_nat m <=? 0) with false by lia. cbn [app].
  unfold io_Read at 1.
  pose proof S0 as [Hf Hs Hl Hrl Hb Hu1 Hu2 Hat].
  replace (Z.of_nat m <=? zlen (ir_buf i)) with (m <=? length (r_buf r))%nat
    by (rewrite Hb; unfold zlen; lia).
  rewrite Hl, Hrl.
  destruct (Nat.leb_spec m (length (r_buf r))) as [Hm|Hm].
  { cbn [rbind]. specialize (Tail i r S0 (or_introl Hm)).
    rewrite Hl, Hrl in Tail. exact Tail. }
  destruct (_ <=? _) eqn:El; [exact I|].
  pose proof (fill_sim bound (S (length (r_rest r))) m i r S0 (Forall_rest r i S0) ltac:(lia)) as L.
  destruct (io_fill F room inflate o bound (Z.of_nat m) i) as [i'| |],
           (fill inflate o (S (length (r_rest r))) m r) as [r'| |] eqn:E2;
    cbn [agree] in L; try contradiction; cbn [rbind]; [|exact I..].
  apply Tail; [exact L|]. eapply fill_end. eassumption.
Qed.

(** Every decoder sees the same. *)
Lemma run_sim {A} (p : prog A) : forall i r, sim i r ->
  agree (fun x y => fst x = fst y /\ sim (snd x) (snd y))
        (io_run F room inflate o bound p i) (r_run inflate o p r).
Proof.
  induction p as [a| | |k IH|n k IH]; intros i r S0; unfold io_run, r_run; cbn [runS].
  - cbn. auto.
  - exact I.
  - exact I.
  - pose proof (ReadByte_sim i r S0) as L.
    destruct (io_ReadByte F room inflate o i) as [[b i']| |], (r_ReadByte inflate o r) as [[b' r']| |];
      cbn [agree] in L; try contradiction; cbn [rbind]; [|exact I..].
    destruct L as [Eb S1]. cbn [fst snd] in Eb, S1. subst b'. apply IH. exact S1.
  - pose proof (ReadFull_sim n i r S0) as L.
    destruct (ReadFull (io_Read F room inflate o bound) (Z.of_nat n) i) as [[b i']| |], (r_ReadFull inflate o n r) as [[b' r']| |];
      cbn [agree] in L; try contradiction; cbn [rbind]; [|exact I..].
    destruct L as [Eb S1]. cbn [fst snd] in Eb, S1. subst b'. apply IH. exact S1.
Qed.

Lemma new_sim h p start len : at_ h p -> 0 <= start <= limit -> start < W63 -> is_u64 len ->
  exists i, io_newReader F h start len = Ok i /\ sim i (newReader content start len).
Proof.
  clear Hroom Hchunk Hbound room inflate o bound. intros Hat Hs Hs63 Hl. unfold io_newReader. rewrite i64_id by (unfold is_i64; lia).
  destruct ok as (_ & _ & Hseek & _). destruct (Hseek h p start Hat Hs) as (h1 & -> & Hat1).
  cbn [rbind]. eexists. split; [reflexivity|]. constructor; cbn; auto.
  { unfold is_u64; lia. } { eauto. }
Qed.

Lemma seek_sim chunk off i r : sim i r -> is_u64 chunk -> 0 <= r_start r + chunk <= limit -> r_start r + chunk < W63 ->
  agree sim (io_seek F room inflate o chunk off i) (r_seek inflate o chunk off r).
Proof.
  clear Hbound bound. intros [Hf Hs Hl Hrl Hb Hu1 Hu2 (p & Hat & Er)] Hc Hlim H63. unfold io_seek, r_seek.
  rewrite Hs, Hl, Hf. rewrite (u64_id (r_start r + chunk)) by (unfold is_u64; lia).
  rewrite i64_id by (unfold is_i64; lia).
  destruct ok as (_ & _ & Hseek & _). destruct (Hseek _ p _ Hat Hlim) as (h1 & -> & Hat1). cbn [rbind].
  match goal with |- agree _ (rbind (io_readAChunk _ _ _ _ ?a) _) (rbind (readAChunk _ _ ?b) _) =>
    assert (S1 : sim a b) by (constructor; cbn; auto; eauto);
    pose proof (readAChunk_sim a b S1) as L;
    destruct (io_readAChunk F room inflate o a) as [i'| |], (readAChunk inflate o b) as [r'| |] end;
    cbn [agree] in L; try contradiction; cbn [rbind]; [|exact I..].
  destruct L as [Hf' Hs' Hl' Hrl' Hb' Hu1' Hu2' Hat']. cbn [agree]. constructor; cbn; auto.
  rewrite Hb'. reflexivity.
Qed.
End Streams.
End Handle.

(** ** Opening *)
Section Open.
Context {H : Type} (F : handle H) (content : list Z) (at_ : H -> Z -> Prop).
Hypothesis ok : os_ok F content at_.

Lemma os_readAt from n h p : at_ h p -> 0 <= n ->
  if (from <? 0) || (zlen (zdrop from content) <? n) then readAt F from n h = Err
  else exists h', readAt F from n h = Ok (ztake n (zdrop from content), h') /\ at_ h' (from + n).
Proof.
  intros Hat Hn. destruct (Z.ltb_spec from 0) as [Hf|Hf]; cbn [orb].
  - unfold readAt. destruct ok as (_ & Hneg). rewrite Hneg by lia. reflexivity.
  - apply (readAt_ok F content from at_ (proj1 ok from) from n h p Hat); lia.
Qed.

Context (inflate : list Z -> res (list Z)) (ST : Type) (unmarshalPS : list Z -> res postscript)
        (unmarshalFooter : list Z -> res (footer ST)) (unmarshalSF : list Z -> res stripeFooter).

Lemma extractFileTail_sim h p : at_ h p -> zlen content < W63 ->
  io_extractFileTail F inflate unmarshalPS unmarshalFooter h =
  extractFileTail inflate unmarshalPS unmarshalFooter content.
Proof.
  clear unmarshalSF. intros Hat H63. unfold io_extractFileTail, extractFileTail.
  pose proof (zlen_nonneg content) as H0.
  destruct (proj1 ok 0) as (_ & _ & _ & Hsize). rewrite (Hsize _ _ Hat). cbn [rbind].
  destruct (Z.eqb_spec (zlen content) 0); [reflexivity|].
  destruct (Z.leb_spec (zlen content) 3); [reflexivity|].
  set (size := zlen content) in *. set (readSize := Z.min size 16384).
  pose proof (os_readAt (size - readSize) readSize h p Hat ltac:(lia)) as L.
  rewrite zlen_zdrop' in L by lia. fold size in L.
  replace (_ || _) with false in L by lia. destruct L as (h1 & -> & Hat1). cbn [rbind].
  rewrite ztake_all by (rewrite zlen_zdrop' by lia; fold size; lia).
  set (buf := zdrop (size - readSize) content).
  set (psLen := nth _ buf 0). destruct (_ <? 0); [reflexivity|].
  destruct (unmarshalPS _) as [ps| |]; cbn [rbind]; [|reflexivity..].
  set (extra := Z.max 0 _).
  assert (He : 0 <= extra < W63).
  { subst extra. pose proof (i64_range (psLen + 1 + i64 (p_footerLength ps) + i64 (p_metadataLength ps) - readSize)) as R.
    unfold is_i64 in R. lia. }
  destruct (Z.ltb_spec 0 extra) as [Hex|Hex]; [|reflexivity].
  pose proof (os_readAt (i64 (size - readSize - extra)) extra h1 _ Hat1 ltac:(lia)) as L.
  rewrite i64_id in * by (unfold is_i64; lia).
  destruct (Z.ltb_spec (size - readSize - extra) 0) as [Hneg|Hneg]; cbn [orb] in L.
  - rewrite L. reflexivity.
  - rewrite zlen_zdrop' in L by lia. fold size in L. replace (_ <? extra) with false in L by lia.
    destruct L as (h2 & -> & _). reflexivity.
Qed.

Lemma openStripe_sim k i h p : at_ h p -> 0 <= FooterLength i ->
  openStripe inflate unmarshalSF k content i =
  (let! (sf, _) := io_readFooter F inflate unmarshalSF k i h in
   Ok (sf_columns sf, streamStarts (Offset i) (u64 (Offset i + IndexLength i)) (sf_streams sf))).
Proof.
  clear unmarshalPS unmarshalFooter ST. intros Hat Hl. unfold openStripe, io_readFooter.
  pose proof (os_readAt (i64 (Offset i + IndexLength i + DataLength i)) (FooterLength i) h p Hat Hl) as L.
  set (from := i64 _) in *. destruct (from <? 0); cbn [orb] in L; [rewrite L; reflexivity|].
  destruct (_ <? FooterLength i); [rewrite L; reflexivity|].
  destruct L as (h1 & -> & _). cbn [rbind].
  destruct k; cbn [rbind]; try (destruct (DecompressChunks _ _ _); cbn [rbind]; try reflexivity);
    destruct (unmarshalSF _); reflexivity.
Qed.

Lemma readFooter_at k i h p sf h' : at_ h p -> 0 <= FooterLength i ->
  io_readFooter F inflate unmarshalSF k i h = Ok (sf, h') -> exists p', at_ h' p'.
Proof.
  intros Hat Hl E. unfold io_readFooter in E.
  pose proof (os_readAt (i64 (Offset i + IndexLength i + DataLength i)) (FooterLength i) h p Hat Hl) as L.
  destruct (_ || _); [rewrite L in E; discriminate|]. destruct L as (h1 & E1 & Hat1). rewrite E1 in E.
  cbn [rbind] in E. apply rbind_inv in E as (fb & _ & E). apply rbind_inv in E as (s & _ & E).
  injection E as _ <-. eauto.
Qed.
End Open.

(** ** The two files of orc/io *)
Lemma osFile_ok {H} (os : handle H) content at_ : os_ok os content at_ -> os_ok (osFile os) content at_.
Proof.
  intros (Hok & Hneg). split; [|exact Hneg]. intros limit. destruct (Hok limit) as (H1 & H2 & H3 & H4).
  split; [exact H1|]. split; [|split; [exact H3|exact H4]].
  intros h p k Hat Hk. destruct (H2 h p k Hat Hk) as (d & e & h' & Er & Hd & Eu & Hat' & He1 & He2).
  exists d, (match e with Some e => Some (WithStack e) | None => None end), h'.
  cbn [osFile h_Read]. rewrite Er. split; [reflexivity|].
  split; [exact Hd|]. split; [exact Eu|]. split; [exact Hat'|].
  destruct e as [e|]; split; intros X.
  - discriminate X.
  - apply He2. discriminate.
  - apply He1. reflexivity.
  - congruence.
Qed.

(** MockFile is such a file while its buffer is larger than what was written to it. *)
Definition mock_at (buf : list Z) (w : Z) (m : mock) (p : Z) : Prop :=
  m = {| m_buf := buf; m_offset := p; m_waterMark := w |} /\ 0 <= p <= w.
Lemma mock_ok buf w : 0 <= w < zlen buf -> file_ok mockFile (ztake w buf) w (mock_at buf w).
Proof.
  intros Hw. split; [intros m p (_ & Hp); lia|]. split; [|split].
  - intros m p k (-> & Hp) Hk. cbn [mockFile h_Read]. unfold mock_Read. cbn [m_offset m_waterMark m_buf].
    replace (_ || _) with false by lia.
    set (U := zdrop p (ztake w buf)).
    assert (EU : ztake (w - p) (zdrop p buf) = U).
    { subst U. unfold ztake, zdrop. rewrite skipn_firstn_comm. f_equal. lia. }
    rewrite EU.
    assert (HU : zlen U = w - p).
    { subst U. rewrite zlen_zdrop' by lia. rewrite zlen_ztake by lia. lia. }
    set (d := ztake k U).
    assert (Hd : zlen d = Z.min k (w - p)).
    { subst d. rewrite <- HU. unfold ztake, zlen. rewrite firstn_length. lia. }
    eexists d, _, _. split; [reflexivity|]. split; [lia|].
    assert (Eu : U = d ++ zdrop (p + zlen d) (ztake w buf)).
    { rewrite <- (zdrop_zdrop (zlen d) p) by lia. fold U. subst d.
      rewrite <- (ztake_zdrop k U) at 1. f_equal.
      destruct (Z.le_gt_cases k (w - p)).
      - f_equal. lia.
      - rewrite !zdrop_all by lia. reflexivity. }
    split; [exact Eu|]. split; [split; [reflexivity|lia]|].
    destruct ((p + zlen d =? zlen buf - 1) || (zlen d =? 0)) eqn:Ee; split; intros X; try congruence.
    + apply zdrop_all. rewrite zlen_ztake by lia. lia.
    + intros ->. rewrite zlen_nil in Ee. lia.
  - intros m p off (-> & Hp) Hoff. cbn [mockFile h_Seek]. unfold mock_Seek. cbn [m_buf m_waterMark].
    replace (zlen buf <=? off) with false by lia.
    eexists. split; [reflexivity|]. split; [reflexivity|lia].
  - intros m p (-> & Hp). cbn [mockFile h_Size m_waterMark]. rewrite zlen_ztake by lia. reflexivity.
Qed.

(** What was written to a MockFile with room is what it holds. *)
Lemma mock_write buf w p q m : mock_at buf w m q -> w + zlen p < zlen buf ->
  exists buf', mock_Write p m = (zlen p, true, {| m_buf := buf'; m_offset := q; m_waterMark := w + zlen p |}) /\
    zlen buf' = zlen buf /\ ztake (w + zlen p) buf' = ztake w buf ++ p.
Proof.
  intros (-> & Hq) Hp. pose proof (zlen_nonneg p). unfold mock_Write. cbn [m_buf m_offset m_waterMark].
  replace (Z.min (zlen p) (zlen buf - w)) with (zlen p) by lia.
  replace (zlen p <? zlen p) with false by lia. eexists. split; [reflexivity|].
  rewrite (ztake_all (zlen p)) by lia. split.
  - rewrite !zlen_app, zlen_ztake, zlen_zdrop by lia. lia.
  - rewrite app_assoc. apply ztake_exact. rewrite zlen_app, zlen_ztake by lia. lia.
Qed.

Lemma session_sim {H A} F (content : list Z) limit at_ (ok : @file_ok H F content limit at_) room inflate o bound
  (Hroom : forall i, 0 < room i) (Hc : 1 <= ChunkSize o < W63) (Hb : (length content < bound)%nat) start :
  0 <= start -> W63 <= limit ->
  forall (l : list (op A)) i r, sim content at_ i r -> r_start r = start -> Forall (op_ok start) l ->
  session (io_run F room inflate o bound) (io_seek F room inflate o) l i =
  session (r_run inflate o) (r_seek inflate o) l r.
Proof.
  intros Hs Hlim. induction l as [|x l IH]; intros i r S0 Es Hl; cbn [session]; [reflexivity|].
  pose proof (Forall_inv Hl) as Hx; pose proof (Forall_inv_tail Hl) as Hl'. destruct x as [p|c off]; cbn [op_ok] in Hx.
  - pose proof (run_sim F content limit at_ ok room inflate o bound Hroom Hc Hb p i r S0) as L.
    destruct (io_run F room inflate o bound p i) as [[a i']| |], (r_run inflate o p r) as [[a' r']| |] eqn:Er;
      cbn [agree] in L; try contradiction; cbn [rbind]; [|reflexivity..].
    destruct L as [Ea S1]. cbn [fst snd] in Ea, S1. subst a'.
    rewrite (IH i' r' S1); [reflexivity| |exact Hl'].
    assert (Hst : forall B (q : prog B) s s' b, r_run inflate o q s = Ok (b, s') -> r_start s' = r_start s).
    { clear. intros B q. induction q as [a| | |k IH|n k IH]; intros s s' b E; unfold r_run in E; cbn [runS] in E.
      - injection E as _ <-. reflexivity.
      - discriminate.
      - discriminate.
      - apply rbind_inv in E as ([x s1] & E1 & E). apply IH in E. rewrite E.
        revert E1. clear. unfold r_ReadByte.
        assert (Hch : forall t t', readAChunk inflate o t = Ok t' -> r_start t' = r_start t).
        { intros t t' E. unfold readAChunk in E.
          destruct (CompressionKind o); [apply rbind_inv in E as ([? ?] & _ & E); injection E as <-; reflexivity|..];
          destruct (r_rest t) as [|h0 [|h1 [|h2 rest]]]; try discriminate E;
          destruct (DecChunkHeader h0 h1 h2); destruct (_ <? _); try discriminate E;
          apply rbind_inv in E as ([? ?] & _ & E); apply rbind_inv in E as (? & _ & E); injection E as <-; reflexivity. }
        destruct (r_buf s).
        + destruct (_ <=? _); [discriminate|]. intros E. apply rbind_inv in E as (t & Et & E).
          destruct (r_buf t); [discriminate|]. injection E as _ <-. cbn. apply Hch. exact Et.
        + intros E. injection E as _ <-. reflexivity.
      - apply rbind_inv in E as ([x s1] & E1 & E). apply IH in E. rewrite E.
        revert E1. clear. unfold r_ReadFull.
        assert (Hch : forall t t', readAChunk inflate o t = Ok t' -> r_start t' = r_start t).
        { intros t t' E. unfold readAChunk in E.
          destruct (CompressionKind o); [apply rbind_inv in E as ([? ?] & _ & E); injection E as <-; reflexivity|..];
          destruct (r_rest t) as [|h0 [|h1 [|h2 rest]]]; try discriminate E;
          destruct (DecChunkHeader h0 h1 h2); destruct (_ <? _); try discriminate E;
          apply rbind_inv in E as ([? ?] & _ & E); apply rbind_inv in E as (? & _ & E); injection E as <-; reflexivity. }
        assert (Hfill : forall f m t t', fill inflate o f m t = Ok t' -> r_start t' = r_start t).
        { induction f as [|f IHf]; intros m t t' E; cbn [fill] in E; destruct (_ && _); try discriminate.
          - injection E as <-. reflexivity.
          - apply rbind_inv in E as (t1 & E1 & E). apply IHf in E. apply Hch in E1. congruence.
          - injection E as <-. reflexivity. }
        destruct (Nat.eqb n 0); [intros E; injection E as _ <-; reflexivity|].
        intros E. apply rbind_inv in E as (t & Et & E). destruct (_ <=? _)%nat in E; [|discriminate].
        injection E as _ <-. cbn. destruct (_ <=? _)%nat in Et.
        + injection Et as <-. reflexivity.
        + destruct (_ <=? _) in Et; [discriminate|]. eapply Hfill. exact Et. }
    rewrite (Hst _ _ _ _ _ Er). exact Es.
  - destruct Hx as [Hcu Hc63].
    pose proof (seek_sim F content limit at_ ok room inflate o Hroom Hc c off i r S0 Hcu) as L.
    rewrite Es in L. unfold is_u64 in Hcu. specialize (L ltac:(lia) Hc63).
    destruct (io_seek F room inflate o c off i) as [i'| |], (r_seek inflate o c off r) as [r'| |] eqn:Er;
      cbn [agree] in L; try contradiction; cbn [rbind]; [|reflexivity..].
    apply IH; [exact L| |exact Hl'].
    unfold r_seek in Er. apply rbind_inv in Er as (t & Et & Er). injection Er as <-. cbn.
    unfold readAChunk in Et. cbn in Et.
    destruct (CompressionKind o); [apply rbind_inv in Et as ([? ?] & _ & E); injection E as <-; exact Es|..];
          destruct (zdrop _ (r_file r)) as [|h0 [|h1 [|h2 rest]]]; try discriminate Et;
          destruct (DecChunkHeader h0 h1 h2); destruct (_ <? _); try discriminate Et;
          apply rbind_inv in Et as ([? ?] & _ & E); apply rbind_inv in E as (? & _ & E); injection E as <-; exact Es.
Qed.
