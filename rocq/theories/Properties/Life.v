(** C76: a writer before and after Close. *)
From Verif.Model Require Import Go Chunk Stream Schema Rows Time File Column Wire Assembled Io Life.
From Verif.Spec Require Import ChunkSpec FileSpec AssemblySpec IoSpec LifeSpec.
From Verif.Proofs Require Import Base ChunkP IoOutP LifeP.
From Verif.Properties Require Import Columns File.

(** If no call of a client has reported an error, the file holds the batches written before
    Close, whatever was called after it; and Close was not called again. *)
Theorem C76_file_is_final : forall W (osWrite : list Z -> W -> Z * bool * W) osClose osCreate disk dead deflate F o stride P
    StripeSize schema vs l f g f',
  appends osWrite disk -> ends osWrite osClose dead -> (forall f, disk (snd (osClose f)) = disk f) ->
  osCreate f = (true, g) -> disk g = [] ->
  whole osWrite osClose osCreate deflate (columns deflate F o stride) (c_Streams o) P o StripeSize schema
    (map UWrite vs ++ UClose :: l) f = Ok f' ->
  closed deflate (columns deflate F o stride) P o StripeSize schema vs (disk f') /\ ~ In UClose l.
Proof.
  intros W osWrite osClose osCreate disk dead deflate F o stride P sz schema vs l f g f' Ha He Hc Hcr Hg E.
  assert (Es : exists f1, whole osWrite osClose osCreate deflate (columns deflate F o stride) (c_Streams o) P o sz schema
                 (map UWrite vs ++ [UClose]) f = Ok f1 /\ f' = f1 /\ ~ In UClose l).
  { unfold whole in *. destruct (create _ _ _ schema f) as [[w| |] f0]; try discriminate E.
    change (map UWrite vs ++ UClose :: l) with (map UWrite vs ++ [UClose] ++ l) in E. rewrite app_assoc, uses_app in E.
    match type of E with rbind (rbind ?x _) _ = _ => destruct x as [[[w1 k1] f1]| |] eqn:E1 end; cbn [rbind] in E; try discriminate E.
    match type of E with rbind ?x _ = _ => destruct x as [[[w2 k2] f2]| |] eqn:E2 end; cbn [rbind] in E; try discriminate E.
    destruct (closed_uses osWrite osClose dead He deflate _ _ _ _ _ (map UWrite vs) l _ _ _ _ _ _ _ E1 E2) as [Hn ->].
    exists f1. injection E as <-. auto. }
  destruct Es as (f1 & E1 & -> & Hn). split; [|exact Hn].
  rewrite (whole_client _ _ _ _ _ _ _ _ _ _ _ _ _ Hcr) in E1.
  pose proof (client_ok osWrite osClose disk Ha (fun _ _ => True) (fun _ => I) (fun _ _ _ _ _ => I) (fun _ _ _ _ _ => I)
    deflate (columns deflate F o stride) (c_Streams o) P o sz (columns_streams deflate F o stride) schema vs g Hg) as L.
  rewrite E1 in L. destruct L as (h & Hh & _ & ->). rewrite Hc. exact Hh.
Qed.
Print Assumptions C76_file_is_final.

(** A Write after Close reports success exactly if it would not have completed a stripe;
    the file is not touched. *)
Theorem C76_accepted_iff : forall W (osWrite : list Z -> W -> Z * bool * W) osClose dead deflate F o stride P
    StripeSize m s w again f v x,
  ends osWrite osClose dead ->
  uses osWrite osClose deflate (columns deflate F o stride) (c_Streams o) P o StripeSize (m ++ [UClose]) s = Ok (w, again, f) ->
  (uses osWrite osClose deflate (columns deflate F o stride) (c_Streams o) P o StripeSize [UWrite v] (w, again, f) = Ok x <->
   exists w', x = (w', again, f) /\ write1 deflate (columns deflate F o stride) P o StripeSize w v = Ok w' /\
              sw_infos w' = sw_infos w).
Proof. intros W osWrite osClose dead deflate F o stride P sz m s w again f v x He E. exact (closed_write osWrite osClose dead He deflate _ _ _ _ _ m s w again f v x E). Qed.
Print Assumptions C76_accepted_iff.

(** So rows are accepted that are in no file. *)
Definition life (l : list (use value)) (f : osfile) : res osfile :=
  whole osf_Write osf_Close osf_Create toy_deflate (columns toy_deflate fl zl64 10) (c_Streams zl64) wire zl64 1000 sample_schema l f.
Theorem C76_refuted : exists vs v f, life (map UWrite vs ++ [UClose; UWrite v]) (true, []) = Ok (false, f) /\ vlen v <> O /\
  closed toy_deflate (columns toy_deflate fl zl64 10) wire zl64 1000 sample_schema vs f.
Proof.
  exists [sample_batch sample_rows], (sample_batch sample_rows), file1.
  assert (E : life (map UWrite [sample_batch sample_rows] ++ [UClose; UWrite (sample_batch sample_rows)]) (true, []) = Ok (false, file1)).
  { vm_compute. reflexivity. }
  split; [exact E|]. split; [discriminate|].
  exact (proj1 (C76_file_is_final osfile osf_Write osf_Close osf_Create snd _ toy_deflate fl zl64 10 wire 1000 sample_schema
    [sample_batch sample_rows] [UWrite (sample_batch sample_rows)] (true, []) (true, []) (false, file1)
    osf_appends osf_ends (fun _ => eq_refl) eq_refl eq_refl E)).
Qed.
Print Assumptions C76_refuted.
(** With stripes of a byte the Write after Close would complete one and fails, as a second
    Close does. *)
Example C76_ex :
  whole osf_Write osf_Close osf_Create toy_deflate (columns toy_deflate fl zl64 10) (c_Streams zl64) wire zl64 1 sample_schema
    [UWrite (sample_batch sample_rows); UWrite (sample_batch sample_rows)] (true, []) <> Err /\
  whole osf_Write osf_Close osf_Create toy_deflate (columns toy_deflate fl zl64 10) (c_Streams zl64) wire zl64 1 sample_schema
    [UWrite (sample_batch sample_rows); UClose; UWrite (sample_batch sample_rows)] (true, []) = Err /\
  life [UWrite (sample_batch sample_rows); UClose; UClose] (true, []) = Err.
Proof. split; [vm_compute; discriminate|]. split; vm_compute; reflexivity. Qed.

(** A file that does not end, such as a MockFile, takes a second Close; then all rows of the
    last stripe are in the directory twice. *)
Definition mock_life (l : list (use value)) : res (list Z) :=
  let! m := whole mock_Write (fun m => (true, m)) (fun m => (true, m)) toy_deflate (columns toy_deflate fl zl64 10) (c_Streams zl64)
              wire zl64 1000 sample_schema l (NewMockFile (repeat 0 400)) in
  Ok (ztake (m_waterMark m) (m_buf m)).
Definition rows_of (file : list Z) : res (Z * list Z) :=
  let! r := newFileReader toy_inflate cs_hasNull unmarshalPS unmarshalFooter file in Ok (fr_rows r, map NumberOfRows (fr_stripes r)).
Theorem C76_closed_twice_refuted : exists f1 f2,
  mock_life [UWrite (sample_batch sample_rows); UClose] = Ok f1 /\ rows_of f1 = Ok (3, [3]) /\
  mock_life [UWrite (sample_batch sample_rows); UClose; UClose] = Ok f2 /\ rows_of f2 = Ok (6, [3; 3]).
Proof.
  eexists _, _. split; [vm_compute; reflexivity|]. split; [vm_compute; reflexivity|]. split; [vm_compute; reflexivity|].
  vm_compute. reflexivity.
Qed.
Print Assumptions C76_closed_twice_refuted.

(** Creating a writer leaves nothing of a file that was there, whether it succeeds or not. *)
Theorem C76_creation_empties : forall W (osWrite : list Z -> W -> Z * bool * W) osCreate disk deflate F o stride schema f g,
  appends osWrite disk -> osCreate f = (true, g) -> disk g = [] -> ~ faulty osWrite ->
  disk (snd (create osWrite osCreate (columns deflate F o stride) schema f)) = Magic \/
  disk (snd (create osWrite osCreate (columns deflate F o stride) schema f)) = [].
Proof.
  intros W osWrite osCreate disk deflate F o stride schema f g Ha Hc Hg Hw. unfold create, NewOSFileWriter. rewrite Hc.
  destruct (Flat schema); [|right; exact Hg..]. destruct (osWrite Magic g) as [[n ok] h] eqn:E.
  destruct ok; [|exfalso; apply Hw; exists Magic, g, n, h; exact E]. left. cbn [snd].
  destruct (Ha _ _ _ _ _ E) as [_ H]. destruct (H eq_refl) as [_ ->]. rewrite Hg. reflexivity.
Qed.
Print Assumptions C76_creation_empties.
(** Creation succeeds exactly if the file could be made, its first three bytes were written
    and the schema is one of columns that can be written; a file that cannot be made is an
    error, and nothing is written. *)
Theorem C76_creation_iff : forall W (osWrite : list Z -> W -> Z * bool * W) osCreate deflate F o stride schema f,
  ((exists w h, create osWrite osCreate (columns deflate F o stride) schema f = (Ok w, h)) <->
   (exists g n h, osCreate f = (true, g) /\ osWrite [79; 82; 67] g = (n, true, h)) /\
   exists ts cs, Flat schema = Ok ts /\ Forall2 (fun t c => i_New (columns deflate F o stride) t = Ok c) ts cs) /\
  forall g, osCreate f = (false, g) -> create osWrite osCreate (columns deflate F o stride) schema f = (Err, g).
Proof.
  intros W osWrite osCreate deflate F o stride schema f. split; [|intros g E; unfold create, NewOSFileWriter; rewrite E; reflexivity].
  assert (M : forall ts, (exists cs, mapM (i_New (columns deflate F o stride)) ts = Ok cs) <->
                         exists cs, Forall2 (fun t c => i_New (columns deflate F o stride) t = Ok c) ts cs).
  { induction ts as [|t ts IH]; [split; exists []; [constructor|reflexivity]|]. cbn [mapM]. split.
    - intros (cs & H). destruct (i_New (columns deflate F o stride) t) as [c| |] eqn:E; try discriminate. cbn [rbind] in H.
      destruct (mapM (i_New (columns deflate F o stride)) ts) as [cs'| |] eqn:E2; try discriminate.
      destruct (proj1 IH) as (cs2 & H2); [exists cs'; reflexivity|]. exists (c :: cs2). constructor; [exact E|exact H2].
    - intros (cs & H). inversion H as [|? c ? cs' H1 H2]; subst. rewrite H1. cbn [rbind].
      destruct (proj2 IH) as (cs2 & ->); [exists cs'; exact H2|]. eexists. reflexivity. }
  unfold create, NewOSFileWriter. split.
  - intros (w & h & H). destruct (osCreate f) as [[] g] eqn:E1; [|discriminate].
    destruct (Flat schema) as [ts| |] eqn:E2; try discriminate. destruct (osWrite Magic g) as [[n []] h'] eqn:E3; [|discriminate].
    destruct (mapM (i_New (columns deflate F o stride)) ts) as [cs| |] eqn:E4; cbn [rbind] in H; try discriminate.
    split; [exists g, n, h'; split; [reflexivity|exact E3]|]. destruct (proj1 (M ts)) as (cs2 & H2); [exists cs; exact E4|].
    exists ts, cs2. split; [reflexivity|exact H2].
  - intros [(g & n & h & -> & E3) (ts & cs & -> & H)]. destruct (proj2 (M ts)) as (cs2 & E4); [exists cs; exact H|].
    change [79; 82; 67] with Magic in E3. rewrite E3, E4. cbn [rbind]. eexists. eexists. reflexivity.
Qed.
Print Assumptions C76_creation_iff.
Example C76_creation_ex : exists w h, create osf_Write osf_Create (columns toy_deflate fl zl64 10) sample_schema (true, file1) = (Ok w, h) /\ snd h = [79; 82; 67].
Proof. eexists. eexists. split; vm_compute; reflexivity. Qed.
(** Asked for a list, which it cannot write, it fails and the file is lost. *)
Definition list_schema : td := Td 0 LIST [] 2 false [Td 1 INT [] 2 false []].
Theorem C76_creation_refuted : exists schema f',
  create osf_Write osf_Create (columns toy_deflate fl zl64 10) schema (true, file1) = (Err, f') /\ snd f' = [79; 82; 67].
Proof. exists list_schema. eexists. split; vm_compute; reflexivity. Qed.
Print Assumptions C76_creation_refuted.
