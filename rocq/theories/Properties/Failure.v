(** C74: what Writes that return an error leave in the file. *)
From Coq Require Import ZifyBool ZifyNat.
From Verif.Model Require Import Go Chunk Stream Schema Rows Time File Column Wire Assembled Failure.
From Verif.Spec Require Import ChunkSpec StreamSpec SchemaSpec RowsSpec FileSpec ColumnSpec AssemblySpec EndSpec FailureSpec RefusalSpec.
From Verif.Proofs Require Import Base StreamP OpenBatchP FailureP FailureFileP FailureRowsP RefusalP.
From Verif.Properties Require Import Columns File End.

(** Keeping the state after an error changes no result. *)
Theorem C74_same_results : forall deflate F o stride StripeSize w v,
  write1 deflate (columns deflate F o stride) wire o StripeSize w v =
  match write_left deflate F o stride StripeSize w v with Done w' => Ok w' | Failed _ => Err | Crashed => Panic end.
Proof. intros. symmetry. apply WriteL_plain. Qed.
Print Assumptions C74_same_results.

(** A value of another type is an error in columns of floats, doubles, strings and binaries,
    and a panic in the others; in the former, which refuse these values only, a column
    without PRESENT stream is as it was before. *)
Theorem C74_wrong_type : forall deflate F o stride id k v, Null v = false -> ~ right_type k (V v) ->
  c_Write deflate F o stride (newColW o id k false) v = (if returns_errors k then Err else Panic).
Proof. intros deflate F o stride id k [[] v] H Hr; [discriminate|]. destruct k, v; first [exfalso; apply Hr; exact I|reflexivity]. Qed.
Print Assumptions C74_wrong_type.
Theorem C74_refuses : forall k v, refuses k v = true <-> returns_errors k = true /\ ~ right_type k v.
Proof.
  intros k v. split; [intros H; destruct k, v; try discriminate H; (split; [reflexivity|intros []]) |].
  intros [H Hr]. destruct k, v; try discriminate H; try reflexivity; exfalso; apply Hr; exact I.
Qed.
Print Assumptions C74_refuses.
Theorem C74_left : forall deflate o c v, Null v = false -> refuses (cw_kind c) (V v) = true -> cw_present c = None ->
  c_Left deflate o c v = Some c.
Proof. intros deflate o [i k p d s n is ix f pd] v Hn Hr Hp. unfold c_Left. cbn in *. rewrite Hn, Hr, Hp. reflexivity. Qed.
Print Assumptions C74_left.

(** The stripes of a file after any sequence of Writes, successful or not, and what is
    read from them: per column the values given to it, as many as rows were counted.
    Partial: the schema has no nullable column that returns errors ([plain_refusals]),
    and the columns read are those of C50. *)
Theorem C74_outcome_partial : forall deflate inflate F o stride StripeSize schema l file r bopt,
  flate_ok deflate inflate -> tried_and_opened deflate inflate F o stride StripeSize schema l file r ->
  plain_refusals schema -> readable_schema bopt false schema = true -> IsInclude bopt 0 = true -> RowSize bopt <> 0 ->
  exists ps g, Attempts (refused_by schema) l ([], empty_page) (ps, g) /\
    forall ls last, Forall2 reads_as (ps ++ [g]) (ls ++ [last]) -> zlen (concat (ls ++ [last])) < 2 ^ 62 ->
    comes_back inflate bopt schema file r ls last (map pg_cells (ps ++ [g])).
Proof.
  intros deflate inflate F o stride StripeSize schema l file r bopt Hfl (Hcs & (t0 & Hsz & Hn) & Ht & Hf & Ho) Hp H1 H2 H3.
  exact (tried_read deflate inflate F o stride StripeSize Hfl Hcs t0 schema l file Hsz Hn Hp Ht Hf r Ho bopt H1 H2 H3).
Qed.
Print Assumptions C74_outcome_partial.

(** A Write fails exactly when it holds a value a column refuses. *)
Theorem C74_fails_iff : forall V (refused : nat -> V -> Prop) v q b q', Attempt refused v 0 0 q b q' ->
  (b = true -> forall i, (i < vlen v)%nat -> exists p, cells i v = Some p /\ accepted refused p) /\
  (b = false -> exists i p id y, stops refused v i p id y).
Proof.
  intros V refused v q b q' H.
  assert (G : forall i n q b q', Attempt refused v i n q b q' ->
    (b = true -> forall j, (i <= j < vlen v)%nat -> exists p, cells j v = Some p /\ accepted refused p) /\
    (b = false -> exists i p id y, stops refused v i p id y)).
  { clear. induction 1 as [n ps g|i n ps g p b q Hi Hc Ha _ [I1 I2]|i n ps g p b q Hi Hc Ha _ [I1 I2]|i n ps g a id l y rest p Hi Hv Ha Hacc Hy Hr].
    - split; [intros _ j Hj; lia|discriminate].
    - split; [|exact I2]. intros Hb j Hj. destruct (Nat.eq_dec j i) as [->|]; [exists p; auto|]. apply (I1 Hb). lia.
    - split; [|exact I2]. intros Hb j Hj. destruct (Nat.eq_dec j i) as [->|]; [exists p; auto|]. apply (I1 Hb). lia.
    - split; [discriminate|]. intros _. exists i, p, id, y. split; [exact Hi|]. split; [exists a, l, rest; auto|]. auto. }
  destruct (G _ _ _ _ _ H) as [G1 G2]. split; [|exact G2]. intros Hb i Hi. apply (G1 Hb). lia.
Qed.
Print Assumptions C74_fails_iff.

(** A client that closes the file after its first error: the stripes count the rows of the
    Writes that succeeded and, of the batch that failed, those rows [rs] that had gone into
    a stripe already ended; the rows [more] after them and the cells [p] of the failing row
    are in the columns of the last stripe but not counted, hence not read.  If there are
    such rows [rs], the last stripe is empty. *)
Theorem C74_give_up_partial : forall deflate inflate F o stride StripeSize schema vs v rows file r bopt,
  flate_ok deflate inflate ->
  tried_and_opened deflate inflate F o stride StripeSize schema (map (fun v => (v, true)) vs ++ [(v, false)]) file r ->
  plain_refusals schema -> readable_schema bopt false schema = true -> IsInclude bopt 0 = true -> RowSize bopt <> 0 ->
  Rows vs rows -> zlen rows + Z.of_nat (vlen v) < 2 ^ 62 ->
  exists rs more p id y ls last, Forall2 (fun i r => cells i v = Some r) (seq 0 (length (rs ++ more))) (rs ++ more) /\
    stops (refused_by schema) v (length (rs ++ more)) p id y /\ rows ++ rs = concat (ls ++ [last]) /\
    (rs = [] \/ last = []) /\ comes_back inflate bopt schema file r ls last (ls ++ [last ++ more ++ [p]]).
Proof.
  intros deflate inflate F o stride StripeSize schema vs v rows file r bopt Hfl (Hcs & (t0 & Hsz & Hn) & Ht & Hf & Ho) Hp H1 H2 H3 H4 H5.
  exact (gives_up deflate inflate F o stride StripeSize Hfl Hcs t0 schema file Hsz Hn Hp Hf r Ho bopt H1 H2 H3 vs v rows Ht H4 H5).
Qed.
Print Assumptions C74_give_up_partial.

(** So either the file cannot be read at all, or it counts the rows of the successful
    Writes and no other. *)
Theorem C74_give_up_all_or_none_partial : forall deflate inflate F o stride StripeSize schema vs v rows file r bopt,
  flate_ok deflate inflate ->
  tried_and_opened deflate inflate F o stride StripeSize schema (map (fun v => (v, true)) vs ++ [(v, false)]) file r ->
  plain_refusals schema -> readable_schema bopt false schema = true -> IsInclude bopt 0 = true -> RowSize bopt <> 0 ->
  Rows vs rows -> zlen rows + Z.of_nat (vlen v) < 2 ^ 62 ->
  openBatches inflate bopt file = Err \/
  exists ls last, rows = concat (ls ++ [last]) /\ Forall (fun l => l <> []) (ls ++ [last]) /\
    map NumberOfRows (fr_stripes r) = map zlen (ls ++ [last]).
Proof.
  intros deflate inflate F o stride StripeSize schema vs v rows file r bopt Hfl Ht Hp H1 H2 H3 H4 H5.
  destruct (C74_give_up_partial deflate inflate F o stride StripeSize schema vs v rows file r bopt Hfl Ht Hp H1 H2 H3 H4 H5)
    as (rs & more & p & id & y & ls & last & _ & _ & E & Hor & B1 & B2 & _).
  assert (Dec : Forall (fun l : list (row value) => l <> []) (ls ++ [last]) \/ ~ Forall (fun l : list (row value) => l <> []) (ls ++ [last])).
  { generalize (ls ++ [last]). intros l. induction l as [|[|a b] l IH]; [left; constructor|right; intros H; inversion H; congruence|].
    destruct IH as [IH|IH]; [left; constructor; [discriminate|exact IH]|right; intros H; inversion H; auto]. }
  destruct Dec as [Hne|He]; [right|left; exact (B2 He)].
  assert (rs = []) as ->. { destruct Hor as [Hor|Hor]; [exact Hor|]. apply Forall_app in Hne. destruct Hne as [_ Hne]. inversion Hne; congruence. }
  rewrite app_nil_r in E. exists ls, last. auto.
Qed.
Print Assumptions C74_give_up_all_or_none_partial.

(** Where every failing Write fails at its very first value, the file holds exactly the
    rows of the Writes that succeeded (storable rows satisfy [given_ok]). *)
Theorem C74_refused_at_once_partial : forall deflate inflate F o stride StripeSize schema l rows file r bopt,
  flate_ok deflate inflate -> tried_and_opened deflate inflate F o stride StripeSize schema l file r ->
  plain_refusals schema -> readable_schema bopt false schema = true -> IsInclude bopt 0 = true -> RowSize bopt <> 0 ->
  Forall (fun x => snd x = true \/ stops_at_once (refused_by schema) (fst x)) l ->
  Rows (map fst (filter snd l)) rows -> zlen rows < 2 ^ 62 ->
  exists ls last, rows = concat (ls ++ [last]) /\ comes_back inflate bopt schema file r ls last (ls ++ [last]) /\
    forall t p, storable t p (ls ++ [last]) -> given_ok t (ls ++ [last]).
Proof.
  intros deflate inflate F o stride StripeSize schema l rows file r bopt Hfl (Hcs & (t0 & Hsz & Hn) & Ht & Hf & Ho) Hp H1 H2 H3 H4 H5 H6.
  destruct (refused_at_once deflate inflate F o stride StripeSize Hfl Hcs t0 schema file Hsz Hn Hp Hf r Ho bopt H1 H2 H3 l rows Ht H4 H5 H6) as (ls & last & E & B).
  exists ls, last. split; [exact E|]. split; [exact B|]. intros t p. apply storable_given.
Qed.
Print Assumptions C74_refused_at_once_partial.

(** ** Nullable columns *)
(** A nullable column keeps a PRESENT bit for every value offered, but a value only for those
    taken: from a refused value on, a row that is there gives the value of the next row
    taken that was.  Any sequence of values, any options; first stripe. *)
Theorem C74_nullable_partial : forall deflate inflate o, supported o -> flate_ok deflate inflate ->
  forall F stride id k l c bs infos, readable k = true -> Offered deflate F o stride (newColW o id k true) l c ->
  Forall (typed k) (nonnull (rows_of (taken l))) -> carried k (nonnull (rows_of (taken l))) ->
  put_out deflate o c = Ok (bs, infos) ->
  reads_back inflate o k true bs infos (drawn (there (map fst l)) (nonnull (rows_of (taken l)))).
Proof. exact refused_column. Qed.
Print Assumptions C74_nullable_partial.
(** So the rows taken come back, in front of others, exactly if their bits are the first
    ones: each of the rows taken is null like the value offered at its place. *)
Theorem C74_nullable_iff_partial : forall l,
  (exists x, drawn (there (map fst l)) (nonnull (rows_of (taken l))) = rows_of (taken l) ++ x) <->
  firstn (length (taken l)) (there (map fst l)) = there (taken l).
Proof. exact right_iff. Qed.
Print Assumptions C74_nullable_iff_partial.
Theorem C74_nullable_no_nulls_partial : forall l, Forall (fun q => Null (fst q) = false) l ->
  drawn (there (map fst l)) (nonnull (rows_of (taken l))) = rows_of (taken l).
Proof. exact right_no_nulls. Qed.
Print Assumptions C74_nullable_no_nulls_partial.

Fixpoint offer (o : opts) (c : colW) (vs : list value) : option (list (value * bool) * colW) :=
  match vs with
  | [] => Some ([], c)
  | v :: r =>
      match c_Write toy_deflate fl o 10 c v with
      | Ok c1 => option_map (fun p => ((v, true) :: fst p, snd p)) (offer o c1 r)
      | Err => match c_Left toy_deflate o c v with
               | Some c1 => option_map (fun p => ((v, false) :: fst p, snd p)) (offer o c1 r)
               | None => None end
      | Panic => None
      end
  end.
Lemma offer_Offered o vs : forall c l c', offer o c vs = Some (l, c') -> Offered toy_deflate fl o 10 c l c'.
Proof.
  induction vs as [|v r IH]; intros c l c' H; cbn [offer] in H.
  - injection H as <- <-. constructor.
  - destruct (c_Write toy_deflate fl o 10 c v) as [c1| |] eqn:E; try discriminate.
    + destruct (offer o c1 r) as [[l2 c2]|] eqn:E2; cbn [option_map fst snd] in H; [|discriminate]. injection H as <- <-.
      econstructor; [exact E|]. apply IH. exact E2.
    + destruct (c_Left toy_deflate o c v) as [c1|] eqn:E1; [|discriminate].
      destruct (offer o c1 r) as [[l2 c2]|] eqn:E2; cbn [option_map fst snd] in H; [|discriminate]. injection H as <- <-.
      eapply OfferedRefused; [exact E|exact E1|]. apply IH. exact E2.
Qed.
(** Refuted: a number for a nullable column of strings, which is refused; then a null and a
    string, which are taken.  They come back as the string and a null. *)
Theorem C74_nullable_refuted : exists l c bs infos r outs r',
  Offered toy_deflate fl zl64 10 (newColW zl64 3 KString true) l c /\
  map snd l = [false; true; true] /\ rows_of (taken l) = [None; Some (GString [97])] /\
  put_out toy_deflate zl64 c = Ok (bs, infos) /\
  InitStreams ([1; 2; 3] ++ bs) (newColR KString true) (offsets 3 infos) = Ok r /\
  readBatches toy_inflate zl64 r [blank 2] = Ok (outs, r') /\ map rows_of outs = [[Some (GString [97]); None]].
Proof.
  destruct (offer zl64 (newColW zl64 3 KString true) [val (GInt64 0); vnull; val (GString [97])]) as [[l c]|] eqn:E;
    [|exfalso; vm_compute in E; discriminate E].
  pose proof (offer_Offered _ _ _ _ _ E) as Ho.
  destruct (put_out toy_deflate zl64 c) as [[bs infos]| |] eqn:Ep;
    [|exfalso; vm_compute in E; injection E as <- <-; vm_compute in Ep; discriminate Ep..].
  exists l, c, bs, infos. vm_compute in E. injection E as <- <-. vm_compute in Ep. injection Ep as <- <-.
  eexists. eexists. eexists. split; [exact Ho|]. split; [reflexivity|]. split; [reflexivity|]. split; [vm_compute; reflexivity|].
  split; [vm_compute; reflexivity|]. split; [vm_compute; reflexivity|]. reflexivity.
Qed.
Print Assumptions C74_nullable_refuted.
(** The case of the theorems: two refused values around a null, among doubles.  The rows
    taken are 1, null, 2, 3; those read back 1, 2, null, 3. *)
Example C74_nullable_ex :
  exists l c bs infos, offer zl64 (newColW zl64 3 KDouble true)
    [val (GDouble 1); val (GInt64 0); vnull; val (GDouble 2); val (GInt64 0); val (GDouble 3)] = Some (l, c) /\
  put_out toy_deflate zl64 c = Ok (bs, infos) /\ readable KDouble = true /\
  Forall (typed KDouble) (nonnull (rows_of (taken l))) /\ carried KDouble (nonnull (rows_of (taken l))) /\
  rows_of (taken l) = [Some (GDouble 1); None; Some (GDouble 2); Some (GDouble 3)] /\
  drawn (there (map fst l)) (nonnull (rows_of (taken l))) = [Some (GDouble 1); Some (GDouble 2); None; Some (GDouble 3)].
Proof.
  destruct (offer zl64 (newColW zl64 3 KDouble true) _) as [[l c]|] eqn:E; [|exfalso; vm_compute in E; discriminate E].
  destruct (put_out toy_deflate zl64 c) as [[bs infos]| |] eqn:Ep;
    [|exfalso; vm_compute in E; injection E as <- <-; vm_compute in Ep; discriminate Ep..].
  exists l, c, bs, infos. split; [reflexivity|]. split; [exact Ep|]. vm_compute in E. injection E as <- <-.
  split; [reflexivity|]. split; [|split; [exact I|split; reflexivity]].
  repeat (constructor; [split; [discriminate|reflexivity]|]). constructor.
Qed.

(** ** Files *)
(** A bigint and a string column, neither nullable. *)
Definition pair_schema : td := Td 0 STRUCT [[97]; [98]] 0 false [Td 1 LONG [] 2 false []; Td 2 STRING [] 2 false []].
Definition wrong : value := val (GInt64 0).
Definition text (c : Z) : value := val (GString [c]).
Definition int (x : Z) : value := val (GInt64 x).
(** The Writes of the batches, going on after errors, with their results; then Close. *)
Fixpoint attempt (sz : Z) (w : stripeW colW) (l : list (cvec value)) : option (stripeW colW * list (cvec value * bool)) :=
  match l with
  | [] => Some (w, [])
  | v :: l => match write_left toy_deflate fl zl64 10 sz w v with
              | Done w1 => option_map (fun p => (fst p, (v, true) :: snd p)) (attempt sz w1 l)
              | Failed (Some w1) => option_map (fun p => (fst p, (v, false) :: snd p)) (attempt sz w1 l)
              | _ => None
              end
  end.
Lemma attempt_Tries sz l : forall w w' q, attempt sz w l = Some (w', q) -> Tries (write_left toy_deflate fl zl64 10 sz) w q w'.
Proof.
  induction l as [|v l IH]; intros w w' q H; cbn [attempt] in H.
  - injection H as <- <-. constructor.
  - destruct (write_left _ _ _ _ _ w v) as [w1|[w1|]|] eqn:E; try discriminate;
      (destruct (attempt sz w1 l) as [[w2 q2]|] eqn:E2; cbn [option_map fst snd] in H; [|discriminate]; injection H as <- <-).
    + eapply TriesDone; [exact E|]. apply IH. exact E2.
    + eapply TriesFailed; [exact E|]. apply IH. exact E2.
Qed.
Definition kept_file (sz : Z) (schema : td) (l : list (cvec value)) : list Z :=
  match newFileWriter (i_New (columns toy_deflate fl zl64 10)) schema with
  | Ok w0 => match attempt sz w0 l with
             | Some (w, _) => the (closeFile toy_deflate (columns toy_deflate fl zl64 10) wire zl64 w)
             | None => [] end
  | _ => [] end.
(** The values of the two columns in the first batch of three rows. *)
Definition first_batch (file : list Z) : res (list value * list value * bool) :=
  let! (r, x) := openBatches toy_inflate three file in
  let! (x1, v1, e1) := batchNext toy_inflate r x (match CreateVector three pair_schema with Ok (Some w) => batchOf w | _ => BVec 0 STRUCT None [] end) in
  Ok (held 1 v1, held 2 v1, e1).

(** Giving up after a batch that fails in its second row: its first row is dropped. *)
Example C74_give_up_ex : first_batch (kept_file 1000 pair_schema
  [sample_batch [(int 1, text 97); (int 2, text 98)]; sample_batch [(int 3, text 99); (int 4, wrong)]]) =
  Ok ([int 1; int 2], [text 97; text 98], true).
Proof. vm_compute. reflexivity. Qed.
(** With stripes of five bytes the failing batch has ended one: the file cannot be read. *)
Example C74_give_up_unreadable_ex : openBatches toy_inflate three (kept_file 5 pair_schema
  [sample_batch [(int 1, text 97)]; sample_batch [(int 2, text 98); (int 3, text 99); (int 4, text 100); (int 5, text 101); (int 6, wrong)]]) = Err /\
  exists r, newFileReader toy_inflate cs_hasNull unmarshalPS unmarshalFooter (kept_file 5 pair_schema
  [sample_batch [(int 1, text 97)]; sample_batch [(int 2, text 98); (int 3, text 99); (int 4, text 100); (int 5, text 101); (int 6, wrong)]]) = Ok r /\
   map NumberOfRows (fr_stripes r) = [5; 0].
Proof.
  split; [vm_compute; reflexivity|].
  destruct (newFileReader toy_inflate cs_hasNull unmarshalPS unmarshalFooter (kept_file 5 _ _)) as [r| |] eqn:E; [|exfalso; vm_compute in E; discriminate E..].
  exists r. split; [reflexivity|]. vm_compute in E. injection E as <-. reflexivity.
Qed.
(** Refused at once, then going on. *)
Definition first_wrong : td := Td 0 STRUCT [[97]; [98]] 0 false [Td 1 STRING [] 2 false []; Td 2 LONG [] 2 false []].
Example C74_at_once_ex : first_batch (kept_file 1000 first_wrong
  [sample_batch [(wrong, int 9); (text 97, int 9)]; sample_batch [(text 97, int 1)]; sample_batch [(wrong, int 9)]; sample_batch [(text 98, int 2)]]) =
  Ok ([text 97; text 98], [int 1; int 2], true).
Proof. vm_compute. reflexivity. Qed.

(** Two batches, of which the first fails. *)
Definition failing : cvec value := sample_batch [(int 1, text 97); (int 2, wrong)].
Definition going_on : cvec value := sample_batch [(int 3, text 99); (int 4, text 100)].
Definition pair_row (p : value * value) : row value := [(1%nat, fst p); (2%nat, snd p)].
Lemma pair_tried : exists r, tried_and_opened toy_deflate toy_inflate fl zl64 10 1000 pair_schema
  [(failing, false); (going_on, true)] (kept_file 1000 pair_schema [failing; going_on]) r.
Proof.
  destruct (newFileReader toy_inflate cs_hasNull unmarshalPS unmarshalFooter (kept_file 1000 pair_schema [failing; going_on])) as [r| |] eqn:E;
    [|exfalso; vm_compute in E; discriminate E..].
  exists r. split; [cbn; lia|]. split; [exists pair_schema; split; [vm_compute; discriminate|reflexivity]|].
  split; [|split; [vm_compute; reflexivity|exact E]].
  destruct (newFileWriter (i_New (columns toy_deflate fl zl64 10)) pair_schema) as [w0| |] eqn:E0; [|exfalso; vm_compute in E0; discriminate E0..].
  destruct (attempt 1000 w0 [failing; going_on]) as [[w q]|] eqn:E1; [|exfalso; vm_compute in E0; injection E0 as <-; vm_compute in E1; discriminate E1].
  assert (Eq : q = [(failing, false); (going_on, true)]) by (vm_compute in E0; injection E0 as <-; vm_compute in E1; injection E1 as _ <-; reflexivity).
  subst q. exists w0, w. split; [exact E0|]. split; [exact (attempt_Tries _ _ _ _ _ E1)|].
  destruct (closeFile toy_deflate (columns toy_deflate fl zl64 10) wire zl64 w) as [f| |] eqn:E2;
    [|exfalso; vm_compute in E0; injection E0 as <-; vm_compute in E1; injection E1 as <-; vm_compute in E2; discriminate E2..].
  unfold kept_file. rewrite E0, E1, E2. reflexivity.
Qed.
(** The rows of the Write that succeeded do not come back; what does are a row of the batch
    that failed, and a row made up of cells of both batches. *)
Theorem C74_going_on_refuted : exists file r x v,
  tried_and_opened toy_deflate toy_inflate fl zl64 10 1000 pair_schema [(failing, false); (going_on, true)] file r /\
  Rows [going_on] (map pair_row [(int 3, text 99); (int 4, text 100)]) /\
  openBatches toy_inflate three file = Ok (r, x) /\ fits three 3 false pair_schema v /\ Cap v = 3 /\
  ~ delivers toy_inflate three pair_schema r x v (map pair_row [(int 3, text 99); (int 4, text 100)]) /\
  delivers toy_inflate three pair_schema r x v (map pair_row [(int 1, text 97); (int 2, text 99)]).
Proof.
  destruct pair_tried as (r & Hr). set (file := kept_file 1000 pair_schema [failing; going_on]) in *.
  assert (Ho : exists x, openBatches toy_inflate three file = Ok (r, x)).
  { destruct Hr as (_ & _ & _ & _ & Hr). destruct (openBatches toy_inflate three file) as [[r' x]| |] eqn:E; [|exfalso; vm_compute in E; discriminate E..].
    pose proof (openBatches_reader _ _ _ _ _ E) as Hr'. exists x. assert (r' = r) as -> by congruence. reflexivity. }
  destruct Ho as (x & Hx).
  destruct (CreateVector three pair_schema) as [[ov|]| |] eqn:Ev; [|exfalso; vm_compute in Ev; discriminate Ev..].
  exists file, r, x, (batchOf ov).
  assert (Hfits : fits three 3 false pair_schema (batchOf ov) /\ Cap (batchOf ov) = 3).
  { destruct (C50_created_batch_fits three pair_schema ov) as [A _]; try reflexivity; [exact Ev|]. split; [exact A|].
    vm_compute in Ev. injection Ev as <-. reflexivity. }
  assert (Hb : exists v1, Batches toy_inflate r x (batchOf ov) [v1] /\ held 1 v1 = [int 1; int 2] /\ held 2 v1 = [text 97; text 99]).
  { destruct (batchNext toy_inflate r x (batchOf ov)) as [[[x1 v1] e]| |] eqn:E.
    - exists v1. vm_compute in Hx. injection Hx as <- <-. vm_compute in Ev. injection Ev as <-. vm_compute in E. injection E as <- <- <-.
      split; [eapply BatchesEnd; vm_compute; reflexivity|]. split; reflexivity.
    - exfalso. vm_compute in Hx. injection Hx as <- <-. vm_compute in Ev. injection Ev as <-. vm_compute in E. discriminate E.
    - exfalso. vm_compute in Hx. injection Hx as <- <-. vm_compute in Ev. injection Ev as <-. vm_compute in E. discriminate E. }
  destruct Hb as (v1 & Hb & H1 & H2).
  split; [exact Hr|]. split.
  { match goal with |- Rows _ ?l => assert (Hq : l = l ++ []) by reflexivity; rewrite Hq end. constructor; [|constructor].
    repeat (constructor; [reflexivity|]). constructor. }
  split; [exact Hx|]. split; [apply Hfits|]. split; [apply Hfits|]. split.
  - intros (vs & Hvs & Hsh). rewrite (Batches_fun _ _ _ _ _ Hb _ Hvs) in Hsh.
    specialize (Hsh (Td 1 LONG [] 2 false []) None (or_introl eq_refl)). cbn [flat_map td_id] in Hsh. rewrite H1 in Hsh. vm_compute in Hsh. discriminate Hsh.
  - exists [v1]. split; [exact Hb|]. intros t p Ht.
    change (columns_read three None pair_schema) with [(Td 1 LONG [] 2 false [], @None Z); (Td 2 STRING [] 2 false [], @None Z)] in Ht.
    destruct Ht as [Ht|[Ht|[]]]; injection Ht as <- <-; cbn [flat_map td_id]; [rewrite H1|rewrite H2]; reflexivity.
Qed.
Print Assumptions C74_going_on_refuted.
(** The schema meets the hypotheses of the theorems above. *)
Example C74_plain_ex : plain_refusals pair_schema /\ readable_schema three false pair_schema = true.
Proof. split; [|reflexivity]. repeat (constructor; [discriminate|]). constructor. Qed.
(** A nullable string column keeps the PRESENT bit of the value it refused: the null of the
    next row falls into the row after it. *)
Example C74_present_ex : first_batch (kept_file 1000 sample_schema
  [sample_batch [(int 1, wrong)]; sample_batch [(int 2, vnull); (int 3, text 99)]]) =
  Ok ([int 1; int 2], [text 99; vnull], true).
Proof. vm_compute. reflexivity. Qed.
