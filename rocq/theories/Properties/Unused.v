(** C83-C86: exported functions, and one helper, that nothing in the library calls. *)
From Verif.Model Require Import Go Chunk Stream Schema File Column Assembled Unused.
From Verif.Spec Require Import SchemaSpec HelperSpec ColumnSpec UnusedSpec.
From Verif.Proofs Require Import Base UnusedP.
From Verif.Properties Require Import Columns.

(** ** C83: NewListV2Writer *)
(** For a schema without nulls the writer takes every value and keeps nothing: it has no
    streams, and any two sequences of rows leave the same bytes, none. *)
Theorem C83_nothing_stored_partial : forall deflate F o stride t vs, td_hasNulls t = false ->
  exists c c', writeRows deflate F o stride (NewListV2Writer o t) vs = Ok c /\ c_Infos c = [] /\
    c_Flush deflate o c = Ok c' /\ exists c2, c_WriteOut o c' = Ok ([], 0, c2).
Proof.
  intros deflate F o stride t vs H. exists (NewListV2Writer o t). rewrite list_plain by exact H.
  unfold NewListV2Writer, newColW, c_Infos, c_Flush, dictFill, c_WriteOut. rewrite H. cbn.
  eexists. split; [reflexivity|]. split; [reflexivity|]. split; [reflexivity|]. cbn. eexists. reflexivity.
Qed.
Print Assumptions C83_nothing_stored_partial.
(** For a schema with nulls, a column that was written holds nulls only. *)
Theorem C83_nulls_only_partial : forall deflate F o stride t vs c, td_hasNulls t = true ->
  writeRows deflate F o stride (NewListV2Writer o t) vs = Ok c -> Forall (fun v => Null v = true) vs.
Proof. exact list_nulls. Qed.
Print Assumptions C83_nulls_only_partial.
(** Refuted: the lengths 1 and 2 leave the same bytes, in a list column without nulls. *)
Theorem C83_lengths_refuted : exists F o stride t v w, V v <> V w /\ td_kind t = LIST /\
  exists r, writeColumn (fun _ b => Ok b) F o stride (NewListV2Writer o t) [v] = Ok r /\
            writeColumn (fun _ b => Ok b) F o stride (NewListV2Writer o t) [w] = Ok r.
Proof.
  exists fl, no64, 10, (Td 1 LIST [] 2 false [Td 2 LONG [] 2 false []]),
    {| Null := false; V := GUint64 1 |}, {| Null := false; V := GUint64 2 |}.
  split; [discriminate|]. split; [reflexivity|]. eexists. split; vm_compute; reflexivity.
Qed.
Print Assumptions C83_lengths_refuted.
(** The first value that is not null panics; nulls are taken. *)
Theorem C83_value_refuted : exists F o stride t v, td_hasNulls t = true /\ Null v = false /\
  writeRows (fun _ b => Ok b) F o stride (NewListV2Writer o t) [v] = Panic.
Proof.
  exists fl, no64, 10, (Td 1 LIST [] 2 true [Td 2 LONG [] 2 false []]), {| Null := false; V := GUint64 3 |}.
  split; [reflexivity|]. split; [reflexivity|]. vm_compute. reflexivity.
Qed.
Print Assumptions C83_value_refuted.
Example C83_nulls_ex : exists c,
  writeRows (fun _ b => Ok b) fl no64 10 (NewListV2Writer no64 (Td 1 LIST [] 2 true [])) [vnull; vnull] = Ok c /\
  cs_values (cw_stats c) = 2.
Proof. eexists. split; vm_compute; reflexivity. Qed.

(** ** C84: Batch *)
(** After Clear a batch has no rows, and its capacity is what it was. *)
Theorem C84_clear : forall b, b_Len (b_Clear b) = 0 /\ b_Cap (b_Clear b) = b_Cap b /\
  Forall (fun c => Len c = 0) (b_Clear b).
Proof.
  intros b. split; [apply b_Len_Clear|]. split; [apply b_Cap_Clear|]. apply b_Len_0. apply b_Len_Clear.
Qed.
Print Assumptions C84_clear.
(** Len is 0 exactly when no column has rows. *)
Theorem C84_empty : forall b, b_Len b = 0 <-> Forall (fun c => Len c = 0) b.
Proof. exact b_Len_0. Qed.
Print Assumptions C84_empty.
(** It is the length of every column that has rows exactly when those agree. *)
Theorem C84_len_partial : forall b, (forall c, In c b -> Len c <> 0 -> Len c = b_Len b) <->
  (forall c d, In c b -> In d b -> Len c <> 0 -> Len d <> 0 -> Len c = Len d).
Proof. exact b_Len_all_iff. Qed.
Print Assumptions C84_len_partial.
(** Refuted: columns that differ are not noticed, and of a vector with an empty slice of its
    own the length is that of its children and the capacity its own, so that the length is
    beyond the capacity (stripe.go 333 takes the difference). *)
Theorem C84_len_refuted : exists b, b_Len b = 1 /\ exists c, In c b /\ Len c = 2.
Proof.
  exists [BVec 1 LONG (Some ([vnull], [])) []; BVec 2 LONG (Some ([vnull; vnull], [])) []].
  split; [reflexivity|]. eexists. split; [right; left; reflexivity|reflexivity].
Qed.
Print Assumptions C84_len_refuted.
Theorem C84_cap_refuted : exists v, Cap v < Len v.
Proof. exists (BVec 1 LIST (Some ([], [])) [BVec 2 LONG (Some ([vnull], [])) []]). reflexivity. Qed.
Print Assumptions C84_cap_refuted.
Example C84_ex :
  let b := [BVec 1 STRUCT None [BVec 2 LONG (Some ([vnull; vnull], [vnull])) []]; BVec 3 LONG (Some ([vnull; vnull], [])) []] in
  b_Len b = 2 /\ b_Cap b = 3 /\ b_Len (b_Clear b) = 0 /\ b_Cap (b_Clear b) = 3.
Proof. repeat split. Qed.

(** ** C85: String *)
(** It returns exactly when no column it comes to has more names than children, and panics
    otherwise. *)
Theorem C85_returns : forall t,
  ((exists ps, String t = Ok ps) <-> forall s, Named t s -> (length (td_names s) <= length (td_children s))%nat) /\
  ((exists ps, String t = Ok ps) \/ String t = Panic).
Proof.
  intros t. split; [exact (String_returns t)|]. pose proof (String_not_err t).
  destruct (String t); [left; eauto|contradiction|right; reflexivity].
Qed.
Print Assumptions C85_returns.
(** It shows the id and kind of exactly the columns reached through named children. *)
Theorem C85_shows_partial : forall t ps, String t = Ok ps -> forall i k,
  In (PColumn i k) ps <-> exists s, Named t s /\ td_id s = i /\ td_kind s = k.
Proof. exact String_shows. Qed.
Print Assumptions C85_shows_partial.
(** With a name for every child that is every column. *)
Theorem C85_all_partial : forall t, evenly_named t -> exists ps, String t = Ok ps /\
  forall s, Column t s -> In (PColumn (td_id s) (td_kind s)) ps.
Proof.
  intros t He. destruct (proj2 (String_returns t)) as (ps & E).
  { intros s Hs. apply (Named_Column t s He) in Hs. rewrite (He s Hs). lia. }
  exists ps. split; [exact E|]. intros s Hs. apply (String_shows t ps E). exists s.
  split; [apply Named_Column; assumption|auto].
Qed.
Print Assumptions C85_all_partial.
(** Refuted: the elements of a list are not shown. *)
Theorem C85_list_refuted : exists t s ps, Column t s /\ String t = Ok ps /\ ~ In (PColumn (td_id s) (td_kind s)) ps.
Proof.
  exists (Td 0 LIST [] 0 false [Td 1 LONG [] 2 false []]), (Td 1 LONG [] 2 false []). eexists.
  split; [exists [0%nat]; reflexivity|]. split; [reflexivity|]. intros [H|[H|[H|[]]]]; discriminate.
Qed.
Print Assumptions C85_list_refuted.
Example C85_ex :
  String (Td 0 STRUCT [[97]; [98]] 0 false [Td 1 LONG [] 2 false []; Td 2 STRING [] 2 true []]) =
  Ok [PColumn 0 STRUCT; PNewline; PChild [97]; PColumn 1 LONG; PNewline; PChild [98]; PColumn 2 STRING; PNewline; PNewline] /\
  String (Td 0 STRUCT [[97]] 0 false []) = Panic.
Proof. split; reflexivity. Qed.

(** ** C86: writeUints *)
(** Numbers of at most [w] bits: each is written in the least number of whole bytes that
    holds [w] bits, most significant byte first. *)
Theorem C86_uints : forall w vs, 0 <= w <= 255 -> Forall (fun v => 0 <= v < 2 ^ w) vs ->
  exists gs, writeUints w vs = concat gs /\
    Forall2 (fun g v => zlen g = (w + 7) / 8 /\ bytes g /\ bigEndian g = v) gs vs.
Proof. intros w vs Hw. exact (writeUints_fit w vs (proj1 Hw)). Qed.
Print Assumptions C86_uints.
(** Larger numbers lose their upper bytes. *)
Theorem C86_large : forall w vs, 0 <= w <= 255 -> Forall (fun v => 0 <= v) vs ->
  exists gs, writeUints w vs = concat gs /\
    Forall2 (fun g v => zlen g = (w + 7) / 8 /\ bytes g /\ bigEndian g = v mod 2 ^ (8 * ((w + 7) / 8))) gs vs.
Proof. intros w vs Hw. exact (writeUints_groups w vs (proj1 Hw)). Qed.
Print Assumptions C86_large.
Example C86_ex : writeUints 12 [1000; 4095; 0] = [3; 232; 15; 255; 0; 0] /\ writeUints 8 [258] = [2].
Proof. split; reflexivity. Qed.
