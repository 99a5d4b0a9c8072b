(** C23, C25, C48, C49: column statistics and the entries of the row index. *)
From Verif.Model Require Import Go Codec ByteBool IntRle Chunk Stream Time File Column.
From Verif.Spec Require Import BoolSpec Session ChunkSpec StreamSpec ColumnSpec StatsSpec.
From Verif.Proofs Require Import Base StreamP ReadP TimeP ColumnP ColumnReadP ColumnTotalP ColumnFaultsP StatsP IndexStatsP.
From Verif.Properties Require Import Columns.

Definition zi64 : opts := {| CompressionKind := ZLIB; ChunkSize := 64; WriteIndex := true |}.
(** The statistics after writing the rows [vs] to a new column. *)
Definition stats_of (o : opts) (k : ckind) (hn : bool) (vs : list value) : res colstats :=
  let! c := writeRows toy_deflate fl o 2 (newColW o 3 k hn) vs in Ok (cw_stats c).
Definition index_of (o : opts) (k : ckind) (hn : bool) (vs : list value) : res (list colstats) :=
  let! c := writeRows toy_deflate fl o 2 (newColW o 3 k hn) vs in Ok (map snd (cw_index c)).
Definition int64s (l : list Z) : list value := map (fun x => val (GInt64 x)) l.

(** ** C23 *)
(** The number of values: exactly the non-null values, over all stripes, however the
    writer is used. *)
Theorem C23_count : forall deflate F o stride id k hn ps c, k <> KStruct ->
  ops deflate F o stride (newColW o id k hn) ps = Ok c ->
  cs_values (cw_stats c) = u64 (zlen (values (written ps))) /\ cs_hasNull (cw_stats c) = hn.
Proof.
  intros deflate F o stride id k hn ps c Hk H.
  destruct (new_stats deflate F o stride id k hn ps c Hk H) as (d & _ & _ & Hv & Hn). auto.
Qed.
Print Assumptions C23_count.

(** Integer columns: the sum is right (modulo 2^64), minimum and maximum are those of the
    values together with 0. *)
Theorem C23_int_partial : forall deflate F o stride id k hn ps c, (k = KShort \/ k = KInt \/ k = KLong) ->
  ops deflate F o stride (newColW o id k hn) ps = Ok c ->
  let xs := map int_of (values (written ps)) in
  exists mn mx, cs_detail (cw_stats c) = Some (DInt mn mx (i64 (total xs))) /\
    least (0 :: xs) mn /\ greatest (0 :: xs) mx /\
    (least xs mn <-> exists x, In x xs /\ x <= 0) /\ (greatest xs mx <-> exists x, In x xs /\ 0 <= x).
Proof.
  intros deflate F o stride id k hn ps c Hk H xs.
  destruct (new_stats deflate F o stride id k hn ps c ltac:(destruct Hk as [->|[->| ->]]; discriminate) H) as (d & Hd & Hc & _ & _).
  replace (newDetail k) with (DInt 0 0 0) in Hd by (destruct Hk as [->|[->| ->]]; reflexivity).
  apply (fold_int F k _ Hk) in Hd; [|unfold is_i64; lia]. destruct Hd as (mn & mx & -> & Hmn & Hmx).
  exists mn, mx. split; [exact Hc|]. split; [exact Hmn|]. split; [exact Hmx|].
  split; [apply least0_iff; exact Hmn|apply greatest0_iff; exact Hmx].
Qed.
Print Assumptions C23_int_partial.
Example C23_int_ex : stats_of zl64 KLong true (int64s [5; -7] ++ [vnull] ++ int64s [9])
  = Ok {| cs_values := 3; cs_hasNull := true; cs_bytes := 0; cs_detail := Some (DInt (-7) 9 7); cs_stray := false |}.
Proof. reflexivity. Qed.

(** Positive values: the minimum is 0, which no row holds. *)
Theorem C23_int_refuted : exists vs c mn mx s, writeRows toy_deflate fl zl64 2 (newColW zl64 3 KLong false) vs = Ok c /\
  Forall (typed KLong) (values vs) /\
  cs_detail (cw_stats c) = Some (DInt mn mx s) /\ ~ least (map int_of (values vs)) mn.
Proof.
  exists (int64s [5; 7]).
  destruct (writeRows toy_deflate fl zl64 2 (newColW zl64 3 KLong false) (int64s [5; 7])) as [c| |] eqn:E; [|exfalso; vm_compute in E; discriminate E..].
  exists c, 0, 7, 12. split; [reflexivity|]. split; [repeat constructor; unfold is_i64; lia|].
  assert (Hd : (let! c := writeRows toy_deflate fl zl64 2 (newColW zl64 3 KLong false) (int64s [5; 7]) in Ok (cs_detail (cw_stats c))) = Ok (Some (DInt 0 7 12))) by reflexivity.
  rewrite E in Hd. cbn [rbind] in Hd. split; [congruence|].
  intros [Hin _]. cbn in Hin. lia.
Qed.
Print Assumptions C23_int_refuted.

(** Booleans: the number of true values. *)
Theorem C23_bool : forall deflate F o stride id hn ps c,
  ops deflate F o stride (newColW o id KBool hn) ps = Ok c ->
  cs_detail (cw_stats c) = Some (DBucket (u64 (trues (values (written ps))))).
Proof.
  intros deflate F o stride id hn ps c H.
  destruct (new_stats deflate F o stride id KBool hn ps c ltac:(discriminate) H) as (d & Hd & Hc & _ & _).
  apply (fold_bool F) in Hd; [|unfold is_u64; lia]. rewrite Z.add_0_l in Hd. subst d. exact Hc.
Qed.
Print Assumptions C23_bool.
Example C23_bool_ex : stats_of zl64 KBool true [val (GBool true); val (GBool false); vnull; val (GBool true)]
  = Ok {| cs_values := 3; cs_hasNull := true; cs_bytes := 0; cs_detail := Some (DBucket 2); cs_stray := false |}.
Proof. reflexivity. Qed.

(** Dates: minimum and maximum of the day numbers, together with 1970-01-01. *)
Theorem C23_date_partial : forall deflate F o stride id hn ps c, Forall (typed KDate) (values (written ps)) ->
  ops deflate F o stride (newColW o id KDate hn) ps = Ok c ->
  let xs := map int_of (values (written ps)) in
  exists mn mx, cs_detail (cw_stats c) = Some (DDate mn mx) /\
    least (0 :: xs) mn /\ greatest (0 :: xs) mx /\
    (least xs mn <-> exists x, In x xs /\ x <= 0) /\ (greatest xs mx <-> exists x, In x xs /\ 0 <= x).
Proof.
  intros deflate F o stride id hn ps c Hty H xs.
  destruct (new_stats deflate F o stride id KDate hn ps c ltac:(discriminate) H) as (d & Hd & Hc & _ & _).
  apply (fold_date F _ _ _ _ Hty) in Hd. destruct Hd as (mn & mx & -> & Hmn & Hmx).
  exists mn, mx. split; [exact Hc|]. split; [exact Hmn|]. split; [exact Hmx|].
  split; [apply least0_iff; exact Hmn|apply greatest0_iff; exact Hmx].
Qed.
Print Assumptions C23_date_partial.
Example C23_date_ex : stats_of zl64 KDate false [val (GDate (-3 * DayNs)); val (GDate (11000 * DayNs))]
  = Ok {| cs_values := 2; cs_hasNull := false; cs_bytes := 0; cs_detail := Some (DDate (-3) 11000); cs_stray := false |}.
Proof. reflexivity. Qed.

(** Floats: for values that the machine's comparison orders (no NaN), minimum and maximum
    are those of the values together with +0; the sum is the running sum. *)
Theorem C23_float_partial : forall deflate F o stride id k hn ps c (rank : Z -> Z), (k = KFloat \/ k = KDouble) ->
  ops deflate F o stride (newColW o id k hn) ps = Ok c ->
  let xs := map (fval F) (values (written ps)) in
  (forall x y, In x (0 :: xs) -> In y (0 :: xs) -> f_lt F x y = (rank x <? rank y)) ->
  exists mn mx, cs_detail (cw_stats c) = Some (DDouble mn mx (fold_left (f_add F) xs 0)) /\
    In mn (0 :: xs) /\ least (map rank (0 :: xs)) (rank mn) /\
    In mx (0 :: xs) /\ greatest (map rank (0 :: xs)) (rank mx).
Proof.
  intros deflate F o stride id k hn ps c rank Hk H xs Hr.
  destruct (new_stats deflate F o stride id k hn ps c ltac:(destruct Hk as [->| ->]; discriminate) H) as (d & Hd & Hc & _ & _).
  replace (newDetail k) with (DDouble 0 0 0) in Hd by (destruct Hk as [->| ->]; reflexivity).
  apply (fold_float F k _ Hk) in Hd. subst d. do 2 eexists. split; [exact Hc|].
  destruct (ranked_min F rank xs 0 Hr) as [H1 H2]. destruct (ranked_max F rank xs 0 Hr) as [H3 H4]. auto.
Qed.
Print Assumptions C23_float_partial.
Example C23_float_ex : stats_of zl64 KDouble false [val (GDouble 5); val (GDouble 7)]
  = Ok {| cs_values := 2; cs_hasNull := false; cs_bytes := 0; cs_detail := Some (DDouble 0 7 12); cs_stray := false |}.
Proof. reflexivity. Qed.

(** Strings shorter than 1024 bytes: the maximum and the sum of the lengths are right,
    the minimum is always the empty string. *)
Theorem C23_string_partial : forall deflate F o stride id hn ps c,
  Forall (fun s => zlen s < 1024) (strings (values (written ps))) -> strings (values (written ps)) <> [] ->
  ops deflate F o stride (newColW o id KString hn) ps = Ok c ->
  exists mx, cs_detail (cw_stats c) = Some (DString (Some []) (Some mx) (i64 (total (map int_of (values (written ps))))) None None) /\
    greatestS (strings (values (written ps))) mx.
Proof.
  intros deflate F o stride id hn ps c Hsh Hne H.
  destruct (new_stats deflate F o stride id KString hn ps c ltac:(discriminate) H) as (d & Hd & Hc & _ & _).
  apply (fold_string F) in Hd; [|exact Hsh|unfold is_i64; lia]. destruct Hd as (mx & -> & Hmx).
  exists mx. split; [exact Hc|]. apply greatestS_nil; assumption.
Qed.
Print Assumptions C23_string_partial.
Example C23_string_ex : stats_of zl64 KString false [val (GString [98; 97]); val (GString [98]); val (GString [97; 99])]
  = Ok {| cs_values := 3; cs_hasNull := false; cs_bytes := 0;
          cs_detail := Some (DString (Some []) (Some [98; 97]) 5 None None); cs_stray := false |}.
Proof. reflexivity. Qed.
Theorem C23_string_sum_partial : forall deflate F o stride id hn ps c,
  ops deflate F o stride (newColW o id KString hn) ps = Ok c ->
  exists mn mx lo up, cs_detail (cw_stats c) = Some (DString mn mx (i64 (total (map int_of (values (written ps))))) lo up).
Proof.
  intros deflate F o stride id hn ps c H.
  destruct (new_stats deflate F o stride id KString hn ps c ltac:(discriminate) H) as (d & Hd & Hc & _ & _).
  apply (fold_string_sum F) in Hd; [|unfold is_i64; lia]. destruct Hd as (mn & mx & lo & up & ->). eauto.
Qed.
Print Assumptions C23_string_sum_partial.
(** The minimum is the empty string although no row holds it. *)
Theorem C23_string_refuted : exists vs c mx s, writeRows toy_deflate fl zl64 2 (newColW zl64 3 KString false) vs = Ok c /\
  Forall (typed KString) (values vs) /\
  cs_detail (cw_stats c) = Some (DString (Some []) mx s None None) /\ ~ In [] (strings (values vs)).
Proof.
  exists [val (GString [98; 97])].
  destruct (writeRows toy_deflate fl zl64 2 (newColW zl64 3 KString false) [val (GString [98; 97])]) as [c| |] eqn:E; [|exfalso; vm_compute in E; discriminate E..].
  exists c, (Some [98; 97]), 2. split; [reflexivity|]. split.
  { repeat constructor; unfold is_u8; lia. }
  assert (Hd : (let! c := writeRows toy_deflate fl zl64 2 (newColW zl64 3 KString false) [val (GString [98; 97])] in Ok (cs_detail (cw_stats c)))
     = Ok (Some (DString (Some []) (Some [98; 97]) 2 None None))) by reflexivity.
  rewrite E in Hd. cbn [rbind] in Hd. split; [congruence|]. cbn. intros [H|[]]. discriminate.
Qed.
Print Assumptions C23_string_refuted.

(** Byte and binary columns: the field that should hold the number of bytes holds the
    number of values.  For bytes that is the same. *)
Theorem C23_bytes_partial : forall deflate F o stride id k hn ps c, (k = KByte \/ k = KBinary) ->
  ops deflate F o stride (newColW o id k hn) ps = Ok c ->
  cs_detail (cw_stats c) = Some (DBinary (i64 (zlen (values (written ps))))).
Proof.
  intros deflate F o stride id k hn ps c Hk H.
  destruct (new_stats deflate F o stride id k hn ps c ltac:(destruct Hk as [->| ->]; discriminate) H) as (d & Hd & Hc & _ & _).
  replace (newDetail k) with (DBinary 0) in Hd by (destruct Hk as [->| ->]; reflexivity).
  apply (fold_count F k _ Hk) in Hd; [|unfold is_i64; lia]. rewrite Z.add_0_l in Hd. subst d. exact Hc.
Qed.
Print Assumptions C23_bytes_partial.
Example C23_bytes_ex : stats_of zl64 KBinary false [val (GBytes [1; 2; 3]); val (GBytes [])]
  = Ok {| cs_values := 2; cs_hasNull := false; cs_bytes := 0; cs_detail := Some (DBinary 2); cs_stray := false |}.
Proof. reflexivity. Qed.

(** Timestamps: the maximum is that of the milliseconds together with 0; both UTC fields
    stay 0; the minimum is not a minimum but the UTC number of the last timestamp before
    the writer's epoch. *)
Theorem C23_timestamp_partial : forall deflate F o stride id hn ps c,
  ops deflate F o stride (newColW o id KTimestamp hn) ps = Ok c ->
  let gs := values (written ps) in
  exists mn mx, cs_detail (cw_stats c) = Some (DTimestamp mn mx 0 0) /\
    greatest (0 :: map ms gs) mx /\ (greatest (map ms gs) mx <-> exists x, In x (map ms gs) /\ 0 <= x) /\
    (Forall (fun g => ms g < 0 -> msUtc g <= 0) gs -> mn = lastNegative gs 0).
Proof.
  intros deflate F o stride id hn ps c H gs.
  destruct (new_stats deflate F o stride id KTimestamp hn ps c ltac:(discriminate) H) as (d & Hd & Hc & _ & _).
  apply (fold_timestamp F) in Hd. destruct Hd as (mn & mx & -> & Hmx & Hmn).
  exists mn, mx. split; [exact Hc|]. split; [exact Hmx|]. split; [apply greatest0_iff; exact Hmx|].
  intros Hneg. apply Hmn; [exact Hneg|lia].
Qed.
Print Assumptions C23_timestamp_partial.

(** Struct columns count the rows that are null as values. *)
Theorem C23_struct_refuted : exists vs c, writeRows toy_deflate fl zl64 2 (newColW zl64 3 KStruct true) vs = Ok c /\
  cs_values (cw_stats c) <> zlen (values vs).
Proof.
  exists [vnull].
  destruct (writeRows toy_deflate fl zl64 2 (newColW zl64 3 KStruct true) [vnull]) as [c| |] eqn:E; [|exfalso; vm_compute in E; discriminate E..].
  exists c. split; [reflexivity|].
  assert (Hd : (let! c := writeRows toy_deflate fl zl64 2 (newColW zl64 3 KStruct true) [vnull] in Ok (cs_values (cw_stats c))) = Ok 1) by reflexivity.
  rewrite E in Hd. cbn [rbind] in Hd. replace (cs_values (cw_stats c)) with 1 by congruence. cbn. lia.
Qed.
Print Assumptions C23_struct_refuted.

(** ** C25 *)
(** Which rows an index entry describes: the window of one stride that ends one row too
    early.  Its count of values is that of its own stride exactly when the rows at the
    ends of the two windows are both null or both not (for the first stride: its last
    row is null). *)
Theorem C25_count_partial : forall deflate F o m id k hn vs c, (1 <= m)%nat -> Z.of_nat m < W64 ->
  WriteIndex o = true -> steady k = true ->
  writeRows deflate F o (Z.of_nat m) (newColW o id k hn) vs = Ok c ->
  length (cw_index c) = (length vs / m)%nat /\
  forall j, (j < length vs / m)%nat -> exists p st, nth_error (cw_index c) j = Some (p, st) /\
    cs_hasNull st = match j with O => hn && isKBool k | _ => hn end /\
    cs_values st = zlen (values (slice (winStart m j) (S j * m - 1) vs)) /\
    (cs_values st = zlen (values (slice (j * m) (S j * m) vs)) <->
     exists last, nth_error vs (S j * m - 1) = Some last /\
       match j with
       | O => Null last = true
       | _ => exists prev, nth_error vs (j * m - 1) = Some prev /\ Null prev = Null last
       end).
Proof. exact index_count. Qed.
Print Assumptions C25_count_partial.
(** Sum, minimum and maximum of an integer entry: of the same window, and 0. *)
Theorem C25_int_partial : forall deflate F o m id k hn vs c, (1 <= m)%nat -> WriteIndex o = true ->
  (k = KShort \/ k = KInt \/ k = KLong) ->
  writeRows deflate F o (Z.of_nat m) (newColW o id k hn) vs = Ok c ->
  forall j, (j < length vs / m)%nat -> exists p st mn mx, nth_error (cw_index c) j = Some (p, st) /\
    let xs := map int_of (values (slice (winStart m j) (S j * m - 1) vs)) in
    cs_detail st = Some (DInt mn mx (i64 (total xs))) /\ least (0 :: xs) mn /\ greatest (0 :: xs) mx.
Proof. exact index_ints. Qed.
Print Assumptions C25_int_partial.
Example C25_ex : index_of zi64 KLong false (int64s [1; 2; 3; 4; 5])
  = Ok [{| cs_values := 1; cs_hasNull := false; cs_bytes := 0; cs_detail := Some (DInt 0 1 1); cs_stray := false |};
        {| cs_values := 2; cs_hasNull := false; cs_bytes := 0; cs_detail := Some (DInt 0 3 5); cs_stray := false |}].
Proof. reflexivity. Qed.
(** So the first entry of any column without nulls misses a row. *)
Theorem C25_first_entry_refuted : forall deflate F o m id k hn vs c, (1 <= m)%nat -> Z.of_nat m < W64 ->
  WriteIndex o = true -> steady k = true -> (m <= length vs)%nat -> Forall (fun v => Null v = false) vs ->
  writeRows deflate F o (Z.of_nat m) (newColW o id k hn) vs = Ok c ->
  exists p st, nth_error (cw_index c) 0 = Some (p, st) /\ cs_values st = Z.of_nat m - 1 /\
    zlen (values (slice 0 m vs)) = Z.of_nat m.
Proof. exact first_entry. Qed.
Print Assumptions C25_first_entry_refuted.
Theorem C25_refuted : exists vs c p st, writeRows toy_deflate fl zi64 2 (newColW zi64 3 KLong false) vs = Ok c /\
  Forall (typed KLong) (values vs) /\
  nth_error (cw_index c) 0 = Some (p, st) /\ cs_values st <> zlen (values (slice 0 2 vs)).
Proof.
  exists (int64s [1; 2; 3]).
  destruct (writeRows toy_deflate fl zi64 2 (newColW zi64 3 KLong false) (int64s [1; 2; 3])) as [c| |] eqn:E; [|exfalso; vm_compute in E; discriminate E..].
  destruct (C25_first_entry_refuted toy_deflate fl zi64 2 3 KLong false (int64s [1; 2; 3]) c) as (p & st & H1 & H2 & H3);
    [lia|lia|reflexivity|reflexivity|cbn; lia|repeat constructor|exact E|].
  exists c, p, st. split; [reflexivity|]. split; [repeat constructor; unfold is_i64; lia|]. split; [exact H1|]. rewrite H2, H3. lia.
Qed.
Print Assumptions C25_refuted.

(** Byte and binary columns: the number of values of the window. *)
Theorem C25_bytes_partial : forall deflate F o m id k hn vs c, (1 <= m)%nat -> WriteIndex o = true -> (k = KByte \/ k = KBinary) ->
  writeRows deflate F o (Z.of_nat m) (newColW o id k hn) vs = Ok c ->
  forall j, (j < length vs / m)%nat -> exists p st, nth_error (cw_index c) j = Some (p, st) /\
    cs_detail st = Some (DBinary (i64 (zlen (values (slice (winStart m j) (S j * m - 1) vs))))).
Proof. intros deflate F o m id k hn vs c Hm Hwi. exact (index_bytes deflate F o m Hm Hwi id k hn vs c). Qed.
Print Assumptions C25_bytes_partial.
Example C25_bytes_ex : index_of zi64 KBinary false [val (GBytes [7; 8; 9]); val (GBytes []); val (GBytes [1]); val (GBytes [])]
  = Ok [{| cs_values := 1; cs_hasNull := false; cs_bytes := 0; cs_detail := Some (DBinary 1); cs_stray := false |};
        {| cs_values := 2; cs_hasNull := false; cs_bytes := 0; cs_detail := Some (DBinary 2); cs_stray := false |}].
Proof. reflexivity. Qed.
(** Doubles that the machine's comparison orders: minimum and maximum of the window
    together with +0, and its running sum. *)
Theorem C25_double_partial : forall deflate F o m id hn vs c (rank : Z -> Z), (1 <= m)%nat -> WriteIndex o = true ->
  writeRows deflate F o (Z.of_nat m) (newColW o id KDouble hn) vs = Ok c ->
  forall j, (j < length vs / m)%nat -> let xs := map (fval F) (values (slice (winStart m j) (S j * m - 1) vs)) in
  (forall x y, In x (0 :: xs) -> In y (0 :: xs) -> f_lt F x y = (rank x <? rank y)) ->
  exists p st mn mx, nth_error (cw_index c) j = Some (p, st) /\
    cs_detail st = Some (DDouble mn mx (fold_left (f_add F) xs 0)) /\
    In mn (0 :: xs) /\ least (map rank (0 :: xs)) (rank mn) /\ In mx (0 :: xs) /\ greatest (map rank (0 :: xs)) (rank mx).
Proof. intros deflate F o m id hn vs c rank Hm Hwi. exact (index_doubles deflate F o m Hm Hwi id hn vs c rank). Qed.
Print Assumptions C25_double_partial.
Example C25_double_ex : index_of zi64 KDouble false [val (GDouble 5); val (GDouble 7); val (GDouble 9); val (GDouble 2)]
  = Ok [{| cs_values := 1; cs_hasNull := false; cs_bytes := 0; cs_detail := Some (DDouble 0 5 5); cs_stray := false |};
        {| cs_values := 2; cs_hasNull := false; cs_bytes := 0; cs_detail := Some (DDouble 0 9 16); cs_stray := false |}].
Proof. reflexivity. Qed.
(** Strings shorter than 1024 bytes: the maximum and the total length of the window; the
    minimum is the empty string. *)
Theorem C25_string_partial : forall deflate F o m id hn vs c, (1 <= m)%nat -> WriteIndex o = true ->
  writeRows deflate F o (Z.of_nat m) (newColW o id KString hn) vs = Ok c ->
  forall j, (j < length vs / m)%nat -> let gs := values (slice (winStart m j) (S j * m - 1) vs) in
  Forall (fun s => zlen s < 1024) (strings gs) ->
  exists p st mx, nth_error (cw_index c) j = Some (p, st) /\
    cs_detail st = Some (DString (Some []) (Some mx) (i64 (total (map int_of gs))) None None) /\ greatestS ([] :: strings gs) mx.
Proof. intros deflate F o m id hn vs c Hm Hwi. exact (index_strings deflate F o m Hm Hwi id hn vs c). Qed.
Print Assumptions C25_string_partial.
Example C25_string_ex : index_of zi64 KString false [val (GString [98; 97]); val (GString [99]); val (GString [97; 99]); val (GString [])]
  = Ok [{| cs_values := 1; cs_hasNull := false; cs_bytes := 0; cs_detail := Some (DString (Some []) (Some [98; 97]) 2 None None); cs_stray := false |};
        {| cs_values := 2; cs_hasNull := false; cs_bytes := 0; cs_detail := Some (DString (Some []) (Some [99]) 3 None None); cs_stray := false |}].
Proof. reflexivity. Qed.
(** Booleans: the entry counts every value as a true one (bool.go 76-78), so it is right
    for its window exactly when all values are true. *)
Theorem C25_bool_partial : forall deflate F o m id hn vs c, (1 <= m)%nat -> Z.of_nat m < W64 -> WriteIndex o = true ->
  writeRows deflate F o (Z.of_nat m) (newColW o id KBool hn) vs = Ok c ->
  forall j, (j < length vs / m)%nat -> let gs := values (slice (winStart m j) (S j * m - 1) vs) in
  exists p st n, nth_error (cw_index c) j = Some (p, st) /\ cs_detail st = Some (DBucket n) /\ n = zlen gs /\
    (n = trues gs <-> Forall (fun g => g = GBool true) gs).
Proof.
  intros deflate F o m id hn vs c Hm HmW Hwi H j Hj gs. destruct (index_bools deflate F o m Hm Hwi id hn vs c H j Hj) as (p & st & Hn & Hd).
  change (window m j vs) with gs in Hd. exists p, st, (zlen gs). split; [exact Hn|].
  assert (Hle : zlen gs <= Z.of_nat m).
  { pose proof (values_length (slice (winStart m j) (S j * m - 1) vs)). unfold gs.
    assert (zlen (slice (winStart m j) (S j * m - 1) vs) <= Z.of_nat m).
    { unfold slice, zlen. rewrite firstn_length. unfold winStart. destruct j; nia. } lia. }
  rewrite u64_id in Hd by (pose proof (zlen_nonneg gs); unfold is_u64; lia). split; [exact Hd|]. split; [reflexivity|].
  clear. assert (Hb : forall l, trues l <= zlen l).
  { induction l as [|g t IH]; [cbn; lia|]. rewrite zlen_cons. cbn [trues fold_right] in *. unfold trues in IH. destruct g as [| | | | | | |[]| | | | | | |]; lia. }
  induction gs as [|g t IH]; [split; [constructor|reflexivity]|]. rewrite zlen_cons. pose proof (Hb t) as Ht. unfold trues in *. cbn [fold_right].
  split.
  - intros E. destruct g as [| | | | | | |[]| | | | | | |]; try lia. constructor; [reflexivity|]. apply IH. lia.
  - intros E. inversion E; subst. apply IH in H2. lia.
Qed.
Print Assumptions C25_bool_partial.
Theorem C25_bool_refuted : exists vs, Forall (typed KBool) (values vs) /\
  index_of zi64 KBool false vs = Ok [{| cs_values := 1; cs_hasNull := false; cs_bytes := 0; cs_detail := Some (DBucket 1); cs_stray := false |}] /\
  trues (values vs) = 0.
Proof. exists [val (GBool false); val (GBool false)]. split; [repeat constructor|]. split; reflexivity. Qed.
Print Assumptions C25_bool_refuted.
(** Dates: minimum and maximum are 1970-01-01 in every entry, whatever the dates. *)
Theorem C25_date_refuted : forall deflate F o m id hn vs c, (1 <= m)%nat -> WriteIndex o = true ->
  writeRows deflate F o (Z.of_nat m) (newColW o id KDate hn) vs = Ok c ->
  forall j, (j < length vs / m)%nat -> exists p st, nth_error (cw_index c) j = Some (p, st) /\ cs_detail st = Some (DDate 0 0).
Proof. intros deflate F o m id hn vs c Hm Hwi. exact (index_dates deflate F o m Hm Hwi id hn vs c). Qed.
Print Assumptions C25_date_refuted.
Example C25_date_ex : index_of zi64 KDate false [val (GDate (11000 * DayNs)); val (GDate (12000 * DayNs))]
  = Ok [{| cs_values := 1; cs_hasNull := false; cs_bytes := 0; cs_detail := Some (DDate 0 0); cs_stray := false |}].
Proof. reflexivity. Qed.
(** Timestamps: only rows with a value count towards a stride, so entries do not belong to
    strides of rows; the maxima are those of the entry's window together with 0, and the
    UTC minimum is 0.  The minimum is the least together with 0 as long as no value has
    negative UTC milliseconds (as the code computes them, see C52); a last value that has
    is the minimum, whatever came earlier. *)
Theorem C25_timestamp_partial : forall deflate F o m id hn vs c, (1 <= m)%nat -> WriteIndex o = true -> Z.of_nat m < W64 ->
  writeRows deflate F o (Z.of_nat m) (newColW o id KTimestamp hn) vs = Ok c ->
  let gs := values vs in
  length (cw_index c) = (length gs / m)%nat /\
  forall j, (j < length gs / m)%nat -> let xs := slice (winStart m j) (S j * m - 1) gs in
    exists p st, nth_error (cw_index c) j = Some (p, st) /\ cs_values st = zlen xs /\
    (xs <> [] -> exists mn mx mxU, cs_detail st = Some (DTimestamp mn mx 0 mxU) /\
      greatest (0 :: map ms xs) mx /\ greatest (0 :: map msUtc xs) mxU /\
      (Forall (fun g => 0 <= msUtc g) xs -> least (0 :: map ms xs) mn) /\
      (forall ys g, xs = ys ++ [g] -> msUtc g < 0 -> mn = msUtc g)).
Proof. intros deflate F o m id hn vs c Hm Hwi. exact (index_times deflate F o m Hm Hwi id hn vs c). Qed.
Print Assumptions C25_timestamp_partial.
Theorem C25_timestamp_refuted : exists vs, length vs = 4%nat /\ length (values vs) = 2%nat /\
  (let! l := index_of zi64 KTimestamp true vs in Ok (map cs_values l)) = Ok [1].
Proof.
  exists [val (GTimestamp {| ts_loc := 0; ts_seconds := 1000; ts_nanos := 0 |}); vnull; vnull; val (GTimestamp {| ts_loc := 0; ts_seconds := 2000; ts_nanos := 0 |})].
  split; [reflexivity|]. split; reflexivity.
Qed.
Print Assumptions C25_timestamp_refuted.
(** The minimum of the second entry, over the values [x] and [y], is above both. *)
Theorem C25_timestamp_minimum_refuted : exists x y mn mx mxU e,
  (let! l := index_of zi64 KTimestamp false (map (fun t => val (GTimestamp t))
      [{| ts_loc := 0; ts_seconds := 0; ts_nanos := 0 |}; x; y; {| ts_loc := 0; ts_seconds := 0; ts_nanos := 0 |}]) in
   Ok (map cs_detail l)) = Ok [e; Some (DTimestamp mn mx 0 mxU)] /\
  GetMilliSeconds x < mn /\ GetMilliSeconds y < mn /\ mn = GetMilliSecondsUtc y.
Proof.
  exists {| ts_loc := 0; ts_seconds := - 3000000000; ts_nanos := 0 |}, {| ts_loc := 0; ts_seconds := - 2840140801; ts_nanos := 0 |}.
  do 4 eexists. split; [vm_compute; reflexivity|]. vm_compute. auto.
Qed.
Print Assumptions C25_timestamp_minimum_refuted.
(** A float32 or decimal column with a row index takes no value at all: the first one
    panics or fails (float.go 237, decimal.go 103). *)
Theorem C25_float_decimal_refuted : forall deflate F o m id k hn vs c, (1 <= m)%nat -> WriteIndex o = true ->
  (k = KFloat \/ k = KDecimal) -> writeRows deflate F o (Z.of_nat m) (newColW o id k hn) vs = Ok c ->
  Forall (fun v => Null v = true) vs.
Proof. intros deflate F o m id k hn vs c Hm Hwi. exact (refused_all deflate F o m Hwi id k hn vs c). Qed.
Print Assumptions C25_float_decimal_refuted.
Example C25_float_decimal_ex :
  writeRows toy_deflate fl zi64 2 (newColW zi64 3 KFloat false) [val (GFloat 5)] = Panic /\
  writeRows toy_deflate fl zi64 2 (newColW zi64 3 KDecimal false) [val (GDecimal 5 1)] = Err /\
  match writeRows toy_deflate fl zi64 2 (newColW zi64 3 KFloat true) [vnull; vnull] with Ok c => length (cw_index c) = 1%nat | _ => False end.
Proof. vm_compute. auto. Qed.

(** ** C48 *)
(** After the reset between two stripes, a column with a row index cannot take any
    further value. *)
Theorem C48_second_stripe_refuted : forall deflate F o stride c c' v, WriteIndex o = true -> 1 < stride ->
  c_Reset o c = Ok c' -> steady (cw_kind c) = true -> cw_kind c <> KDate -> Null v = false ->
  forall c2, c_Write deflate F o stride c' v <> Ok c2.
Proof. exact second_stripe. Qed.
Print Assumptions C48_second_stripe_refuted.
Example C48_ex : let w := (let! c := writeRows toy_deflate fl zi64 2 (newColW zi64 3 KLong false) (int64s [1; 2; 3]) in
     let! c := c_Flush toy_deflate zi64 c in let! (_, _, c) := c_WriteOut zi64 c in c_Reset zi64 c) in
  (let! c := w in Ok (cw_indexInRows c)) = Ok 0 /\ (let! c := w in c_Write toy_deflate fl zi64 2 c (val (GInt64 4))) = Panic.
Proof. split; reflexivity. Qed.

(** The most general case: the rows of the first stride but the last must be null, and the
    index then lists the strides of this stripe only. *)
Theorem C48_second_stripe_partial : forall deflate F o m c c' vs c2, (1 <= m)%nat -> WriteIndex o = true ->
  c_Reset o c = Ok c' -> steady (cw_kind c) = true -> writeRows deflate F o (Z.of_nat m) c' vs = Ok c2 ->
  length (cw_index c2) = (length vs / m)%nat /\
  (cw_kind c <> KDate -> Forall (fun v => Null v = true) (firstn (m - 1) vs)).
Proof. exact second_stripe_rows. Qed.
Print Assumptions C48_second_stripe_partial.
Example C48_null_case : let w := (let! c := writeRows toy_deflate fl zi64 2 (newColW zi64 3 KLong true) (int64s [1; 2; 3; 4]) in
     let! c := c_Flush toy_deflate zi64 c in let! (_, _, c) := c_WriteOut zi64 c in c_Reset zi64 c) in
  (let! c := w in let! c := writeRows toy_deflate fl zi64 2 c (vnull :: int64s [5; 6]) in Ok (length (cw_index c))) = Ok 1%nat.
Proof. reflexivity. Qed.

(** ** C49 *)
(** The bytes on disk reported for a column: without nulls, those of all stripes; with
    nulls, only those of the last. *)
Theorem C49_bytes_partial : forall deflate F o stride id k hn segs out c,
  stripes deflate F o stride (newColW o id k hn) segs = Ok (out, c) ->
  segs <> [] -> zlen (concat out) < W64 ->
  cs_bytes (cw_stats c) = if hn then zlen (last out []) else zlen (concat out).
Proof. exact new_bytes. Qed.
Print Assumptions C49_bytes_partial.
Example C49_ex : (let! (out, c) := stripes toy_deflate fl zl64 2 (newColW zl64 3 KLong false) [int64s [1; 2; 3]; int64s [4]] in
    Ok (map zlen out, cs_bytes (cw_stats c))) = Ok ([7; 6], 13).
Proof. reflexivity. Qed.
Theorem C49_bytes_refuted : exists segs out c, stripes toy_deflate fl zl64 2 (newColW zl64 3 KLong true) segs = Ok (out, c) /\
  cs_bytes (cw_stats c) <> zlen (concat out).
Proof.
  exists [int64s [1; 2; 3]; int64s [4]].
  destruct (stripes toy_deflate fl zl64 2 (newColW zl64 3 KLong true) [int64s [1; 2; 3]; int64s [4]]) as [[out c]| |] eqn:E; [|exfalso; vm_compute in E; discriminate E..].
  exists out, c. split; [reflexivity|].
  assert (Hd : (let! (out, c) := stripes toy_deflate fl zl64 2 (newColW zl64 3 KLong true) [int64s [1; 2; 3]; int64s [4]] in
    Ok (cs_bytes (cw_stats c) =? zlen (concat out))) = Ok false) by reflexivity.
  rewrite E in Hd. cbn [rbind] in Hd. apply Z.eqb_neq. congruence.
Qed.
Print Assumptions C49_bytes_refuted.
