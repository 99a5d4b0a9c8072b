(** C55: the elements of lists and maps in a batch; C56: skipping lists and maps. *)
From Coq Require Import ZifyBool ZifyNat.
From Verif.Model Require Import Go Codec ByteBool IntRle Chunk Stream Time File Column Nested Tree.
From Verif.Spec Require Import BoolSpec Session ChunkSpec StreamSpec IntSpec ColumnSpec SeekSpec NestedSpec.
From Verif.Proofs Require Import Base StreamP ReadP ColumnP ColumnReadP StatsP SeekP TreeP BatchP SkipP NestedP ChunkP.
From Verif.Properties Require Import Columns.

Lemma nulls_known (rows : list (option Z)) : {In None rows} + {~ In None rows}.
Proof. apply in_dec. decide equality. apply Z.eq_dec. Qed.

(** A list column over a leaf column which gives the elements [es]: the batch succeeds,
    every row gets its length, the elements are taken in order, and the vector of the
    elements holds those of the last row, and no others.
    Missing: lists that may be null over elements that may be null (C55_null_refuted). *)
Theorem C55_list_partial : forall inflate o hn rows r r' c es vec w cs,
  shows inflate o r rows r' -> space r rows vec -> lengths_ok rows ->
  (In None rows -> cr_present c = None) -> (total (sizes rows) <= length es)%nat -> delivers_from inflate o hn c es ->
  exists out w' c', list_NextBatch inflate o colR (leaf_next inflate o) r c vec (VT w cs) = Ok (out, VT w' cs, r', c') /\
    rows_of out = map (option_map GUint64) rows /\ rows_of w' = last (shares rows es) (rows_of w) /\
    delivers_from inflate o hn c' (skipn (total (sizes rows)) es).
Proof.
  intros inflate o hn rows r r' c es vec w cs Hs Hsp Hl Hn Ht Hd.
  destruct (nulls_known rows) as [Hi|Hi].
  - destruct (list_batch inflate o _ _ _ (leaf_ok inflate o hn true) rows r r' c es vec w cs Hs Hsp Hl) as (out & w' & c' & E & Hg & Hw & [Hd' _]);
      [discriminate|exact Ht|split; [exact Hd|intros _; exact (Hn Hi)]|]. exists out, w', c'. auto.
  - destruct (list_batch inflate o _ _ _ (leaf_ok inflate o hn false) rows r r' c es vec w cs Hs Hsp Hl) as (out & w' & c' & E & Hg & Hw & [Hd' _]);
      [intros _; exact Hi|exact Ht|split; [exact Hd|discriminate]|]. exists out, w', c'. auto.
Qed.
Print Assumptions C55_list_partial.
(** So the elements of the batch are there exactly when the lists before the last one are
    empty. *)
Theorem C55_elements_iff_partial : forall inflate o hn rows r r' c es vec w cs,
  shows inflate o r rows r' -> space r rows vec -> lengths_ok rows ->
  rows <> [] -> ~ In None rows -> (total (sizes rows) <= length es)%nat -> delivers_from inflate o hn c es ->
  exists out w' c', list_NextBatch inflate o colR (leaf_next inflate o) r c vec (VT w cs) = Ok (out, VT w' cs, r', c') /\
    (rows_of w' = firstn (total (sizes rows)) es <-> Forall (fun n => n = O) (removelast (sizes rows))).
Proof.
  intros inflate o hn rows r r' c es vec w cs Hs Hsp Hl Hr Hn Ht Hd.
  destruct (C55_list_partial inflate o hn rows r r' c es vec w cs Hs Hsp Hl) as (out & w' & c' & E & _ & Hw & _);
    [intros H; destruct (Hn H)|exact Ht|exact Hd|].
  exists out, w', c'. split; [exact E|]. rewrite Hw. exact (last_share rows es (rows_of w) Hr Hn Ht).
Qed.
Print Assumptions C55_elements_iff_partial.
(** In particular a batch of one row has its elements. *)
Theorem C55_one_row_partial : forall inflate o hn n r r' c es v w cs,
  shows inflate o r [Some n] r' -> (ls_present r = None -> Null v = false) -> 0 <= n < W63 -> n <= zlen es -> delivers_from inflate o hn c es ->
  exists w' c', list_NextBatch inflate o colR (leaf_next inflate o) r c [v] (VT w cs) = Ok ([{| Null := false; V := GUint64 n |}], VT w' cs, r', c') /\
    rows_of w' = firstn (Z.to_nat n) es /\ delivers_from inflate o hn c' (skipn (Z.to_nat n) es).
Proof.
  intros inflate o hn n r r' c es v w cs Hs Hf Hn Hl Hd.
  destruct (C55_list_partial inflate o hn [Some n] r r' c es [v] w cs Hs) as (out & w' & c' & E & Ho & Hw & Hd').
  - split; [reflexivity|]. intros H. constructor; [auto|constructor].
  - constructor; [exact Hn|constructor].
  - intros [H|[]]. discriminate H.
  - unfold zlen in Hl. cbn. lia.
  - exact Hd.
  - cbn [sizes counts flat_map app map total fold_right] in Hd'. rewrite Nat.add_0_r in Hd'. exists w', c'. split; [|split; [exact Hw|exact Hd']]. rewrite E.
    cbn [map option_map rows_of] in Ho. destruct out as [|[nl g] [|? ?]]; try discriminate Ho. cbn in Ho. destruct nl; [discriminate Ho|]. injection Ho as ->. reflexivity.
Qed.
Print Assumptions C55_one_row_partial.
(** The same of maps, for keys and values. *)
Theorem C55_map_partial : forall inflate o hk hw rows r r' k w ks ws vec kv wv kcs wcs,
  shows inflate o r rows r' -> space r rows vec -> lengths_ok rows ->
  (In None rows -> cr_present k = None /\ cr_present w = None) ->
  (total (sizes rows) <= length ks)%nat -> (total (sizes rows) <= length ws)%nat ->
  delivers_from inflate o hk k ks -> delivers_from inflate o hw w ws ->
  exists out kv' wv' k' w', map_NextBatch inflate o colR colR (leaf_next inflate o) (leaf_next inflate o) r k w vec (VT kv kcs) (VT wv wcs) =
      Ok (out, VT kv' kcs, VT wv' wcs, r', k', w') /\
    rows_of out = map (option_map GInt) rows /\
    rows_of kv' = last (shares rows ks) (rows_of kv) /\ rows_of wv' = last (shares rows ws) (rows_of wv) /\
    delivers_from inflate o hk k' (skipn (total (sizes rows)) ks) /\ delivers_from inflate o hw w' (skipn (total (sizes rows)) ws).
Proof.
  intros inflate o hk hw rows r r' k w ks ws vec kv wv kcs wcs Hs Hsp Hl Hn Hk Hw Hdk Hdw.
  destruct (nulls_known rows) as [Hi|Hi].
  - destruct (map_batch inflate o _ _ _ _ _ (leaf_ok inflate o hk true) (leaf_ok inflate o hw true) rows r r' k w ks ws vec kv wv kcs wcs Hs Hsp Hl)
      as (out & kv' & wv' & k' & w' & E & Hg & H1 & H2 & [H3 _] & [H4 _]);
      [discriminate|exact Hk|exact Hw|split; [exact Hdk|intros _; apply (Hn Hi)]|split; [exact Hdw|intros _; apply (Hn Hi)]|]. exists out, kv', wv', k', w'. auto 10.
  - destruct (map_batch inflate o _ _ _ _ _ (leaf_ok inflate o hk false) (leaf_ok inflate o hw false) rows r r' k w ks ws vec kv wv kcs wcs Hs Hsp Hl)
      as (out & kv' & wv' & k' & w' & E & Hg & H1 & H2 & [H3 _] & [H4 _]);
      [intros _; exact Hi|exact Hk|exact Hw|split; [exact Hdk|discriminate]|split; [exact Hdw|discriminate]|]. exists out, kv', wv', k', w'. auto 10.
Qed.
Print Assumptions C55_map_partial.

(** Streams without compression, given by their bytes, and columns of longs over them. *)
Definition plain (bs : list Z) : reader := newReader bs 0 (zlen bs).
Definition long_reader (present : option (list Z)) (bs : list Z) : colR :=
  let c := setData (RRun (newVreader (plain bs))) (newColR KLong (match present with Some _ => true | None => false end)) in
  match present with Some p => setPresent (newBoolReader (plain p)) c | None => c end.
Definition list_reader (present : option (list Z)) (bs : list Z) : listR :=
  {| ls_present := option_map (fun p => newBoolReader (plain p)) present; ls_length := Some (newVreader (plain bs)) |}.
(** Runs of one byte a value: lengths, and longs (zigzag). *)
Definition run8 (xs : list Z) : list Z := [78; zlen xs - 1] ++ xs.
Definition longs (xs : list Z) : colR := long_reader None (run8 (map (fun x => 2 * x) xs)).
Definition list_trip (present : option (list Z)) (ns : list Z) (c : colR) (vec : list value) : res (list (option gval) * list (option gval)) :=
  let! (out, cv, _, _) := list_NextBatch toy_inflate no64 colR (leaf_next toy_inflate no64) (list_reader present (run8 ns)) c vec (VT [] []) in
  Ok (rows_of out, rows_of (vt_vals cv)).
(** The lists [1 2] and [3 4 5]: after the batch, 1 and 2 are lost.  Read one by one they
    are all there. *)
Theorem C55_list_refuted : exists ns c es, total (map Z.to_nat ns) = length es /\
  list_trip None ns c (blank 2) = Ok (map (fun n => Some (GUint64 n)) ns, [Some (GInt64 3); Some (GInt64 4); Some (GInt64 5)]) /\
  es = map (fun x => Some (GInt64 x)) [1; 2; 3; 4; 5] /\
  (let! (w, _) := NextBatch toy_inflate no64 c (blank 5) in Ok (rows_of w)) = Ok es.
Proof. exists [2; 3], (longs [1; 2; 3; 4; 5]), (map (fun x => Some (GInt64 x)) [1; 2; 3; 4; 5]). split; [reflexivity|]. split; [vm_compute; reflexivity|]. split; [reflexivity|]. vm_compute; reflexivity. Qed.
Print Assumptions C55_list_refuted.
(** A null list, then [7 8], over a column of longs that may be null: the null list takes
    the first element, and the list comes back as 8 and a null (the next bit of the last
    byte).  Without the PRESENT stream of the elements the list [7 8] comes back. *)
Theorem C55_null_refuted : exists c d,
  list_trip (Some [255; 64]) [2] c (blank 2) = Ok ([None; Some (GUint64 2)], [Some (GInt64 8); None]) /\
  (let! (w, _) := NextBatch toy_inflate no64 c (blank 2) in Ok (rows_of w)) = Ok [Some (GInt64 7); Some (GInt64 8)] /\
  list_trip (Some [255; 64]) [2] d (blank 2) = Ok ([None; Some (GUint64 2)], [Some (GInt64 7); Some (GInt64 8)]).
Proof. exists (long_reader (Some [255; 192]) (run8 [14; 16])), (longs [7; 8]). vm_compute. split; [|split]; reflexivity. Qed.
Print Assumptions C55_null_refuted.
(** [[1 2] [3]], a list of lists, in a batch of one row: 1 and 2 are lost. *)
Definition nested_trip (outer inner : list Z) (c : colR) (vec : list value) : res (list (list (option gval))) :=
  let! (_, cv, _, _) := list_NextBatch toy_inflate no64 (listR * colR) (list_next toy_inflate no64 (leaf_next toy_inflate no64))
    (list_reader None (run8 outer)) (list_reader None (run8 inner), c) vec (VT [] [VT [] []]) in
  Ok (rows_of (vt_vals cv) :: map (fun v => rows_of (vt_vals v)) (match cv with VT _ cs => cs end)).
Theorem C55_nested_refuted : exists outer inner c,
  nested_trip outer inner c (blank 1) = Ok [[Some (GUint64 2); Some (GUint64 1)]; [Some (GInt64 3)]] /\
  (let! (w, _) := NextBatch toy_inflate no64 c (blank 3) in Ok (rows_of w)) = Ok [Some (GInt64 1); Some (GInt64 2); Some (GInt64 3)].
Proof. exists [2], [2; 1], (longs [1; 2; 3]). vm_compute. split; reflexivity. Qed.
Print Assumptions C55_nested_refuted.
(** With no vector for the elements of the inner lists a batch with a row in it panics
    (ListV2Reader.NextBatch takes Children[0]). *)
Theorem C55_no_vector_refuted : exists outer inner c,
  list_NextBatch toy_inflate no64 (listR * colR) (list_next toy_inflate no64 (leaf_next toy_inflate no64))
    (list_reader None (run8 outer)) (list_reader None (run8 inner), c) (blank 1) (VT [] []) = Panic /\
  nested_trip outer inner c (blank 1) = Ok [[Some (GUint64 1)]; [Some (GInt64 1)]].
Proof. exists [1], [1], (longs [1]). vm_compute. split; reflexivity. Qed.
Print Assumptions C55_no_vector_refuted.
(** A list of structs of leaf columns never has elements, whatever the file holds: the
    vectors below the struct come empty (Clear, api/vector.go 49-54), stay empty, and the
    columns are not read from. *)
Theorem C55_structs_refuted : forall inflate o index ls rows r r' vec w, shows inflate o r rows r' -> space r rows vec ->
  exists out w', list_NextBatch inflate o ctree (tree_NextBatch inflate o) r (CStruct None index (map CLeaf ls)) vec (VT w (map (fun _ => VT [] []) ls)) =
    Ok (out, VT w' (map (fun _ => VT [] []) ls), r', CStruct None index (map CLeaf ls)) /\ rows_of out = map (option_map GUint64) rows.
Proof. exact list_of_structs. Qed.
Print Assumptions C55_structs_refuted.
(** A list of timestamps or decimals is never read, if it has an element: there is no
    value in the new vector to assert the type of. *)
Theorem C55_timestamps_refuted : forall inflate o rows r r' c vec cv, shows inflate o r rows r' -> space r rows vec -> lengths_ok rows ->
  (cr_kind c = KTimestamp \/ cr_kind c = KDecimal) -> cr_present c = None -> (total (sizes rows) > 0)%nat ->
  forall q, list_NextBatch inflate o colR (leaf_next inflate o) r c vec cv <> Ok q.
Proof. exact list_refuses. Qed.
Print Assumptions C55_timestamps_refuted.

Lemma shows_sample : exists r', shows toy_inflate no64 (list_reader (Some [255; 176]) (run8 [2; 0; 3])) [Some 2; None; Some 0; Some 3] r'.
Proof.
  unfold shows. destruct (bits toy_inflate no64 4 (newBoolReader (plain [255; 176]))) as [[ps b]| |] eqn:Eb; [|exfalso; vm_compute in Eb; discriminate Eb..].
  destruct (numbers toy_inflate no64 3 (Some (newVreader (plain (run8 [2; 0; 3]))))) as [[ns l]| |] eqn:El; [|exfalso; vm_compute in El; discriminate El..].
  exists {| ls_present := Some b; ls_length := l |}. cbn [list_reader ls_present ls_length option_map length map some_bit counts flat_map app].
  assert (ps = [true; false; true; true]) as ->.
  { assert (H : match bits toy_inflate no64 4 (newBoolReader (plain [255; 176])) with Ok (ps, _) => ps | _ => [] end = [true; false; true; true]) by (vm_compute; reflexivity).
    rewrite Eb in H. exact H. }
  assert (ns = [2; 0; 3]) as ->.
  { assert (H : match numbers toy_inflate no64 3 (Some (newVreader (plain (run8 [2; 0; 3])))) with Ok (ps, _) => ps | _ => [] end = [2; 0; 3]) by (vm_compute; reflexivity).
    rewrite El in H. exact H. }
  split; [exact Eb|exact El].
Qed.
(** Four rows with nulls over a column of strings written by the column writer. *)
Definition five_strings : list value := map (fun z => val (GString (repeat z (Z.to_nat z)))) [1; 2; 3; 4; 5].
Example C55_case : exists r' c es,
  shows toy_inflate no64 (list_reader (Some [255; 176]) (run8 [2; 0; 3])) [Some 2; None; Some 0; Some 3] r' /\
  space (list_reader (Some [255; 176]) (run8 [2; 0; 3])) [Some 2; None; Some 0; Some 3] (blank 4) /\
  lengths_ok [Some 2; None; Some 0; Some 3] /\ cr_present c = None /\ length es = 5%nat /\ delivers_from toy_inflate no64 false c es /\
  list_trip (Some [255; 176]) [2; 0; 3] c (blank 4) =
    Ok ([Some (GUint64 2); None; Some (GUint64 0); Some (GUint64 3)], skipn 2 (rows_of five_strings)).
Proof.
  destruct shows_sample as (r' & Hs).
  destruct (writeColumn toy_deflate fl no64 10 (newColW no64 3 KString false) five_strings) as [[[bs infos] c3]| |] eqn:E;
    [|exfalso; vm_compute in E; discriminate E..].
  assert (Hr : reads_back toy_inflate no64 KString false bs infos (rows_of five_strings)).
  { eapply (C45_round_trip_partial toy_deflate toy_inflate no64); [split; [left; reflexivity|cbn; lia]|exact ChunkP.toy_ok|reflexivity| | | |exact E].
    - repeat (constructor; [split; [repeat constructor; unfold is_u8; lia|vm_compute; reflexivity]|]). constructor.
    - intros _. repeat (constructor; [reflexivity|]). constructor.
    - apply C45_carried_partial; [|vm_compute; reflexivity].
      assert (X : map int_of (nonnull (rows_of five_strings)) = [1; 2; 3; 4; 5]) by (vm_compute; reflexivity). rewrite X.
      apply Forall_forall. intros z Hz. unfold is_int, is_u64. cbn in Hz. cbn. lia. }
  match type of E with ?x = _ => let y := eval vm_compute in x in assert (Ey : x = y) by (vm_compute; reflexivity); rewrite Ey in E; clear Ey end.
  injection E as <- <- <-.
  destruct (Hr [] []) as (c & Ec & Hd); [vm_compute; reflexivity|]. exists r', c, (rows_of five_strings).
  match type of Ec with ?x = _ => let y := eval vm_compute in x in assert (Ey : x = y) by (vm_compute; reflexivity); rewrite Ey in Ec; clear Ey end.
  injection Ec as <-.
  split; [exact Hs|]. split; [split; [reflexivity|discriminate]|]. split; [repeat (constructor; [lia|]); constructor|]. split; [reflexivity|]. split; [reflexivity|].
  split; [exact Hd|]. vm_compute. reflexivity.
Qed.

(** * C56 *)
(** Skipping list rows leaves the readers as reading them does, or fails in the same way,
    if the elements or the lists have no PRESENT stream. *)
Theorem C56_list_partial : forall inflate o r c vec cv, zlen vec < W63 ->
  accepts (cr_kind c) GNil -> cr_present c = None \/ ls_present r = None ->
  (ls_present r = None -> Forall (fun v => Null v = false) vec) ->
  list_Skip inflate o colR (leaf_skip inflate o) (zlen vec) r c =
    match list_NextBatch inflate o colR (leaf_next inflate o) r c vec cv with
    | Ok (_, _, r', c') => Ok (r', c') | Err => Err | Panic => Panic
    end.
Proof.
  intros inflate o r c vec cv Hl Ha Hp Hf. unfold list_Skip. rewrite i64_id by (unfold is_i64, zlen in *; lia). unfold zlen. rewrite Nat2Z.id.
  exact (list_skip inflate o vec r c cv Ha Hp Hf).
Qed.
Print Assumptions C56_list_partial.
(** Skipping map rows with [rows] entries goes on by the squares of the numbers of
    entries; reading them, by the numbers. *)
Theorem C56_map_partial : forall inflate o rows r r' k w, shows inflate o r rows r' -> lengths_ok rows -> zlen rows < W63 ->
  (forall r2 k' w', map_Skip inflate o colR colR (leaf_skip inflate o) (leaf_skip inflate o) (zlen rows) r k w = Ok (r2, k', w') <->
     r2 = r' /\ skipRows inflate o (total (squares (sizes rows))) k = Ok k' /\ skipRows inflate o (total (squares (sizes rows))) w = Ok w') /\
  (forall vec kv wv kcs wcs, space r rows vec ->
     (In None rows -> cr_present k = None /\ cr_present w = None) -> accepts (cr_kind k) GNil -> accepts (cr_kind w) GNil -> forall r2 k' w',
     (exists out kv' wv', map_NextBatch inflate o colR colR (leaf_next inflate o) (leaf_next inflate o) r k w vec (VT kv kcs) (VT wv wcs) = Ok (out, kv', wv', r2, k', w')) <->
     r2 = r' /\ skipRows inflate o (total (sizes rows)) k = Ok k' /\ skipRows inflate o (total (sizes rows)) w = Ok w').
Proof.
  intros inflate o rows r r' k w Hs Hl Hz. split.
  - intros r2 k' w'. unfold map_Skip. rewrite i64_id by (unfold is_i64, zlen in *; lia). unfold zlen. rewrite Nat2Z.id. exact (map_skip inflate o rows r r' k w Hs Hl r2 k' w').
  - intros vec kv wv kcs wcs Hsp Hp Hk Hw. exact (map_read inflate o rows r r' k w vec kv wv kcs wcs Hs Hl Hsp Hp Hk Hw).
Qed.
Print Assumptions C56_map_partial.
(** The two agree when no map skipped has more than one entry, and only then are the
    numbers of entries the same. *)
Theorem C56_squares_iff : forall rows, total (squares (sizes rows)) = total (sizes rows) <-> Forall (fun n => (n <= 1)%nat) (sizes rows).
Proof. intros rows. exact (squares_iff (sizes rows)). Qed.
Print Assumptions C56_squares_iff.

Definition map_trip (skipped : Z) (ns : list Z) (k w : colR) (n : nat) : res (list (option gval) * list (option gval) * list (option gval)) :=
  let! (r, k1, w1) := map_Skip toy_inflate no64 colR colR (leaf_skip toy_inflate no64) (leaf_skip toy_inflate no64) skipped (list_reader None (run8 ns)) k w in
  let! (out, kv, wv, _, _, _) := map_NextBatch toy_inflate no64 colR colR (leaf_next toy_inflate no64) (leaf_next toy_inflate no64) r k1 w1 (blank n) (VT [] []) (VT [] []) in
  Ok (rows_of out, rows_of (vt_vals kv), rows_of (vt_vals wv)).
(** {1: 11, 2: 12} is skipped, {3: 13, 4: 14} is to be read: the reader gives the third
    map's entries instead. *)
Theorem C56_map_refuted : exists ns k w,
  map_trip 0 ns k w 1 = Ok ([Some (GInt 2)], [Some (GInt64 1); Some (GInt64 2)], [Some (GInt64 11); Some (GInt64 12)]) /\
  map_trip 0 ns k w 2 = Ok ([Some (GInt 2); Some (GInt 2)], [Some (GInt64 3); Some (GInt64 4)], [Some (GInt64 13); Some (GInt64 14)]) /\
  map_trip 1 ns k w 1 = Ok ([Some (GInt 2)], [Some (GInt64 5); Some (GInt64 6)], [Some (GInt64 15); Some (GInt64 16)]).
Proof. exists [2; 2; 2], (longs [1; 2; 3; 4; 5; 6]), (longs [11; 12; 13; 14; 15; 16]). vm_compute. split; [|split]; reflexivity. Qed.
Print Assumptions C56_map_refuted.
(** A null list, [7 8] and [9], over a column of longs that may be null: what is read
    after skipping the first is not what is read after reading it. *)
Definition list_skip_trip (present : option (list Z)) (ns : list Z) (c : colR) (skipped : Z) (n : nat) : res (list (option gval) * list (option gval)) :=
  let! (r, c1) := list_Skip toy_inflate no64 colR (leaf_skip toy_inflate no64) skipped (list_reader present (run8 ns)) c in
  let! (out, cv, _, _) := list_NextBatch toy_inflate no64 colR (leaf_next toy_inflate no64) r c1 (blank n) (VT [] []) in
  Ok (rows_of out, rows_of (vt_vals cv)).
Theorem C56_list_refuted : exists present ns c,
  list_skip_trip present ns c 2 1 = Ok ([Some (GUint64 1)], [Some (GInt64 9)]) /\
  list_skip_trip present ns c 0 2 = Ok ([None; Some (GUint64 2)], [Some (GInt64 8); Some (GInt64 9)]) /\
  list_skip_trip present ns c 1 1 = Ok ([Some (GUint64 2)], [Some (GInt64 7); Some (GInt64 8)]).
Proof. exists (Some [255; 96]), [2; 1], (long_reader (Some [255; 224]) (run8 [14; 16; 18])). vm_compute. split; [|split]; reflexivity. Qed.
Print Assumptions C56_list_refuted.
Example C56_case :
  list_skip_trip (Some [255; 96]) [2; 1] (longs [7; 8; 9]) 2 1 = Ok ([Some (GUint64 1)], [Some (GInt64 9)]) /\
  map_trip 2 [1; 0; 3] (longs [1; 2; 3; 4]) (longs [11; 12; 13; 14]) 1 =
    Ok ([Some (GInt 3)], [Some (GInt64 2); Some (GInt64 3); Some (GInt64 4)], [Some (GInt64 12); Some (GInt64 13); Some (GInt64 14)]).
Proof. vm_compute. split; reflexivity. Qed.
