(** C63: a client that asks for some of the columns of a file sees in them what a client
    sees who asks for more. *)
From Coq Require Import ZifyBool ZifyNat.
From Verif.Model Require Import Go Chunk Stream Schema Rows Time File Column Wire Assembled.
From Verif.Spec Require Import RowsSpec FileSpec ColumnSpec EndSpec OrcColumn OrcFile ProjectSpec.
From Verif.Proofs Require Import Base SchemaP ProjectP.
From Verif.Properties Require Import Columns File Foreign ForeignFile.

(** For all files, well-formed or not, and all sequences of Next and Seek that succeed for
    the client with more columns.
    Missing, each refuted below: columns without their parents, lists and maps without
    their elements, and selections whose first column on every level is a struct without
    nulls down to one that has no columns. *)
Theorem C63_same_values_partial : forall inflate narrow wide file schema r x w l out,
  clients inflate narrow wide file schema r x w l out ->
  rooted narrow (fr_nodes r) -> whole narrow wide schema -> has_room narrow schema ->
  sees_the_same inflate narrow file schema r l out.
Proof.
  intros inflate narrow wide file schema r x w l out [H1 H2 [H3 H4] [H5 H6] H7 H8 H9 H10 H11] Hr Hw Hroom.
  destruct (project inflate narrow wide file r x schema w l out H1 Hr Hw H2 H3 H4 H5 H6 H7 H8 H9 H10 H11) as (y & v & E1 & E2 & H).
  destruct (H (Hroom v E2)) as (out' & E3 & E4). exists y, v, out'. auto.
Qed.
Print Assumptions C63_same_values_partial.

(** Two stripes of three rows: a struct around a bigint with nulls, a bigint, a list of
    bigints and a string. *)
Definition mixed : td := Td 0 STRUCT [[97]; [98]; [99]; [100]] 0 false
  [Td 1 STRUCT [[101]] 0 false [Td 2 LONG [] 2 true []]; Td 3 LONG [] 2 false [];
   Td 4 LIST [] 2 false [Td 5 LONG [] 2 false []]; Td 6 STRING [] 2 false []].
Definition mixed_streams (a : Z) : list piece :=
  [(2, 0, [255; 160]); (2, 1, [70; 1; 174]); (3, 1, [0; a]); (4, 2, [0; 1]); (5, 1, [0; a]); (6, 2, [0; 1]); (6, 1, [a; 98; 99])].
Definition mixed_stripes : list (list piece * list (row value)) :=
  [(mixed_streams 14, [[]; []; []]); (mixed_streams 16, [[]; []; []])].
Definition mixed_file : list Z := foreign_file_with 10 mixed mixed_stripes.
Definition asks (l : list Z) : batchOption := {| Includes := l; RowSize := 2; NotCreateVector := false |}.
Definition some_calls : list call := [CNext; CNext; CSeek 1; CNext; CNext].
(** Everything the theorem asks for, but perhaps some of the conditions. *)
Lemma mixed_clients narrow : NotCreateVector narrow = false -> RowSize narrow = 2 -> exists r x w out,
  clients some_inflate narrow (asks []) mixed_file mixed r x w some_calls out /\
  map (fun n => n_sub n) (fr_nodes r) = [[1; 3; 4; 6]; [2]; []; []; [5]; []; []] /\
  map (fun p => (rows_of (held 2 (fst p)), rows_of (held 5 (fst p)), rows_of (held 6 (fst p)), snd p)) out =
    [([Some (GInt64 5); None], [Some (GInt64 7)], [Some (GString [14]); Some (GString [98])], false);
     ([Some (GInt64 5); None], [Some (GInt64 8)], [Some (GString [16]); Some (GString [98])], false);
     ([Some (GInt64 7)], [Some (GInt64 8)], [Some (GString [99])], true);
     ([], [], [], true)].
Proof.
  intros Hn Hs. destruct (openBatches some_inflate (asks []) mixed_file) as [[r x]| |] eqn:E; [|exfalso; vm_compute in E; discriminate E..].
  destruct (CreateVector (asks []) mixed) as [[w|]| |] eqn:Ew; try (exfalso; vm_compute in Ew; discriminate Ew).
  destruct (calls some_inflate r x (batchOf w) some_calls) as [out| |] eqn:Ec;
    [exists r, x, w, out|exfalso..]; vm_compute in E; vm_compute in Ew; injection E as <- <-; injection Ew as <-; vm_compute in Ec; [|discriminate Ec..]. injection Ec as <-.
  split; [split|].
  - intros i _. reflexivity.
  - split; [reflexivity|]. intros t Ht. vm_compute in Ht.
    repeat (destruct Ht as [<-|Ht]; [split; [vm_compute; discriminate|split; [eexists; split; [vm_compute; reflexivity|split; reflexivity]|vm_compute; reflexivity]]|]). contradiction.
  - auto.
  - split; [exact Hs|reflexivity].
  - repeat (constructor; [split; [discriminate|reflexivity]|]). constructor.
  - vm_compute. reflexivity.
  - vm_compute. reflexivity.
  - vm_compute. discriminate.
  - vm_compute. reflexivity.
  - split; reflexivity.
Qed.
Lemma rooted_mixed l ns : map (fun n => n_sub n) ns = [[1; 3; 4; 6]; [2]; []; []; [5]; []; []] ->
  IsInclude (asks l) 0 = true -> implb (IsInclude (asks l) 2) (IsInclude (asks l) 1) = true -> implb (IsInclude (asks l) 5) (IsInclude (asks l) 4) = true ->
  rooted (asks l) ns.
Proof.
  intros E H0 H1 H2. split; [exact H0|]. intros i n c Hn Hc Hi. assert (En : nth_error (map (fun n => n_sub n) ns) i = Some (n_sub n)) by (rewrite nth_error_map, Hn; reflexivity).
  rewrite E in En. destruct i as [|[|[|[|[|[|[|i]]]]]]]; [..|destruct i; discriminate En]; injection En as En; rewrite <- En in Hc; cbn [In] in Hc; try contradiction; [exact H0|..].
  - destruct Hc as [<-|[]]. rewrite Hi in H1. exact H1.
  - destruct Hc as [<-|[]]. rewrite Hi in H2. exact H2.
Qed.
(** The struct with its column, and the list. *)
Example C63_ex : exists r x w out, clients some_inflate (asks [0; 1; 2; 4; 5]) (asks []) mixed_file mixed r x w some_calls out /\
  sees_the_same some_inflate (asks [0; 1; 2; 4; 5]) mixed_file mixed r some_calls out.
Proof.
  destruct (mixed_clients (asks [0; 1; 2; 4; 5]) eq_refl eq_refl) as (r & x & w & out & H & Hns & _). exists r, x, w, out. split; [exact H|].
  apply (C63_same_values_partial _ _ _ _ _ _ _ _ _ _ H).
  - apply rooted_mixed; auto.
  - intros t y Ht Hk Hi Hy _. vm_compute in Ht. repeat (destruct Ht as [<-|Ht]; [vm_compute in Hy; repeat (destruct Hy as [<-|Hy]; [first [reflexivity|cbn in Hi; destruct Hk; discriminate]|]); contradiction|]). contradiction.
  - intros v Hv. vm_compute in Hv. injection Hv as <-. vm_compute. discriminate.
Qed.

(** A list without its elements: Next panics. *)
Theorem C63_list_without_elements_refuted : exists narrow r x w out,
  clients some_inflate narrow (asks []) mixed_file mixed r x w some_calls out /\
  rooted narrow (fr_nodes r) /\ has_room narrow mixed /\
  ~ sees_the_same some_inflate narrow mixed_file mixed r some_calls out /\
  exists y, openBatches some_inflate narrow mixed_file = Ok (r, y) /\ calls some_inflate r y (first_batch narrow mixed) [CNext] = Panic.
Proof.
  destruct (mixed_clients (asks [0; 3; 4]) eq_refl eq_refl) as (r & x & w & out & H & Hns & _). exists (asks [0; 3; 4]), r, x, w, out. split; [exact H|].
  split; [apply rooted_mixed; auto|]. split; [intros v Hv; vm_compute in Hv; injection Hv as <-; vm_compute; discriminate|].
  destruct (openBatches some_inflate (asks [0; 3; 4]) mixed_file) as [[r' y]| |] eqn:E; [|exfalso; vm_compute in E; discriminate E..].
  assert (Hr : r' = r). { pose proof (c_open _ _ _ _ _ _ _ _ _ _ H) as Ho. vm_compute in Ho. vm_compute in E. congruence. }
  subst r'. split.
  - intros (y' & v & out' & E' & Ev & Ec & _). rewrite E in E'. injection E' as <-. vm_compute in E. injection E as <- <-. vm_compute in Ev. injection Ev as <-. vm_compute in Ec. discriminate Ec.
  - exists y. split; [reflexivity|]. vm_compute in E. injection E as <- <-. vm_compute. reflexivity.
Qed.
Print Assumptions C63_list_without_elements_refuted.
(** A column without its parent: opening panics. *)
Theorem C63_without_parent_refuted : exists narrow r x w out,
  clients some_inflate narrow (asks []) mixed_file mixed r x w some_calls out /\
  whole narrow (asks []) mixed /\ has_room narrow mixed /\
  ~ sees_the_same some_inflate narrow mixed_file mixed r some_calls out /\
  openBatches some_inflate narrow mixed_file = Panic.
Proof.
  destruct (mixed_clients (asks [0; 2; 3]) eq_refl eq_refl) as (r & x & w & out & H & _). exists (asks [0; 2; 3]), r, x, w, out. split; [exact H|].
  split. { intros t y Ht Hk Hi _ _. vm_compute in Ht. repeat (destruct Ht as [<-|Ht]; [vm_compute in Hi; vm_compute in Hk; destruct Hk; discriminate|]). contradiction. }
  split; [intros v Hv; vm_compute in Hv; injection Hv as <-; vm_compute; discriminate|].
  assert (E : openBatches some_inflate (asks [0; 2; 3]) mixed_file = Panic) by (vm_compute; reflexivity). split; [|exact E].
  intros (y & v & out' & E' & _). rewrite E in E'. discriminate E'.
Qed.
Print Assumptions C63_without_parent_refuted.
(** A struct without columns in front: the batch has no room, and Next never returns a row. *)
Theorem C63_no_room_refuted : exists narrow r x w out,
  clients some_inflate narrow (asks []) mixed_file mixed r x w some_calls out /\
  rooted narrow (fr_nodes r) /\ whole narrow (asks []) mixed /\
  ~ sees_the_same some_inflate narrow mixed_file mixed r some_calls out.
Proof.
  destruct (mixed_clients (asks [0; 1; 3]) eq_refl eq_refl) as (r & x & w & out & H & Hns & _). exists (asks [0; 1; 3]), r, x, w, out. split; [exact H|].
  split; [apply rooted_mixed; auto|].
  split. { intros t y Ht Hk Hi _ _. vm_compute in Ht. repeat (destruct Ht as [<-|Ht]; [vm_compute in Hi; vm_compute in Hk; destruct Hk; discriminate|]). contradiction. }
  intros (y & v & out' & E & Ev & Ec & Hs). destruct H as [_ _ _ _ _ Ho Hc _ Hl].
  vm_compute in Ho. injection Ho as <- <-. vm_compute in Hc. injection Hc as <-. vm_compute in Hl. injection Hl as <-.
  vm_compute in E. injection E as <-. vm_compute in Ev. injection Ev as <-. vm_compute in Ec. injection Ec as <-.
  inversion Hs as [|p q l1 l2 [_ Hp] Hl2]; subst. specialize (Hp 3 eq_refl). vm_compute in Hp. discriminate Hp.
Qed.
Print Assumptions C63_no_room_refuted.

(** The other way round it is false: what spoils a column that is not asked for is not
    noticed.  Here, a stream of a kind its reader does not know (C58). *)
Theorem C63_converse_refuted : exists schema l narrow r y,
  rooted narrow (fr_nodes r) /\ unfolds r schema /\ openBatches some_inflate narrow (foreign_file schema l) = Ok (r, y) /\
  match calls some_inflate r y (first_batch narrow schema) [CNext] with Ok [(v, _)] => rows_of (held 2 v) = [Some (GInt64 7); Some (GInt64 7)] | _ => False end /\
  openBatches some_inflate (asks []) (foreign_file schema l) = Err.
Proof.
  exists (Td 0 STRUCT [[97]; [98]] 0 false [Td 1 LONG [] 2 false []; Td 2 LONG [] 2 false []]), [([(1, 5, [1; 2; 3]); (1, 1, [0; 14]); (2, 1, [0; 14])], [[]; []; []])], (asks [0; 2]).
  match goal with |- exists r y, _ /\ _ /\ ?e = _ /\ _ => destruct e as [[r y]| |] eqn:E; [|exfalso; vm_compute in E; discriminate E..] end.
  exists r, y. vm_compute in E. injection E as <- <-. split; [|split; [|split; [vm_compute; reflexivity|split; vm_compute; reflexivity]]].
  - split; [reflexivity|]. intros i n c Hn Hc Hi. destruct i as [|[|[|i]]]; [..|destruct i; discriminate Hn]; injection Hn as <-; cbn [n_sub In] in Hc; [reflexivity|contradiction..].
  - split; [reflexivity|]. intros t Ht. vm_compute in Ht.
    repeat (destruct Ht as [<-|Ht]; [split; [vm_compute; discriminate|split; [eexists; split; [vm_compute; reflexivity|split; reflexivity]|vm_compute; reflexivity]]|]). contradiction.
Qed.
Print Assumptions C63_converse_refuted.
