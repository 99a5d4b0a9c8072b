(** C78-C80: functions nothing but tests calls. *)
From Coq Require Import ZifyBool ZifyNat Sorted.
From Verif.Model Require Import Go Chunk Schema Helper.
From Verif.Spec Require Import ChunkSpec SchemaSpec HelperSpec.
From Verif.Proofs Require Import Base ChunkP SchemaP HelperP.
From Verif.Properties Require Import Schema.

(** ** C78: ReadChunks *)
(** With a reader that gives all there is at once, what the writer compressed comes back,
    whatever lies behind the slice; there must be something, and chunks must be known to be
    no longer than [size]. *)
Theorem C78_written_partial : forall deflate inflate read cs src out rest spare size,
  flate_ok deflate inflate -> greedy inflate read -> 1 <= cs < 2 ^ 23 -> cs <= size -> src <> [] ->
  CompressingAllInChunks deflate ZLIB cs src = Ok (out, rest) ->
  ReadChunks read out spare ZLIB size = Ok src.
Proof.
  intros deflate inflate read cs src out rest spare size Hfl Hg Hcs Hs Hne H. exact (readChunks_written deflate inflate read cs src out rest spare size Hfl Hg Hcs Hs Hne H).
Qed.
Print Assumptions C78_written_partial.
Definition toy_read (p : list Z) (n : Z) : res (list Z) := let! x := toy_inflate p in Ok (ztake n x).
Example C78_greedy : reads toy_inflate toy_read /\ greedy toy_inflate toy_read.
Proof. exact (full_reads toy_inflate). Qed.
Example C78_written_ex : ReadChunks toy_read ([6; 0; 0; 1; 4; 7] ++ [9; 0; 0; 1; 2; 3; 4] ++ [3; 0; 0; 9]) [8] ZLIB 4 =
  Ok [7; 7; 7; 7; 1; 2; 3; 4; 9].
Proof. vm_compute. reflexivity. Qed.

(** It agrees with the decompression of the readers (C16) on every sequence of chunks with
    contents; on a compressed chunk without, which decompresses to nothing, it fails. *)
Theorem C78_agrees : forall inflate read cs enc ds spare size, greedy inflate read -> cs < 2 ^ 23 -> cs <= size ->
  Chunked inflate cs enc ds -> Forall (fun d => d <> []) ds ->
  ReadChunks read enc spare ZLIB size = DecompressChunks inflate ZLIB enc.
Proof. intros inflate read cs enc ds spare size Hg H1 H2 H3 H4. exact (readChunks_agrees inflate read cs enc ds spare size Hg H1 H2 H3 H4). Qed.
Print Assumptions C78_agrees.
Theorem C78_empty_refuted : exists src, DecompressChunks toy_inflate ZLIB src = Ok [] /\ ReadChunks toy_read src [] ZLIB 4 = Err.
Proof. exists [2; 0; 0; 0]. vm_compute. split; reflexivity. Qed.
Print Assumptions C78_empty_refuted.

(** A reader may give less than there is: then the rest of the chunk is lost, without an
    error. *)
Definition short_read (p : list Z) (n : Z) : res (list Z) := let! x := toy_inflate p in Ok (ztake (Z.min n 2) x).
Theorem C78_short_refuted : reads toy_inflate short_read /\
  DecompressChunks toy_inflate ZLIB [6; 0; 0; 1; 4; 7] = Ok [7; 7; 7; 7] /\
  ReadChunks short_read [6; 0; 0; 1; 4; 7] [] ZLIB 4 = Ok [7; 7].
Proof. split; [exact (short_reads toy_inflate)|]. vm_compute. split; reflexivity. Qed.
Print Assumptions C78_short_refuted.
(** So do chunks that inflate to more than [size]. *)
Theorem C78_size_refuted : DecompressChunks toy_inflate ZLIB [6; 0; 0; 1; 9; 7] = Ok (repeat 7 9) /\
  ReadChunks toy_read [6; 0; 0; 1; 9; 7] [] ZLIB 4 = Ok (repeat 7 4).
Proof. vm_compute. split; reflexivity. Qed.
Print Assumptions C78_size_refuted.
(** A chunk whose header states more than [size] is refused. *)
Theorem C78_too_long : forall read h0 h1 h2 n orig rest spare k size, DecChunkHeader h0 h1 h2 = (n, orig) -> 0 <= size < n ->
  ReadChunks read (h0 :: h1 :: h2 :: rest) spare k size = Err.
Proof. intros read h0 h1 h2 n orig rest spare k size H1 H2. exact (readChunks_long read h0 h1 h2 n orig rest spare k size H1 H2). Qed.
Print Assumptions C78_too_long.
Example C78_too_long_ex : DecChunkHeader 10 0 0 = (5, false) /\ ReadChunks toy_read [10; 0; 0; 1; 4; 7; 7; 7] [] ZLIB 4 = Err.
Proof. split; reflexivity. Qed.
(** A truncated header panics, a truncated chunk panics or is filled with the bytes behind
    the slice. *)
Theorem C78_truncated_refuted : (forall read spare k size a, ReadChunks read [a] spare k size = Panic) /\
  (forall read spare k size a b, ReadChunks read [a; b] spare k size = Panic) /\
  ReadChunks toy_read [9; 0; 0; 1; 2] [] ZLIB 4 = Panic /\
  ReadChunks toy_read [9; 0; 0; 1; 2] [55; 66; 77] ZLIB 4 = Ok [1; 2; 55; 66].
Proof. repeat split. Qed.
Print Assumptions C78_truncated_refuted.

(** ** C79: findRepeatsInBytes *)
(** Exactly the longest runs of at least the length asked for, in order. *)
Theorem C79_runs : forall values minRepeat s c,
  In (s, c) (findRepeatsInBytes values minRepeat) <-> run_at values s c /\ minRepeat <= c.
Proof. intros values minRepeat s c. exact (find_iff values minRepeat s c). Qed.
Print Assumptions C79_runs.
Theorem C79_order : forall values minRepeat,
  Sorted (fun a b => fst a + snd a <= fst b) (findRepeatsInBytes values minRepeat).
Proof. intros values minRepeat. exact (proj1 (repeats_sorted minRepeat (length values) 0 values)). Qed.
Print Assumptions C79_order.
Example C79_ex : findRepeatsInBytes [7; 7; 7; 1; 2; 2; 3; 3; 3; 3] 3 = [(0, 3); (6, 4)].
Proof. reflexivity. Qed.

(** ** C80: marshallSchema *)
(** It returns exactly when no column has more names than children, and then the types
    footers hold (C31) exactly when every column has as many. *)
Theorem C80_returns : forall t, (exists l, marshallSchema t = Ok l) <->
  forall s, Column t s -> (length (td_names s) <= length (td_children s))%nat.
Proof. intros t. exact (walk_iff t). Qed.
Print Assumptions C80_returns.
(** Otherwise it crashes; it has no errors. *)
Theorem C80_panic_iff : forall t, marshallSchema t <> Err /\
  (marshallSchema t = Panic <-> exists s, Column t s /\ (length (td_children s) < length (td_names s))%nat).
Proof. intros t. split; [exact (walk_no_err t)|exact (walk_panic t)]. Qed.
Print Assumptions C80_panic_iff.
Example C80_panic_ex : marshallSchema (Td 0 STRUCT [[97]; [98]] 0 false [Td 1 LONG [] 2 false []]) = Panic.
Proof. reflexivity. Qed.
Theorem C80_types_partial : forall t, marshallSchema t = Ok (SchemasToTypes (flatten t)) <-> evenly_named t.
Proof. intros t. exact (walk_types t). Qed.
Print Assumptions C80_types_partial.
Example C80_ex : evenly_named (Td 0 STRUCT [[97]; [98]] 0 false [Td 1 LONG [] 2 false []; Td 2 STRING [] 2 true []]) /\
  marshallSchema (Td 0 STRUCT [[97]; [98]] 0 false [Td 1 LONG [] 2 false []; Td 2 STRING [] 2 true []]) =
  Ok [{| t_kind := STRUCT; t_sub := [1; 2]; t_names := [[97]; [98]] |}; {| t_kind := LONG; t_sub := []; t_names := [] |};
      {| t_kind := STRING; t_sub := []; t_names := [] |}].
Proof. split; [|reflexivity]. apply (proj1 (C80_types_partial _)). reflexivity. Qed.
(** A list has a child but no name: the child is lost from the types, and the types are no
    schema any more (C32). *)
Theorem C80_list_refuted : exists t l, marshallSchema t = Ok l /\ t = Td 0 LIST [] 0 false [Td 1 LONG [] 2 false []] /\
  l <> SchemasToTypes (flatten t) /\ map t_sub l = [[]; []] /\ map t_sub (SchemasToTypes (flatten t)) = [[1]; []].
Proof.
  exists (Td 0 LIST [] 0 false [Td 1 LONG [] 2 false []]). eexists. split; [reflexivity|]. split; [reflexivity|].
  split; [discriminate|]. split; reflexivity.
Qed.
Print Assumptions C80_list_refuted.
