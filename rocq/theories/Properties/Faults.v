(** C64, C65: files whose reads fail. *)
From Coq Require Import ZifyBool ZifyNat.
From Verif.Model Require Import Go ByteBool Chunk Stream Schema Rows File Column Wire Assembled Io.
From Verif.Spec Require Import ChunkSpec FileSpec AssemblySpec IoSpec.
From Verif.Proofs Require Import Base ChunkP TailP IoP FaultP.
From Verif.Properties Require Import Columns File.

(** ** C64 *)
(** io.ReadFull over a file that may fail: what it gives without an error are the next
    [n] bytes. *)
Theorem C64_full_reads : forall H (os : handle H) content at_ h p n g h', honest os content at_ -> at_ h p -> 0 <= n ->
  ReadFull (h_Read (osFile os)) n h = Ok (g, h') ->
  n <= zlen (zdrop p content) /\ g = ztake n (zdrop p content) /\ at_ h' (p + n).
Proof.
  intros H os content at_ h p n g h' Hok. apply (ReadFull_hon (osFile os) content at_). apply osFile_honest. exact Hok.
Qed.
Print Assumptions C64_full_reads.

(** io.CopyN likewise. *)
Theorem C64_copies : forall H (os : handle H) content at_ h p n room buf b h', honest os content at_ -> at_ h p ->
  (forall i, 0 < room i) -> CopyN (h_Read (osFile os)) room n buf h = Ok (b, h') ->
  n <= zlen (zdrop p content) /\ b = buf ++ ztake n (zdrop p content) /\ at_ h' (p + Z.max 0 n).
Proof.
  intros H os content at_ h p n room buf b h' Hok Hat Hroom.
  apply (CopyN_hon (osFile os) content at_); [apply osFile_honest; exact Hok|exact Hroom|exact Hat].
Qed.
Print Assumptions C64_copies.

(** Whatever a client decodes from a stream, with any seeks, before the first error it
    is told of, is what the stream over the ideal file gives. *)
Theorem C64_sessions : forall H (os : handle H) content at_ h p A (l : list (op A)) room inflate o bound start len xs,
  honest os content at_ -> at_ h p -> (forall i, 0 < room i) -> 1 <= ChunkSize o < W63 ->
  is_u64 start -> is_u64 len -> Forall op_u64 l ->
  (let! r := io_newReader (osFile os) h start len in
   session (io_run (osFile os) room inflate o bound) (io_seek (osFile os) room inflate o) l r) = Ok xs ->
  session (r_run inflate o) (r_seek inflate o) l (newReader content start len) = Ok xs.
Proof.
  intros H os content at_ h p A l room inflate o bound start len xs Hok Hat Hroom Hc Hs Hlen Hl E.
  apply osFile_honest in Hok. apply rbind_inv in E as (i & E1 & E).
  destruct (new_hon _ _ _ Hok h p start len Hat Hs Hlen _ E1) as (r & Er & S0). injection Er as <-.
  destruct (session_hon _ _ _ Hok room inflate o bound Hroom Hc l i _ S0 Hl _ E) as (ys & -> & ->). reflexivity.
Qed.
Print Assumptions C64_sessions.

(** Opening: the tail, the stripe footers, the row indexes. *)
Theorem C64_tail : forall H (os : handle H) content at_ h p inflate ST unPS (unFooter : list Z -> res (footer ST)) t,
  honest os content at_ -> at_ h p -> zlen content < W63 ->
  io_extractFileTail (osFile os) inflate unPS unFooter h = Ok t ->
  extractFileTail inflate unPS unFooter content = Ok t.
Proof.
  intros H os content at_ h p inflate ST unPS unFooter t Hok Hat Hl E. apply osFile_honest in Hok.
  destruct (extractFileTail_hon _ _ _ Hok inflate ST unPS unFooter h p Hat Hl _ E) as (t' & -> & ->). reflexivity.
Qed.
Print Assumptions C64_tail.

Theorem C64_stripe_footer : forall H (os : handle H) content at_ h p inflate unSF k i sf h',
  honest os content at_ -> at_ h p -> 0 <= FooterLength i ->
  io_readFooter (osFile os) inflate unSF k i h = Ok (sf, h') ->
  openStripe inflate unSF k content i =
  Ok (sf_columns sf, streamStarts (Offset i) (u64 (Offset i + IndexLength i)) (sf_streams sf)).
Proof.
  intros H os content at_ h p inflate unSF k i sf h' Hok. apply osFile_honest in Hok.
  apply (openStripe_hon _ _ _ Hok inflate unSF k i h p sf h').
Qed.
Print Assumptions C64_stripe_footer.

Theorem C64_row_index : forall H (os : handle H) content at_ h p inflate o c start len buf h' l,
  honest os content at_ -> at_ h p -> 0 <= len ->
  io_indexBytes (osFile os) inflate o start len h = Ok (buf, h') -> unmarshalIndex buf = Ok l ->
  InitIndex inflate o content c start len = Ok (setIndex l c).
Proof.
  intros H os content at_ h p inflate o c start len buf h' l Hok Hat Hl E Eu. apply osFile_honest in Hok.
  destruct (indexBytes_hon _ _ _ Hok inflate o start len h p buf h' Hat Hl E) as (H1 & H2 & H3).
  unfold InitIndex, readIndex. replace (i64 start <? 0) with false by lia. replace (_ <? len) with false by lia.
  rewrite H3. cbn [rbind]. rewrite Eu. reflexivity.
Qed.
Print Assumptions C64_row_index.

(** Files without faults are honest, and so are those that fail as they please. *)
Example C64_honest_os : forall H (os : handle H) content at_, os_ok os content at_ -> honest os content at_.
Proof. exact @os_ok_honest. Qed.
Example C64_honest_flaky : forall content plan, honest (flaky content plan) content (fun s p => fst s = p /\ 0 <= p).
Proof. exact flaky_honest. Qed.
(** The first value comes, the fourth read fails and so does the second value; a file
    that is only slow gives both. *)
Definition two_bytes : list Z := [7; 7] ++ encChunkHeader 1 true ++ [41] ++ encChunkHeader 1 true ++ [42].
Definition byte : prog Z := RdByte (fun b => Ret b).
Definition bytes_read (plan : nat -> Z * bool) (n : nat) : res (list Z) :=
  let! r := io_newReader (osFile (flaky two_bytes plan)) (0, O) 2 8 in
  session (io_run (osFile (flaky two_bytes plan)) (fun _ => 512) toy_inflate zl64 100)
          (io_seek (osFile (flaky two_bytes plan)) (fun _ => 512) toy_inflate zl64) (repeat (Decode byte) n) r.
Example C64_ex :
  bytes_read (fun i => (2, (i =? 3)%nat)) 1 = Ok [41] /\ bytes_read (fun i => (2, (i =? 3)%nat)) 2 = Err /\
  bytes_read (fun i => (1, false)) 2 = Ok [41; 42].
Proof. repeat split; vm_compute; reflexivity. Qed.

(** ** C65 *)
(** [io_tryByte] is ReadByte with the state an error leaves. *)
Example C65_same_call : forall H (F : handle H) room inflate o i, io_ReadByte F room inflate o i =
  (let! (b, i') := io_tryByte F room inflate o i in match b with Some b => Ok (b, i') | None => Err end).
Proof. exact @ReadByte_try. Qed.

(** Without compression, the bytes got by asking again after errors are the bytes of the
    file from the start of the stream on, in order and without gaps. *)
Theorem C65_uncompressed_partial : forall H (os : handle H) content at_ h p room inflate o start len n l r',
  honest os content at_ -> at_ h p -> (forall i, 0 < room i) -> CompressionKind o = NONE ->
  is_u64 start ->
  (let! r := io_newReader (osFile os) h start len in
   attempts (io_tryByte (osFile os) room inflate o) n r) = Ok (l, r') ->
  l = ztake (zlen l) (zdrop start content).
Proof.
  intros H os content at_ h p room inflate o start len n l r' Hok Hat Hroom Hk Hs E. apply osFile_honest in Hok.
  apply rbind_inv in E as (i & E1 & E). unfold io_newReader in E1. apply rbind_inv in E1 as (h1 & Es & E1).
  injection E1 as <-. destruct Hok as (Hnn & Hrd & Hseek & Hsz). specialize (Hseek _ _ _ _ Hat Es) as Hat1.
  pose proof (Hnn _ _ Hat1) as Hp. rewrite i64_nonneg in Hat1, Hp by assumption.
  refine (proj1 (attempts_stands (osFile os) room inflate o content at_ _ Hroom Hk n start _ l r' Hp _ E)).
  - split; [exact Hnn|split; [exact Hrd|split; [exact Hseek|exact Hsz]]].
  - exists start. cbn. split; [exact Hat1|]. split; [reflexivity|lia].
Qed.
Print Assumptions C65_uncompressed_partial.

(** But they may go on behind the end of the stream: a read that failed after a byte is
    not counted. *)
Theorem C65_past_end_refuted : exists content plan start len l r,
  (let! r := io_newReader (osFile (flaky content plan)) (0, O) start len in
   attempts (io_tryByte (osFile (flaky content plan)) (fun _ => 512) toy_inflate no64) 5 r) = Ok (l, r) /\
  len < zlen l.
Proof.
  exists [1; 2; 3; 4; 5; 6], (fun i => (1, (i =? 0)%nat)), 0, 3. vm_compute.
  eexists _, _. split; reflexivity.
Qed.
Print Assumptions C65_past_end_refuted.

(** With compression the next header is read from the middle of the one that failed,
    and the bytes are others. *)
Theorem C65_compressed_refuted : exists content plan start len l r ys,
  (let! r := io_newReader (osFile (flaky content plan)) (0, O) start len in
   attempts (io_tryByte (osFile (flaky content plan)) (fun _ => 512) toy_inflate
               {| CompressionKind := ZLIB; ChunkSize := 1024; WriteIndex := false |}) 2 r) = Ok (l, r) /\
  session (r_run toy_inflate {| CompressionKind := ZLIB; ChunkSize := 1024; WriteIndex := false |})
          (r_seek toy_inflate {| CompressionKind := ZLIB; ChunkSize := 1024; WriteIndex := false |})
          [Decode byte] (newReader content start len) = Ok ys /\
  zlen l = 1 /\ l <> ys.
Proof.
  exists (encChunkHeader 384 true ++ 0 :: repeat 77 383), (fun i => (if (i =? 0)%nat then 1 else 1000, (i =? 0)%nat)), 0, 387.
  eexists _, _, _. split; [vm_compute; reflexivity|]. split; [vm_compute; reflexivity|]. split; [reflexivity|discriminate].
Qed.
Print Assumptions C65_compressed_refuted.

(** Three errors between the bytes of an uncompressed stream. *)
Example C65_ex :
  (let F := osFile (flaky [1; 2; 3; 4; 5; 6] (fun i => (1, Nat.even i))) in
   let! r := io_newReader F (0, O) 1 5 in
   let! (l, _) := attempts (io_tryByte F (fun _ => 512) toy_inflate no64) 6 r in Ok l) = Ok [2; 3; 4].
Proof. vm_compute. reflexivity. Qed.
