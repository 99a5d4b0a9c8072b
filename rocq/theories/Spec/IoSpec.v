(** What a file promises (the documentation of io.Reader, io.Seeker and os.File), and
    what it means that two reads agree.  No definition of the library is used but the
    type of handles. *)
From Verif.Model Require Import Go Chunk Stream Schema File Io.
From Verif.Spec Require Import FileSpec.

(** [at_ h p]: the handle [h] stands at offset [p] of a file of bytes [content].
    - a Read delivers some of the bytes that follow, at least one unless it also
      returns an error, and at most as many as wanted;
    - it returns an error (io.EOF or any other) only when nothing follows, possibly
      together with the last bytes;
    - Seek from the start works up to [limit];
    - Size is the number of bytes. *)
Definition file_ok {H} (F : handle H) (content : list Z) (limit : Z) (at_ : H -> Z -> Prop) : Prop :=
  (forall h p, at_ h p -> 0 <= p) /\
  (forall h p k, at_ h p -> 0 < k ->
     exists d e h', h_Read F k h = Ok (d, e, h') /\ zlen d <= k /\
       zdrop p content = d ++ zdrop (p + zlen d) content /\ at_ h' (p + zlen d) /\
       (e = None -> d <> []) /\ (e <> None -> zdrop (p + zlen d) content = [])) /\
  (forall h p off, at_ h p -> 0 <= off <= limit ->
     exists h', h_Seek F off h = Ok h' /\ at_ h' off) /\
  (forall h p, at_ h p -> h_Size F h = Ok (zlen content)).

(** An operating system file: Seek works for every offset and refuses negative ones. *)
Definition os_ok {H} (F : handle H) (content : list Z) (at_ : H -> Z -> Prop) : Prop :=
  (forall limit, file_ok F content limit at_) /\
  (forall h off, off < 0 -> h_Seek F off h = Err).

(** A file that may fail at any call, in any way, and stop giving bytes: what it gives
    are the bytes of the file, in their places. *)
Definition honest {H} (F : handle H) (content : list Z) (at_ : H -> Z -> Prop) : Prop :=
  (forall h p, at_ h p -> 0 <= p) /\
  (forall h p k d e h', at_ h p -> 0 < k -> h_Read F k h = Ok (d, e, h') ->
     zlen d <= k /\ zdrop p content = d ++ zdrop (p + zlen d) content /\ at_ h' (p + zlen d)) /\
  (forall h p off h', at_ h p -> h_Seek F off h = Ok h' -> at_ h' off) /\
  (forall h p n, at_ h p -> h_Size F h = Ok n -> n = zlen content).

(** Every result of [x] is one of [y]. *)
Definition only {A B} (R : A -> B -> Prop) (x : res A) (y : res B) : Prop :=
  forall a, x = Ok a -> exists b, y = Ok b /\ R a b.

(** Same outcome up to a relation of the results. *)
Definition agree {A B} (R : A -> B -> Prop) (x : res A) (y : res B) : Prop :=
  match x, y with
  | Ok a, Ok b => R a b
  | Err, Err => True
  | Panic, Panic => True
  | _, _ => False
  end.

(** Writing: a Write without an error has appended all its bytes ([disk f]: the bytes
    in the file).  Of a Write with an error only the count is known to be possible. *)
Definition appends {W} (osWrite : list Z -> W -> Z * bool * W) (disk : W -> list Z) : Prop :=
  forall p f n ok f', osWrite p f = (n, ok, f') ->
    n <= zlen p /\ (ok = true -> n = zlen p /\ disk f' = disk f ++ p).

(** Some write fails. *)
Definition faulty {W} (osWrite : list Z -> W -> Z * bool * W) : Prop :=
  exists p f n f', osWrite p f = (n, false, f').

(** A file in which a note is made of every failed write. *)
Definition noted {W} (osWrite : list Z -> W -> Z * bool * W) (p : list Z) (f : W * bool) : Z * bool * (W * bool) :=
  let '(n, ok, f') := osWrite p (fst f) in (n, ok, (f', snd f || negb ok)).

(** A client over a file: create, write the batches, close. *)
Definition client {W} (osWrite : list Z -> W -> Z * bool * W) (osClose : W -> bool * W) deflate {C V ST}
  (I : iface C V ST) (streams : C -> list (list Z)) (P : proto ST) (o : opts) (StripeSize : Z) (schema : td)
  (batches : list (cvec V)) (f : W) : res W :=
  io_writeFile W osWrite osClose deflate C V ST (i_Write I) (i_Size I) (i_Flush I) (i_Index I) (i_WriteOut I)
    streams (i_Infos I) (i_Stats I) (i_Reset I) (i_New I) (pb_SF P) (pb_Footer P) (pb_PS P) o StripeSize
    schema batches f.

(** The streams are the bytes WriteOut writes. *)
Definition streams_ok {C V ST} (I : iface C V ST) (streams : C -> list (list Z)) : Prop :=
  forall c b n c', i_WriteOut I c = Ok (b, n, c') -> concat (streams c) = b.

(** ** Sessions with a stream: decoding values and seeking *)
Inductive op (A : Type) := Decode (p : prog A) | SeekTo (chunk chunkOffset : Z).
Arguments Decode {A}. Arguments SeekTo {A}.
Fixpoint session {R A} (run : prog A -> R -> res (A * R)) (seek : Z -> Z -> R -> res R) (l : list (op A)) (r : R)
  : res (list A) :=
  match l with
  | [] => Ok []
  | Decode p :: t => let! (a, r') := run p r in let! x := session run seek t r' in Ok (a :: x)
  | SeekTo c off :: t => let! r' := seek c off r in session run seek t r'
  end.
(** The arguments of Seek are uint64. *)
Definition op_u64 {A} (x : op A) : Prop := match x with Decode _ => True | SeekTo c _ => is_u64 c end.
(** The offsets a session seeks to are int64. *)
Definition op_ok {A} (start : Z) (x : op A) : Prop :=
  match x with Decode _ => True | SeekTo c _ => is_u64 c /\ start + c < W63 end.

(** A client that asks for a byte [n] times, whatever fails; the bytes it got. *)
Fixpoint attempts {R} (readByte : R -> res (option Z * R)) (n : nat) (r : R) : res (list Z * R) :=
  match n with
  | O => Ok ([], r)
  | S m => let! (b, r1) := readByte r in
           let! (l, r2) := attempts readByte m r1 in
           Ok (match b with Some b => b :: l | None => l end, r2)
  end.

(** A file that gives in its [i]-th Read at most [fst (plan i)] bytes, and an error with
    them if [snd (plan i)]. *)
Definition flaky (content : list Z) (plan : nat -> Z * bool) : handle (Z * nat) :=
  {| h_Read := fun k s => let d := ztake (Z.min k (fst (plan (snd s)))) (zdrop (fst s) content) in
                          Ok (d, (if snd (plan (snd s)) then Some OtherErr
                                  else if zlen (zdrop (fst s) content) =? 0 then Some EOF else None),
                              (fst s + zlen d, S (snd s)));
     h_Seek := fun off s => if off <? 0 then Err else Ok (off, snd s);
     h_Size := fun _ => Ok (zlen content) |}.
