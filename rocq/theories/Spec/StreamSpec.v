(** A client of the stream writer: write values one by one, flush, write out. *)
From Verif.Model Require Import Go Chunk Stream.

Section Client.
Variable deflate : list (list Z) -> list Z -> res (list Z).
Variable E V : Type.
Variable enc : E -> V -> res (E * list Z).
Variable flush : E -> res (E * list Z).
Variable o : opts.

Fixpoint writeAll (w : writer E) (vs : list V) : res (writer E) :=
  match vs with
  | [] => Ok w
  | v :: t => let! w' := w_Write deflate enc o w v in writeAll w' t
  end.

(** Write the values and flush. *)
Definition writeStream (w : writer E) (vs : list V) : res (writer E) :=
  let! w' := writeAll w vs in w_Flush deflate flush o w'.

(** The bytes that reach the file. *)
Definition stored (w : writer E) : list Z := fst (w_WriteOut o w).
End Client.
Arguments writeAll deflate {E V}.
Arguments writeStream deflate {E V}.
Arguments stored {E}.

(** The two kinds the library implements, with the chunk sizes a header can express. *)
Definition supported (o : opts) : Prop :=
  (CompressionKind o = NONE \/ CompressionKind o = ZLIB) /\ 1 <= ChunkSize o < 2 ^ 23.

(** The stream reader [r] serves exactly the bytes [bs]: every reading program gets the
    answers it would get from [bs] alone, and the end is reported when [bs] is used
    up. *)
Definition serves (inflate : list Z -> res (list Z)) (o : opts) (r : reader) (bs : list Z) : Prop :=
  forall A (p : prog A),
    match run p bs with
    | Ok (a, rest) => exists r', r_run inflate o p r = Ok (a, r') /\
                                 (r_finished r' = true <-> rest = [])
    | Err => r_run inflate o p r = Err
    | Panic => r_run inflate o p r = Panic
    end.
