(** Common vocabulary of the model: outcomes of Go calls, fixed-width integer
    wrap-around, and byte-reader programs.

    Conventions used in every model file
    - a Go [byte], [uint64], [int64], [int] is a [Z]; the wrap-around of the Go
      type is written explicitly with [u8], [u64], [i64];
    - a slice is a list; appending to a [bytes.Buffer] is appending to a list;
    - a returned [error] is [Err], a run-time panic (index out of range,
      explicit [panic], nil dereference, division by zero) is [Panic];
    - the error text, the state left behind after an error, and log output are
      not modelled. *)
From Coq Require Export ZArith List Bool.
Export ListNotations.
Open Scope Z_scope.

(** Outcome of a Go call that may return an error or panic. *)
Inductive res (A : Type) : Type :=
| Ok (a : A)
| Err
| Panic.
Arguments Ok {A} a.
Arguments Err {A}.
Arguments Panic {A}.

Definition rbind {A B} (x : res A) (f : A -> res B) : res B :=
  match x with Ok a => f a | Err => Err | Panic => Panic end.

Declare Scope go_scope.
Delimit Scope go_scope with go.
Notation "'let!' x ':=' e 'in' k" := (rbind e (fun x => k))
  (at level 200, x pattern, e at level 100, k at level 200, right associativity) : go_scope.
Open Scope go_scope.

(** 2^64 and 2^63 as literals. *)
Notation W64 := 18446744073709551616 (only parsing).
Notation W63 := 9223372036854775808 (only parsing).

(** Conversions byte(x), uint64(x), int64(x). *)
Definition u8 (x : Z) : Z := x mod 256.
Definition u64 (x : Z) : Z := x mod W64.
Definition i64 (x : Z) : Z := let u := x mod W64 in if u <? W63 then u else u - W64.

(** Value ranges of the Go types (used in statements, not in the code). *)
Definition is_u8 (x : Z) : Prop := 0 <= x < 256.
Definition is_u32 (x : Z) : Prop := 0 <= x < 4294967296.
Definition is_u64 (x : Z) : Prop := 0 <= x < W64.
Definition is_i64 (x : Z) : Prop := - W63 <= x < W63.
Definition bytes (l : list Z) : Prop := Forall is_u8 l.

(** len(s) as an int; s[:n]; s[n:]. *)
Definition zlen {A} (l : list A) : Z := Z.of_nat (length l).
Definition ztake {A} (n : Z) (l : list A) : list A := firstn (Z.to_nat n) l.
Definition zdrop {A} (n : Z) (l : list A) : list A := skipn (Z.to_nat n) l.

(** A program reading from an encoding.BufferedReader
    (orc/encoding/package.go 47-50: io.ByteReader + io.Reader).  The decoders only
    use ReadByte and io.ReadFull, so a decoder is a tree of such reads.  The same
    decoder is run below over a plain byte list and, in Model/Stream.v, over the
    chunked stream reader. *)
Inductive prog (A : Type) : Type :=
| Ret (a : A)
| Fail
| Crash
| RdByte (k : Z -> prog A)
| RdFull (n : nat) (k : list Z -> prog A).
Arguments Ret {A} a.
Arguments Fail {A}.
Arguments Crash {A}.
Arguments RdByte {A} k.
Arguments RdFull {A} n k.

Fixpoint pbind {A B} (p : prog A) (f : A -> prog B) : prog B :=
  match p with
  | Ret a => f a
  | Fail => Fail
  | Crash => Crash
  | RdByte k => RdByte (fun b => pbind (k b) f)
  | RdFull n k => RdFull n (fun bs => pbind (k bs) f)
  end.

Notation "'do!' x ':=' e 'in' k" := (pbind e (fun x => k))
  (at level 200, x pattern, e at level 100, k at level 200, right associativity) : go_scope.

(** Lifting a pure fallible computation. *)
Definition plift {A} (x : res A) : prog A :=
  match x with Ok a => Ret a | Err => Fail | Panic => Crash end.

(** Running over any implementation of the reader interface. *)
Fixpoint runS {S A} (rb : S -> res (Z * S)) (rf : nat -> S -> res (list Z * S))
         (p : prog A) (s : S) : res (A * S) :=
  match p with
  | Ret a => Ok (a, s)
  | Fail => Err
  | Crash => Panic
  | RdByte k => let! (b, s') := rb s in runS rb rf (k b) s'
  | RdFull n k => let! (bs, s') := rf n s in runS rb rf (k bs) s'
  end.

(** bytes.Buffer: ReadByte and io.ReadFull over the unread bytes. *)
Definition lrb (l : list Z) : res (Z * list Z) :=
  match l with [] => Err | b :: t => Ok (b, t) end.
Definition lrf (n : nat) (l : list Z) : res (list Z * list Z) :=
  if (length l <? n)%nat then Err else Ok (firstn n l, skipn n l).
Definition run {A} (p : prog A) (l : list Z) : res (A * list Z) := runS lrb lrf p l.
