(** Reading a file to its end: what the batches of a file look like from outside. *)
From Verif.Model Require Import Go Schema File Column Wire Assembled.
From Verif.Spec Require Import RowsSpec EndSpec ProjectSpec.

Definition sum : list Z -> Z := fold_right Z.add 0.
(** The sizes of the batches, of at most [c] rows, in which a stripe of [n] rows is handed
    out: full ones, and the rest; without its last row if that would be alone ([loses]). *)
Definition stripe_batches (c n : Z) : list Z :=
  let m := if loses c n then n - 1 else n in
  repeat c (Z.to_nat (m / c)) ++ (if m mod c =? 0 then [] else [m mod c]).
(** Those of a file with stripes of [ns] rows: a row left over in the last stripe comes by
    itself. *)
Definition all_batches (c : Z) (ns : list Z) : list Z :=
  concat (map (stripe_batches c) ns) ++ (if loses c (last ns 0) then [1] else []).

(** What [n] calls of Next report, rows and end, when the rows to come are handed out in
    batches of the sizes [l] and after them nothing more; [T] is the number of rows the file
    has by its footer, [cur] the number handed out.  The end is where at most one row is
    missing. *)
Definition ended (T cur : Z) : bool := (1 <=? T) && (T - 1 <=? cur).
Fixpoint reports (T cur : Z) (l : list Z) (n : nat) : list (Z * bool) :=
  match n with
  | O => []
  | S n' =>
      if ended T cur then (0, true) :: reports T cur l n'
      else let k := hd 0 l in (k, ended T (cur + k)) :: reports T (cur + k) (tl l) n'
  end.

(** How often a client calls Next. *)
Definition nexts (l : list call) : nat := length (filter (fun c => match c with CNext => true | _ => false end) l).
(** What it is told: the number of rows, and whether that was the end. *)
Definition told (out : list (bvec * bool)) : list (Z * bool) := map (fun p => (Len (fst p), snd p)) out.

(** A client that opens a file, asks for the columns of [bopt] and has CreateVector make its
    batch.  The rows are as many as Go's int can hold. *)
Record reading (inflate : list Z -> res (list Z)) (bopt : batchOption) (file : list Z) (schema : td)
    (r : fileR colstats) (x : batchRd) (w : vec) : Prop := {
  rd_schema : unfolds r schema;
  rd_rooted : rooted bopt (fr_nodes r);
  rd_vectors : NotCreateVector bopt = false;
  rd_size : 0 < RowSize bopt;
  rd_rows : Forall (fun i => 0 <= NumberOfRows i) (fr_stripes r) /\ sum (map NumberOfRows (fr_stripes r)) < 2 ^ 63 /\ 0 <= fr_rows r < 2 ^ 63;
  rd_open : openBatches inflate bopt file = Ok (r, x);
  rd_create : CreateVector bopt schema = Ok (Some w) }.

(** The number of rows that are never handed out, and of those that are. *)
Definition left_out (c : Z) (ns : list Z) : Z := Z.of_nat (length (filter (loses c) (removelast ns))).
Definition handed_out (c : Z) (ns : list Z) : Z := sum ns - left_out c ns.

(** The client comes to the end of the file. *)
Definition comes_to_the_end (out : list (bvec * bool)) : Prop := exists v, In (v, true) out.
Definition never_ends (out : list (bvec * bool)) : Prop := Forall (fun p => snd p = false) out.
