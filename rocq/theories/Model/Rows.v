(** Iterating over the rows of a file: batchReader of orc/reader.go 113-212 and the row
    bookkeeping of stripeReader, orc/stripe.go 319-388.

    The column readers of a stripe are abstracted to the rows they hold and the row they
    stand at: NextBatch delivers the rows that follow, or fails when there are not that
    many (the column readers themselves are modelled in Column.v).  A batch is the list
    of its rows; [cap] is the capacity of its vectors (ColumnVector.Cap). *)
From Verif.Model Require Import Go.

Section Rows.
Variable A : Type.

(** stripeReader: rows in the stripe (numberOfRows is their number), cursor, and the
    row the column readers stand at. *)
Record stripeR := { s_rows : list A; s_cursor : Z; s_pos : Z }.

(** stripe.go 181-201: a new stripe reader. *)
Definition newStripeR (rows : list A) : stripeR := {| s_rows := rows; s_cursor := 0; s_pos := 0 |}.

(** stripe.go 319-338: [vec] are the rows in the batch before the call; prepareVector
    cuts the vectors to [page] entries, which NextBatch then overwrites. *)
Definition stripe_next (cap : Z) (s : stripeR) (vec : list A) : res (stripeR * list A * bool) :=
  let page := cap - zlen vec in
  let left := i64 (u64 (zlen (s_rows s) - s_cursor s)) in
  let page := if left <? page then left else page in
  if page <? 0 then Panic
  else if s_pos s + page <=? zlen (s_rows s) then
    let vec' := ztake page (zdrop (s_pos s) (s_rows s)) in
    let cursor := u64 (s_cursor s + zlen vec') in
    Ok ({| s_rows := s_rows s; s_cursor := cursor; s_pos := s_pos s + page |}, vec',
        zlen (s_rows s) <=? u64 (cursor + 1))
  else Err.

(** stripe.go 369-388.  [stride] is the outer variable, which stays 0: the inner
    declaration shadows it.  SeekStride(0) puts the column readers at the first row and
    Skip advances them; a skip beyond the last row fails. *)
Definition stripe_Seek (indexStride : Z) (s : stripeR) (rowNumber : Z) : res stripeR :=
  let! offset := (if rowNumber <? u64 indexStride then Ok rowNumber
                  else if u64 indexStride =? 0 then Panic
                  else let stride := rowNumber / u64 indexStride in
                       Ok (rowNumber mod u64 (stride * u64 indexStride))) in
  if offset <=? zlen (s_rows s) then
    Ok {| s_rows := s_rows s; s_cursor := s_cursor s; s_pos := offset |}
  else Err.

(** reader.go 113-126. *)
Record batchR := { b_stripes : list stripeR; b_index : nat; b_total : Z; b_cursor : Z }.

(** reader.go 78-90, 128-140, on stripes holding the given rows; [total] is the
    footer's number of rows. *)
Definition newBatchR (rows : list (list A)) (total : Z) : res batchR :=
  if existsb (fun l => match l with [] => true | _ => false end) rows then Err
  else Ok {| b_stripes := map newStripeR rows; b_index := 0; b_total := total; b_cursor := 0 |}.

Fixpoint set_nth {B} (l : list B) (n : nat) (x : B) : list B :=
  match l, n with
  | [], _ => []
  | _ :: r, O => x :: r
  | y :: r, S m => y :: set_nth r m x
  end.

(** reader.go 192-194: behind the last stripe the index goes back to it.  Without any
    stripe it becomes -1, which stands here as 1, one more than their number; the next
    call then indexes the stripes with it and panics. *)
Definition stepBack (i n : nat) : nat := if (i =? n)%nat then match n with O => 1%nat | S m => m end else i.

(** reader.go 179-191. *)
Fixpoint nextLoop (fuel : nat) (cap : Z) (ss : list stripeR) (i : nat) (vec : list A) :
    res (list stripeR * nat * list A) :=
  match fuel with
  | O => Err
  | S f =>
      match nth_error ss i with
      | None => if (length ss <? i)%nat then Panic else Ok (ss, i, vec)
      | Some s =>
          let! (s', vec', stripeEnd) := stripe_next cap s vec in
          let ss' := set_nth ss i s' in
          if (stripeEnd : bool) then Ok (ss', S i, vec')
          else if cap <=? zlen vec' then Ok (ss', i, vec')
          else nextLoop f cap ss' i vec'
      end
  end.

(** reader.go 172-197: the new state, the batch, and [end]. *)
Definition Next (cap : Z) (b : batchR) : res (batchR * list A * bool) :=
  if u64 (b_total b - 1) <=? b_cursor b then Ok (b, [], true)
  else
    let! (ss, i, vec) := nextLoop (S (length (b_stripes b))) cap (b_stripes b) (b_index b) [] in
    let i' := stepBack i (length ss) in
    let cursor := u64 (b_cursor b + zlen vec) in
    Ok ({| b_stripes := ss; b_index := i'; b_total := b_total b; b_cursor := cursor |}, vec,
        u64 (b_total b - 1) <=? cursor).

(** reader.go 199-212: neither cursor nor stripeIndex is set when the row is found. *)
Fixpoint seekLoop (indexStride row : Z) (before : Z) (ss : list stripeR) : res (option (list stripeR)) :=
  match ss with
  | [] => Ok None
  | s :: r =>
      if row <? u64 (before + zlen (s_rows s)) then
        let! s' := stripe_Seek indexStride s (u64 (row - before)) in Ok (Some (s' :: r))
      else
        let! o := seekLoop indexStride row (u64 (before + zlen (s_rows s))) r in
        Ok (match o with Some r' => Some (s :: r') | None => None end)
  end.
Definition Seek (indexStride : Z) (b : batchR) (row : Z) : res batchR :=
  if b_total b <? row then Err
  else
    let! o := seekLoop indexStride row 0 (b_stripes b) in
    match o with
    | Some ss => Ok {| b_stripes := ss; b_index := b_index b; b_total := b_total b; b_cursor := b_cursor b |}
    | None => Err
    end.
End Rows.
Arguments s_rows {A}. Arguments s_cursor {A}. Arguments s_pos {A}.
Arguments b_stripes {A}. Arguments b_index {A}. Arguments b_total {A}. Arguments b_cursor {A}.
Arguments newStripeR {A}. Arguments stripe_next {A}. Arguments stripe_Seek {A}.
Arguments newBatchR {A}. Arguments nextLoop {A}. Arguments Next {A}. Arguments seekLoop {A}. Arguments Seek {A}.
