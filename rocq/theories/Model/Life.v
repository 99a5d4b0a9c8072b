(** The life of a writer from its creation to calls after Close: writer.go 27-65, 85-94,
    114-127 with stripe.go 37-59 and 155-163, over a file whose writes can fail (Model/Io.v).

    - After Close the writer is still there: w.stripe.infos ends with the pointer
      w.stripe.info (writer.go 118), so later changes of that record change the list as
      well.  [again] says how often the record is in the list; [sw_infos] are the entries
      in front of it.
    - A call that fails ends the model: what it leaves behind is not given. *)
From Verif.Model Require Import Go Chunk Stream Schema Rows File Io.

Section Life.
Variable W : Type.
Variable osWrite : list Z -> W -> Z * bool * W.
Variable osClose : W -> bool * W.
(** os.Create of a path: whether the error is nil, and the file. *)
Variable osCreate : W -> bool * W.
Variable deflate : list (list Z) -> list Z -> res (list Z).
Variables C V ST : Type.
Variable cw_Write : C -> V -> res C.
Variable cw_Size : C -> Z.
Variable cw_Flush : C -> res C.
Variable cw_Index : C -> res (list Z).
Variable cw_WriteOut : C -> res (list Z * Z * C).
Variable cw_Streams : C -> list (list Z).
Variable cw_Infos : C -> list strm.
Variable cw_Stats : C -> ST.
Variable cw_Reset : C -> res C.
Variable newColumn : td -> res C.
Variable marshalSF : stripeFooter -> res (list Z).
Variable marshalFooter : footer ST -> res (list Z).
Variable marshalPS : postscript -> res (list Z).
Variable o : opts.
Variable StripeSize : Z.

(** writer.go 27-65, 129-135 with io/file.go 38-44: also what is left in the file when it fails. *)
Definition NewOSFileWriter (schema : td) (f : W) : res (stripeW C) * W :=
  match osCreate f with
  | (false, f) => (Err, f)
  | (true, f) =>
      match Flat schema with
      | Ok schemas =>
          match osWrite Magic f with
          | (_, false, f) => (Err, f)
          | (_, true, f) =>
              (let! cs := mapM newColumn schemas in
               Ok {| sw_schemas := schemas; sw_cols := cs; sw_info := newInfo 3; sw_infos := []; sw_out := [] |}, f)
          end
      | Err => (Err, f)
      | Panic => (Panic, f)
      end
  end.

(** The list of stripes with the record that is in it [again] times. *)
Definition aliased (again : nat) (w : stripeW C) : stripeW C :=
  {| sw_schemas := sw_schemas w; sw_cols := sw_cols w; sw_info := sw_info w;
     sw_infos := sw_infos w ++ repeat (sw_info w) again; sw_out := sw_out w |}.

Notation flush := (io_flushOut W osWrite deflate C cw_Flush cw_Index cw_WriteOut cw_Streams cw_Infos marshalSF o).

(** stripe.go 37-59. *)
Fixpoint lf_writeLoop (n i : nat) (count : Z) (v : cvec V) (w : stripeW C) (again : nat) (f : W)
  : res (stripeW C * nat * W) :=
  match n with
  | O => Ok (addRows count w, again, f)
  | S m =>
      let! cs := writeValue cw_Write i v (sw_cols w) in
      let w := setCols cs w in
      let count := u64 (count + 1) in
      if StripeSize <=? sw_size cw_Size cs then
        let! (w1, f1) := flush (addRows count w) f in
        let! w2 := forward cw_Reset (aliased again w1) in
        lf_writeLoop m (S i) 0 v w2 O f1
      else lf_writeLoop m (S i) count v w again f
  end.
(** writer.go 85-94. *)
Definition lf_Write (v : cvec V) (w : stripeW C) (again : nat) (f : W) : res (stripeW C * nat * W) :=
  lf_writeLoop (vlen v) 0 0 v w again f.

(** writer.go 114-127. *)
Definition lf_Close (w : stripeW C) (again : nat) (f : W) : res (stripeW C * nat * W) :=
  let! (w', f) := flush w f in
  let! f := io_writeFileTail W osWrite deflate C ST cw_Stats marshalFooter marshalPS o (aliased (S again) w') f in
  let (_, f') := osClose f in Ok (w', S again, f').

(** Calls one after the other, up to the first error. *)
Inductive use := UWrite (v : cvec V) | UClose.
Definition lf_use (u : use) (s : stripeW C * nat * W) : res (stripeW C * nat * W) :=
  let '(w, again, f) := s in
  match u with
  | UWrite v => lf_Write v w again f
  | UClose => lf_Close w again f
  end.
Fixpoint lf_uses (l : list use) (s : stripeW C * nat * W) : res (stripeW C * nat * W) :=
  match l with
  | [] => Ok s
  | u :: r => let! s1 := lf_use u s in lf_uses r s1
  end.
End Life.
Arguments UWrite {V}. Arguments UClose {V}.
