(** A Write that fails, and what it leaves behind: the same code as Model/File.v (stripe.go
    37-74, writer.go 85-94), which gives the state of the writer after a success only.  Here
    the state after an error is kept as well.

    - [Left] of a column is the state of its writer after its Write has returned an error.
      It is given for errors caused by the value; after an error of the compressor the
      state is not modelled ([Failed None]), nor is it when flushing a stripe fails. *)
From Verif.Model Require Import Go Codec ByteBool IntRle Chunk Stream Schema Rows Time File Column.

(** Success, an error with the state left behind, or a panic. *)
Inductive ending (A : Type) := Done (a : A) | Failed (a : option A) | Crashed.
Arguments Done {A}. Arguments Failed {A}. Arguments Crashed {A}.

Section Writer.
Variable deflate : list (list Z) -> list Z -> res (list Z).
Variables C V : Type.
Variable cw_Write : C -> V -> res C.
Variable cw_Left : C -> V -> option C.
Variable cw_Size : C -> Z.
Variable cw_Flush : C -> res C.
Variable cw_Index : C -> res (list Z).
Variable cw_WriteOut : C -> res (list Z * Z * C).
Variable cw_Infos : C -> list strm.
Variable cw_Reset : C -> res C.
Variable marshalSF : stripeFooter -> res (list Z).
Variable o : opts.
Variable StripeSize : Z.

(** stripe.go 61-74: the columns written before the error keep what they were given. *)
Fixpoint writeValueL (i : nat) (v : cvec V) (cs : list C) : ending (list C) :=
  match v with
  | CVec id vals children =>
      match (match vals with
             | None => Done cs
             | Some l =>
                 match nth_error l i, nth_error cs id with
                 | Some x, Some c =>
                     match cw_Write c x with
                     | Ok c' => Done (set_nth cs id c')
                     | Err => Failed (option_map (set_nth cs id) (cw_Left c x))
                     | Panic => Crashed
                     end
                 | _, _ => Crashed
                 end
             end) with
      | Done cs1 =>
          (fix go (l : list (cvec V)) (cs : list C) : ending (list C) :=
             match l with
             | [] => Done cs
             | c :: r => match writeValueL i c cs with
                         | Done cs' => go r cs'
                         | e => e
                         end
             end) children cs1
      | e => e
      end
  end.

(** stripe.go 37-59: the rows counted so far in the local variable are forgotten when a
    row fails. *)
Fixpoint writeLoopL (n i : nat) (count : Z) (v : cvec V) (w : stripeW C) : ending (stripeW C) :=
  match n with
  | O => Done (addRows count w)
  | S m =>
      match writeValueL i v (sw_cols w) with
      | Done cs =>
          let w := setCols cs w in
          let count := u64 (count + 1) in
          if StripeSize <=? sw_size cw_Size cs then
            match (let! w1 := flushOut deflate cw_Flush cw_Index cw_WriteOut cw_Infos marshalSF o (addRows count w) in
                   forward cw_Reset w1) with
            | Ok w2 => writeLoopL m (S i) 0 v w2
            | Err => Failed None
            | Panic => Crashed
            end
          else writeLoopL m (S i) count v w
      | Failed x => Failed (option_map (fun cs => setCols cs w) x)
      | Crashed => Crashed
      end
  end.
(** writer.go 85-94. *)
Definition WriteL (w : stripeW C) (v : cvec V) : ending (stripeW C) := writeLoopL (vlen v) 0 0 v w.
End Writer.
Arguments WriteL deflate {C V}.

(** The values a column's Write returns an error for: string.go 54-58 and 583-587, and
    the encoders of float32, float64 and bytes (encoding/float.go 22-25 and 72-75,
    encoding/string.go 18-21) under float.go 198 and binary.go 50.  The other kinds panic
    on a value of the wrong type. *)
Definition refuses (k : ckind) (v : gval) : bool :=
  match k with
  | KString | KDict => match v with GString _ => false | _ => true end
  | KFloat => match v with GFloat _ => false | _ => true end
  | KDouble => match v with GDouble _ => false | _ => true end
  | KBinary => match v with GBytes _ => false | _ => true end
  | _ => false
  end.

(** The PRESENT bit is written before the value is looked at (string.go 47-51, float.go
    191-195, binary.go 43-47); nothing else has changed by then. *)
Definition c_Left (deflate : list (list Z) -> list Z -> res (list Z)) (o : opts) (c : colW) (v : value) : option colW :=
  if Null v || negb (refuses (cw_kind c) (V v)) then None
  else match optM (fun p => s_Write deflate o p (GBool true)) (cw_present c) with
       | Ok p => Some {| cw_id := cw_id c; cw_kind := cw_kind c; cw_present := p; cw_data := cw_data c;
                         cw_stats := cw_stats c; cw_indexInRows := cw_indexInRows c;
                         cw_indexStats := cw_indexStats c; cw_index := cw_index c;
                         cw_flushed := cw_flushed c; cw_pending := cw_pending c |}
       | _ => None
       end.
