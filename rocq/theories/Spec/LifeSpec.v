(** Files that are closed, and calls on a writer. *)
From Verif.Model Require Import Go Chunk Stream Schema Rows File Io Life.
From Verif.Spec Require Import FileSpec AssemblySpec IoSpec.

(** [dead] files refuse every Write and stay as they are; so does every file once closed,
    whatever closing it returned (os.File). *)
Definition ends {W} (osWrite : list Z -> W -> Z * bool * W) (osClose : W -> bool * W) (dead : W -> Prop) : Prop :=
  (forall f, dead (snd (osClose f))) /\
  (forall p f, dead f -> exists n, 0 <= n <= zlen p /\ osWrite p f = (n, false, f)).

(** An os.File without faults of the disk: open or closed, and its bytes. *)
Definition osfile := (bool * list Z)%type.
Definition osf_Write (p : list Z) (f : osfile) : Z * bool * osfile :=
  if fst f then (zlen p, true, (true, snd f ++ p)) else (0, false, f).
Definition osf_Close (f : osfile) : bool * osfile := (fst f, (false, snd f)).
(** os.Create: an existing file is truncated. *)
Definition osf_Create (f : osfile) : bool * osfile := (true, (true, [])).

Section Calls.
Context {W : Type} (osWrite : list Z -> W -> Z * bool * W) (osClose osCreate : W -> bool * W)
        (deflate : list (list Z) -> list Z -> res (list Z)) {C V ST : Type} (I : iface C V ST)
        (streams : C -> list (list Z)) (P : proto ST) (o : opts) (StripeSize : Z).
(** The calls [l] of a client, none of which has failed. *)
Definition uses (l : list (use V)) (s : stripeW C * nat * W) : res (stripeW C * nat * W) :=
  lf_uses W osWrite osClose deflate C V ST (i_Write I) (i_Size I) (i_Flush I) (i_Index I) (i_WriteOut I)
    streams (i_Infos I) (i_Stats I) (i_Reset I) (pb_SF P) (pb_Footer P) (pb_PS P) o StripeSize l s.
Definition create (schema : td) (f : W) : res (stripeW C) * W :=
  NewOSFileWriter W osWrite osCreate C (i_New I) schema f.
(** All calls of a client from the creation of the writer on. *)
Definition whole (schema : td) (l : list (use V)) (f : W) : res W :=
  match create schema f with
  | (Ok w, f1) => let! (_, f2) := uses l (w, O, f1) in Ok f2
  | (Err, _) => Err
  | (Panic, _) => Panic
  end.
End Calls.
