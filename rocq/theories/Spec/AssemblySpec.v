(** The concrete column writers and the protobuf encoding, as the objects the file layer
    is stated over. *)
From Verif.Model Require Import Go Codec ByteBool IntRle Chunk Stream Schema Rows File Column Wire.
From Verif.Spec Require Import FileSpec.

(** The column writers behind the interface of column/package.go 41-66; an index is
    marshalled in stripe.go 96-104. *)
Definition columns (deflate : list (list Z) -> list Z -> res (list Z)) (F : floats) (o : opts) (stride : Z)
  : iface colW value colstats :=
  {| i_New := NewWriter o; i_Write := c_Write deflate F o stride; i_Size := c_Size o;
     i_Flush := c_Flush deflate o; i_Index := fun c => marshalIndex (cw_index c);
     i_WriteOut := c_WriteOut o; i_Infos := c_Infos; i_Stats := cw_stats; i_Reset := c_Reset o;
     i_of := fun c i => cw_id c = i /\ Forall (fun k => k <> 6) (map fst (cw_data c)) |}.
(** The protobuf library. *)
Definition wire : proto colstats :=
  {| pb_SF := marshalSF; pb_Footer := marshalFooter; pb_PS := marshalPS;
     pb_unSF := unmarshalSF; pb_unFooter := unmarshalFooter; pb_unPS := unmarshalPS |}.

