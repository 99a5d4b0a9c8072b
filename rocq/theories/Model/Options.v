(** The options of a writer: orc/config/opts.go, and what creating a writer makes of them. *)
From Verif.Model Require Import Go Chunk Stream Schema File Column.

(** opts.go 29-42.  BufferSize and EncoderBufferSize are read nowhere. *)
Record woptions := { wo_ChunkSize : Z; wo_CompressionKind : kind; wo_StripeSize : Z; wo_BufferSize : Z;
                     wo_EncoderBufferSize : Z; wo_WriteIndex : bool; wo_IndexStride : Z }.

(** opts.go 44-49.  Its only call is commented out (api/type.go 363). *)
Definition CheckWriteOpts (w : woptions) : res unit := if wo_StripeSize w <? wo_ChunkSize w then Err else Ok tt.

(** opts.go 51-54 with the constants of 8-21 (DefalutBufferSize is 10 * 1024 * 2014). *)
Definition DefaultWriterOptions : woptions :=
  {| wo_ChunkSize := 262144; wo_CompressionKind := ZLIB; wo_StripeSize := 268435456; wo_BufferSize := 20623360;
     wo_EncoderBufferSize := 20623360; wo_WriteIndex := false; wo_IndexStride := 1000 |}.

(** The part of the options the streams and columns see. *)
Definition stream_opts (w : woptions) : opts :=
  {| CompressionKind := wo_CompressionKind w; ChunkSize := wo_ChunkSize w; WriteIndex := wo_WriteIndex w |}.

(** column.NewWriter (column/package.go 201-303) with the buffers of its streams:
    stream/writer.go 124-215 makes a slice of ChunkSize bytes for each stream, which
    panics for a negative size.  (A size beyond the address space panics too; no upper
    limit is modelled.) *)
Definition NewWriterO (w : woptions) (t : td) : res colW :=
  let! c := NewWriter (stream_opts w) t in
  match cw_present c, cw_data c with
  | None, [] => Ok c
  | _, _ => if wo_ChunkSize w <? 0 then Panic else Ok c
  end.
