(** The compressed stream format of the ORC specification ("Compression"): a sequence
    of chunks, each preceded by a three byte little-endian header holding
    2 * payload length + isOriginal. *)
From Verif.Model Require Import Go.

Definition le24 (n : Z) : list Z := [n mod 256; n / 256 mod 256; n / 65536 mod 256].

(** [Chunked inflate cs enc ds]: the bytes [enc] are a sequence of chunks with the
    contents [ds]; no payload and no content is longer than [cs]. *)
Inductive Chunked (inflate : list Z -> res (list Z)) (cs : Z) : list Z -> list (list Z) -> Prop :=
| Chunked_nil : Chunked inflate cs [] []
| Chunked_orig d enc ds :
    zlen d <= cs -> Chunked inflate cs enc ds ->
    Chunked inflate cs ((le24 (2 * zlen d + 1) ++ d) ++ enc) (d :: ds)
| Chunked_comp p d enc ds :
    zlen p <= cs -> zlen d <= cs -> inflate p = Ok d -> Chunked inflate cs enc ds ->
    Chunked inflate cs ((le24 (2 * zlen p) ++ p) ++ enc) (d :: ds).

(** What is assumed of the DEFLATE library: whatever the compressor emits for an input
    inflates to that input ([flate_ok]: also when one compressor object is used for
    several chunks, as the code does; [flate_fresh]: only for a fresh one), and it does
    not fail ([flate_total]). *)
Definition flate_ok (deflate : list (list Z) -> list Z -> res (list Z))
           (inflate : list Z -> res (list Z)) : Prop :=
  forall hist x c, deflate hist x = Ok c -> inflate c = Ok x.
Definition flate_fresh (deflate : list (list Z) -> list Z -> res (list Z))
           (inflate : list Z -> res (list Z)) : Prop :=
  forall x c, deflate [] x = Ok c -> inflate c = Ok x.
Definition flate_total (deflate : list (list Z) -> list Z -> res (list Z)) : Prop :=
  forall hist x, exists c, deflate hist x = Ok c.

(** A stand-in codec meeting the assumptions, used in the examples: a run-length
    scheme for constant inputs, a marker byte otherwise. *)
Definition toy_deflate (hist : list (list Z)) (x : list Z) : res (list Z) :=
  match x with
  | v :: t => if forallb (Z.eqb v) t && (length x <? 200)%nat then Ok [1; Z.of_nat (length x); v]
              else Ok (0 :: x)
  | [] => Ok [0]
  end.
Definition toy_inflate (c : list Z) : res (list Z) :=
  match c with
  | [1; n; v] => Ok (repeat v (Z.to_nat n))
  | 0 :: x => Ok x
  | _ => Err
  end.
