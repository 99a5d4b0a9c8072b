(** Functions that nothing but tests calls: ReadChunks, marshallSchema, findRepeatsInBytes. *)
From Verif.Model Require Import Go Chunk Schema.

(** ** reader.go 405-443: ReadChunks.  The slice given is [src] with [spare] behind it up to
    its capacity: slicing looks at the capacity, indexing at the length.  [read p n] is
    one Read of a flate.Reader over [p] into [n] bytes (an error other than io.EOF is
    [Err]).  [fuel]: each iteration moves on by at least three bytes. *)
Section ReadChunks.
Variable read : list Z -> Z -> res (list Z).
Variable spare : list Z.
Variable k : kind.
Variable size : Z.
Fixpoint readChunks (fuel : nat) (src : list Z) : res (list Z) :=
  match src with
  | [] => Ok []
  | _ =>
      match fuel with
      | O => Panic
      | S f =>
          if zlen src <? 3 then Panic else
          let (chunkLength, original) := DecChunkHeader (nth 0 src 0) (nth 1 src 0) (nth 2 src 0) in
          if size <? 0 then Panic else
          if size <? chunkLength then Err else
          let rest := skipn 3 src in
          let! d :=
            (match original, k with
             | true, _ => if zlen rest + zlen spare <? chunkLength then Panic else Ok (ztake chunkLength (rest ++ spare))
             | false, ZLIB =>
                 if zlen rest + zlen spare <? chunkLength then Panic else
                 let! d := read (ztake chunkLength (rest ++ spare)) size in
                 if zlen d =? 0 then Err else Ok d
             | false, _ => Err
             end) in
          let! t := readChunks f (zdrop chunkLength rest) in
          Ok (d ++ t)
      end
  end.
End ReadChunks.
Definition ReadChunks (read : list Z -> Z -> res (list Z)) (src spare : list Z) (k : kind) (size : Z) : res (list Z) :=
  readChunks read spare k size (length src) src.

(** ** reader.go 234-252: marshallSchema.  The children are indexed by the positions of
    the names. *)
Fixpoint preOrderWalkSchema (t : td) : res (list pbType) :=
  let (_, k, names, _, _, cs) := t in
  if (length cs <? length names)%nat then Panic else
  let! l := (fix walk (cs : list td) : res (list pbType) :=
    match cs with
    | [] => Ok []
    | c :: r => let! ts := preOrderWalkSchema c in let! rs := walk r in Ok (ts ++ rs)
    end) cs in
  Ok ({| t_kind := k; t_sub := map td_id (firstn (length names) cs); t_names := names |} :: l).
Definition marshallSchema (t : td) : res (list pbType) := preOrderWalkSchema t.

(** ** encoding/int.go 1076-1104: findRepeatsInBytes, as pairs of start and count.  The
    inner loop of 1083-1093: the values equal to [v] in front of [l]. *)
Fixpoint same (v : Z) (l : list Z) : nat :=
  match l with x :: t => if x =? v then S (same v t) else O | [] => O end.
Fixpoint repeats (fuel : nat) (minRepeat : Z) (i : Z) (l : list Z) : list (Z * Z) :=
  match l, fuel with
  | v :: t, S f =>
      let n := S (same v t) in
      let rest := repeats f minRepeat (i + Z.of_nat n) (skipn n l) in
      if minRepeat <=? Z.of_nat n then (i, Z.of_nat n) :: rest else rest
  | _, _ => []
  end.
Definition findRepeatsInBytes (values : list Z) (minRepeat : Z) : list (Z * Z) :=
  repeats (length values) minRepeat 0 values.
