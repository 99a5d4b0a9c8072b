# Formal model of goorc (ORC reader/writer) in Rocq 8.16.1

## Approach

The Go source is modelled function by function as total, computable Gallina
functions.  Bytes, 64-bit words and ints are `Z` with the wrap-around written
explicitly (`u8`, `u64`, `i64`); slices are lists; a Go `error` is the value
`Err`, a run-time panic is the value `Panic`, so that "does not crash" is a
statement and not an accident of totality.  Every definition cites the file and
lines it models and says where it simplifies.  Loops that are not structural
carry fuel and return an error value when it runs out; the theorems that state
success show that it does not.

A property that is false of the code is answered by a theorem `..._refuted`
(a concrete witness checked by computation, or a statement that it fails on a
whole class of inputs) and by the strongest true statements found (suffix
`_partial`), where possible an exact characterisation (`..._iff...`) of the inputs on
which the property holds.  In MANIFEST.json such a property has the status
"partial" and a note beginning with "REFUTED".

## Files (rocq/theories)

`Model/` holds definitions only, `Spec/` the vocabulary of the claims, `Proofs/`
lemmas, `Properties/` the claims: every theorem there is named after its
property, has `Print Assumptions` beneath it, and examples beside it which meet
its hypotheses.  `Tests/` evaluates the model on fixed inputs.

| layer | model | of /repo | claims |
|---|---|---|---|
| outcomes, words, byte readers | Go | | |
| scalar codecs | Codec | encoding/package.go, float.go, time.go, string.go | Scalars: C01-C03, C07, C42, C44 |
| byte and bool RLE | ByteBool | encoding/byte.go, bool.go | ByteBool: C04-C06 |
| int RLE v2 | IntRle | encoding/int.go | IntRuns: C08-C14; Sizes: C62 (with chunks, streams, bytes) |
| chunks | Chunk | common/misc.go | Streams: C15, C16 |
| streams | Stream | stream/*.go | Streams: C17-C20 |
| columns | Column | column/*.go but list.go, map.go | Columns, Seek, Skip, Stats: C21-C25, C37, C39, C40, C43, C45, C48, C49, C51; Foreign: C57 |
| lists and maps | Nested | column/list.go, map.go (NextBatch, Skip) | Nested: C55, C56 |
| trees of column readers | Tree | column/struct.go, list.go, map.go, string.go (dictionaries): NextBatch, Skip, SeekStride | |
| stripes, files | File, Rows | stripe.go, writer.go, reader.go | File, Rows: C26-C30, C38, C41, C46; StripeSize: C68; Split: C70, C71 |
| messages | Wire | pb/orc_proto.proto | (shows the assumption on protobuf satisfiable) |
| batch reader on real columns | Assembled | stripe.go 181-388, reader.go 78-212, api/vector.go 39-78 | SeekFile, End: C29, C50; ForeignFile: C58; Project: C63; SeekForeign: C67; Progress: C69; Crash: C72; OrcWriter: C73 |
| closing a batch reader: handles opened and closed | Close | Close of orc/column/*.go, stripe.go 390-392, reader.go 166-170; Clone in InitStream | Close: C66 |
| files with short reads, failing reads and failing writes | Io | io/file.go, stream/reader.go, reader.go 254-343, stripe.go 84-153, 221-246, writer.go 114-200 | Io: C59-C61; Faults: C64, C65 |
| a writer used on after an error | Failure | writer.go 85-94, stripe.go 37-59, the columns' Write up to the refused value | Failure: C74 |
| a writer before its creation and after Close | Life | writer.go 27-65, 85-94, 114-127, stripe.go 37-59, 155-163 | Life: C76 |
| options of a writer | Options | config/opts.go 8-54, stream/writer.go 124-215 (buffers) | Options: C77 |
| functions only tests call | Helper | reader.go 234-252, 405-443, encoding/int.go 1076-1104 | Helper: C78-C80 |
| checks and a numbering nothing calls | Check | writer.go 96-108, api/type.go 300-314, reader.go 364-382 | Check: C81, C82, C30 |
| exported functions nothing calls | Unused | api/vector.go 10-38, api/type.go 23-39, column/list.go 189-206, encoding/int.go 866-877 | Unused: C83-C86 |
| memory asked for | Memory | reader.go 70-140 and 260-340, stripe.go 215-260, column/reader.go 30-60, stream/reader.go 28-45, common/misc.go 232-259, encoding/string.go 36-42 | Memory: C75 |
| schemas | Schema | api/type.go, reader.go 214-232 | Schema: C31-C34, C47, C53 |
| dates, timestamps, decimals | Time, Decimal | api/vector.go 86-167 | Time, Values: C35, C36, C52, C54 |

## How the proofs go

* C01-C03, C07, C35, C36, C44, C52, C54: arithmetic on Z, finite sweeps over widths.
* C04-C06: each emitted run decodes to the prefix taken from the buffer; induction
  over the writes.  The state a flush leaves behind is part of the statement.
* C08-C14: bit packing is abstracted to lists of bits; one lemma per run form; the
  stream is the concatenation of the runs.  C14 compares the decoder with a separate
  transcription of the public ORC text (Spec/OrcInt.v), not with the encoder.
* C15-C20: the abstraction of a stream reader is the list of decompressed bytes
  still to come (`serves`); decoders are programs over byte readers, so that one
  theorem covers all of them.
* C21-C25, C37-C40, C43, C45, C48, C49, C51: a column reader gives the rows written,
  in batches of any sizes (`reads_back`, `delivers_from`); the writer's invariant
  relates PRESENT, DATA and the second stream to the list of rows.
* C26-C30, C41, C46, C50: the file layer is proved for column writers and a protobuf
  library given by contracts; the contracts are then proved of the concrete column
  writers (EndColP) and of Wire (WireP), and C50 composes everything: rows given to a
  writer against rows returned by a reader of the resulting bytes.
* C62: an amortised count over the runs written; the values held back are part of the
  invariant.
* C31-C34, C47, C53: induction on schema trees.
* C55, C56: list and map readers over any reader of the elements, instantiated with
  leaf columns, structs and lists.
* C57: streams and columns as the public ORC text describes them (Spec/OrcColumn.v) are
  related to the abstractions above (`serves`, rows delivered), without the writers; for
  timestamps and decimals, that the readers leave the batch as it was.
* C58: the same for whole files (Spec/OrcFile.v): from the layout of a stripe to the
  tree of column readers, then the client of C50.  Example files are checked against the
  specification by a verified checker (Proofs/OrcCheckP.v).
* C67: after SeekStride(0) a tree of readers stands as it did when the stripe was opened,
  wherever it was before (Proofs/RestartP.v); so it follows the reader on plain rows.
* C68: an invariant of the writer between two rows, and for each column what Flush adds to
  the streams that were there when the stripe was cut.
* C63: a simulation between two clients: their trees of readers and their batches agree
  in the columns both have (`keepT`, `keepV`), and all slices outside of lists and maps
  have one length and one capacity (`uni`), so that both ask for pages of one size.
* C69: the same with one client: the slices of its batch have one length and one capacity,
  so every page has the size of the batch or of what is left of the stripe; with an
  invariant on the stripes behind, at and before the index of the reader.
* C70: the loops over batches, rows and columns are one loop over rows; writing a row
  touches each column's writer alone, so the order of the columns is immaterial.
* C72: outcomes that are not panics, with what they leave behind (`fine`): a decoder that
  does not panic on any list of bytes does not panic over a stream; a column that was
  opened alone is the column in the stripe; the batch keeps its shape (`shapeV`).  Opening
  (Spec/OpenSpec.v, Proofs/SoundP.v) follows the code step by step; what a step needs of the
  file is read off the bytes where the format puts them, not off what the model computed.
  For the contents of streams (Spec/CauseSpec.v, Proofs/CauseP.v) the reader is followed
  along the bytes its chunks hold (`Unpacked`): a decoder over a stream does what it does
  over the bytes it takes, so that C13_panic_iff tells which runs crash a column.
  Dictionaries (Proofs/CauseDictP.v): all lengths are decoded before the first word is
  looked up, so that only a number of no word is left to crash.  For whole streams
  (Proofs/CauseIffP.v) the condition is exact: the reader serves the bytes of the stream
  (StreamP `Rep`), and the crashing run or length is reached.  Beside a PRESENT stream
  (Proofs/CausePresentP.v, integers) it is reached if PRESENT has rows enough with a value.
* C73: the vocabulary of C57 and C58 (Spec/OrcColumn.v, OrcFile.v), now as the conclusion:
  each run the integer encoder emits is a run of the specification (Proofs/OrcWriteIntP.v),
  the streams of a column hold its rows (`lays`), the chunks lie where the footer says.
  Timestamps and decimals included: seconds, packed nanoseconds, varints and scales.
* C75: opening is written a second time with the list of requested sizes beside the result;
  that the result is the same is a theorem (C75_same_results), so the rest of the model need
  not know of memory.
* C74: an attempt is a relation between the cells given to the columns of each stripe and
  the rows it counts (Spec/FailureSpec.v), defined on batches alone; the lemmas on stripes
  and their reading (FileP `close_any`, EndMainP `stored_batches`) are stated for stripes
  whose columns were given more than the rows counted, of which C50 is the special case.
  For a nullable column that refuses values (Spec/RefusalSpec.v) the PRESENT bits are those of
  all values offered and the data are those taken; [drawn] matches them up as a reader does,
  and is proved equal to what the streams yield (Proofs/RefusalP.v, first stripe of a column).
* C76: up to Close the calls are the client of C61; after it no flush can succeed, since a
  stripe always has a footer and a closed file takes no byte.
* C77: a footer has at least one byte, and with chunks of no size the loop over it never
  ends (an exhausted loop is [Panic]), so no Close succeeds.  Creating a column is wrapped
  in the one check Go makes of the size, that of `make`.
* C78: one Read of the decompressor is a parameter; `reads` (Spec/HelperSpec.v) is what
  io.Reader promises, `greedy` what the code needs.
* C59-C61: a simulation between the code over any file that keeps the promises of
  io.Reader and the stream and file layers above, which have the bytes at once.  C60
  proves such a promise of MockFile.

## Hypotheses that occur in the claims

* `flate_ok`, `flate_fresh`, `flate_total` (Spec/ChunkSpec.v): what the DEFLATE
  compressor emits inflates to its input (also when one object is used again after
  Close, as the code does / only when fresh), and it does not fail.  `toy_deflate`
  satisfies them; it is used in the examples.
* `proto_ok` (Spec/FileSpec.v): unmarshalling inverts marshalling, a postscript is
  shorter than 256 bytes.  Model/Wire.v is proved to satisfy it.
* `contract` (Spec/FileSpec.v): what the file layer needs of a column writer;
  proved of Model/Column.v.
* `supported`: compression NONE or ZLIB, chunk size in 1..2^23-1.
* `typed`: values have the Go type of the column; `carried`, `ints_ok`, `stream_ok`:
  the integer codec is lossless on the stream in question, which is what C08-C12
  characterise.  Without this the claims about columns are false because C12 is.
* `seekable`, `stocked`: the streams in which recorded positions lead to the right
  place, which C18 and C19 characterise.
* `ends` (Spec/LifeSpec.v): a closed os.File refuses every Write.
* `os_ok`, `honest`, `appends` (Spec/IoSpec.v): what the documentation of io.Reader, io.Seeker and
  io.Writer promises; `honest` files may fail at any call.  io.ReadFull, io.CopyN and bytes.Buffer.ReadFrom are transcribed
  (Model/Io.v); how much a buffer grows is a parameter.
* Sizes below 2^63 or 2^64, where the code uses such integers.

## Trusted base

* Coq's kernel.  Each property theorem prints "Closed under the global context":
  no axioms, of the standard library or otherwise.  (A listing of the axioms of all
  loaded libraries shows the seven parameters of `Coq.ssr.ssrunder.Under_rel`, a
  module of the standard library which `lia` loads; no theorem depends on them.)
* The reading of the Go source.  The code is not executed here; the model was
  written from the text.  Model functions are computable and are run on fixed inputs
  in the examples and in Tests/.
* Go semantics as in Model/Go.v: two's complement wrap-around, `int` of 64 bits,
  shifts, slices as values.  Where the code shares a backing array on purpose
  (batches: api/vector.go) the model has it (Assembled.v); elsewhere sharing is not
  modelled.
* float64: Time.v has rounding to nearest even for the few operations used by dates
  and decimals; statistics take float arithmetic as a parameter (`floats`) and nothing
  is assumed of it.
* What ORC files should look like: Spec/OrcInt.v (integer runs, and the runs this
  library reads: `orc_supported`), Spec/ChunkSpec.v
  (chunks), Spec/OrcColumn.v and Spec/OrcFile.v (columns and files), Spec/NestedSpec.v
  (lists), written from the public specification.

## Not modelled

* Logging; the text of errors; the state left behind by a call that returned an error,
  except for ReadByte of a stream (Io.v, C65) and Write of a file (Failure.v, C74).
* Memory limits, except in Memory.v (C75), where the sizes given to `make([]byte, n)` on
  behalf of a file are recorded (stripe.go 226, column/reader.go 39, stream/reader.go 34-41,
  reader.go 274, 296 and 311, misc.go 246, encoding/string.go 38).  Elsewhere an n that is
  too large for the machine, which panics in Go, is not a panic unless n is negative as an
  int.  Growth of buffers (bytes.Buffer), of slices (append) and of the decoded messages is
  not recorded.
* Short reads, failing reads and failing writes are modelled (Io.v) for streams, the file
  tail, stripe footers and the writers; the columns above the streams are modelled over
  the ideal file, which C59 and C64 say is enough.
* Writing with SNAPPY, LZO, LZ4, ZSTD beyond their being refused.
* UNION columns (refused by the code); the methods of listV2Writer, column/list.go 208-302, of
  which nothing makes a value (NewListV2Writer returns a struct writer: C83).
* The generated protobuf code; unknown fields in foreign files.
* Concurrency: the library has none.
* bench/, examples/.
* Of the code that nothing in the library calls only column/list.go 208-302.  (ReadChunks,
  marshallSchema, findRepeatsInBytes, CheckWriteOpts, CheckBatch, setId, ensureOrcFooter,
  NewListV2Writer, Batch, TypeDescription.String and writeUints are modelled: C77-C86, C30.)
  TypeDescription.String is the list of what is printed; formatting is not modelled.

## Tests of the model

`theories/Tests` runs the tests of /repo on the model by computation, as a check that
the model says what the code says: encoding_test.go, misc_test.go, vector_test.go
(Encoding), column_test.go (Columns), file_test.go, stripe_test.go, stream_test.go
(Files), and interop_reader_test.go on the bytes of the
small files in /repo/testing, which another implementation wrote (Interop).  They prove
no claim.  Where a test of /repo must fail by the text of the code, the model fails it
too: values of timestamps and decimals (C37).  basicLongNoCompression.orc shows C14's
refutation on a real file: a run 1..10 is read as 1, 2, 3, 3, ..., and the test does not
notice.

## Mutation tests

`seeded/LOG.jsonl` has one line per edit of a model definition made in a scratch
copy: the edit, the claim it should break, the theorems whose proofs failed in the
rebuild (`theorems_failed`, observed: make stops at the first failing file of each
chain) and the property theorems that use them (`property_theorems_depending_on_them`,
from the dependency graph, not rebuilt).  A failed proof script is not in itself a
proof that the claim is false of the edited program; edits where the claim was seen
to stay true are marked so.  Edits that nothing noticed led to new or sharper
theorems (`theorems_tightened`) or are explained in `note`.
