{"id": "C01", "title": "Signed integers survive the zigzag mapping", "statement": "Every signed 64-bit integer handed to a signed integer column is mapped to an unsigned 64-bit word and mapped back to exactly the same integer; conversely every unsigned word is the image of exactly one integer, and small magnitudes get small words.", "quantifier": "all int64 values and all uint64 words", "why_tests_cant": "2^64 inputs; the interesting cases are sign and wrap-around boundaries which sampling misses", "anchors": ["orc/encoding/package.go: Zigzag, UnZigzag (Convert*)", "orc/encoding/int.go: varint helpers"]}
{"id": "C02", "title": "Variable-length integers are self-delimiting and lossless", "statement": "A signed or unsigned 64-bit integer written in base-128 form is read back exactly, consuming exactly the bytes that were written whatever bytes follow; truncated input is reported as an error.", "quantifier": "all 64-bit integers, all following bytes, all truncation points", "why_tests_cant": "unbounded set of continuations and 2^64 values", "anchors": ["orc/encoding/int.go: varint encoder/decoder, ReadVUint"]}
{"id": "C03", "title": "Nanoseconds survive the trailing-zero packing", "statement": "Packing the nanosecond part of a timestamp into the trailing-zero-counted form and unpacking it gives the same number, for every legal nanosecond count; the packed form never needs more than 64 bits.", "quantifier": "all nanosecond counts 0..999999999 (indeed all below 2^61)", "why_tests_cant": "10^9 inputs with a digit-dependent loop", "anchors": ["orc/encoding/package.go: EncodingNano, DecodingNano", "orc/api/vector.go: EncodingTimestampNanos, DecodingTimestampNanos"]}
{"id": "C04", "title": "Byte run-length streams are lossless", "statement": "Whatever sequence of bytes is written to a byte column stream, and however many values are buffered when it is flushed, decoding the produced bytes run by run returns exactly that sequence and consumes exactly those bytes; flushing twice adds nothing.", "quantifier": "all byte sequences of any length, all flush points", "why_tests_cant": "run boundaries interact with the 128-value buffer in unboundedly many ways", "anchors": ["orc/encoding/byte.go: byteRunLengthEncoder, DecodeByteRL"]}
{"id": "C05", "title": "Boolean streams are lossless up to padding", "statement": "Any sequence of booleans written to a fresh boolean stream and flushed decodes to that sequence followed by fewer than eight padding false values.", "quantifier": "all boolean sequences", "why_tests_cant": "run-length and bit-packing boundaries combine; unbounded lengths", "anchors": ["orc/encoding/bool.go: boolRunLengthEncoder, DecodeBoolRL"]}
{"id": "C06", "title": "A boolean stream can be reused after a flush", "statement": "After a flush (end of a stripe) the next booleans written to the same writer decode to exactly what was written, independent of what was written before the flush.", "quantifier": "all boolean sequences before and after a flush", "why_tests_cant": "depends on the number of values before the flush modulo 8 and on their values", "anchors": ["orc/encoding/bool.go: Flush, Encode"]}
{"id": "C07", "title": "Floating point columns preserve the bit pattern", "statement": "Each float32 and float64 bit pattern, including NaN payloads, signed zeros and infinities, written to a float or double stream is read back with the identical bit pattern.", "quantifier": "all 2^32 and 2^64 bit patterns and all sequences of them", "why_tests_cant": "cannot enumerate all patterns", "anchors": ["orc/encoding/float.go: floatEncoder, doubleEncoder, DecodeFloat, DecodeDouble"]}
{"id": "C08", "title": "A directly packed integer run is lossless", "statement": "A run of 1 to 512 integers written bit-packed at the common width is decoded to exactly those integers and consumes exactly the bytes of the run.", "quantifier": "all runs of 1..512 unsigned 64-bit words (and zigzagged signed values), all following bytes", "why_tests_cant": "widths 1..64 and unaligned packing over 512 values", "anchors": ["orc/encoding/int.go: writeDirect, readDirect, forgeBits/readBits"]}
{"id": "C09", "title": "A repeated integer run is lossless", "statement": "A run of 3..10 equal integers written in the repeat form decodes to exactly that run.", "quantifier": "all 64-bit values and run lengths 3..10", "why_tests_cant": "the payload depends on which bytes of the value are zero; tests used values without zero bytes", "anchors": ["orc/encoding/int.go: writeShortRepeat, readShortRepeat"]}
{"id": "C10", "title": "A monotone integer run is lossless", "statement": "A run of at least 3 integers whose differences do not change sign, written in the delta form, decodes to exactly that run.", "quantifier": "all monotone runs up to 512 values", "why_tests_cant": "difference magnitudes span 64 bits and widths are rounded up to a table of legal widths", "anchors": ["orc/encoding/int.go: tryDeltaEncoding, writeDelta, readDelta"]}
{"id": "C11", "title": "A run with outliers is lossless", "statement": "A signed integer run written in patched-base form (a few outliers removed from the packed part) decodes to exactly that run.", "quantifier": "all signed runs to which the writer applies the patched form", "why_tests_cant": "base, width, patch width and gap interact; tests only cover one documented example", "anchors": ["orc/encoding/int.go: tryPatch, writePatch, readPatched"]}
{"id": "C12", "title": "Integer streams are lossless end to end", "statement": "Any sequence of 64-bit integers written to a fresh integer stream and flushed decodes to exactly that sequence, whatever mix of run forms the writer picks.", "quantifier": "all integer sequences of any length, signed and unsigned", "why_tests_cant": "the run chooser is data dependent and history dependent; unbounded sequences", "anchors": ["orc/encoding/int.go: intRLV2Encoder.Encode, write, Flush; intRLV2Decoder"]}
{"id": "C13", "title": "Decoding never crashes on malformed integer data", "statement": "For any bytes in an integer data stream, decoding a run returns either a non-empty list of values or an error; it never aborts the process.", "quantifier": "all byte sequences", "why_tests_cant": "adversarial inputs are unbounded", "anchors": ["orc/encoding/int.go: intRLV2Decoder.decode, readPatched"]}
{"id": "C14", "title": "Decoded integer runs follow the ORC specification", "statement": "Any run that is legal per the ORC v2 integer run-length specification decodes to the values the specification assigns to it, so files of other implementations are read correctly.", "quantifier": "all legal encoded runs", "why_tests_cant": "all sizes/widths/forms; hand-made samples cover a handful", "anchors": ["orc/encoding/int.go: readShortRepeat, readDirect, readPatched, readDelta"]}
{"id": "C15", "title": "Compression chunk headers are lossless", "statement": "For every chunk length below 2^23 and either kind flag the three header bytes decode to the same length and flag.", "quantifier": "all lengths 0..2^23-1, both flags", "why_tests_cant": "8 million lengths; carries across byte boundaries", "anchors": ["orc/common/misc.go: encChunkHeader, DecChunkHeader"]}
{"id": "C16", "title": "Chunked compression is lossless", "statement": "Whatever the content and chunk size, compressing a buffer into chunks and decompressing the chunk sequence returns the same bytes; no chunk carries more than chunk-size bytes.", "quantifier": "all byte contents, all positive chunk sizes below 2^23, any correct deflate implementation", "why_tests_cant": "content length versus chunk size boundary conditions; unbounded content", "anchors": ["orc/common/misc.go: CompressingChunks, CompressingLeft, CompressingAllInChunks, DecompressChunks"]}
{"id": "C17", "title": "A data stream is a faithful byte pipe", "statement": "Bytes encoded by any sequence of writes to a stream writer, flushed and written to the file at any offset, are returned in order by the stream reader through any mix of single-byte and block reads, exactly until the end of the stream; bytes of neighbouring streams are never returned.", "quantifier": "all write sequences, all chunk sizes, all read patterns, all surrounding file contents", "why_tests_cant": "interleaving of write sizes, chunk boundaries and read sizes is unbounded", "anchors": ["orc/stream/writer.go: writer.Write, Flush, WriteOut", "orc/stream/reader.go: reader.ReadByte, Read, readAChunk, Finished"]}
{"id": "C18", "title": "Recorded positions in compressed streams are correct", "statement": "If the position of a compressed stream is recorded after k writes, then after the stream is complete seeking the reader to that position makes it return exactly the bytes produced after the k-th write.", "quantifier": "all write sequences, record points, chunk sizes", "why_tests_cant": "record point relative to chunk boundaries; unbounded histories", "anchors": ["orc/stream/writer.go: GetPosition", "orc/stream/reader.go: seek"]}
{"id": "C19", "title": "Recorded positions in uncompressed streams are correct", "statement": "If the position of an uncompressed stream is recorded after k writes, seeking the reader to it returns exactly the bytes produced after the k-th write.", "quantifier": "all write sequences, record points, chunk sizes", "why_tests_cant": "only fails once the offset exceeds the read block size (256 KiB by default)", "anchors": ["orc/stream/reader.go: seek", "orc/stream/byte.go, int.go, bool.go: Seek"]}
{"id": "C20", "title": "Positions inside run-length streams point at the right value", "statement": "Recording byte offset plus buffered-value count after the k-th value of a byte or boolean stream, then decoding from that byte offset and discarding that many values, yields values k+1, k+2, ...", "quantifier": "all value sequences and all k", "why_tests_cant": "run boundaries chosen later must not cut across the recorded offset", "anchors": ["orc/encoding/byte.go: GetPosition", "orc/stream/byte.go: ByteReader.Seek", "orc/encoding/bool.go: GetPosition"]}
{"id": "C21", "title": "Nullable columns read back with nulls in place", "statement": "A column with nulls, whatever the pattern of nulls and values, reads back as the same sequence of nulls and values when read in batches of any sizes.", "quantifier": "all null patterns, values and batch splits", "why_tests_cant": "2^n null patterns times batch splits", "anchors": ["orc/column/int.go, bool.go, byte.go, string.go, float.go, time.go: Write, NextBatch"]}
{"id": "C22", "title": "A null is never silently lost", "statement": "Writing a null to a column either stores a null in that row or is reported as an error; the number of rows stored equals the number written.", "quantifier": "all row sequences and schemas", "why_tests_cant": "configuration-dependent path not covered by tests", "anchors": ["orc/column/*.go: Write", "orc/writer.go: Write"]}
{"id": "C23", "title": "Column statistics are exact", "statement": "After writing any rows the column statistics' value count, sum, minimum and maximum equal those of the non-null values written.", "quantifier": "all row sequences", "why_tests_cant": "needs all-positive/all-negative data and every order", "anchors": ["orc/column/int.go: intWriter.Write", "orc/column/float.go, string.go, time.go"]}
{"id": "C24", "title": "Row index strides are addressable", "statement": "With a row index, seeking a column reader to stride s positions it at row s*stride of the stripe, for each recorded stride, with or without nulls; an out-of-range stride is reported as an error.", "quantifier": "all row sequences, null patterns, stride lengths and strides", "why_tests_cant": "index points fall at arbitrary places inside runs, bits and chunks", "anchors": ["orc/column/reader.go: getStridePositions", "orc/column/int.go, byte.go, bool.go: SeekStride"]}
{"id": "C25", "title": "Row index statistics cover their own stride", "statement": "Each row index entry's statistics describe exactly the rows of its stride.", "quantifier": "all row sequences and stride lengths", "why_tests_cant": "off-by-one at the stride boundary only visible for extreme boundary values", "anchors": ["orc/column/int.go: intWriter.Write"]}
{"id": "C26", "title": "Stripes tile the file", "statement": "For any sequence of batches, the stripe directory lists stripes whose byte ranges are contiguous from byte 3 to the start of the file footer, and whose row counts add up to the rows written and to the footer's total.", "quantifier": "all batch sequences, stripe sizes, column sizes", "why_tests_cant": "stripe breaks depend on accumulated encoded size", "anchors": ["orc/stripe.go: stripeWriter.write, flushOut, forward", "orc/writer.go: Write, Close, writeFileTail"]}
{"id": "C27", "title": "Every closed file can be opened", "statement": "Any file whose writer was closed without error can be opened by the reader.", "quantifier": "all batch sequences including none, all options", "why_tests_cant": "depends on whether the last row happened to complete a stripe", "anchors": ["orc/writer.go: Close", "orc/reader.go: newReader, initStripes"]}
{"id": "C28", "title": "Iterating batches returns every row exactly once", "statement": "Repeatedly asking for the next batch until the end is reported returns every row of the file once and in order, for any batch size and stripe layout.", "quantifier": "all stripe layouts and batch sizes", "why_tests_cant": "fails only for particular remainders of stripe size by batch size", "anchors": ["orc/reader.go: batchReader.Next", "orc/stripe.go: stripeReader.next"]}
{"id": "C29", "title": "Seeking to a row lands on that row", "statement": "After Seek(r) the next batch starts with row r of the file, and iteration continues from there to the end.", "quantifier": "all stripe layouts, strides and row numbers", "why_tests_cant": "tests only seek inside the first stride", "anchors": ["orc/reader.go: batchReader.Seek", "orc/stripe.go: stripeReader.Seek"]}
{"id": "C30", "title": "The file tail is found", "statement": "Opening any file recovers exactly the footer that was written, whatever its size, and a malformed or empty file is reported as an error.", "quantifier": "all footer contents and sizes, all file contents", "why_tests_cant": "only footers above 16 KiB exercise the second read", "anchors": ["orc/reader.go: extractFileTail", "orc/writer.go: writeFileTail"]}
{"id": "C31", "title": "Column ids are the preorder numbering", "statement": "Normalising any schema tree numbers its columns 0..n-1 in preorder, so ids are distinct, every subtree has a contiguous id range, and flattening lists columns in id order.", "quantifier": "all schema trees", "why_tests_cant": "unbounded trees", "anchors": ["orc/api/type.go: SetId, traverse, Flat, NormalizeSchema"]}
{"id": "C32", "title": "A schema survives the file footer", "statement": "Storing a normalised schema as the footer's type list and rebuilding the tree gives the same kinds, ids, children and struct field names.", "quantifier": "all schema trees without unions", "why_tests_cant": "unbounded trees, nesting and sharing of the flat list", "anchors": ["orc/api/type.go: SchemasToTypes", "orc/package.go, orc/reader.go: unmarshallSchema"]}
{"id": "C33", "title": "Illegal null nesting is rejected", "statement": "Creating a batch for a schema in which a nullable struct has a nullable child anywhere is reported as an error.", "quantifier": "all schema trees", "why_tests_cant": "depends on the position of the offending child", "anchors": ["orc/api/type.go: verifySchema, CreateVector"]}
{"id": "C34", "title": "Column projection creates exactly the requested columns", "statement": "A batch created with an include list contains a vector for a column iff the column and all of its ancestors are included, in schema order; with no include list every column is present.", "quantifier": "all schema trees and include lists", "why_tests_cant": "unbounded trees and subsets", "anchors": ["orc/api/type.go: createVector, IsInclude"]}
{"id": "C35", "title": "Dates survive storage as day counts", "statement": "Every date representable in the supported range converts to a day count and back to the same date; distinct days give distinct counts.", "quantifier": "all day counts within +-106751 (the range of a 64-bit nanosecond duration)", "why_tests_cant": "calendar range; overflow outside it", "anchors": ["orc/api/vector.go: FromDays, ToDays"]}
{"id": "C36", "title": "Timestamps denote the same instant after a round trip", "statement": "Converting an instant to the stored (seconds since 2015, nanoseconds) pair and back gives the same instant whatever the time zone.", "quantifier": "all instants and zone offsets", "why_tests_cant": "tests run only in UTC", "anchors": ["orc/api/vector.go: GetTimestamp, Timestamp.Time"]}
{"id": "C37", "title": "Timestamp and decimal columns return the stored values", "statement": "Reading a timestamp or decimal column stores each decoded value in the batch handed to the caller.", "quantifier": "all stored values", "why_tests_cant": "the reader looks right on any test that only checks for errors", "anchors": ["orc/column/time.go: TimestampV2Reader.NextBatch", "orc/column/decimal.go: NextBatch"]}
{"id": "C38", "title": "Every supported compression kind can be written", "statement": "With any compression option accepted by the writer options, writing rows and closing succeeds.", "quantifier": "all row sequences, both supported compression kinds", "why_tests_cant": "tests only use zlib at file level", "anchors": ["orc/stripe.go: writeFooter", "orc/common/misc.go: CompressingAllInChunks", "orc/stream/writer.go: Reset"]}
{"id": "C39", "title": "String columns are lossless", "statement": "Any sequence of byte strings, including empty ones and arbitrary lengths, written to a direct string column is read back with the same boundaries and contents.", "quantifier": "all sequences of byte strings", "why_tests_cant": "lengths and contents live in separate streams that must stay aligned", "anchors": ["orc/column/string.go: stringV2Writer, StringDirectV2Reader", "orc/encoding/string.go"]}
{"id": "C40", "title": "Binary columns are lossless", "statement": "Any sequence of byte strings written to a binary column is read back.", "quantifier": "all sequences of byte strings", "why_tests_cant": "no test reads a binary column written by this library", "anchors": ["orc/column/binary.go"]}
{"id": "C41", "title": "Streams of a stripe do not overlap", "statement": "The streams listed in a stripe footer, taken in order, occupy consecutive byte ranges that exactly fill the stripe's data area, so every column reader starts at the first byte of its own stream.", "quantifier": "all schemas, all stream lengths", "why_tests_cant": "number and kinds of streams vary by schema and nullability", "anchors": ["orc/stripe.go: flushOut, newStripeReader", "orc/column/*.go: WriteOut, GetStreamInfos"]}
{"id": "C42", "title": "Varint streams (decimal data) are lossless", "statement": "Any sequence of signed 64-bit integers written to a base-128 stream decodes to the same sequence.", "quantifier": "all sequences", "why_tests_cant": "unbounded", "anchors": ["orc/encoding/int.go: base128VarInt encoder", "orc/stream/int.go: VarIntReader"]}
{"id": "C43", "title": "Dictionary encoding reproduces the strings", "statement": "Looking up each stored dictionary index in the stored dictionary reproduces the written strings in order.", "quantifier": "all sequences of strings", "why_tests_cant": "duplicates and order are data dependent", "anchors": ["orc/encoding/string.go: dictionary encoder", "orc/column/string.go: dictionary writer/reader"]}
{"id": "C44", "title": "Encoded-width table is lossless", "statement": "For every bit width the writer can choose, the 5-bit width code decodes to the same width.", "quantifier": "all legal widths", "why_tests_cant": "two hand-written tables must be inverse", "anchors": ["orc/encoding/package.go: widthEncoding, widthDecoding"]}
{"id": "C45", "title": "Whole-column write/read round trip", "statement": "A non-nested column written row by row with any options (compression, chunk size, nulls) into a stripe reads back identically through the column reader opened at the stream offsets recorded by the writer.", "quantifier": "all value sequences (in the lossless domain of the codec), chunk sizes, batch splits", "why_tests_cant": "composition of codec, chunking, file layout and batching", "anchors": ["orc/column/*.go", "orc/stream/*.go", "orc/stripe.go"]}
{"id": "C46", "title": "File writer total order of rows", "statement": "For any sequence of batches written, the rows recovered stripe by stripe equal the rows written in order; no row is placed in two stripes.", "quantifier": "all batch sequences and stripe size thresholds", "why_tests_cant": "stripe cut points depend on encoded sizes", "anchors": ["orc/stripe.go: stripeWriter.write", "orc/writer.go: Write"]}
{"id": "C47", "title": "A projected batch has no nil children", "statement": "No column vector of a batch created with an include list has a nil child vector.", "quantifier": "all schema trees and include lists", "why_tests_cant": "depends on the combination of nesting and include list", "anchors": ["orc/api/type.go: createListVector, createMapVector"]}
{"id": "C48", "title": "A column with a row index takes a second stripe", "statement": "After the reset between two stripes, a column writer with a row index accepts further values exactly as a new one does.", "quantifier": "all column kinds, all rows before and after the reset", "why_tests_cant": "the repository's tests write one stripe per indexed column; the fault needs Reset followed by a non-null value", "anchors": ["orc/column/writer.go: reset", "orc/column/int.go: Write, Reset"]}
{"id": "C49", "title": "BytesOnDisk is the size of all stripes of a column", "statement": "The BytesOnDisk statistic of a column equals the total number of bytes stored for it over all stripes.", "quantifier": "all column kinds, nullable or not, any number of stripes and rows", "why_tests_cant": "the tests do not compare BytesOnDisk with stored bytes, and the fault needs a nullable column and two stripes", "anchors": ["orc/column: Flush of every writer"]}
{"id": "C50", "title": "Rows written come back", "statement": "A client that opens a file written and closed by the writer, and asks for batches until the end is reported, gets every row that was written, once and in order, with the same values in every column it reads.", "quantifier": "all schemas of structs and readable primitive columns, all rows, all cuttings into stripes and batches, all subsets of columns read, all batch sizes", "why_tests_cant": "it composes every codec, stream, column, stripe and footer over unbounded inputs; the faults need particular relations between stripe size and batch size", "anchors": ["orc/writer.go: Write, Close", "orc/reader.go: NewFileReader, CreateBatchReader, Next", "orc/stripe.go: next"]}
{"id": "C51", "title": "Skipping rows equals reading them", "statement": "Skipping n rows of a column, or of a struct with all its columns, leaves the readers where reading n rows leaves them, and fails exactly when reading them fails.", "quantifier": "all column kinds, all reader states and stream contents (damaged ones included), all n, all trees of structs", "why_tests_cant": "tests skip in one flat schema; the fault needs a nullable column below a nullable struct with a null row among the skipped ones", "anchors": ["orc/column: Skip of every reader", "orc/column/struct.go: Skip, NextBatch"]}
{"id": "C52", "title": "Milliseconds of a timestamp", "statement": "GetMilliSeconds and GetMilliSecondsUtc of a timestamp return the milliseconds since 1970 of the instant that Time returns, and so keep the order of timestamps.", "quantifier": "all timestamps with nanoseconds below a second, all zones, seconds up to 2^52", "why_tests_cant": "no test calls them; a test at one instant would not show for which timestamps they are right", "anchors": ["orc/api/vector.go: GetMilliSeconds, GetMilliSecondsUtc, Time"]}
{"id": "C53", "title": "CheckNulls reports nested nulls", "statement": "CheckNulls fails exactly when some nullable column of the schema has a nullable descendant.", "quantifier": "all schemas without unions", "why_tests_cant": "it quantifies over all trees; the check is never called", "anchors": ["orc/api/type.go: CheckNulls, checkNulls, checkNoNull, traverse"]}
{"id": "C54", "title": "Decimals as floating point numbers", "statement": "Float64 of a decimal is the number the decimal stands for, Precision * 10^-Scale, whenever that and the intermediate results fit the 53 bits of a float64.", "quantifier": "all precisions and scales in the exact range of float64", "why_tests_cant": "no test calls it; a test with scale 0 passes", "anchors": ["orc/api/vector.go: Decimal64.Float64"]}
{"id": "C55", "title": "The elements of lists and maps in a batch", "statement": "After a batch of list or map rows, every row has its length and the element vectors hold the elements of all the rows, in order; elements of any column kind come back, and null rows take no elements.", "quantifier": "all numbers of rows, lengths, null patterns, element kinds and contents of the streams", "why_tests_cant": "the tests read one row, or lists of one column kind without nulls, and a batch whose earlier lists are empty passes", "anchors": ["orc/column/list.go: ListV2Reader.NextBatch", "orc/column/map.go: MapV2Reader.NextBatch", "orc/stripe.go: setVectorSize"]}
{"id": "C56", "title": "Skipping lists and maps is reading them", "statement": "Skipping n rows of a list or map column leaves the column and its element columns where reading n rows leaves them.", "quantifier": "all numbers of rows, lengths, null patterns and states of the readers", "why_tests_cant": "Skip is reached through Seek only, and maps with one entry pass", "anchors": ["orc/column/list.go: ListV2Reader.Skip", "orc/column/map.go: MapV2Reader.Skip"]}
{"id": "C57", "title": "Columns of other ORC writers are read back", "statement": "A column whose streams hold its rows as the ORC specification says is read back row by row, in batches of any sizes, however the streams are ordered, chunked and run-length encoded.", "quantifier": "all files, stream orders and offsets, chunkings, run-length encodings, null patterns, values and batch sizes", "why_tests_cant": "the tests read a handful of sample files, made by writers which choose the same few encodings", "anchors": ["orc/column: InitStream, NextBatch of the int, byte, bool, float, double, string, binary and date readers", "orc/stream/reader.go", "orc/encoding: the decoders"]}
{"id": "C58", "title": "Files of other ORC writers are read back", "statement": "A file laid out as the ORC specification says (stripes of index streams, data streams and a footer; nested structs; PRESENT streams where there are nulls) opens, and a client gets all rows of all included columns in order, up to the rows C50 says are lost.", "quantifier": "all files, schemas of structs and primitive columns, included columns, stripes, rows, stream orders, chunkings, run-length encodings and batch sizes", "why_tests_cant": "the tests read a handful of sample files, none with several stripes, bloom filters, or nulls inside nullable structs", "anchors": ["orc/reader.go: newReader, CreateBatchReader, Next", "orc/stripe.go: newStripeReader, InitStream, Next", "orc/column: readers"]}
{"id": "C59", "title": "Short reads are invisible", "statement": "Reading through a file whose reads deliver as few bytes as they like (at least one before the end), and may report the end together with the last bytes, gives the same streams, values after seeks, file tail and stripe footers as reading the bytes at once.", "quantifier": "all files, contents, read sizes, buffer capacities, compression kinds and chunk sizes, sequences of decoders and seeks", "why_tests_cant": "the tests read local files and buffers, whose reads are never short", "anchors": ["orc/io/file.go", "orc/stream/reader.go: NewReader, ReadByte, Read, readAChunk, Seek", "orc/reader.go 254-343", "orc/stripe.go 221-246"]}
{"id": "C60", "title": "A MockFile holds what was written to it", "statement": "A MockFile with room for the bytes written to it behaves as a file of these bytes: reads, seeks and size.", "quantifier": "all buffers, sequences of writes, reads and seeks", "why_tests_cant": "the tests use buffers much larger than what they write, and read in few patterns", "anchors": ["orc/io/file.go 85-140"]}
{"id": "C61", "title": "A reported success means the file is written", "statement": "If no call of a writer (create, Write, Close) returned an error then the file holds exactly the bytes of the ORC file; any failed operation of the operating system is reported.", "quantifier": "all sequences of batches, schemas, options, and all ways writes and the closing of the file can fail", "why_tests_cant": "the tests write to disks and buffers that do not fail", "anchors": ["orc/writer.go 114-200", "orc/stripe.go 84-153", "orc/stream/writer.go: WriteOut", "orc/io/file.go"]}
{"id": "C62", "title": "Encoded data is not much larger than the data", "statement": "Compression adds at most three bytes for every chunk begun, whatever the compressor returns. Byte streams take at most one byte more per 128 values, plus one; booleans and null flags an eighth of that; integer streams at most 16 bytes a value.", "quantifier": "all values, sequences of writes, chunk sizes, and all results of the DEFLATE library", "why_tests_cant": "the worst case depends on how values fall into runs and on what the compressor returns; tests look at a few files", "anchors": ["orc/common/misc.go 21-158", "orc/stream/writer.go", "orc/encoding/byte.go", "orc/encoding/bool.go", "orc/encoding/int.go 377-1131"]}
{"id": "C63", "title": "Asking for fewer columns does not change the values of the others", "statement": "Let two clients open one file, the second asking for some of the columns of the first. Whatever sequence of Next and Seek succeeds for the first succeeds for the second, with the same end flags, and every batch has the same values in the columns both have.", "quantifier": "all files (also damaged ones), all pairs of selections of columns, all sequences of calls, all batch sizes", "why_tests_cant": "the number of selections is exponential in the number of columns, and the shared state (offsets of streams, batch sizes taken from the first column, null flags pushed from parents to children) depends on which columns are there; tests read all columns or one", "anchors": ["orc/stripe.go 221-388", "orc/reader.go 78-91, 172-212", "orc/api/type.go 46-158, 182-192", "orc/api/vector.go 48-77", "orc/column/struct.go 50-156"]}
{"id": "C64", "title": "Read faults never become data", "statement": "If reads, seeks or the size query of the underlying file may fail at any call, return fewer bytes than asked for, or return bytes together with an error, then whatever the library hands out without an error (file tail, stripe footers, row indexes, and the values decoded from a stream, with seeks in between) is what it hands out over a file that never fails.", "quantifier": "all files and contents, all patterns of short and failing calls, all byte-level decoders, all sequences of decodes and seeks up to the first error, all growth policies of buffers", "why_tests_cant": "needs injected faults at each call and every split of each read; the tests use a MockFile that never fails and never reads short", "anchors": ["orc/stream/reader.go 26-168", "orc/io/file.go", "orc/reader.go 215-327", "orc/stripe.go 221-245", "orc/column/reader.go 33-60"]}
{"id": "C65", "title": "Retrying after a failed read is safe", "statement": "A client that calls ReadByte of a stream again after it returned an error gets the bytes of the stream, in order, without gaps, and none from behind its end.", "quantifier": "all contents, fault patterns, numbers of retries, compression kinds", "why_tests_cant": "the state an error leaves (read counters not advanced, half a chunk header consumed) is never exercised: no test injects a fault, none calls a reader after an error", "anchors": ["orc/stream/reader.go 43-65", "orc/stream/reader.go 110-158"]}
{"id": "C66", "title": "Close releases what was opened", "statement": "Close of a batch reader closes every file handle that creating it has opened, none twice, and does not panic, after any calls of Next and Seek.", "quantifier": "all files, all stripes and stream lists, all selections of columns, all sequences of successful calls", "why_tests_cant": "no test counts handles, lists and maps are never closed in a test, and Close walks other pointers than InitStream sets", "anchors": ["orc/reader.go 166-170", "orc/stripe.go 390-392", "orc/column/struct.go 148-156", "orc/column/list.go 182-187", "orc/column/map.go 208-214", "orc/column/string.go 363-369"]}
{"id": "C67", "title": "Seek on files with a row index stride", "statement": "On a file written by another ORC writer, Seek to a row of the file followed by Next hands out the rows from that row on; more generally, every sequence of Seek and Next gives the batches it would give on the plain rows of the stripes.", "quantifier": "all conforming files, stripes, strides, selections of columns, row numbers, batch sizes and sequences of calls", "why_tests_cant": "the writer records no stride, so the tests cannot seek in files it writes; the seek tests use one foreign file and rows of its first stride", "anchors": ["orc/reader.go 199-212", "orc/stripe.go 369-388", "orc/column/struct.go: SeekStride, Skip", "orc/column/*.go: SeekStride, Skip", "orc/stream/reader.go 94-107"]}
{"id": "C68", "title": "What the stripe size means", "statement": "Between two calls of Write a writer buffers fewer bytes than StripeSize, and every stripe but the last has at least StripeSize bytes of data.", "quantifier": "all schemas, options, stripe sizes, compressors and sequences of batches", "why_tests_cant": "the tests write a few files with one stripe size and do not look at the sizes of the stripes or of the buffers", "anchors": ["orc/stripe.go 37-82", "orc/stream/writer.go 48-105", "orc/column/*.go: Size, Reset", "orc/column/string.go 576-688"]}
{"id": "C69", "title": "Reading comes to an end", "statement": "For every file that opens and every batch made by CreateVector, a client that calls Next until it is told that this was the end, or gets an error, does so after at most as many calls as the file has rows.", "quantifier": "all files (well-formed or not), schemas, selections of columns, batch sizes and sequences of Next and Seek", "why_tests_cant": "each test reads one file with one batch size, and a client that never comes to an end shows as a test that hangs; which sizes and directories of stripes do that is a matter of arithmetic over all of them", "anchors": ["orc/reader.go 128-140", "orc/reader.go 172-212", "orc/stripe.go 319-388", "orc/api/type.go 57-120", "orc/api/vector.go 39-78"]}
{"id": "C70", "title": "The file does not depend on the batches", "statement": "Two clients that write the same rows with the same options get the same bytes, or the same kind of failure, however they cut the rows into batches and in whichever order the columns come in a batch.", "quantifier": "all schemas, options, stripe sizes, compressors, column writers, rows, and ways to cut them into batches", "why_tests_cant": "each test writes its rows in one way; that no way of cutting matters is a statement about all pairs of ways", "anchors": ["orc/writer.go 85-112", "orc/stripe.go 37-82", "orc/api/vector.go 39-78"]}
{"id": "C71", "title": "Every value given to Write is stored", "statement": "If a batch is written without an error, every value of every one of its vectors is in the rows of the file.", "quantifier": "all batches (vectors of any lengths, absent vectors), schemas and options", "why_tests_cant": "the tests write batches whose vectors have one length; values are lost only of batches whose vectors have not", "anchors": ["orc/stripe.go 37-82", "orc/api/vector.go 39-78"]}
{"id": "C72", "title": "A malformed file is refused, never a crash", "statement": "Whatever the bytes of a file, opening it and calling Next any number of times gives rows or an error, never a panic.", "quantifier": "all files of bytes, selections of columns, batch sizes, inflate functions, and numbers of calls", "why_tests_cant": "the tests read well-formed files only; that no contents of any stream crash is a statement about all byte strings", "anchors": ["orc/reader.go 128-197", "orc/stripe.go 221-366", "orc/column/*.go InitStream, NextBatch", "orc/encoding/int.go 160-290"]}
{"id": "C73", "title": "Files of this writer are ORC files", "statement": "Every file the writer completes is, by the public ORC specification and without regard to this library's reader, an ORC file that holds the rows written, stripe by stripe.", "quantifier": "all schemas (primitives and structs), rows, batches, stripe sizes, chunk sizes and compressors", "why_tests_cant": "the tests read the writer's files back with this library's own reader, which shares the writer's departures from the format (big-endian floats, index streams behind the data, an empty LENGTH stream)", "anchors": ["orc/writer.go 60-200", "orc/stripe.go 37-153", "orc/column/*.go Write, Flush", "orc/encoding/int.go", "orc/encoding/bool.go", "orc/encoding/float.go"]}
{"id": "C74", "title": "What failed Writes leave behind", "statement": "A Write that returns an error changes nothing: after any sequence of Writes, some of which fail, closing the file gives a file that holds the rows of the Writes that succeeded, and no others. In particular a client may give up after an error and close, or correct the batch and go on.", "quantifier": "all schemas of primitives and structs, all sequences of batches with values of right and wrong types, all stripe and chunk sizes, all compressors", "why_tests_cant": "no test of the suite goes on after an error or closes the file after one; rows left in the columns without being counted shift the columns against each other, which only shows when the file is read back, and where depends on how the sizes fall into stripes", "anchors": ["orc/writer.go 85-94", "orc/stripe.go 37-76", "orc/column/string.go 44-70", "orc/column/float.go 190-200", "orc/column/binary.go 42-52", "orc/encoding/string.go 17-24"]}
{"id": "C75", "title": "Memory asked for on behalf of a file", "statement": "No buffer made while a file is opened, and none made for a value, is longer than what the file holds: a file of n bytes can be opened with buffers of n bytes, and a length stated in the file is compared with what is there before memory is asked for it.", "quantifier": "all sequences of bytes as files, all batch options, all decompressors, all amounts of memory", "why_tests_cant": "the test files are all well formed and state small sizes; a crash by exhaustion needs a length field with a value no writer produces, and each such field is another place in the code; files with many streams exhaust memory only by their number times the chunk size", "anchors": ["orc/reader.go 268-320", "orc/stripe.go 220-232", "orc/column/reader.go 34-50", "orc/stream/reader.go 28-45", "orc/encoding/string.go 36-42", "orc/common/misc.go 232-259"]}
{"id": "C76", "title": "A writer before and after Close", "statement": "A client that was told of no error has everything it wrote in the file: the file holds the batches written, a Write or Close after Close is refused and changes nothing, and a writer that cannot be created leaves an existing file alone.", "quantifier": "all schemas, options, sequences of Write and Close, compressors and files whose writes can fail; all contents of a file that is already there", "why_tests_cant": "no test calls the writer after Close or creates one over an existing file; whether a late Write fails depends on how full the stripe happens to be, so a test with large batches sees an error where small ones lose rows", "anchors": ["orc/writer.go 27-65", "orc/writer.go 85-94", "orc/writer.go 114-127", "orc/stripe.go 37-59", "orc/io/file.go 38-44"]}
{"id": "C77", "title": "Options of a writer", "statement": "The options a writer accepts are those it can honour: options with which a file cannot be closed and read back are refused with an error when the writer is created; CheckWriteOpts refuses exactly those; the default options are among the accepted ones.", "quantifier": "all options, schemas, batches, compressors and stripe sizes", "why_tests_cant": "the tests use the default options or small variations of them; a chunk size of zero loops, one of 2^23 bytes or more fails only with streams as long as that, and CheckWriteOpts is called nowhere", "anchors": ["orc/config/opts.go 8-54", "orc/stream/writer.go 124-215", "orc/common/misc.go 48-143", "orc/common/misc.go 212-227", "orc/writer.go 41-65"]}
{"id": "C78", "title": "ReadChunks", "statement": "ReadChunks returns the contents of the chunks it is given, as DecompressChunks does: no byte is lost, none is made up, and malformed input is an error.", "quantifier": "all sequences of bytes, sizes, decompressors and ways their Read may split the contents", "why_tests_cant": "the result depends on how much one Read of the decompressor returns, and on the bytes that happen to lie behind the slice", "anchors": ["orc/reader.go 405-443"]}
{"id": "C79", "title": "findRepeatsInBytes", "statement": "The result lists exactly the maximal runs of equal values that are at least minRepeat long, with their starts and lengths, in order.", "quantifier": "all sequences of values and all minimal lengths", "why_tests_cant": "a test can list the runs of a few sequences only; runs at the end and adjacent runs are where the loop can go wrong", "anchors": ["orc/encoding/int.go 1076-1104"]}
{"id": "C80", "title": "marshallSchema", "statement": "marshallSchema returns, for every schema, the list of types the file footer holds for it.", "quantifier": "all schemas: all trees, kinds and numbers of names and children", "why_tests_cant": "whether it returns at all depends on the numbers of names and children of every column, however deep", "anchors": ["orc/reader.go 234-252"]}
{"id": "C81", "title": "CheckBatch", "statement": "A batch is written only if CheckBatch accepts it, CheckBatch accepts exactly the batches whose nulls the columns can store, and it never panics.", "quantifier": "all schemas and all batches: all trees of vectors, lengths and patterns of nulls", "why_tests_cant": "the call is commented out, so no test sees what it would do; which batches it accepts depends on every value of every vector", "anchors": ["orc/writer.go 85-108"]}
{"id": "C82", "title": "setId", "statement": "setId numbers the columns of every schema in preorder, without using a number twice, as NormalizeSchema does.", "quantifier": "all schema trees of up to 2^32 columns", "why_tests_cant": "the numbers go wrong only for trees with a nested column that is not the last child", "anchors": ["orc/api/type.go 293-314"]}
{"id": "C83", "title": "Writing list columns", "statement": "The writer NewListV2Writer returns stores the length and the presence of every list it is given.", "quantifier": "all schemas, options and sequences of values", "why_tests_cant": "no test calls the function; the code compiles although the type it should return is never constructed", "anchors": ["orc/column/list.go 189-206", "orc/column/struct.go 158-263"]}
{"id": "C84", "title": "Length, capacity and clearing of batches", "statement": "Len of a batch is the number of rows of each of its columns and never more than its capacity; Clear empties a batch and keeps its capacity.", "quantifier": "all batches: all trees of vectors, lengths and capacities", "why_tests_cant": "nested vectors of any depth, any combination of empty and nil slices", "anchors": ["orc/api/vector.go 10-77"]}
{"id": "C85", "title": "Printing a schema", "statement": "String of a type description returns for every schema and shows the id and kind of every column.", "quantifier": "all schema trees", "why_tests_cant": "trees of any depth and any combination of names and children", "anchors": ["orc/api/type.go 23-39"]}
{"id": "C86", "title": "Writing integers in whole bytes", "statement": "writeUints writes each number that fits the width in the least number of whole bytes, most significant first, so that every number can be recovered.", "quantifier": "all widths and all sequences of numbers", "why_tests_cant": "256 widths and unboundedly many sequences", "anchors": ["orc/encoding/int.go 866-877"]}
