{
 "claims": [
  {
   "property": "C01",
   "status": "proved",
   "theorems": [
    "C01_zigzag_bijection",
    "C01_zigzag_magnitude",
    "C01_convert_is_unzigzag"
   ],
   "note": "Zigzag, UnZigzag and the varint sign conversion."
  },
  {
   "property": "C02",
   "status": "proved",
   "theorems": [
    "C02_uvarint_lossless",
    "C02_varint_lossless"
   ],
   "note": "Go varint writer/reader and the byte-wise reader; truncation reported."
  },
  {
   "property": "C03",
   "status": "proved",
   "theorems": [
    "C03_nanos_lossless"
   ],
   "note": "All counts below 2^61."
  },
  {
   "property": "C04",
   "status": "proved",
   "theorems": [
    "C04_byte_lossless"
   ],
   "note": ""
  },
  {
   "property": "C05",
   "status": "proved",
   "theorems": [
    "C05_bool_lossless"
   ],
   "note": ""
  },
  {
   "property": "C06",
   "status": "partial",
   "theorems": [
    "C06_bool_reuse_refuted",
    "C06_bool_reuse_iff_partial",
    "C06_bool_reuse_contents_partial"
   ],
   "note": "REFUTED: bits left from the last byte before a flush are OR-ed into the next stream. The exact contents after any number of flushes, and an iff condition, are proved."
  },
  {
   "property": "C07",
   "status": "proved",
   "theorems": [
    "C07_float_stream",
    "C07_double_stream"
   ],
   "note": "Bit patterns; float32 is written big endian (the ORC specification says little endian), read back by the same code."
  },
  {
   "property": "C08",
   "status": "partial",
   "theorems": [
    "C08_direct_run_partial",
    "C08_direct_run_signed_partial",
    "C08_direct_zeros_refuted"
   ],
   "note": "REFUTED for runs of zeros (proved: header only, decode error, for every such run). Proved for all other runs of 1..512 words."
  },
  {
   "property": "C09",
   "status": "partial",
   "theorems": [
    "C09_short_repeat_iff_partial",
    "C09_short_repeat_partial",
    "C09_short_repeat_refuted"
   ],
   "note": "REFUTED: lossless exactly for values without a zero byte below the leading byte (iff proved)."
  },
  {
   "property": "C10",
   "status": "partial",
   "theorems": [
    "C10_delta_run_partial",
    "C10_delta_run_refuted"
   ],
   "note": "REFUTED: the write fails for some monotone runs (exact condition delta_ok, iff proved). Whenever it does not fail, the run is lossless."
  },
  {
   "property": "C11",
   "status": "partial",
   "theorems": [
    "C11_patched_run_partial",
    "C11_patched_run_iff_partial",
    "C11_patched_run_refuted"
   ],
   "note": "REFUTED: outlier only in first place, packed width 0, base -2^63, widths that together need 64 bits, more than 512 values. Proved: a run written in the patched form comes back iff patch_ok."
  },
  {
   "property": "C12",
   "status": "partial",
   "theorems": [
    "C12_int_stream_partial",
    "C12_int_constant_partial",
    "C12_int_increasing_partial",
    "C12_int_neighbours_partial",
    "C12_int_stream_refuted"
   ],
   "note": "REFUTED: single zero, more than 512 buffered values, abort in signed streams. Proved for any stream on which every round satisfies stream_ok; constant and slowly increasing streams of any length need no such condition."
  },
  {
   "property": "C13",
   "status": "partial",
   "theorems": [
    "C13_decode_total_partial",
    "C13_decode_nonempty_partial",
    "C13_decode_total_refuted",
    "C13_panic_iff",
    "C13_decode_exact_partial",
    "C13_patched_safe_partial"
   ],
   "note": "REFUTED: a patch position beyond the run aborts (C13_decode_total_refuted). Proved for all inputs: it aborts iff the bytes are a signed patched run with a whole patch entry at or beyond its end (C13_panic_iff), and otherwise returns an error or values, never none."
  },
  {
   "property": "C14",
   "status": "partial",
   "theorems": [
    "C14_follows_spec_partial",
    "C14_wide_partial",
    "C14_refused_partial",
    "C14_fixed_delta_partial",
    "C14_follows_spec_refuted"
   ],
   "note": "REFUTED: fixed delta runs, unsigned patched runs (always refused), patch entries of 64 bits (always refused), patch entries of 58-63 bits that lose a set bit. Proved for every other run that is legal per Spec/OrcInt.v, including wide patch entries that lose no set bit (C14_wide_partial)."
  },
  {
   "property": "C15",
   "status": "proved",
   "theorems": [
    "C15_header_lossless",
    "C15_header_format",
    "C15_header_decode"
   ],
   "note": ""
  },
  {
   "property": "C16",
   "status": "proved",
   "theorems": [
    "C16_chunks_lossless",
    "C16_chunks_total",
    "C16_chunks_lossless_fresh",
    "C16_compressor_reuse"
   ],
   "note": "For any DEFLATE library satisfying flate_ok (what it emits inflates to the input, also when the code reuses one compressor after Close); flate_fresh (fresh compressors only) suffices up to two chunks. No other codec is implemented by the code."
  },
  {
   "property": "C17",
   "status": "proved",
   "theorems": [
    "C17_byte_pipe",
    "C17_write_total",
    "C17_byte_pipe_fresh",
    "C17_serves_unique"
   ],
   "note": "Kinds NONE and ZLIB, chunk sizes below 2^23; flate_ok / flate_fresh as in C16."
  },
  {
   "property": "C18",
   "status": "partial",
   "theorems": [
    "C18_compressed_positions_partial",
    "C18_empty_stream_refuted"
   ],
   "note": "REFUTED for an empty stream: the seek reads the chunk of the following stream. Proved for every stream that is not empty."
  },
  {
   "property": "C19",
   "status": "partial",
   "theorems": [
    "C19_uncompressed_positions_iff_partial",
    "C19_uncompressed_positions_refuted"
   ],
   "note": "REFUTED beyond the first chunk: a recorded offset larger than the chunk size lands at the chunk size. The bytes delivered and the iff condition are proved."
  },
  {
   "property": "C20",
   "status": "partial",
   "theorems": [
    "C20_byte_position",
    "C20_bool_position",
    "C20_byte_position_after_flush_refuted",
    "C20_int_position_partial"
   ],
   "note": "REFUTED directly after a flush (stale count). Proved for byte and boolean streams unconditionally, integer streams under stream_ok."
  },
  {
   "property": "C21",
   "status": "partial",
   "theorems": [
    "C21_nulls_in_place_partial",
    "C21_stripes_exact_partial",
    "C21_nulls_in_place_refuted"
   ],
   "note": "REFUTED from the second stripe on: presence bits left over from the last byte of the previous stripe are set as well. Proved for the first stripe of every column kind that can be read back, any null pattern, options and batch splits; the exact rows of every later stripe are proved."
  },
  {
   "property": "C22",
   "status": "partial",
   "theorems": [
    "C22_null_dropped",
    "C22_null_lost_refuted",
    "C22_null_stored_partial"
   ],
   "note": "REFUTED: a null row in a column declared without nulls is dropped without an error (proved for every such write). With HasNulls the nulls of the first stripe are all stored in their rows."
  },
  {
   "property": "C23",
   "status": "partial",
   "theorems": [
    "C23_count",
    "C23_int_partial",
    "C23_int_refuted",
    "C23_bool",
    "C23_date_partial",
    "C23_float_partial",
    "C23_string_partial",
    "C23_string_sum_partial",
    "C23_string_refuted",
    "C23_bytes_partial",
    "C23_timestamp_partial",
    "C23_struct_refuted"
   ],
   "note": "REFUTED: integer, float and date bounds start at 0, a string minimum is always empty, binary sums count values, struct columns count null rows, timestamp minimum and UTC bounds are wrong. Proved for every sequence of writer calls: the count of every leaf kind, integer and string sums, booleans, and exactly what each bound is (with an iff for when it is right)."
  },
  {
   "property": "C24",
   "status": "partial",
   "theorems": [
    "C24_seek_partial",
    "C24_seek_compressed_partial",
    "C24_out_of_range",
    "C24_no_entry",
    "C24_date_first_stride",
    "C24_out_of_range_refuted",
    "C24_uncompressed_refuted",
    "C24_all_null_refuted",
    "C24_struct_partial"
   ],
   "note": "REFUTED: a stride beyond the index panics instead of being an error, stride 0 of a date column is an error, without compression positions after the first chunk of a stream lead to wrong values, and with compression a column with an empty stream (all rows null) cannot be positioned. Proved for all rows, null patterns, stride lengths, strides and earlier reader activity: a recorded stride leads exactly to its row (also followed by Skip) when the streams are non-empty (compressed) or one chunk long (uncompressed) and the integers are within C12."
  },
  {
   "property": "C25",
   "status": "partial",
   "theorems": [
    "C25_count_partial",
    "C25_int_partial",
    "C25_first_entry_refuted",
    "C25_refuted",
    "C25_bytes_partial",
    "C25_double_partial",
    "C25_string_partial",
    "C25_bool_partial",
    "C25_bool_refuted",
    "C25_date_refuted",
    "C25_timestamp_partial",
    "C25_timestamp_refuted",
    "C25_timestamp_minimum_refuted",
    "C25_float_decimal_refuted"
   ],
   "note": "REFUTED: an entry describes the window ending one row before its stride does (proved exactly, any stride and rows; iff for when the count is right). Statistics of the window per kind: integers, bytes, doubles, strings, booleans (every value counted as true), dates (always 0), timestamps (strides of values, not of rows); float32 and decimal columns with an index take no value."
  },
  {
   "property": "C26",
   "status": "proved",
   "theorems": [
    "C26_stripes_tile"
   ],
   "note": "Files and row counts below 2^64; any protobuf library and any DEFLATE library; a file can only be closed with ZLIB (C38)."
  },
  {
   "property": "C27",
   "status": "partial",
   "theorems": [
    "C27_every_file_opens_refuted",
    "C27_opens_iff_partial"
   ],
   "note": "REFUTED: a file without rows, and a file whose last stripe is empty. Exactly when a closed file opens is proved."
  },
  {
   "property": "C28",
   "status": "partial",
   "theorems": [
    "C28_opened",
    "C28_all_rows_iff_partial",
    "C28_outcome",
    "C28_iteration_deterministic",
    "C28_all_rows_refuted"
   ],
   "note": "REFUTED: the last row of a stripe is lost when its row count leaves exactly one row for the last batch. The exact outcome for every file and batch size, and the iff condition, are proved. Column readers are taken as ideal sources of rows here; the column claims (C21, C45) are separate."
  },
  {
   "property": "C29",
   "status": "partial",
   "theorems": [
    "C29_seek_first_batch_iff_partial",
    "C29_seek_panics",
    "C29_seek_refuted",
    "C29_no_seek"
   ],
   "note": "REFUTED: the stride is computed into a shadowed variable and never used, and the batch position is not updated; with the stride 0 this writer records, Seek divides by zero. The iff condition for the first batch after a Seek is proved."
  },
  {
   "property": "C30",
   "status": "partial",
   "theorems": [
    "C30_ensure_refuted",
    "C30_tail_iff_partial",
    "C30_tail_refuted",
    "C30_short_error",
    "C30_bad_length_panics"
   ],
   "note": "REFUTED: a footer beyond 16 KiB, an empty file and a malformed last byte panic. Found iff the tail fits into 16 KiB, for every well-formed tail."
  },
  {
   "property": "C31",
   "status": "proved",
   "theorems": [
    "C31_total",
    "C31_preorder",
    "C31_flat",
    "C31_subtree"
   ],
   "note": "Schemas of at most 2^32 columns; a schema with a UNION column is refused (iff proved), since the library does not implement unions."
  },
  {
   "property": "C32",
   "status": "proved",
   "theorems": [
    "C32_footer_types",
    "C32_unnamed_panics"
   ],
   "note": "Schemas in which every struct has a name for each child, as AddChild builds them; otherwise reading panics (proved)."
  },
  {
   "property": "C33",
   "status": "partial",
   "theorems": [
    "C33_illegal_nulls_refuted",
    "C33_rejected_iff_partial"
   ],
   "note": "REFUTED: only the first child of each column is examined. The exact set of rejected schemas is proved."
  },
  {
   "property": "C34",
   "status": "proved",
   "theorems": [
    "C34_projection"
   ],
   "note": "Schemas of the right shape (no union, one list child, two map children)."
  },
  {
   "property": "C35",
   "status": "proved",
   "theorems": [
    "C35_dates_exact",
    "C35_dates_survive",
    "C35_days_distinct",
    "C35_range_is_maximal",
    "C35_rounds_to_nearest",
    "C35_time_of_day_lost"
   ],
   "note": "Days within 106751 of the epoch, in UTC or any fixed zone as modelled; the bound is shown to be maximal."
  },
  {
   "property": "C36",
   "status": "partial",
   "theorems": [
    "C36_instant_exact_partial",
    "C36_instant_survives_refuted"
   ],
   "note": "REFUTED: the instant read back is off by the zone offset at 2015-01-01. The exact instant read back is proved for every zone; it is the instant written iff that offset is 0."
  },
  {
   "property": "C37",
   "status": "partial",
   "theorems": [
    "C37_never_stored",
    "C37_values_refuted"
   ],
   "note": "REFUTED: no timestamp or decimal value ever reaches the batch (proved for all columns and batches)."
  },
  {
   "property": "C38",
   "status": "partial",
   "theorems": [
    "C38_every_kind_refuted"
   ],
   "note": "REFUTED: without compression Close never succeeds (proved for every file and option but ZLIB)."
  },
  {
   "property": "C39",
   "status": "partial",
   "theorems": [
    "C39_strings_partial",
    "C39_equal_lengths_partial",
    "C39_increasing_lengths_partial",
    "C39_neighbours_partial",
    "C39_empty_string_refuted"
   ],
   "note": "REFUTED: a single empty string. Proved for all strings whose lengths the integer codec carries (C12), and unconditionally for two families of any size."
  },
  {
   "property": "C40",
   "status": "partial",
   "theorems": [
    "C40_unreadable",
    "C40_binary_refuted"
   ],
   "note": "REFUTED: reading any binary column fails at its first non-null row (proved for all of them)."
  },
  {
   "property": "C41",
   "status": "proved",
   "theorems": [
    "C41_streams_fill"
   ],
   "note": "Every stripe of every file that was closed and could be opened; any protobuf library that is invertible and any DEFLATE library that is."
  },
  {
   "property": "C42",
   "status": "proved",
   "theorems": [
    "C42_varint_stream"
   ],
   "note": ""
  },
  {
   "property": "C43",
   "status": "partial",
   "theorems": [
    "C43_flush_panics",
    "C43_dictionary_refuted",
    "C43_reader_partial"
   ],
   "note": "REFUTED: flushing a dictionary column that holds any string panics (proved for all of them). The reader, given a dictionary laid out as specified (any stream order, chunking, run-length encoding, null pattern), returns the strings in batches of any sizes."
  },
  {
   "property": "C44",
   "status": "partial",
   "theorems": [
    "C44_width_code",
    "C44_width_table",
    "C44_zero_width_refuted"
   ],
   "note": "REFUTED for width 0 in delta mode and for the widths without a code; proved for all others."
  },
  {
   "property": "C45",
   "status": "partial",
   "theorems": [
    "C45_round_trip_partial",
    "C45_write_total_partial",
    "C45_stripes_partial",
    "C45_carried_partial",
    "C45_round_trip_refuted"
   ],
   "note": "REFUTED for later stripes and for binary, dictionary, timestamp and decimal columns. Proved, with success of the write, for the nine other leaf kinds and any options, in the lossless domain of the integer codec."
  },
  {
   "property": "C46",
   "status": "partial",
   "theorems": [
    "C46_recovered_refuted",
    "C46_rows_in_order"
   ],
   "note": "REFUTED: from the second stripe on, rows of nullable columns do not come back (C46_recovered_refuted; the cause is C21). Proved: the rows are cut into consecutive groups and each stripe holds what the column writers make of its group, in order; a stripe ends exactly with the first row after which the columns report StripeSize bytes."
  },
  {
   "property": "C47",
   "status": "partial",
   "theorems": [
    "C47_no_nil_children_refuted",
    "C47_no_nil_children_partial"
   ],
   "note": "REFUTED: lists and maps get a nil child when their element column is not included. Proved when they are included."
  },
  {
   "property": "C48",
   "status": "partial",
   "theorems": [
    "C48_second_stripe_refuted",
    "C48_second_stripe_partial"
   ],
   "note": "REFUTED: after Reset no non-null value can be written to an indexed column before a whole stride of null rows (proved for all kinds but date, timestamp, decimal, dictionary, struct)."
  },
  {
   "property": "C49",
   "status": "partial",
   "theorems": [
    "C49_bytes_partial",
    "C49_bytes_refuted"
   ],
   "note": "REFUTED for nullable columns with two stripes: only the last stripe is counted. Proved: exact value for any column, options and stripes."
  },
  {
   "property": "C50",
   "status": "partial",
   "theorems": [
    "C50_cut",
    "C50_all_rows_iff_partial",
    "C50_outcome",
    "C50_created_batch_fits",
    "C50_all_rows_refuted"
   ],
   "note": "REFUTED: a file of one row returns nothing, and a stripe of one row more than a multiple of the batch size loses its last row (C50_all_rows_refuted). C50_all_rows_iff_partial gives the exact condition and C50_outcome what comes back in every case, for schemas of structs and columns of the kinds whose readers hand out values, and for rows that are storable: typed values the integer codec carries, one value per column and row, bit columns with whole bytes in all stripes but the last. Closed files use ZLIB (Close fails otherwise). The writer has no list or map columns."
  },
  {
   "property": "C51",
   "status": "partial",
   "theorems": [
    "C51_column",
    "C51_tree_partial",
    "C51_refuted"
   ],
   "note": "REFUTED: a column with nulls below a struct with nulls has a PRESENT bit for every row but Skip advances it only where the struct is not null, so later rows come back wrong without an error (C51_refuted). Proved: for a single column Skip and NextBatch end in the same state or the same failure, for every reader state (C51_column); the same for trees of structs without nulls and structs with nulls over columns without nulls (C51_tree_partial)."
  },
  {
   "property": "C52",
   "status": "partial",
   "theorems": [
    "C52_GetMilliSeconds_partial",
    "C52_GetMilliSeconds_refuted",
    "C52_GetMilliSecondsUtc_partial",
    "C52_order_refuted"
   ],
   "note": "REFUTED: GetMilliSeconds is wrong for every timestamp (it subtracts the base and divides nanoseconds by 1000), GetMilliSecondsUtc for all but a coincidence; neither keeps order. The exact values are proved."
  },
  {
   "property": "C53",
   "status": "partial",
   "theorems": [
    "C53_CheckNulls_partial",
    "C53_refuted"
   ],
   "note": "REFUTED: nothing is checked below a root that is not nullable. The exact set of rejected schemas is proved."
  },
  {
   "property": "C54",
   "status": "partial",
   "theorems": [
    "C54_scale_zero",
    "C54_positive_partial",
    "C54_negative_partial",
    "C54_refuted",
    "C54_power_refuted"
   ],
   "note": "REFUTED for every non-zero decimal with a scale in the exact range: the code uses 10*Scale instead of a power of ten. Proved for scale 0; the exact result for positive scales and the (opposite) sign for negative ones are proved."
  },
  {
   "property": "C55",
   "status": "partial",
   "theorems": [
    "C55_list_partial",
    "C55_elements_iff_partial",
    "C55_one_row_partial",
    "C55_map_partial",
    "C55_list_refuted",
    "C55_null_refuted",
    "C55_nested_refuted",
    "C55_no_vector_refuted",
    "C55_structs_refuted",
    "C55_timestamps_refuted"
   ],
   "note": "REFUTED: the element vector is emptied for every row, so a batch keeps the elements of its last row only (C55_list_refuted, and exactly when all earlier lists are empty nothing is lost: C55_elements_iff_partial); a null list takes a PRESENT bit of nullable elements; lists of lists lose elements even in batches of one row; lists of structs never have elements; lists of timestamps or decimals panic. Proved exactly: what a batch of lists or maps over a delivering leaf column holds."
  },
  {
   "property": "C56",
   "status": "partial",
   "theorems": [
    "C56_list_partial",
    "C56_map_partial",
    "C56_squares_iff",
    "C56_map_refuted",
    "C56_list_refuted"
   ],
   "note": "REFUTED for maps: each skipped map of n entries skips n*n keys and values (exact counts proved; right iff no skipped map has more than one entry), and for nullable lists over nullable elements. Proved for lists otherwise, including equal failures."
  },
  {
   "property": "C57",
   "status": "partial",
   "theorems": [
    "C57_column_reads_partial",
    "C57_dictionary_reads_partial",
    "C57_fixed_delta_refuted",
    "C57_float_refuted",
    "C57_batch_untouched",
    "C57_timestamp_refuted",
    "C57_decimal_refuted",
    "C57_patched_lengths_refuted",
    "C57_empty_chunk_refuted",
    "C57_present_refused",
    "C57_present_refuted"
   ],
   "note": "REFUTED: floats (read big endian), timestamps and decimals (never reach the batch: C57_batch_untouched), fixed-delta runs, patched-base lengths, empty chunks, and PRESENT streams in columns whose statistics say no nulls (refused). Proved for short, int, bigint, date, tinyint, boolean, double, string (direct and dictionary) and binary columns otherwise: any stream order, chunking, run-length encoding, null pattern and batch sizes."
  },
  {
   "property": "C58",
   "status": "partial",
   "theorems": [
    "C58_all_rows_iff_partial",
    "C58_outcome_partial",
    "C58_present_in_some_stripes_refuted",
    "C58_bloom_refuted",
    "C58_bloom_elsewhere_refuted",
    "C58_unknown_stream_refused",
    "C58_null_in_nullable_struct_refuted"
   ],
   "note": "REFUTED: PRESENT streams in some stripes only (a null of an earlier stripe stays in the batch), bloom filters and other unknown stream kinds (the file is not opened; a bloom filter of a column that is not read makes the others read wrong bytes), nulls below nullable structs; floats and the encodings C57 excludes. Proved otherwise, for structs and the columns of C57: the file opens and what the client gets is exactly what C50 says, with an iff for all rows."
  },
  {
   "property": "C59",
   "status": "proved",
   "theorems": [
    "C59_full_reads",
    "C59_copies",
    "C59_sessions",
    "C59_same_bytes_same_values",
    "C59_tail",
    "C59_stripe_footer",
    "C59_row_index"
   ],
   "note": "Over any file that keeps the documented promises of io.Reader and io.Seeker: io.ReadFull, io.CopyN, whole sessions of decoding and seeking on a stream, the file tail, stripe footers."
  },
  {
   "property": "C60",
   "status": "partial",
   "theorems": [
    "C60_with_room_partial",
    "C60_room_iff",
    "C60_no_room",
    "C60_full_refuted",
    "C60_given_bytes_refuted",
    "C60_behind_end_refuted"
   ],
   "note": "REFUTED: a MockFile whose buffer is full reports its end one byte early; one made from given bytes has size 0; reading behind the written bytes panics. Proved: with a byte to spare it reads, seeks and has the size of a file of the bytes written."
  },
  {
   "property": "C61",
   "status": "partial",
   "theorems": [
    "C61_success_partial",
    "C61_failed_write_reported",
    "C61_without_failures",
    "C61_close_error_lost_refuted"
   ],
   "note": "REFUTED: an error of closing the file is only logged. Proved: success implies that the file holds the bytes of the model of the writer, every failed write is reported, and without failures the client succeeds exactly when the model does."
  },
  {
   "property": "C62",
   "status": "proved",
   "theorems": [
    "C62_chunks",
    "C62_stream",
    "C62_bytes",
    "C62_bools",
    "C62_ints",
    "C62_int_stream"
   ],
   "note": "No assumption on the DEFLATE library. The bounds for chunks and bytes are reached; the one for integers (16 bytes a value) is not claimed to be."
  },
  {
   "property": "C63",
   "status": "partial",
   "theorems": [
    "C63_same_values_partial",
    "C63_list_without_elements_refuted",
    "C63_without_parent_refuted",
    "C63_no_room_refuted",
    "C63_converse_refuted"
   ],
   "note": "REFUTED for selections that leave out a parent (opening panics), the elements of a list (Next panics), or every column of the structs in front (no row is ever returned). Proved for all other selections, any file and any calls; the converse is refuted."
  },
  {
   "property": "C64",
   "status": "proved",
   "theorems": [
    "C64_full_reads",
    "C64_copies",
    "C64_sessions",
    "C64_tail",
    "C64_stripe_footer",
    "C64_row_index"
   ],
   "note": "For every file whose reads, when they give bytes, give the right ones; short reads and errors (also together with bytes) at any call. Up to the first error a client is told of."
  },
  {
   "property": "C65",
   "status": "partial",
   "theorems": [
    "C65_uncompressed_partial",
    "C65_past_end_refuted",
    "C65_compressed_refuted"
   ],
   "note": "REFUTED: without compression the bytes may go on behind the end of the stream; with compression the next chunk header is read from the middle of the one that failed and other bytes come out. Proved without compression: the bytes are those of the file from the start of the stream on, in order and without gaps."
  },
  {
   "property": "C66",
   "status": "partial",
   "theorems": [
    "C66_released_partial",
    "C66_no_more",
    "C66_without_lists_partial",
    "C66_written_files",
    "C66_leaks",
    "C66_list_refuted",
    "C66_map_refuted",
    "C66_foreign_string_refuted",
    "C66_failing_refuted",
    "C66_nothing_included_refuted"
   ],
   "note": "REFUTED: a map keeps the handle of its lengths, a list those of its elements; a string column without PRESENT stream in a stripe makes Close panic; handles opened by a failing CreateBatchReader are lost. Proved: the exact condition on the stripe footers, for all files; it holds for every file of this writer; never more are closed than were opened."
  },
  {
   "property": "C67",
   "status": "partial",
   "theorems": [
    "C67_session_partial",
    "C67_seek_partial",
    "C67_seek_in_first_stride_partial",
    "C67_seek_refuted",
    "C67_dates_refuted"
   ],
   "note": "REFUTED: rows beyond the first stride are reached modulo the stride, rows of later stripes not at all, and a column of dates makes Seek fail. Proved for conforming files without dates and without empty streams under compression: every sequence of Seeks and Nexts gives the batches of the model on rows; so the right rows for the first stride of the first stripe."
  },
  {
   "property": "C68",
   "status": "partial",
   "theorems": [
    "C68_memory_partial",
    "C68_memory_refuted",
    "C68_stripe_size_partial",
    "C68_stripe_size_refuted"
   ],
   "note": "REFUTED: the strings of a dictionary column are not counted, so any number is held and no stripe is ever cut; and a stripe can be far smaller than StripeSize because sizes are taken before compression. Proved: without dictionary columns the buffers hold fewer than StripeSize bytes; every stripe but the last has StripeSize bytes less at most one chunk per stream (the bound is reached). C46_rows_in_order states exactly after which row a stripe is cut."
  },
  {
   "property": "C69",
   "status": "partial",
   "theorems": [
    "C69_batches",
    "C69_ends_iff_partial",
    "C69_true_footer_partial",
    "C69_every_client_ends_refuted",
    "C69_every_client_with_room_ends_refuted",
    "C69_promising_footer_refuted",
    "C69_no_stripes_refuted"
   ],
   "note": "REFUTED: a batch without room (a struct without columns in front), more than one row left out (stripes with one row more than a multiple of the batch size), or a footer that promises too many rows: Next reports no rows and no end for ever; a footer with rows but no stripes: the second call panics. Proved for all files and columns: exactly what a client is told, call by call, from the directory of stripes; and that it comes to the end, within as many calls as there are rows, exactly when at most one row of the footer is not handed out."
  },
  {
   "property": "C70",
   "status": "proved",
   "theorems": [
    "C70_batches_do_not_matter",
    "C70_order_does_not_matter"
   ],
   "note": "Both for any column writers: the same rows cut into any batches give the same outcome (bytes, error or panic alike); and if the columns come in another order, the same bytes."
  },
  {
   "property": "C71",
   "status": "partial",
   "theorems": [
    "C71_written",
    "C71_batches",
    "C71_all_written_iff_partial",
    "C71_rectangular_partial",
    "C71_all_written_refuted"
   ],
   "note": "REFUTED: values beyond the length of the first vector are dropped without an error, and a batch whose first column has no values is written as no rows. Proved: exactly which values are written, and that all are if and only if no vector is longer than the first with values; so all of a rectangular batch."
  },
  {
   "property": "C72",
   "status": "partial",
   "theorems": [
    "C72_contents_partial",
    "C72_clean_file_partial",
    "C72_contents_seek_partial",
    "C72_clean_seek_partial",
    "C72_columns_partial",
    "C72_columns_file_partial",
    "C72_columns_seek_partial",
    "C72_integers_iff_partial",
    "C72_strings_iff_partial",
    "C72_timestamps_iff_partial",
    "C72_decimals_iff_partial",
    "C72_dictionaries_iff_partial",
    "C72_present_iff_partial",
    "C72_only_columns_crash_partial",
    "C72_sturdy_partial",
    "C72_seek_partial",
    "C72_seek_iff_partial",
    "C72_kinds_iff",
    "C72_steady_iff",
    "C72_patched_run_refuted",
    "C72_length_refuted",
    "C72_dictionary_refuted",
    "C72_missing_stream_refuted",
    "C72_struct_in_struct_refuted",
    "C72_opening_partial",
    "C72_empty_file_refuted",
    "C72_postscript_length_refuted",
    "C72_opening_refuted"
   ],
   "note": "REFUTED: a patched run whose patch lies behind its values, a length of 2^63 or more, an index beyond the dictionary, a stream that is missing, a struct below a struct with nulls, a file without bytes: each crashes. Proved for every file that opens (without lists, maps and unions and without structs below structs with nulls) that Next crashes only if a column by itself does; and that of the kinds of columns exactly bytes, booleans, floats and doubles cannot crash, whatever is in their streams. Opening does not crash if the lengths of postscript and footer fit, subtypes, names and statistics agree with the types, encodings and streams with the columns, and every selected column is selected with the one it is in; each of these is needed (C72_opening_refuted). With a row index stride Seek does not crash either if the columns by themselves bear being taken back and skipped, which bytes, booleans, floats and doubles do; without one Seek(0) of a file with a stripe always crashes (C72_seek_iff_partial). A column that has its streams crashes only if its integers hold, after some runs, one with a patch behind its values, its lengths a negative one, or its numbers of words one beyond the dictionary, however malformed its streams are otherwise; so do files, with Next and with Seek (C72_columns_partial, C72_columns_file_partial, C72_columns_seek_partial). For whole streams without nulls the condition is exact (C72_integers_iff_partial, C72_strings_iff_partial, C72_timestamps_iff_partial, C72_decimals_iff_partial, C72_dictionaries_iff_partial), and for integers beside a PRESENT stream (C72_present_iff_partial). Not covered: lists, maps, unions; memory asked for is C75."
  },
  {
   "property": "C73",
   "status": "partial",
   "theorems": [
    "C73_integers_partial",
    "C73_orc_file_partial",
    "C73_index",
    "C73_index_refuted",
    "C73_integers_refuted",
    "C73_timestamp_refuted",
    "C73_decimal_refuted",
    "C73_floats_refuted",
    "C73_binary_refuted",
    "C73_stripes_refuted"
   ],
   "note": "REFUTED: the integer 0 alone is written as bytes that are no run of the specification; floats are written big endian, so the file holds other numbers; binaries have an empty LENGTH stream; a second stripe of a column with nulls or booleans starts with stale bits; with WriteIndex no file is an ORC file (data streams are not where the footer says). Proved: without index, floats and binaries, for integers within C12 and stripes that end with a full byte of bits, every file written is an ORC file with the rows written, in every column asked for (flat structs, no nulls below structs with nulls); and that an ORC file of this writer has no index at all. Timestamps and decimals included; refuted for a lone timestamp of a full second and a lone decimal of scale 0. Not covered: lists and maps."
  },
  {
   "property": "C74",
   "status": "partial",
   "theorems": [
    "C74_same_results",
    "C74_wrong_type",
    "C74_refuses",
    "C74_left",
    "C74_outcome_partial",
    "C74_fails_iff",
    "C74_give_up_partial",
    "C74_give_up_all_or_none_partial",
    "C74_refused_at_once_partial",
    "C74_nullable_partial",
    "C74_nullable_iff_partial",
    "C74_nullable_no_nulls_partial",
    "C74_nullable_refuted",
    "C74_going_on_refuted"
   ],
   "note": "REFUTED: a failing Write leaves the rows in front of the refused value in the columns, not counted, and the cells in front of it in its row: the next Write that succeeds makes rows of the failed batch, and rows made up of both batches, come back in place of its own. Proved: the exact contents after any sequence of Writes; a client that closes after the first error gets a file with the rows of the Writes that succeeded or one that cannot be read; nothing is left if the very first value is refused. A nullable column keeps the PRESENT bit of a refused value, so that later values move to other rows: the exact rows of its first stripe for any sequence of values, with an iff for when they are right (C74_nullable_partial, C74_nullable_iff_partial). Partial: the theorems on whole files leave out nullable columns among those that return errors (string, float, double, binary), and take columns as in C50."
  },
  {
   "property": "C75",
   "status": "partial",
   "theorems": [
    "C75_same_results",
    "C75_same_values",
    "C75_stated",
    "C75_opened_partial",
    "C75_enough_iff_partial",
    "C75_written",
    "C75_for_every_stream",
    "C75_value_partial",
    "C75_value_asks",
    "C75_opened_refuted",
    "C75_refused_refuted",
    "C75_value_refuted"
   ],
   "note": "REFUTED: a file of less than 100 bytes makes opening ask for 2^62 bytes, by its chunk size (and would open otherwise), by the length of a stripe footer, of an index or of the file footer; a string of ten bytes of streams does too. Proved: where every request comes from, for all bytes (C75_stated); of a file that opens only the chunk size may exceed the file, and memory suffices iff it does not; for files of the writer that is the chunk size of its options; the chunk size is asked for at least once per stream; a value that is read asked for its length exactly. Growing buffers are not counted."
  },
  {
   "property": "C76",
   "status": "partial",
   "theorems": [
    "C76_file_is_final",
    "C76_accepted_iff",
    "C76_refuted",
    "C76_closed_twice_refuted",
    "C76_creation_empties",
    "C76_creation_iff",
    "C76_creation_refuted"
   ],
   "note": "REFUTED: a Write after Close reports success unless it completes a stripe (iff proved), and its rows are in no file; on a file that takes writes after Close (MockFile) a second Close doubles the rows of the last stripe; creating a writer empties an existing file even if it then fails. Proved for all files whose writes can fail: if no call failed the file is that of the batches before Close, whatever was called later, and Close succeeds once only; exactly when creation succeeds."
  },
  {
   "property": "C77",
   "status": "partial",
   "theorems": [
    "C77_closed_partial",
    "C77_zero_refuted",
    "C77_negative_refuted",
    "C77_created",
    "C77_limit_refuted",
    "C77_check_refuted",
    "C77_default"
   ],
   "note": "REFUTED: a chunk size of 0 is accepted and the writer takes rows, but no file can ever be closed; a negative one panics in place of an error; one of 2^23 is accepted and what is written does not decompress, since the header cannot hold the length; CheckWriteOpts (called nowhere) lets all of these pass and refuses chunks longer than a stripe, with which files round-trip. Proved: every file closed was written with ZLIB and chunks of at least one byte; the default options are accepted and within C16, C17 and C50."
  },
  {
   "property": "C78",
   "status": "partial",
   "theorems": [
    "C78_written_partial",
    "C78_agrees",
    "C78_empty_refuted",
    "C78_short_refuted",
    "C78_size_refuted",
    "C78_too_long",
    "C78_truncated_refuted"
   ],
   "note": "REFUTED: a Read that returns less than the whole chunk loses the rest silently, as do chunks inflating to more than the given size; a truncated header panics; a truncated chunk panics or is filled with the bytes behind the slice; an empty compressed chunk is an error. Proved: with a decompressor that returns everything at once, what CompressingAllInChunks wrote comes back, and the result is that of DecompressChunks for every sequence of chunks with contents."
  },
  {
   "property": "C79",
   "status": "proved",
   "theorems": [
    "C79_runs",
    "C79_order"
   ],
   "note": "Exactly the maximal runs of at least minRepeat values, in order; for all sequences and all minima."
  },
  {
   "property": "C80",
   "status": "partial",
   "theorems": [
    "C80_returns",
    "C80_panic_iff",
    "C80_types_partial",
    "C80_list_refuted"
   ],
   "note": "REFUTED: the child of a list without a name is lost. Proved: it returns iff no column has more names than children, and returns the types of the footer iff every column has as many names as children."
  },
  {
   "property": "C81",
   "status": "partial",
   "theorems": [
    "C81_accepts",
    "C81_no_panic",
    "C81_unknown_column_refuted",
    "C81_no_null_lost_partial",
    "C81_uncalled_refuted",
    "C81_overcautious_refuted"
   ],
   "note": "REFUTED: Write does not call CheckBatch: a batch it refuses is written and closed without an error and cannot be read back; and it refuses a batch with a null behind its last row, which is never written. Proved: it accepts exactly the batches whose nulls are all in columns with nulls, does not panic for columns of the schema, and a client that calls it before every Write has no null in a column without nulls."
  },
  {
   "property": "C82",
   "status": "partial",
   "theorems": [
    "C82_same_partial",
    "C82_unique_refuted",
    "C82_map_refuted"
   ],
   "note": "REFUTED: a nested column that is not the last child makes two columns share a number; maps are refused. Proved: for schemas of structs and lists it agrees with NormalizeSchema (C31) iff no column but a last child has children."
  },
  {
   "property": "C83",
   "status": "partial",
   "theorems": [
    "C83_nothing_stored_partial",
    "C83_nulls_only_partial",
    "C83_lengths_refuted",
    "C83_value_refuted"
   ],
   "note": "REFUTED: it returns a struct writer without bucket statistics: without nulls nothing is stored and there are no streams (proved for all rows and options); with nulls only columns of nulls can be written, the first value panics."
  },
  {
   "property": "C84",
   "status": "partial",
   "theorems": [
    "C84_clear",
    "C84_empty",
    "C84_len_partial",
    "C84_len_refuted",
    "C84_cap_refuted"
   ],
   "note": "REFUTED: columns of different lengths are not noticed (Len is right iff the columns with rows agree), and a vector with an empty slice of its own and a child with rows is longer than its capacity. Proved: Clear empties every batch and keeps its capacity; Len is 0 iff no column has rows."
  },
  {
   "property": "C85",
   "status": "partial",
   "theorems": [
    "C85_returns",
    "C85_shows_partial",
    "C85_all_partial",
    "C85_list_refuted"
   ],
   "note": "REFUTED: the elements of a list, which have no name, are not shown. Proved: it returns iff no column reached through names has more names than children, and shows exactly the columns reached through names; all of them if every child has a name."
  },
  {
   "property": "C86",
   "status": "proved",
   "theorems": [
    "C86_uints",
    "C86_large"
   ],
   "note": "For all widths of a byte and all sequences; larger numbers lose exactly their upper bytes."
  }
 ]
}