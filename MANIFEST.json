{
 "claims": [
  {
   "property": "C01",
   "status": "proved",
   "theorems": [
    "C01_bytes_round_trip"
   ],
   "note": ""
  },
  {
   "property": "C02",
   "status": "proved",
   "theorems": [
    "C02_pack_total",
    "C02_pack_only_valid"
   ],
   "note": ""
  },
  {
   "property": "C03",
   "status": "proved",
   "theorems": [
    "C03_chunking_partitions"
   ],
   "note": ""
  },
  {
   "property": "C04",
   "status": "proved",
   "theorems": [
    "C04_chunking_accepts",
    "C04_chunking_rejects"
   ],
   "note": ""
  },
  {
   "property": "C05",
   "status": "proved",
   "theorems": [
    "C05_reserve_unused",
    "C05_reserve_int",
    "C05_reserve_callable",
    "C05_reserve_other",
    "C05_reserve_representable"
   ],
   "note": ""
  },
  {
   "property": "C06",
   "status": "proved",
   "theorems": [
    "C06_header_roundtrip",
    "C06_header_constructor_accepts"
   ],
   "note": ""
  },
  {
   "property": "C07",
   "status": "proved",
   "theorems": [
    "C07_header_decode_accepts",
    "C07_header_decode_fields",
    "C07_header_decode_canonical",
    "C07_header_decode_injective",
    "C07_header_decode_refuses"
   ],
   "note": ""
  },
  {
   "property": "C08",
   "status": "proved",
   "theorems": [
    "C08_metadata_header_roundtrip",
    "C08_metadata_header_decode_accepts",
    "C08_nul_ended_identifier_refuted"
   ],
   "note": "The restriction to identifiers without NUL at either end is necessary: C08_nul_ended_identifier_refuted."
  },
  {
   "property": "C09",
   "status": "proved",
   "theorems": [
    "C09_meta_round_trip"
   ],
   "note": ""
  },
  {
   "property": "C10",
   "status": "proved",
   "theorems": [
    "C10_meta_geometry",
    "C10_meta_too_small",
    "C10_meta_fails_clean"
   ],
   "note": ""
  },
  {
   "property": "C11",
   "status": "proved",
   "theorems": [
    "C11_checksum_none",
    "C11_layout",
    "C11_body_size"
   ],
   "note": ""
  },
  {
   "property": "C12",
   "status": "proved",
   "theorems": [
    "C12_random_access"
   ],
   "note": "Holds for every archive (pack, then any appends and metadata rewrites), not only freshly packed files; also the digest after each chunk."
  },
  {
   "property": "C13",
   "status": "proved",
   "theorems": [
    "C13_unused_offsets"
   ],
   "note": ""
  },
  {
   "property": "C14",
   "status": "proved",
   "theorems": [
    "C14_size_from_header"
   ],
   "note": ""
  },
  {
   "property": "C15",
   "status": "proved",
   "theorems": [
    "C15_only_verified",
    "C15_metadata_verified"
   ],
   "note": ""
  },
  {
   "property": "C16",
   "status": "proved",
   "theorems": [
    "C16_chunk_damage"
   ],
   "note": ""
  },
  {
   "property": "C17",
   "status": "proved",
   "theorems": [
    "C17_metadata_damage"
   ],
   "note": ""
  },
  {
   "property": "C18",
   "status": "proved",
   "theorems": [
    "C18_truncation",
    "C18_truncation_exact"
   ],
   "note": ""
  },
  {
   "property": "C19",
   "status": "proved",
   "theorems": [
    "C19_pack_crash"
   ],
   "note": ""
  },
  {
   "property": "C20",
   "status": "proved",
   "theorems": [
    "C20_relevant_bytes"
   ],
   "note": ""
  },
  {
   "property": "C21",
   "status": "proved",
   "theorems": [
    "C21_append_appends",
    "C21_append_file"
   ],
   "note": ""
  },
  {
   "property": "C22",
   "status": "proved",
   "theorems": [
    "C22_histories"
   ],
   "note": ""
  },
  {
   "property": "C23",
   "status": "proved",
   "theorems": [
    "C23_append_frame"
   ],
   "note": ""
  },
  {
   "property": "C24",
   "status": "proved",
   "theorems": [
    "C24_capacity"
   ],
   "note": ""
  },
  {
   "property": "C25",
   "status": "proved",
   "theorems": [
    "C25_append_fails_clean"
   ],
   "note": ""
  },
  {
   "property": "C26",
   "status": "proved",
   "theorems": [
    "C26_append_crash",
    "C26_log_complete",
    "C26_last_chunk_refuted",
    "C26_any_order",
    "C26_silent_mix"
   ],
   "note": "The statement excludes the last chunk; C26_last_chunk_refuted shows this is necessary, and C26_silent_mix that every successful append passes through a state that unpacks without error to a mix of old and new contents."
  },
  {
   "property": "C27",
   "status": "proved",
   "theorems": [
    "C27_rewrite_frame"
   ],
   "note": ""
  },
  {
   "property": "C28",
   "status": "proved",
   "theorems": [
    "C28_rewrite_fails_clean"
   ],
   "note": ""
  },
  {
   "property": "C29",
   "status": "proved",
   "theorems": [
    "C29_rewrite_decision",
    "C29_no_section",
    "C29_bad_overrides",
    "C29_new_section",
    "C29_default_level"
   ],
   "note": ""
  },
  {
   "property": "C30",
   "status": "proved",
   "theorems": [
    "C30_pack_file",
    "C30_unpack_file",
    "C30_round_trip",
    "C30_bytes_file",
    "C30_no_input",
    "C30_no_output",
    "C30_no_output_unpack"
   ],
   "note": ""
  },
  {
   "property": "C31",
   "status": "proved",
   "theorems": [
    "C31_changed_before_open",
    "C31_changed_while_reading"
   ],
   "note": ""
  },
  {
   "property": "C32",
   "status": "partial",
   "theorems": [
    "C32_chunk_errors",
    "C32_truncates",
    "C32_output_kept_refuted"
   ],
   "note": "REFUTED in general (C32_output_kept_refuted, C32_truncates: unknown checksum, typesize outside 0..255 or negative reserve are noticed after the output was truncated); holds for chunk-size errors and missing input (C32_chunk_errors)."
  },
  {
   "property": "C33",
   "status": "partial",
   "theorems": [
    "C33_self_pack_loses",
    "C33_self_unpack_loses",
    "C33_data_kept_refuted"
   ],
   "note": "REFUTED (C33_data_kept_refuted); C33_self_pack_loses: every successful pack of a file onto itself yields an archive of nothing; C33_self_unpack_loses: unpacking onto itself always raises and leaves an empty file."
  },
  {
   "property": "C34",
   "status": "proved",
   "theorems": [
    "C34_roundtrip",
    "C34_file_roundtrip",
    "C34_stored_bytes"
   ],
   "note": "Assumes of repr/literal_eval/numpy.dtype that the dtype is rebuilt from its own description (NpOK); numpy's strides, contiguity flags and copies are modelled."
  },
  {
   "property": "C35",
   "status": "partial",
   "theorems": [
    "C35_objects",
    "C35_acceptance",
    "C35_accepted_only",
    "C35_zero_itemsize_refuted"
   ],
   "note": "REFUTED for items of zero bytes: ZeroDivisionError (C35_zero_itemsize_refuted). The acceptance rule including that case is proved in full (C35_acceptance, C35_accepted_only, C35_objects)."
  },
  {
   "property": "C36",
   "status": "proved",
   "theorems": [
    "C36_writes_exactly",
    "C36_any_file",
    "C36_overrun_refuted",
    "C36_uninitialised_refuted"
   ],
   "note": "Proved for packed arrays; as the statement says, refuted for arbitrary files (overrun, uninitialised memory); C36_any_file gives the exact behaviour for every file that unpacks to bytes. A write past the array is the model's MemoryFault."
  },
  {
   "property": "C37",
   "status": "proved",
   "theorems": [
    "C37_no_metadata",
    "C37_other_container",
    "C37_all_others",
    "C37_only_arrays"
   ],
   "note": "Metadata without the key 'container' gives KeyError, metadata that is no dictionary TypeError (C37_all_others)."
  },
  {
   "property": "C38",
   "status": "proved",
   "theorems": [
    "C38_roundtrip",
    "C38_total",
    "C38_missing_chunks",
    "C38_tampered"
   ],
   "note": ""
  },
  {
   "property": "C39",
   "status": "proved",
   "theorems": [
    "C39_names_invert",
    "C39_extension",
    "C39_decompress_refuses",
    "C39_append_refuses"
   ],
   "note": ""
  },
  {
   "property": "C40",
   "status": "proved",
   "theorems": [
    "C40_compress_bad_choice",
    "C40_append_bad_choice",
    "C40_compress_refused",
    "C40_decompress_refused",
    "C40_append_refused",
    "C40_compress_never_overwrites",
    "C40_decompress_never_overwrites",
    "C40_compress_only_output",
    "C40_decompress_only_output"
   ],
   "note": ""
  },
  {
   "property": "C41",
   "status": "proved",
   "theorems": [
    "C41_metadata_file_blanks",
    "C41_metadata_file_only_blanks",
    "C41_round_trip",
    "C41_compress_total"
   ],
   "note": ""
  },
  {
   "property": "C42",
   "status": "proved",
   "theorems": [
    "C42_blosc_header_fields",
    "C42_blosc_header_short",
    "C42_blosc_flags"
   ],
   "note": ""
  },
  {
   "property": "C43",
   "status": "proved",
   "theorems": [
    "C43_options_roundtrip",
    "C43_options_byte"
   ],
   "note": ""
  },
  {
   "property": "C44",
   "status": "proved",
   "theorems": [
    "C44_integer_exact",
    "C44_integer_exact_limit_refuted",
    "C44_decimal_near",
    "C44_round_trip",
    "C44_round_trip_exact",
    "C44_bad_suffix",
    "C44_blanks",
    "C44_underscores",
    "C44_infinite"
   ],
   "note": "Over a model of float()/round()/str() with IEEE binary64 arithmetic on integers. Integer+suffix exact below 2**53 (limit shown to be sharp); any decimal within one byte; round trip within unit/200 + 1 byte, exact for whole units."
  },
  {
   "property": "C45",
   "status": "proved",
   "theorems": [
    "C45_arguments_checked_exactly",
    "C45_arguments_error",
    "C45_blosc_arguments",
    "C45_bloscpack_arguments",
    "C45_metadata_arguments"
   ],
   "note": ""
  },
  {
   "property": "C46",
   "status": "proved",
   "theorems": [
    "C46_foreign_version"
   ],
   "note": ""
  },
  {
   "property": "C47",
   "status": "partial",
   "theorems": [
    "C47_append_verifies_refuted",
    "C47_append_signs_damage"
   ],
   "note": "REFUTED: append re-signs a damaged last chunk (append.py:116-121 never compares the digest). Proved: C47_append_verifies_refuted (a counterexample) and C47_append_signs_damage: for every archive, every damage from the last chunk on that still decompresses to the right size is accepted and signed, and the result unpacks to the damaged contents."
  },
  {
   "property": "C48",
   "status": "partial",
   "theorems": [
    "C48_unknown_nchunks_refuted"
   ],
   "note": "REFUTED: for every file with nchunks = -1 and neither offsets nor metadata, unpack returns no data and no error (C48_unknown_nchunks_refuted, for all such files)."
  },
  {
   "property": "C49",
   "status": "partial",
   "theorems": [
    "C49_level_refuted",
    "C49_stored_level"
   ],
   "note": "REFUTED: when compression does not pay, codec None is stored with the old level, and the caller's argument object is changed (C49_level_refuted). C49_stored_level says, for all metadata and arguments, exactly which codec and level are stored and when the object changes."
  },
  {
   "property": "C50",
   "status": "partial",
   "theorems": [
    "C50_null_metadata_append_refuted",
    "C50_null_append"
   ],
   "note": "REFUTED: offsets_pos (append.py) tests 'metadata is not None', so after null metadata the offset table overwrites the metadata section (C50_null_metadata_append_refuted). C50_null_append: for every archive rewritten to null, appends that add no chunk are right, and every append that adds a chunk overwrites the section and leaves the file unreadable unless the first chunk's position spells JSON."
  },
  {
   "property": "C51",
   "status": "partial",
   "theorems": [
    "C51_append_nothing",
    "C51_append_to_empty_refuted",
    "C51_append_empty_file_raises"
   ],
   "note": "First half proved (C51_append_nothing). Second half REFUTED: appending to an archive of an empty input always raises ValueError and changes nothing (C51_append_to_empty_refuted). By file name, appending an empty file raises ZeroDivisionError after the (content-preserving) change (C51_append_empty_file_raises)."
  },
  {
   "property": "C52",
   "status": "proved",
   "theorems": [
    "C52_adler32",
    "C52_crc32",
    "C52_crc32_burst",
    "C52_single_byte"
   ],
   "note": ""
  },
  {
   "property": "C53",
   "status": "partial",
   "theorems": [
    "C53_conv",
    "C53_old_arrays",
    "C53_titles_refuted"
   ],
   "note": "REFUTED for fields with titles (C53_titles_refuted); proved for all other nested descriptions, at any depth (C53_conv), and for whole old-style archives (C53_old_arrays)."
  },
  {
   "property": "C54",
   "status": "proved",
   "theorems": [
    "C54_info_read_only",
    "C54_info_true"
   ],
   "note": ""
  },
  {
   "property": "C55",
   "status": "proved",
   "theorems": [
    "C55_append",
    "C55_half_done"
   ],
   "note": "The claim as stated is proved by C55_append; C55_half_done shows which failing commands have appended."
  },
  {
   "property": "C56",
   "status": "proved",
   "theorems": [
    "C56_reader_during_append",
    "C56_same_reader"
   ],
   "note": "Assumes the 32-byte header is seen whole (definition glimpse); every other byte may be seen at any moment."
  },
  {
   "property": "C57",
   "status": "partial",
   "theorems": [
    "C57_last_append_wins",
    "C57_both_kept_refuted"
   ],
   "note": "REFUTED: C57_both_kept_refuted (lost update, and an interleaving after which the file is unreadable); C57_last_append_wins: for all archives and all pairs of successful appends the last writer silently wins."
  },
  {
   "property": "C58",
   "status": "proved",
   "theorems": [
    "C58_append_and_rewrite"
   ],
   "note": ""
  },
  {
   "property": "C59",
   "status": "proved",
   "theorems": [
    "C59_append_to_array",
    "C59_outgrown"
   ],
   "note": "C59_append_to_array for every array and append, C59_outgrown after any history. A write past the buffer is the outcome MemoryFault."
  },
  {
   "property": "C60",
   "status": "proved",
   "theorems": [
    "C60_any_order",
    "C60_order_protected_refuted"
   ],
   "note": "C60_any_order; C60_order_protected_refuted: the expectation that a file with checksums protects the order fails on a concrete file."
  },
  {
   "property": "C61",
   "status": "proved",
   "theorems": [
    "C61_numbers"
   ],
   "note": "C61_numbers; j = 0 is the case of the ignored sizes."
  },
  {
   "property": "C62",
   "status": "proved",
   "theorems": [
    "C62_messages",
    "C62_unknown_level",
    "C62_lines",
    "C62_error",
    "C62_set_level_no_effect",
    "C62_set_level_refuted",
    "C62_debug"
   ],
   "note": "C62_messages/_error/_unknown_level for all messages; C62_set_level_no_effect: set_level validates but has no effect (defect), concrete case in C62_set_level_refuted."
  },
  {
   "property": "C63",
   "status": "proved",
   "theorems": [
    "C63_header_report",
    "C63_metadata_header_report",
    "C63_values",
    "C63_printable",
    "C63_plain_text",
    "C63_header_lines",
    "C63_metadata_header_lines",
    "C63_sizes",
    "C63_size_text",
    "C63_pretty_size_refuted",
    "C63_args_repr"
   ],
   "note": "Through the printed lines of log.normal (empty lines dropped). C63_pretty_size_refuted: the rounded size alone would not do."
  },
  {
   "property": "C64",
   "status": "proved",
   "theorems": [
    "C64_operations",
    "C64_answers",
    "C64_missing",
    "C64_blosc_args",
    "C64_args_items",
    "C64_update_atomic_refuted",
    "C64_assigned_header"
   ],
   "note": "C64_operations, C64_answers for all operation sequences; C64_update_atomic_refuted shows that a failing update is not undone; C64_assigned_header."
  },
  {
   "property": "C65",
   "status": "proved",
   "theorems": [
    "C65_arguments_stick",
    "C65_unchanged_refuted"
   ],
   "note": "C65_arguments_stick for all archives; C65_unchanged_refuted: the expectation that the second file's type size is used fails on concrete files."
  },
  {
   "property": "C66",
   "status": "proved",
   "theorems": [
    "C66_append_chunks",
    "C66_same_chunks"
   ],
   "note": "C66_append_chunks for every archive and append; C66_same_chunks for every two histories with uniform Blosc arguments."
  },
  {
   "property": "C67",
   "status": "proved",
   "theorems": [
    "C67_bounds",
    "C67_pack",
    "C67_append",
    "C67_rewrite"
   ],
   "note": "The at most 16 bytes per chunk are Blosc's contract (EnvOK)."
  },
  {
   "property": "C68",
   "status": "proved",
   "theorems": [
    "C68_torn",
    "C68_torn_room",
    "C68_crash",
    "C68_metadata_mix"
   ],
   "note": "C68_metadata_mix and C68_case witness the last sentence."
  },
  {
   "property": "C69",
   "status": "proved",
   "theorems": [
    "C69_int",
    "C69_chunk_size",
    "C69_outcomes",
    "C69_untouched"
   ],
   "note": "C69_int characterises int(); C69_chunk_size/_outcomes are exhaustive; C69_untouched: nothing is written. OverflowError and IndexError escape the handler (defect)."
  },
  {
   "property": "C70",
   "status": "proved",
   "theorems": [
    "C70_output",
    "C70_chunks"
   ],
   "note": "The number of bytes asked of read() is not bounded: f_read returns what is there (DESIGN.md)."
  },
  {
   "property": "C71",
   "status": "proved",
   "theorems": [
    "C71_output",
    "C71_status_one",
    "C71_info_determines"
   ],
   "note": "Texts made by pprint and str(exception) are an oracle; argparse's own output and the messages at VERBOSE and DEBUG are not modelled."
  },
  {
   "property": "C72",
   "status": "proved",
   "theorems": [
    "C72_memory_seek",
    "C72_file_seek",
    "C72_unpack",
    "C72_overflow",
    "C72_append",
    "C72_rewrite",
    "C72_pack"
   ],
   "note": "each listed exception is shown to occur in the Examples, except ChunkingException and (for pack) StructError, which need 2**63 bytes"
  },
  {
   "property": "C73",
   "status": "proved",
   "theorems": [
    "C73_accepted",
    "C73_one_meaning",
    "C73_carried_out",
    "C73_refused_main",
    "C73_refused_sub",
    "C73_wrong_files",
    "C73_no_subcommand",
    "C73_unknown_subcommand",
    "C73_plain_compress",
    "C73_compress_and_back",
    "C73_plain_append"
   ],
   "note": "argparse itself is modelled for arguments spelled in full (no abbreviations, no '-z1M', no '--opt=value', no '--', no options between input and output file); other command lines are outside (None)"
  },
  {
   "property": "C74",
   "status": "proved",
   "theorems": [
    "C74_pack_anywhere",
    "C74_unpack_anywhere",
    "C74_unpack_packed",
    "C74_several",
    "C74_pack_several",
    "C74_with_offsets",
    "C74_order"
   ],
   "note": "the defect with offsets (bytes of the surrounding file overwritten) is C74_with_offsets"
  },
  {
   "property": "C75",
   "status": "proved",
   "theorems": [
    "C75_file_through_memory",
    "C75_memory_like_file",
    "C75_any_metadata",
    "C75_file_to_list",
    "C75_list_through_file",
    "C75_list_too_short",
    "C75_list_too_long_offsets",
    "C75_list_too_long",
    "C75_array_through_memory"
   ],
   "note": "C75_any_metadata: memory accepts metadata and metadata arguments that a file would refuse. C75_list_too_long: silent loss without offsets."
  },
  {
   "property": "C76",
   "status": "proved",
   "theorems": [
    "C76_object",
    "C76_array_object",
    "C76_metadata_object",
    "C76_row",
    "C76_objects_after",
    "C76_typesize_sticks",
    "C76_all_come_back",
    "C76_harmless",
    "C76_independent_refuted",
    "C76_failure_undone_refuted"
   ],
   "note": "C76_independent_refuted and C76_failure_undone_refuted: the stronger expectation (objects are left alone) is false of the code."
  },
  {
   "property": "C77",
   "status": "proved",
   "theorems": [
    "C77_allocated",
    "C77_refused",
    "C77_old_types",
    "C77_archive",
    "C77_unpack_exceptions",
    "C77_pack_exceptions"
   ],
   "note": "MemoryFault stands for writing past the end of the array (undefined behaviour in C). Refused shape and order arguments of numpy.empty are modelled as ValueError."
  },
  {
   "property": "C78",
   "status": "proved",
   "theorems": [
    "C78_model",
    "C78_any_source",
    "C78_success",
    "C78_failure",
    "C78_leak",
    "C78_history",
    "C78_stuck",
    "C78_failure_undone_refuted",
    "C78_readable_refuted"
   ],
   "note": "for a source that answers anything (Stream.v; every stateful source is one, C78_any_source). The last sentence of the statement is the two _refuted theorems"
  },
  {
   "property": "C79",
   "status": "proved",
   "theorems": [
    "C79_model",
    "C79_any_source",
    "C79_success",
    "C79_total",
    "C79_failure",
    "C79_read_error",
    "C79_detected_refuted"
   ],
   "note": "for a source that answers anything (Stream.v; every stateful source is one, C79_any_source; the source of the other theorems is one, C79_model). The last sentence of the statement is C79_detected_refuted"
  },
  {
   "property": "C80",
   "status": "proved",
   "theorems": [
    "C80_model_pack",
    "C80_model",
    "C80_pack",
    "C80_append",
    "C80_rewrite",
    "C80_unpack",
    "C80_unpack_archive",
    "C80_every_point",
    "C80_disk_pack",
    "C80_disk_unpack",
    "C80_disk_rewrite",
    "C80_disk_append",
    "C80_append_atomic_refuted"
   ],
   "note": "The programs of Fault.v, with every write visible, are proved equal to pack, append_fp, the metadata rewrite and unpack (C80_model, C80_model_pack). The atomicity of append is refuted (C80_append_atomic_refuted)."
  },
  {
   "property": "C81",
   "status": "proved",
   "theorems": [
    "C81_header_accepted",
    "C81_header_refused",
    "C81_unknown_argument",
    "C81_wrong_type_refuted",
    "C81_metadata_header_accepted",
    "C81_metadata_header_refused",
    "C81_metadata_header_written",
    "C81_int",
    "C81_truth",
    "C81_header_written",
    "C81_flags",
    "C81_flags_refused",
    "C81_flags_back",
    "C81_pack",
    "C81_pack_same",
    "C81_pack_refuted"
   ],
   "note": "Values of any type are the type dyn of Dynamic.v: strings are ASCII, int() of a number that is no int (float, numpy scalar) is part of the value. That a wrong type always gives TypeError (as the docstrings say) and that a successful pack can be unpacked are refuted: C81_wrong_type_refuted, C81_pack_refuted."
  },
  {
   "property": "C82",
   "status": "proved",
   "theorems": [
    "C82_chunk_replaced",
    "C82_crc32_burst",
    "C82_adler32_pair",
    "C82_metadata_replaced",
    "C82_metadata_burst",
    "C82_metadata_pair",
    "C82_crc32_blind",
    "C82_adler32_blind",
    "C82_adler32_swap"
   ],
   "note": ""
  },
  {
   "property": "C83",
   "status": "proved",
   "theorems": [
    "C83_normal",
    "C83_output",
    "C83_free",
    "C83_ratio",
    "C83_ratio_sign",
    "C83_append_ratio_refuted"
   ],
   "note": ""
  },
  {
   "property": "C84",
   "status": "proved",
   "theorems": [
    "C84_accepted",
    "C84_carried_out",
    "C84_refused_main",
    "C84_refused_sub",
    "C84_wrong_files",
    "C84_no_subcommand",
    "C84_unknown_subcommand",
    "C84_ambiguous",
    "C84_vague",
    "C84_ambiguous_sub",
    "C84_endings",
    "C84_same",
    "C84_refused_only",
    "C84_compress_and_back"
   ],
   "note": "argparse modelled as in Python 3.11; see DESIGN.md"
  },
  {
   "property": "C85",
   "status": "proved",
   "theorems": [
    "C85_equality",
    "C85_reflexive",
    "C85_symmetric",
    "C85_transitive",
    "C85_integral",
    "C85_nan",
    "C85_rounding",
    "C85_rounding_unique",
    "C85_literal",
    "C85_alike_refused",
    "C85_unlike",
    "C85_read_back"
   ],
   "note": "the identity shortcut of Python's containers (the very same NaN object) is not modelled: the stored value is always freshly parsed"
  },
  {
   "property": "C86",
   "status": "proved",
   "theorems": [
    "C86_file",
    "C86_defaults",
    "C86_archive"
   ],
   "note": ""
  },
  {
   "property": "C87",
   "status": "proved",
   "theorems": [
    "C87_positions",
    "C87_files",
    "C87_missing",
    "C87_at_end",
    "C87_streams",
    "C87_pieces_refuted"
   ],
   "note": ""
  },
  {
   "property": "C88",
   "status": "proved",
   "theorems": [
    "C88_writers",
    "C88_places",
    "C88_file",
    "C88_reader",
    "C88_room",
    "C88_metadata",
    "C88_unchecked_refuted"
   ],
   "note": ""
  },
  {
   "property": "C89",
   "status": "proved",
   "theorems": [
    "C89_reader",
    "C89_digests"
   ],
   "note": ""
  },
  {
   "property": "C90",
   "status": "proved",
   "theorems": [
    "C90_rewrite",
    "C90_append"
   ],
   "note": ""
  },
  {
   "property": "C91",
   "status": "proved",
   "theorems": [
    "C91_pack",
    "C91_bytes"
   ],
   "note": ""
  },
  {
   "property": "C92",
   "status": "proved",
   "theorems": [
    "C92_compress",
    "C92_decompress",
    "C92_append",
    "C92_info"
   ],
   "note": ""
  },
  {
   "property": "C93",
   "status": "proved",
   "theorems": [
    "C93_unpack",
    "C93_unpack_file",
    "C93_pack",
    "C93_pack_bytes",
    "C93_pack_file"
   ],
   "note": ""
  },
  {
   "property": "C94",
   "status": "proved",
   "theorems": [
    "C94_meanwhile",
    "C94_result",
    "C94_faithful",
    "C94_copy_refuted"
   ],
   "note": "C94_copy_refuted: that the archive as it was is always what is added is false; C94_result says what is."
  },
  {
   "property": "C95",
   "status": "proved",
   "theorems": [
    "C95_model",
    "C95_places",
    "C95_file",
    "C95_reader",
    "C95_room"
   ],
   "note": "Extends C88 to rewriters that themselves read mixtures; which metadata are read back is not said (the example reads back a value nobody asked for)."
  },
  {
   "property": "C96",
   "status": "proved",
   "theorems": [
    "C96_pack",
    "C96_unpack",
    "C96_array",
    "C96_append",
    "C96_array_refuted"
   ],
   "note": "Messages outside of the loops over the chunks: C97, C98. C96_array_refuted: that the sizes shown for arrays are those of the chunks is false."
  },
  {
   "property": "C97",
   "status": "proved",
   "theorems": [
    "C97_opening",
    "C97_unpack"
   ],
   "note": "C97_unpack adds the messages about the chunks of C96. Messages of the commands around unpacking (sizes, ratio) are in C83."
  },
  {
   "property": "C98",
   "status": "proved",
   "theorems": [
    "C98_pack",
    "C98_section"
   ],
   "note": "From and to file objects, for numbers of chunks below 2^63. Functions given as arguments are shown by their repr, which is taken to have no line break; an argument max_app_chunks that is neither an integer nor callable is None if its repr is 'None'. C98_section is the part about the metadata, for any file."
  }
 ]
}