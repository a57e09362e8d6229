{
 "claims": [
  {
   "property": "C01",
   "status": "proved",
   "theorems": [
    "C01_empty_iff",
    "C01_reader_empty_iff"
   ],
   "note": ""
  },
  {
   "property": "C02",
   "status": "proved",
   "theorems": [
    "C02_from_bytes_total",
    "C02_from_reader_total",
    "C02_32bit_total_refuted"
   ],
   "note": "Both totality theorems cover every input, reader and feature set; C02_32bit_total_refuted proves the exception named in the statement (32-bit builds with reader-zip)."
  },
  {
   "property": "C03",
   "status": "proved",
   "theorems": [
    "C03_checked_build_total",
    "C03_checked_reader_total",
    "C03_asf_refuted",
    "C03_mp4_refuted",
    "C03_zip_refuted",
    "C03_debug_agrees_with_release",
    "C03_debug_bytes_agree"
   ],
   "note": "Agreement where a checked build answers (C03_checked_build_agrees...), totality without the three readers; the _refuted theorems prove that each of the three exceptions named in the statement is real."
  },
  {
   "property": "C04",
   "status": "proved",
   "theorems": [
    "C04_first_match_wins",
    "C04_signature_stands"
   ],
   "note": ""
  },
  {
   "property": "C05",
   "status": "proved",
   "theorems": [
    "C05_window_suffices",
    "C05_rest_is_irrelevant",
    "C05_window_is_least"
   ],
   "note": ""
  },
  {
   "property": "C06",
   "status": "proved",
   "theorems": [
    "C06_extension_keeps_signature",
    "C06_recognised_stays_recognised"
   ],
   "note": ""
  },
  {
   "property": "C07",
   "status": "proved",
   "theorems": [
    "C07_no_dead_alternative"
   ],
   "note": ""
  },
  {
   "property": "C08",
   "status": "proved",
   "theorems": [
    "C08_documented_formats_are_found",
    "C08_every_format_reachable",
    "C08_signed_formats_need_no_reader"
   ],
   "note": ""
  },
  {
   "property": "C09",
   "status": "proved",
   "theorems": [
    "C09_container_feature_is_local",
    "C09_text_feature_is_local"
   ],
   "note": ""
  },
  {
   "property": "C10",
   "status": "proved",
   "theorems": [
    "C10_result_is_documented",
    "C10_untrusted_reader"
   ],
   "note": ""
  },
  {
   "property": "C11",
   "status": "proved",
   "theorems": [
    "C11_fallback_is_generic",
    "C11_enabling_keeps_container_refuted",
    "C11_enabling_keeps_container_refuted_zip",
    "C11_reader_decides",
    "C11_truncated_is_generic"
   ],
   "note": "The _refuted theorems prove the last clause of the statement (the stronger reading is false)."
  },
  {
   "property": "C12",
   "status": "proved",
   "theorems": [
    "C12_errors_only_from_first_read"
   ],
   "note": ""
  },
  {
   "property": "C13",
   "status": "proved",
   "theorems": [
    "C13_error_branch_unused"
   ],
   "note": ""
  },
  {
   "property": "C14",
   "status": "proved",
   "theorems": [
    "C14_chunking_is_irrelevant",
    "C14_pdf_chunking_is_irrelevant",
    "C14_short_first_read_refuted",
    "C14_xml_refuted",
    "C14_sqlite_refuted",
    "C14_interrupted_refuted",
    "C14_first_read_decides",
    "C14_xml_single_read",
    "C14_sqlite_single_read"
   ],
   "note": "The _refuted theorems prove the exceptions named in the statement."
  },
  {
   "property": "C15",
   "status": "proved",
   "theorems": [
    "C15_buffering_is_transparent"
   ],
   "note": ""
  },
  {
   "property": "C16",
   "status": "proved",
   "theorems": [
    "C16_signature_at_position",
    "C16_container_from_the_beginning",
    "C16_window_decides",
    "C16_featureless_position_cuts",
    "C16_position_cuts_refuted"
   ],
   "note": "C16_position_cuts_refuted proves the last clause of the statement."
  },
  {
   "property": "C17",
   "status": "proved",
   "theorems": [
    "C17_file_agrees",
    "C17_file_agrees_or_is_generic",
    "C17_unreadable_is_err",
    "C17_regular_is_ok",
    "C17_asf_refuted",
    "C17_mp4_refuted",
    "C17_wellformed_mp4",
    "C17_wellformed_asf",
    "C17_wellformed_zip",
    "C17_wellformed_zip64",
    "C17_wellformed_ebml"
   ],
   "note": "C17_asf_refuted and C17_mp4_refuted prove that the exceptions named in the statement are real."
  },
  {
   "property": "C18",
   "status": "proved",
   "theorems": [
    "C18_forward_search_is_exact",
    "C18_reverse_search_is_exact"
   ],
   "note": ""
  },
  {
   "property": "C19",
   "status": "proved",
   "theorems": [
    "C19_xml_dialects"
   ],
   "note": ""
  },
  {
   "property": "C20",
   "status": "proved",
   "theorems": [
    "C20_illustrator_iff",
    "C20_any_chunking"
   ],
   "note": ""
  },
  {
   "property": "C21",
   "status": "proved",
   "theorems": [
    "C21_sketch_iff"
   ],
   "note": ""
  },
  {
   "property": "C22",
   "status": "proved",
   "theorems": [
    "C22_plain_text_iff"
   ],
   "note": ""
  },
  {
   "property": "C23",
   "status": "proved",
   "theorems": [
    "C23_short_text",
    "C23_unbounded_refuted",
    "C23_unicode_text",
    "C23_ascii_text",
    "C23_sixteen_lines"
   ],
   "note": "C23_unicode_text is the exact characterisation for every length; C23_unbounded_refuted is its exception on a concrete text."
  },
  {
   "property": "C24",
   "status": "proved",
   "theorems": [
    "C24_executables"
   ],
   "note": ""
  },
  {
   "property": "C25",
   "status": "proved",
   "theorems": [
    "C25_tags_are_skipped"
   ],
   "note": ""
  },
  {
   "property": "C26",
   "status": "proved",
   "theorems": [
    "C26_counted_twice",
    "C26_extended_header_refuted"
   ],
   "note": "C26_counted_twice is the behaviour of the code on every such file; C26_extended_header_refuted proves that it differs from the ID3v2 standard."
  },
  {
   "property": "C27",
   "status": "proved",
   "theorems": [
    "C27_mp4_tracks",
    "C27_video"
   ],
   "note": ""
  },
  {
   "property": "C28",
   "status": "proved",
   "theorems": [
    "C28_large_boxes",
    "C28_large_leaf_refuted"
   ],
   "note": "C28_large_boxes is the behaviour of the code for every mixture of 32- and 64-bit boxes; C28_large_leaf_refuted proves that standard files can be misread."
  },
  {
   "property": "C29",
   "status": "proved",
   "theorems": [
    "C29_matroska"
   ],
   "note": ""
  },
  {
   "property": "C30",
   "status": "proved",
   "theorems": [
    "C30_one_byte_consumed",
    "C30_wide_stereo_mode_refuted"
   ],
   "note": "C30_one_byte_consumed is the behaviour of the code for every declared size; C30_wide_stereo_mode_refuted proves that standard files can be misread."
  },
  {
   "property": "C31",
   "status": "proved",
   "theorems": [
    "C31_asf_streams",
    "C31_complete"
   ],
   "note": ""
  },
  {
   "property": "C32",
   "status": "proved",
   "theorems": [
    "C32_compound_files",
    "C32_complete",
    "C32_known_class_id"
   ],
   "note": ""
  },
  {
   "property": "C33",
   "status": "proved",
   "theorems": [
    "C33_realmedia_streams",
    "C33_complete"
   ],
   "note": ""
  },
  {
   "property": "C34",
   "status": "proved",
   "theorems": [
    "C34_zip_entries",
    "C34_unique",
    "C34_complete"
   ],
   "note": ""
  },
  {
   "property": "C35",
   "status": "proved",
   "theorems": [
    "C35_mimetype",
    "C35_unknown_media_type"
   ],
   "note": ""
  },
  {
   "property": "C36",
   "status": "proved",
   "theorems": [
    "C36_zip64"
   ],
   "note": ""
  },
  {
   "property": "C37",
   "status": "proved",
   "theorems": [
    "C37_comment_refuted",
    "C37_comment_chooses_refuted",
    "C37_harmless_comments",
    "C37_last_record_decides",
    "C37_any_archive_can_be_forged"
   ],
   "note": "C37_last_record_decides and C37_harmless_comments are the positive claims; the _refuted theorems and C37_any_archive_can_be_forged the counter-examples of the statement."
  },
  {
   "property": "C38",
   "status": "proved",
   "theorems": [
    "C38_container_calls",
    "C38_other_calls",
    "C38_calls_are_linear",
    "C38_calls_are_constant"
   ],
   "note": ""
  },
  {
   "property": "C39",
   "status": "proved",
   "theorems": [
    "C39_requests_bounded",
    "C39_one_large_request",
    "C39_small_without_zip",
    "C39_proportional_refuted"
   ],
   "note": "C39_proportional_refuted proves the last clause of the statement."
  },
  {
   "property": "C40",
   "status": "proved",
   "theorems": [
    "C40_names_identify_the_format",
    "C40_name_is_a_label",
    "C40_short_name_is_a_label",
    "C40_media_type_is_rfc6838",
    "C40_extension_is_a_suffix",
    "C40_every_kind_is_used",
    "C40_display_is_injective"
   ],
   "note": ""
  },
  {
   "property": "C41",
   "status": "proved",
   "theorems": [
    "C41_integers",
    "C41_guids",
    "C41_guids_total_injective"
   ],
   "note": ""
  },
  {
   "property": "C42",
   "status": "proved",
   "theorems": [
    "C42_lossy_decoding_keeps_ascii_matches"
   ],
   "note": ""
  },
  {
   "property": "C43",
   "status": "proved",
   "theorems": [
    "C43_default"
   ],
   "note": ""
  },
  {
   "property": "C44",
   "status": "proved",
   "theorems": [
    "C44_featureless",
    "C44_text",
    "C44_containers"
   ],
   "note": ""
  },
  {
   "property": "C45",
   "status": "proved",
   "theorems": [
    "C45_success",
    "C45_failure",
    "C45_total"
   ],
   "note": ""
  },
  {
   "property": "C46",
   "status": "proved",
   "theorems": [
    "C46_width_is_irrelevant",
    "C46_ebml_refuted",
    "C46_zip_refuted"
   ],
   "note": "The _refuted theorems prove that the two exceptions named in the statement are real."
  },
  {
   "property": "C47",
   "status": "proved",
   "theorems": [
    "C47_mp4_every_input",
    "C47_mp4_any_build",
    "C47_asf_every_input",
    "C47_asf_any_build",
    "C47_realmedia_every_input",
    "C47_ebml_every_input",
    "C47_id3v2_every_input",
    "C47_zip_every_input",
    "C47_zip_any_build",
    "C47_zip_32bit"
   ],
   "note": ""
  },
  {
   "property": "C48",
   "status": "proved",
   "theorems": [
    "C48_magic_decides",
    "C48_magic_without_rivals",
    "C48_magic_of_containers",
    "C48_standard_metadata",
    "C48_remote_magic",
    "C48_overlooked_refuted",
    "C48_misfiled_refuted",
    "C48_registered_media_refuted"
   ],
   "note": "C48_overlooked_refuted, C48_misfiled_refuted and C48_registered_media_refuted prove the exceptions named in the statement."
  },
  {
   "property": "C49",
   "status": "proved",
   "theorems": [
    "C49_largest_signature_decides"
   ],
   "note": ""
  },
  {
   "property": "C50",
   "status": "proved",
   "theorems": [
    "C50_final_results_stay",
    "C50_long_enough",
    "C50_xml_dialects",
    "C50_mp4_tracks_are_kept",
    "C50_mp4_stays_recognised_refuted",
    "C50_ebml_behind_a_cluster"
   ],
   "note": "C50_mp4_stays_recognised_refuted proves the last clause of the statement."
  },
  {
   "property": "C51",
   "status": "proved",
   "theorems": [
    "C51_every_format_is_listed",
    "C51_nothing_else_is_listed",
    "C51_lines_identify_formats"
   ],
   "note": ""
  },
  {
   "property": "C52",
   "status": "proved",
   "theorems": [
    "C52_stream_is_unchanged",
    "C52_repeatable_after_seeking_back",
    "C52_position_without_readers",
    "C52_rewinds_refuted"
   ],
   "note": "C52_rewinds_refuted proves the last clause of the statement."
  },
  {
   "property": "C53",
   "status": "proved",
   "theorems": [
    "C53_errors_only_from_first_read",
    "C53_empty_iff",
    "C53_result_is_documented",
    "C53_signature_from_first_read",
    "C53_own_cursor_never_panics",
    "C53_own_cursor_never_panics_checked",
    "C53_panic_needs_positions",
    "C53_results_are_final",
    "C53_agrees_with_from_reader",
    "C53_shared_handle_never_panics_refuted",
    "C53_from_reader_always_returns_refuted"
   ],
   "note": "The two _refuted theorems prove the last two clauses of the statement (panic with a shared handle, no return on an endless stream)."
  },
  {
   "property": "C54",
   "status": "proved",
   "theorems": [
    "C54_result_is_the_format",
    "C54_detection_is_the_specification",
    "C54_one_format"
   ],
   "note": ""
  },
  {
   "property": "C55",
   "status": "proved",
   "theorems": [
    "C55_reader_result_is_the_format",
    "C55_reader_is_the_specification",
    "C55_cursor",
    "C55_file",
    "C55_one_format"
   ],
   "note": ""
  },
  {
   "property": "C56",
   "status": "proved",
   "theorems": [
    "C56_checked_detection_is_the_specification",
    "C56_checks_do_not_matter",
    "C56_checked_reader_is_the_specification",
    "C56_reader_checks_do_not_matter",
    "C56_mp4_pattern",
    "C56_asf_pattern",
    "C56_zip_pattern"
   ],
   "note": ""
  },
  {
   "property": "C57",
   "status": "proved",
   "theorems": [
    "C57_features_as_documented",
    "C57_disabled_by_default",
    "C57_unification_is_additive",
    "C57_reader_is_all",
    "C57_request_is_a_set",
    "C57_cargo_toml"
   ],
   "note": ""
  },
  {
   "property": "C58",
   "status": "proved",
   "theorems": [
    "C58_finite_streams_return",
    "C58_finite_streams_are_detected",
    "C58_racing_file"
   ],
   "note": ""
  },
  {
   "property": "C59",
   "status": "proved",
   "theorems": [
    "C59_meter_is_transparent",
    "C59_container_volume",
    "C59_other_volume",
    "C59_volume_is_constant",
    "C59_id3v2_volume"
   ],
   "note": ""
  },
  {
   "property": "C60",
   "status": "proved",
   "theorems": [
    "C60_order_is_irrelevant",
    "C60_order_refuted",
    "C60_packages",
    "C60_packages_zip64",
    "C60_java_package_refuted",
    "C60_openxps_folder_refuted",
    "C60_musicxml_refuted",
    "C60_media_type_first",
    "C60_air_refuted"
   ],
   "note": "The _refuted theorems prove the exceptions named at the end of the statement."
  },
  {
   "property": "C61",
   "status": "proved",
   "theorems": [
    "C61_registered_metadata",
    "C61_customary_extension",
    "C61_other_extension_refuted",
    "C61_media_type_tells_the_kind",
    "C61_kind_tells_the_media_type"
   ],
   "note": "C61_other_extension_refuted and C48_registered_media_refuted prove the exceptions named in the statement."
  },
  {
   "property": "C62",
   "status": "proved",
   "theorems": [
    "C62_mark_keeps_the_signature",
    "C62_mark_is_transparent",
    "C62_mark_with_readers",
    "C62_xml_mark_is_transparent",
    "C62_plain_text",
    "C62_utf16_is_binary",
    "C62_abiword_refuted",
    "C62_other_text_refuted",
    "C62_undeclared_refuted",
    "C62_xml_utf16_refuted"
   ],
   "note": "The _refuted theorems prove the exceptions named at the end of the statement."
  },
  {
   "property": "C63",
   "status": "proved",
   "theorems": [
    "C63_root_element",
    "C63_root_element_refuted",
    "C63_unknown_vocabulary_refuted"
   ],
   "note": "The _refuted theorems prove the exceptions named at the end of the statement."
  },
  {
   "property": "C64",
   "status": "proved",
   "theorems": [
    "C64_forward_search",
    "C64_reverse_search",
    "C64_disjoint_bytes",
    "C64_forward_worst_case",
    "C64_reverse_worst_case",
    "C64_pdf",
    "C64_sqlite3",
    "C64_xml",
    "C64_zip",
    "C64_signatures",
    "C64_no_signature"
   ],
   "note": "The counted programs are separate definitions; every bound comes with the proof that without the counter they are the modelled programs. Comparisons of names are not counted."
  },
  {
   "property": "C65",
   "status": "proved",
   "theorems": [
    "C65_family_decides",
    "C65_family_without_rivals",
    "C65_remote_family",
    "C65_missed_family_refuted",
    "C65_cafebabe"
   ],
   "note": "Headers as described by the specifications and by file(1). Members that are missed (ADTS with checksum, /usr/bin/sh, big-endian Nikon raw files, AbiWord with a byte order mark, ...) are stated as a refuted theorem."
  },
  {
   "property": "C66",
   "status": "proved",
   "theorems": [
    "C66_no_header_no_format",
    "C66_no_header_no_format_any_features",
    "C66_header_of_format_or_container"
   ],
   "note": "1422 headers for the 343 formats in the table; for about 80 formats only the essential part of the header is compared by the library."
  },
  {
   "property": "C67",
   "status": "proved",
   "theorems": [
    "C67_debug_is_the_name_in_camel_case",
    "C67_debug_is_an_identifier",
    "C67_debug_kind_is_an_identifier",
    "C67_discriminants_are_alphabetical",
    "C67_discriminants_are_dense",
    "C67_equality",
    "C67_kind_equality",
    "C67_kinds_are_alphabetical"
   ],
   "note": "The identifiers in `Derive` are generated from the definitions in formats.rs; what derive generates is modelled after the reference (discriminants in order of declaration, Debug writes the identifier)."
  },
  {
   "property": "C68",
   "status": "proved",
   "theorems": [
    "C68_failures_only_lose",
    "C68_no_false_format",
    "C68_no_false_text",
    "C68_failure_is_reported_refuted"
   ],
   "note": "The witness shows a program reported as binary data when one seek fails; `C68_failure_is_reported_refuted` shows that no error is returned."
  },
  {
   "property": "C69",
   "status": "proved",
   "theorems": [
    "C69_any_table",
    "C69_signature_scan",
    "C69_metadata",
    "C69_variants",
    "C69_kinds"
   ],
   "note": "The texts in `Source` are copied byte for byte by tools/gen_source.py; lexing, expansion and evaluation are done in Coq, so the generated tables `Signatures`, `Formats` and `Derive` are no longer trusted: they are proved to be what the texts say."
  },
  {
   "property": "C70",
   "status": "proved",
   "theorems": [
    "C70_format_readers",
    "C70_generic_reader",
    "C70_find_text",
    "C70_rfind_text",
    "C70_holds_text"
   ],
   "note": "The text in `Source` is copied byte for byte; the hand-written readers of `Readers.v` are thereby no longer trusted: they are proved to do what the text does. Calls of std are primitives of the evaluator; so are the calls of FindBytes in the readers, whose own text is proved to do what the primitive does (C70_find_text, C70_rfind_text, C70_holds_text)."
  },
  {
   "property": "C71",
   "status": "proved",
   "theorems": [
    "C71_from_reader",
    "C71_from_file",
    "C71_from_bytes",
    "C71_slices",
    "C71_default"
   ],
   "note": "Trusted: the part of Rust and std in `LibSem` (read into a buffer, slices, ?, if let, unwrap_or_else, unwrap_or_default); Cursor::new and File::open are parameters."
  }
 ]
}