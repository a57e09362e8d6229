# status and note per property; the status overrides the default of mk_manifest.py
notes = {
 'C02': ('proved', 'Both totality theorems cover every input, reader and feature set; C02_32bit_total_refuted proves the exception named in the statement (32-bit builds with reader-zip).'),
 'C03': ('proved', 'Agreement where a checked build answers (C03_checked_build_agrees...), totality without the three readers; the _refuted theorems prove that each of the three exceptions named in the statement is real.'),
 'C11': ('proved', 'The _refuted theorems prove the last clause of the statement (the stronger reading is false).'),
 'C14': ('proved', 'The _refuted theorems prove the exceptions named in the statement.'),
 'C16': ('proved', 'C16_position_cuts_refuted proves the last clause of the statement.'),
 'C17': ('proved', 'C17_asf_refuted and C17_mp4_refuted prove that the exceptions named in the statement are real.'),
 'C23': ('proved', 'C23_unicode_text is the exact characterisation for every length; C23_unbounded_refuted is its exception on a concrete text.'),
 'C26': ('proved', 'C26_counted_twice is the behaviour of the code on every such file; C26_extended_header_refuted proves that it differs from the ID3v2 standard.'),
 'C28': ('proved', 'C28_large_boxes is the behaviour of the code for every mixture of 32- and 64-bit boxes; C28_large_leaf_refuted proves that standard files can be misread.'),
 'C30': ('proved', 'C30_one_byte_consumed is the behaviour of the code for every declared size; C30_wide_stereo_mode_refuted proves that standard files can be misread.'),
 'C37': ('proved', 'C37_last_record_decides and C37_harmless_comments are the positive claims; the _refuted theorems and C37_any_archive_can_be_forged the counter-examples of the statement.'),
 'C39': ('proved', 'C39_proportional_refuted proves the last clause of the statement.'),
 'C46': ('proved', 'The _refuted theorems prove that the two exceptions named in the statement are real.'),
 'C48': ('proved', 'C48_overlooked_refuted, C48_misfiled_refuted and C48_registered_media_refuted prove the exceptions named in the statement.'),
 'C50': ('proved', 'C50_mp4_stays_recognised_refuted proves the last clause of the statement.'),
 'C53': ('proved', 'The two _refuted theorems prove the last two clauses of the statement (panic with a shared handle, no return on an endless stream).'),
 'C52': ('proved', 'C52_rewinds_refuted proves the last clause of the statement.'),
 'C60': ('proved', 'The _refuted theorems prove the exceptions named at the end of the statement.'),
 'C61': ('proved', 'C61_other_extension_refuted and C48_registered_media_refuted prove the exceptions named in the statement.'),
 'C62': ('proved', 'The _refuted theorems prove the exceptions named at the end of the statement.'),
 'C63': ('proved', 'The _refuted theorems prove the exceptions named at the end of the statement.'),
 'C64': ('proved', 'The counted programs are separate definitions; every bound comes with the proof that without the counter they are the modelled programs. Comparisons of names are not counted.'),
 'C65': ('proved', 'Headers as described by the specifications and by file(1). Members that are missed (ADTS with checksum, /usr/bin/sh, big-endian Nikon raw files, AbiWord with a byte order mark, ...) are stated as a refuted theorem.'),
 'C66': ('proved', '1422 headers for the 343 formats in the table; for about 80 formats only the essential part of the header is compared by the library.'),
 'C67': ('proved', 'The identifiers in `Derive` are generated from the definitions in formats.rs; what derive generates is modelled after the reference (discriminants in order of declaration, Debug writes the identifier).'),
 'C68': ('proved', 'The witness shows a program reported as binary data when one seek fails; `C68_failure_is_reported_refuted` shows that no error is returned.'),
 'C69': ('proved', 'The texts in `Source` are copied byte for byte by tools/gen_source.py; lexing, expansion and evaluation are done in Coq, so the generated tables `Signatures`, `Formats` and `Derive` are no longer trusted: they are proved to be what the texts say.'),
 'C70': ('proved', 'The text in `Source` is copied byte for byte; the hand-written readers of `Readers.v` are thereby no longer trusted: they are proved to do what the text does. Calls of std are primitives of the evaluator; so are the calls of FindBytes in the readers, whose own text is proved to do what the primitive does (C70_find_text, C70_rfind_text, C70_holds_text).'),
 'C71': ('proved', 'Trusted: the part of Rust and std in `LibSem` (read into a buffer, slices, ?, if let, unwrap_or_else, unwrap_or_default); Cursor::new and File::open are parameters.'),
}
