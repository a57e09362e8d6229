{"id": "C01", "title": "Empty is reported exactly for empty input", "statement": "FileFormat::from_bytes(b) returns FileFormat::Empty if and only if b has length zero; in particular no non-empty input, with any set of reader features, is ever reported as Empty.", "quantifier": "every byte sequence, every subset of the twelve reader features", "why_tests_cant": "the 'only if' direction ranges over all non-empty inputs and all paths of twelve parsers", "anchors": ["src/lib.rs: FileFormat::from_reader", "src/readers.rs: from_fmt_reader"]}
{"id": "C02", "title": "Detection from bytes is total", "statement": "FileFormat::from_bytes terminates with a FileFormat value and does not panic for any byte sequence and any feature set, on a 64-bit build without overflow checks (and on a 32-bit build when reader-zip is off; with reader-zip a 32-bit build can panic on a crafted archive that asks for a buffer above isize::MAX); in particular every parsing loop terminates and no slice index is out of range. The same holds for from_reader on every reader, whatever it delivers and wherever it fails.", "quantifier": "every byte sequence (length below 2^63), every feature set", "why_tests_cant": "a panic or an endless loop needs an adversarial file; tests only hold a few well-formed fixtures", "anchors": ["src/lib.rs: from_bytes", "src/lib.rs: from_reader", "src/readers.rs: from_*_reader", "src/readers.rs: FindBytes::find/rfind"]}
{"id": "C03", "title": "Checked builds agree with release builds or panic only in three readers", "statement": "A build with overflow checks (debug profile) gives the same answer as a release build on every input on which it answers, and it answers on every input when the ASF, MP4 and ZIP readers are off. With any of those three readers the claim 'no panic' is false: there are crafted files (sizes near 2^63 or 2^64) on which the checked build panics.", "quantifier": "every byte sequence, every feature set, overflow checks on", "why_tests_cant": "needs a 64-bit size field near 2^63 or 2^64 in a crafted file", "anchors": ["src/readers.rs: from_asf_reader (size as i64 - 40, offset + size - 26, size as i64 - 24)", "src/readers.rs: from_mp4_reader (size as i64 - 20 / - 8)", "src/readers.rs: from_zip_reader (eocd64_offset + 32)"]}
{"id": "C04", "title": "The signature scan is a first-match over the documented table", "statement": "Without reader features, a non-empty input is reported as format f exactly when some alternative of f's signature matches (every (offset, value) part of it is present in the input) and no format listed earlier has a matching alternative; it is reported as the default format ArbitraryBinaryData exactly when no alternative of any format matches.", "quantifier": "every non-empty byte sequence", "why_tests_cant": "343 formats with about 800 alternatives interact through priority; the claim ranges over every input", "anchors": ["src/macros.rs: signatures!", "src/signatures.rs: signatures!", "src/lib.rs: from_reader"]}
{"id": "C05", "title": "The 36870-byte window loses no signature", "statement": "Classification by signature looks only at the first 36870 bytes and would not change if it saw the whole input: two inputs that agree on their first 36870 bytes get the same signature result, and no signature alternative extends beyond that window. 36870 is the least such bound.", "quantifier": "every pair of byte sequences", "why_tests_cant": "all inputs of all lengths, including those cut exactly at a signature boundary", "anchors": ["src/lib.rs: from_reader buf = [0; 36_870]", "src/signatures.rs: Iso9660 offset = 36865"]}
{"id": "C06", "title": "Appending data never hides a signature", "statement": "If a prefix of a stream is recognised by signature as f, then any extension of it is still recognised by signature, as f or as a format with higher priority (listed earlier).", "quantifier": "every byte sequence and every extension", "why_tests_cant": "monotonicity over all inputs", "anchors": ["src/macros.rs: signatures! (bytes.len() >= offset + len && ...)"]}
{"id": "C07", "title": "No signature alternative is dead", "statement": "For every format with a signature and every alternative of it there is an input on which from_bytes without reader features returns that format and that alternative matches, i.e. no alternative is completely shadowed by an earlier entry.", "quantifier": "every alternative in the signature table", "why_tests_cant": "tests hold one or two fixtures per format, not one per alternative", "anchors": ["src/signatures.rs: signatures!"]}
{"id": "C08", "title": "Every format is reachable", "statement": "For every FileFormat variant there is a byte sequence on which from_bytes, with all reader features, returns that variant.", "quantifier": "every FileFormat variant", "why_tests_cant": "the statement is about the enumeration as a whole; a variant that no code path can return cannot be found by tests of other variants", "anchors": ["src/formats.rs: formats!", "src/readers.rs: all readers", "src/signatures.rs: signatures!"]}
{"id": "C09", "title": "A reader feature only affects its own container", "statement": "Switching a container reader feature on or off can change the result only for inputs whose signature is that feature's container format; switching reader-txt on or off can change the result only between PlainText and ArbitraryBinaryData.", "quantifier": "every byte sequence, every feature set", "why_tests_cant": "two configurations compared on every input", "anchors": ["src/readers.rs: from_fmt_reader", "src/readers.rs: from_generic_reader"]}
{"id": "C10", "title": "A reader only returns the formats documented for its feature", "statement": "For an input whose signature is the container format F, the result is F itself, one of the formats the crate documentation lists for F's reader feature, or (when the container cannot be parsed) PlainText/ArbitraryBinaryData. This holds whatever the underlying reader returns, including I/O errors and inconsistent data.", "quantifier": "every byte sequence, every feature set, every reader behaviour", "why_tests_cant": "must hold on every path through every parser, including malformed files", "anchors": ["src/lib.rs: crate docs (Reader features)", "src/readers.rs: from_fmt_reader and the twelve readers"]}
{"id": "C11", "title": "Unparsable containers fall back to the generic result", "statement": "If the container reader produces a format, from_bytes returns it; if it fails (truncated or malformed container) from_bytes returns exactly what it would return for data without a known signature: PlainText or ArbitraryBinaryData with reader-txt, ArbitraryBinaryData without. A file shorter than the fixed header of its container always takes this fallback, so the stronger reading 'enabling a reader feature never loses the container detection' is false.", "quantifier": "every byte sequence, every feature set", "why_tests_cant": "all truncation points of all containers", "anchors": ["src/lib.rs: from_reader unwrap_or_else", "src/readers.rs: from_generic_reader"]}
{"id": "C12", "title": "Errors come only from the first read", "statement": "FileFormat::from_reader returns Err exactly when its first read call fails, and then returns that error; any later read or seek error is absorbed and a format is returned.", "quantifier": "every reader content, position, chunking and fault schedule", "why_tests_cant": "requires injecting a fault at every possible operation of every parser", "anchors": ["src/lib.rs: from_reader", "src/readers.rs: from_generic_reader unwrap_or_default"]}
{"id": "C13", "title": "from_bytes never takes its error branch", "statement": "from_bytes(b) equals the Ok value of from_reader(Cursor::new(b)) for every b; the unwrap_or_default fallback in From<&[u8]> is never used because of an error.", "quantifier": "every byte sequence", "why_tests_cant": "all inputs", "anchors": ["src/lib.rs: impl From<&[u8]> for FileFormat"]}
{"id": "C14", "title": "Result does not depend on chunking after the first read", "statement": "For a fault-free reader the result is determined by the content, the start position and what the first read returns: how later reads are split (any number of short reads and Interrupted retries) does not change it, unless the signature is XML, SQLite3 or PDF and that reader is enabled. PDF tolerates short reads of files up to its 32 MiB limit (but an Interrupted read makes it give up); XML and SQLite3 look at exactly the bytes their single read call returns. Counter-examples show that each exception is real, and so is the dependence on the first read.", "quantifier": "every content, every schedule of short reads and interruptions", "why_tests_cant": "exponentially many schedules", "anchors": ["src/lib.rs: from_reader", "src/readers.rs: read_exact based helpers, BufReader", "src/readers.rs: from_pdf_reader", "src/readers.rs: from_xml_reader", "src/readers.rs: from_sqlite3_reader"]}
{"id": "C15", "title": "Buffered access is transparent", "statement": "For every container reader that the library runs behind the standard BufReader (ASF, EBML, MP4, RealMedia, ZIP), and also for those for compound files, executables and ID3v2: running it behind a BufReader over a fault-free stream gives the same result as running it directly on the stream, however the stream is split into reads.", "quantifier": "every reader program, every content, position and chunking schedule", "why_tests_cant": "all interleavings of buffered reads and relative seeks", "anchors": ["src/readers.rs: BufReader::new(reader) in asf, ebml, mp4, rm, txt, zip"]}
{"id": "C16", "title": "The start position decides the signature only", "statement": "from_reader on a reader positioned at p takes the signature from the bytes at p, while the container readers and the text reader work from offset 0 of the stream: the result is determined by the content and the 36870 bytes at p, and equals from_bytes(content) when the content carries the same container signature at 0. Without reader features the position simply cuts the stream; with reader features the reading 'equals from_bytes of the remaining bytes' is false.", "quantifier": "every content and start position", "why_tests_cant": "all inputs and positions", "anchors": ["src/lib.rs: from_reader", "src/readers.rs: seek(SeekFrom::Start(..)) at the start of every reader"]}
{"id": "C17", "title": "from_file agrees with from_bytes", "statement": "For a readable regular file from_file(path) never returns Err and returns either Ok(from_bytes(contents)) or the generic result (the latter only because files refuse some seek targets that an in-memory cursor accepts); it agrees with from_bytes unless the contents carry the ASF, MP4 or ZIP signature with that reader enabled, on file systems that accept offsets 2^45 (EBML: 2^57) past the end of the file, and also for every well-formed ASF, MP4, ZIP or ZIP64 file. Crafted ASF and MP4 files on which they differ exist. A path that cannot be opened or read gives Err.", "quantifier": "every file content, every maximal seek offset of the file system", "why_tests_cant": "all contents; needs sizes that no test file has", "anchors": ["src/lib.rs: from_file", "src/readers.rs: seek(SeekFrom::Current(size as i64 ..))"]}
{"id": "C18", "title": "Byte-pattern search is exact", "statement": "Searching a marker in a buffer finds it if and only if it occurs as a contiguous run of bytes; the forward search yields the first occurrence and the reverse search the last, for every buffer and marker.", "quantifier": "every buffer, every pattern", "why_tests_cant": "Boyer-Moore-Horspool shift errors show up only for particular pattern/text overlaps", "anchors": ["src/readers.rs: FindBytes::find", "src/readers.rs: FindBytes::holds", "src/readers.rs: FindBytes::rfind"]}
{"id": "C19", "title": "XML dialects are recognised by their root marker", "statement": "With reader-xml, an XML-signed input is reported as the first dialect in the documented order whose marker(s) occur within the 8192 bytes following the first five, and as ExtensibleMarkupLanguage if none occurs.", "quantifier": "every byte sequence", "why_tests_cant": "all positions of all markers, and all combinations of markers", "anchors": ["src/readers.rs: from_xml_reader"]}
{"id": "C20", "title": "Illustrator artwork is recognised wherever the marker lies", "statement": "With reader-pdf, a PDF-signed input is reported as AdobeIllustratorArtwork if and only if the bytes AIPrivateData occur as a contiguous run within bytes 5 .. 5+32 MiB, regardless of 32 KiB chunk boundaries. If the reader splits its data into short reads this still holds up to the limit, except that up to 32767 bytes past the limit may be searched too.", "quantifier": "every byte sequence, every chunking", "why_tests_cant": "needs the marker at each alignment relative to each chunk boundary", "anchors": ["src/readers.rs: from_pdf_reader"]}
{"id": "C21", "title": "Sketch databases are recognised by their marker", "statement": "With reader-sqlite3, an SQLite-3-signed input is reported as Sketch if and only if com.bohemiancoding.sketch3 occurs within bytes 100 .. 100+32768.", "quantifier": "every byte sequence", "why_tests_cant": "all marker positions including the window edges", "anchors": ["src/readers.rs: from_sqlite3_reader"]}
{"id": "C22", "title": "Plain text is exactly clean UTF-8", "statement": "With reader-txt, an input without a known signature is reported as PlainText if and only if its first 16 lines, cut at 65536 bytes, are valid UTF-8 and contain no control character other than white space; otherwise it is ArbitraryBinaryData.", "quantifier": "every byte sequence", "why_tests_cant": "ranges over all Unicode text and all invalid encodings", "anchors": ["src/readers.rs: from_txt_reader"]}
{"id": "C23", "title": "Encoded Unicode text is detected", "statement": "The UTF-8 encoding of a sequence of Unicode scalar values without forbidden control characters in its first 16 lines, with no signature, is reported as PlainText, whatever its length and whatever follows those lines (even bytes that are not UTF-8), with exactly one exception: when the cut at byte 65536 falls inside a multi-byte character of the first 16 lines it is reported as ArbitraryBinaryData. So every such text of at most 65536 bytes and every ASCII text of any length is PlainText, while 'all clean text is detected' is false.", "quantifier": "every sequence of scalar values", "why_tests_cant": "ranges over all texts; the exception needs a character that straddles one particular offset", "anchors": ["src/readers.rs: from_txt_reader"]}
{"id": "C24", "title": "DOS/Windows executables are told apart by their extended header", "statement": "With reader-exe, an MZ/ZM-signed input of at least 64 bytes is classified from the 32-bit little-endian offset at byte 60: PE with/without the DLL characteristic, LE/LX, NE, or plain MS-DOS; an offset outside the file gives MsDosExecutable; inputs shorter than 64 bytes or with a truncated PE header get the generic result.", "quantifier": "every byte sequence", "why_tests_cant": "all offsets and all truncations", "anchors": ["src/readers.rs: from_exe_reader"]}
{"id": "C25", "title": "ID3v2 tags are skipped", "statement": "With reader-id3v2, a file that consists of any number of ID3v2 tags (with or without footer, without extended header) followed by FLAC or MPEG layer 3 data is reported as FLAC or MP3; other data of at least ten bytes gives Id3v2.", "quantifier": "every list of tags of every size, every payload", "why_tests_cant": "unbounded chains of tags of arbitrary synchsafe size", "anchors": ["src/readers.rs: from_id3v2_reader"]}
{"id": "C26", "title": "How ID3v2 extended headers are skipped", "statement": "A tag whose extended-header flag is set is skipped as if the size stored in its extended header came on top of the tag size: C25 holds when each such tag is followed by that many bytes of any content. By the ID3v2 standard the extended header is part of the tag size, so for a standard file the reader lands behind the end of the tag and FLAC or MP3 data can be missed (a counter-example is given).", "quantifier": "every tag with the extended-header flag", "why_tests_cant": "needs a file with an extended header", "anchors": ["src/readers.rs: from_id3v2_reader next_offset += reader.read_u32_be()"]}
{"id": "C27", "title": "MP4 tracks decide the MP4 kind", "statement": "With reader-mp4, a well-formed MP4 box tree (32-bit sizes, at most 256 boxes visited) is reported as video if it has a video handler, else audio, else subtitle, else plain MP4, whatever the order, number and size of the boxes.", "quantifier": "every tree of boxes", "why_tests_cant": "unbounded structured inputs", "anchors": ["src/readers.rs: from_mp4_reader"]}
{"id": "C28", "title": "How 64-bit MP4 box sizes are treated", "statement": "C27 holds for container boxes (moov, trak, mdia) that use the 64-bit size field. Any other box with a 64-bit size is skipped as if it were 8 bytes longer than it is, so C27 fails for it (a counter-example is given), and holds if such a box is followed by 8 bytes of any content.", "quantifier": "every box with 64-bit size", "why_tests_cant": "needs a file with a 64-bit sized box before the movie header", "anchors": ["src/readers.rs: from_mp4_reader (size == 1)"]}
{"id": "C29", "title": "Matroska and WebM are recognised from the EBML header and the tracks", "statement": "With reader-ebml, a well-formed EBML stream with DocType webm is Webm; with DocType matroska it is 3D video if a stereo mode is set before the first cluster, else video, audio, subtitles by the codec ids found before the first cluster; another DocType gives ExtensibleBinaryMetaLanguage.", "quantifier": "every well-formed element stream, every size encoding length", "why_tests_cant": "unbounded structured inputs and all vint lengths", "anchors": ["src/readers.rs: from_ebml_reader"]}
{"id": "C30", "title": "Only one byte of a stereo mode is consumed", "statement": "Of a StereoMode element one byte is consumed whatever its declared size: C29 holds for one-byte stereo modes, and for a wider one the remaining bytes are interpreted as further elements, so that a video with a two-byte stereo mode can be reported as ArbitraryBinaryData (counter-example).", "quantifier": "every StereoMode payload length 1..8", "why_tests_cant": "needs a non-minimal integer encoding", "anchors": ["src/readers.rs: from_ebml_reader STEREO_MODE_ELEMENT_ID"]}
{"id": "C31", "title": "ASF streams decide the ASF kind", "statement": "With reader-asf, a well-formed ASF header (any list of objects, up to 256) is reported as DVR-MS if an extended content descriptor named 'DVR File Version' is met, else WMV if a video stream is declared, else WMA if an audio stream is declared, else ASF.", "quantifier": "every list of header objects", "why_tests_cant": "unbounded structured inputs", "anchors": ["src/readers.rs: from_asf_reader"]}
{"id": "C32", "title": "Compound files are classified by the CLSID of the root entry", "statement": "With reader-cfb, a compound file whose root directory entry carries one of the known class identifiers (serialised as MS-DTYP prescribes) is reported as the associated format wherever the first directory sector lies and for both sector sizes; otherwise by the second/third directory entry name; otherwise CompoundFileBinary.", "quantifier": "every sector location, sector size and surrounding content", "why_tests_cant": "all directory locations", "anchors": ["src/readers.rs: from_cfb_reader", "src/readers.rs: read_guid"]}
{"id": "C33", "title": "RealMedia streams decide the RealMedia kind", "statement": "With reader-rm, a well-formed RealMedia file is reported as RealVideo if a media properties chunk has a video/ mime type, else RealAudio if one has an audio/ mime type, else RealMedia, among the first 64 chunks.", "quantifier": "every list of chunks", "why_tests_cant": "unbounded structured inputs", "anchors": ["src/readers.rs: from_rm_reader"]}
{"id": "C34", "title": "ZIP-based formats are decided by the central directory", "statement": "With reader-zip, a well-formed archive (any local data, any list of entries, any extra fields, entry comments and an archive comment without an end-of-central-directory signature) is reported as the format of the first decisive entry among the first 1024, else JAR if a manifest was met, else Zip.", "quantifier": "every archive", "why_tests_cant": "unbounded lists of entries of unbounded size", "anchors": ["src/readers.rs: from_zip_reader"]}
{"id": "C35", "title": "The stored mimetype entry decides", "statement": "With reader-zip, an archive whose first decisive entry is a stored 'mimetype' entry is reported as the format of its media type, ignoring white space around it, and as Zip for unknown media types.", "quantifier": "every archive with such an entry, all surrounding white space", "why_tests_cant": "all archives", "anchors": ["src/readers.rs: from_zip_reader \"mimetype\""]}
{"id": "C36", "title": "ZIP64 archives are decided the same way", "statement": "The classification of C34 holds when the central directory is located through a ZIP64 end-of-central-directory record.", "quantifier": "every ZIP64 archive", "why_tests_cant": "all archives", "anchors": ["src/readers.rs: from_zip_reader zip64"]}
{"id": "C37", "title": "The last end-of-central-directory signature decides a ZIP archive", "statement": "The last PK\\x05\\x06 in the last 65557 bytes of the file is taken for the end-of-central-directory record, whatever surrounds it: a comment without that signature cannot change the classification of C34, while a comment that contains one can replace the central directory and so choose the format (counter-examples).", "quantifier": "every archive comment", "why_tests_cant": "needs an adversarial comment", "anchors": ["src/readers.rs: from_zip_reader rfind(EOCD_SIGNATURE)"]}
{"id": "C38", "title": "I/O is bounded", "statement": "The number of read and seek calls made on the underlying reader is bounded by a constant, for every stream and whatever the reader answers, except that reader-id3v2 makes a number of calls linear in the stream length on ID3v2-signed data. (Calls answered with Interrupted are retried and not counted.)", "quantifier": "every input and reader behaviour", "why_tests_cant": "resource bounds over all inputs", "anchors": ["src/readers.rs: *_LIMIT constants"]}
{"id": "C39", "title": "Memory requests are bounded", "statement": "Without reader-zip no requested heap buffer exceeds 255 bytes; with it all requests are at most 65557 bytes except at most one (the stored mimetype entry), which is below 2^32 bytes. The bound 'proportional to the file' is false: a 106-byte archive makes the library request 2^32-1 bytes.", "quantifier": "every input and reader behaviour", "why_tests_cant": "resource bounds over all inputs", "anchors": ["src/readers.rs: read_bytes", "src/readers.rs: from_zip_reader read_string(compressed_size)"]}
{"id": "C40", "title": "Format metadata is well formed", "statement": "For every format: the name is non-empty and unique, the extension is non-empty and without a dot or space, the media type has the shape type/subtype, the short name (if any) is non-empty, Display prints the name; every Kind is used by some format.", "quantifier": "every FileFormat variant", "why_tests_cant": "finite but total: each new variant must satisfy it", "anchors": ["src/formats.rs: formats!", "src/macros.rs: formats!", "src/lib.rs: impl Display"]}
{"id": "C41", "title": "Identifiers are decoded by the documented byte order", "statement": "GUIDs are rendered in the canonical mixed-endian hyphenated lower-case form, injectively; integers are decoded little/big endian as specified, for every byte pattern.", "quantifier": "every 16-byte and 1/2/4/8-byte pattern", "why_tests_cant": "2^128 patterns", "anchors": ["src/readers.rs: read_guid, read_u16_le, read_u32_be, read_u32_le, read_u64_be, read_u64_le"]}
{"id": "C42", "title": "Invalid UTF-8 in names cannot forge or hide an ASCII match", "statement": "Lossy decoding of entry names and media types never changes whether a name equals, starts with, ends with or contains an ASCII pattern.", "quantifier": "every byte sequence, every ASCII pattern", "why_tests_cant": "all malformed UTF-8 sequences", "anchors": ["src/readers.rs: read_string", "src/readers.rs: from_zip_reader name checks"]}
{"id": "C43", "title": "The default format is the documented one", "statement": "FileFormat::default() is ArbitraryBinaryData; from_bytes returns it for every input without a known signature when reader-txt is off.", "quantifier": "every byte sequence", "why_tests_cant": "all inputs", "anchors": ["src/lib.rs: impl Default", "src/readers.rs: from_generic_reader"]}
{"id": "C44", "title": "Bytes outside the windows of the readers are irrelevant", "statement": "Without reader features the bytes after the first 36870 never matter; with reader-txt, for data without signature, bytes after the first 65536 never matter; for XML and SQLite 3 data bytes after the first 36870 never matter, and for PDF data bytes after the first 5 + 32 MiB, whatever readers are enabled.", "quantifier": "every pair of inputs", "why_tests_cant": "hyper-property over pairs of inputs", "anchors": ["src/lib.rs: from_reader", "src/readers.rs: from_txt_reader", "src/readers.rs: from_xml_reader"]}
{"id": "C45", "title": "The lefi program prints one aligned line per file", "statement": "The command-line program lefi succeeds exactly when every argument is a symbolic link, a directory or a readable file, and then prints one line per argument, in order: the path, a colon and spaces up to one common column just behind the longest path, then 'Symbolic Link', 'Directory' or the name of the format with its short name in parentheses. Otherwise it stops at the first unreadable path with the error of that path, after printing the lines of the paths before it. It never panics on a 64-bit release build.", "quantifier": "every file system, every list of arguments", "why_tests_cant": "all combinations of paths, path lengths and file system states", "anchors": ["examples/lefi.rs: main"]}
{"id": "C46", "title": "Results depend on the width of usize for EBML and ZIP only", "statement": "32-bit and 64-bit builds return the same result for every input, unless the input carries the EBML or ZIP signature and that reader is enabled; in those two cases there are crafted inputs on which the builds differ.", "quantifier": "every byte sequence, every feature set", "why_tests_cant": "compares two builds on every input; differences need sizes above 2^32", "anchors": ["src/readers.rs: as usize casts", "src/readers.rs: from_ebml_reader", "src/readers.rs: from_zip_reader"]}
{"id": "C47", "title": "Every container, however damaged, is classified by one walk through its bytes", "statement": "For every MP4, ASF, RealMedia, EBML, ID3v2 or ZIP signed input, well formed or not, from_bytes returns what one explicit walk over the absolute offsets of the input says: which sizes are believed, which offsets are visited, in which order, up to which limits, what happens when a size is too small, too large or points backwards, and that a walk which runs into the end of the data gives the generic result. Nothing is assumed about the input. Builds with overflow checks return the same or panic. (ZIP: 64-bit builds.)", "quantifier": "every byte sequence with one of the six signatures, every feature set, both profiles", "why_tests_cant": "the property is about all malformed and truncated files, of any size", "anchors": ["src/readers.rs: from_mp4_reader", "src/readers.rs: from_asf_reader", "src/readers.rs: from_rm_reader", "src/readers.rs: from_ebml_reader", "src/readers.rs: from_id3v2_reader", "src/readers.rs: from_zip_reader"]}
{"id": "C48", "title": "Well-known magic numbers are recognised whatever follows them", "statement": "For about 470 magic numbers of 323 formats taken from the format specifications (PNG, GIF, JPEG, PDF, ZIP, gzip, ELF, Ogg, ...): without reader features every input that carries the magic number is reported as that format, as one of the listed refinements of it (such as APNG for PNG), or as one of a fixed list of formats that are recognised by bytes further behind, and the latter two only if their signature is present too; with any features, if none of those signatures is present, it is reported as that format or handed to the enabled reader responsible for it. The media type and the extension that come with the format are the standard ones. Magic numbers at larger offsets (tar, ISO 9660, DICOM) can only lose against a signature that is at least as large. Not so for some valid starts of files, which are proved never to be reported as their format (the VHD cookie \"conectix\", captures with nanosecond time stamps, big-endian SquashFS, XML in UTF-16, WordPerfect documents, which are taken for presentations, ...).", "quantifier": "every input carrying one of the magic numbers, every continuation", "why_tests_cant": "all continuations of a magic number, and all interactions with the 726 other signature alternatives", "anchors": ["src/signatures.rs: signatures!", "src/formats.rs: formats!", "src/lib.rs: from_reader"]}
{"id": "C49", "title": "Of several signatures the largest decides", "statement": "If several signatures are present in an input, the reported format is one whose signature (its largest alternative) is at least as large as every other one that is present.", "quantifier": "every byte sequence", "why_tests_cant": "all combinations of signatures at different offsets", "anchors": ["src/signatures.rs: signatures! (listed in descending order of size)"]}
{"id": "C50", "title": "Appended data does not revoke a decisive result", "statement": "If a container has been recognised (ASF, compound file, ID3v2, RealMedia: any result of the reader; EBML: WebM, 3D video; executables: PE, DLL, LE, NE; PDF: Illustrator; SQLite: Sketch), then any extension of the input that still carries the same signature (always the case beyond 36870 bytes) gives the same result; an XML dialect can only be replaced by one of higher priority; the data behind the first cluster of a Matroska file is irrelevant; an MP4 file keeps at least the rank of its tracks or becomes unrecognisable, and the latter really happens (a few bytes of garbage behind a complete video).", "quantifier": "every input, every continuation, every feature set", "why_tests_cant": "pairs of inputs of any length; a hyper-property", "anchors": ["src/readers.rs: from_asf_reader", "src/readers.rs: from_cfb_reader", "src/readers.rs: from_ebml_reader", "src/readers.rs: from_exe_reader", "src/readers.rs: from_id3v2_reader", "src/readers.rs: from_mp4_reader", "src/readers.rs: from_pdf_reader", "src/readers.rs: from_rm_reader", "src/readers.rs: from_sqlite3_reader", "src/readers.rs: from_xml_reader"]}
{"id": "C51", "title": "The README lists exactly the formats of the crate", "statement": "Every format appears in the list of the README under its kind(), with its name() and its short_name() in parentheses; every line of the list is a format; no line occurs twice, so the line tells the format.", "quantifier": "every FileFormat variant, every line of the README", "why_tests_cant": "agreement of two lists of 447 items that are maintained by hand", "anchors": ["README.md", "src/formats.rs: formats!"]}
{"id": "C52", "title": "from_reader leaves the stream unchanged and can be repeated after seeking back", "statement": "from_reader only reads and seeks: the stream is the same afterwards whatever happens. A fault-free reader that is moved back to where it was gives the same answer again. The reader is not rewound: without reader features it is left behind the window that was read, so that a second call without seeking back looks at what follows.", "quantifier": "every reader, every schedule of faults, every feature set", "why_tests_cant": "all streams and fault schedules; relates two successive calls", "anchors": ["src/lib.rs: from_reader"]}
{"id": "C53", "title": "from_reader on any Read + Seek implementation", "statement": "Whatever a reader does within the contracts of Read and Seek (contents that change between calls, errors at any time, inconsistent positions): from_reader fails exactly with the error of its first read; Empty means the first read returned nothing; any other answer is the signature found in the first read, a documented refinement of that container, or one of the two generic answers. A reader with a cursor of its own (position moved only by its own reads and seeks) cannot make a 64-bit release build panic. If the position may be moved by someone else (a handle shared between threads), the ASF, EBML, MP4 and RealMedia readers, and only these, can panic. from_reader need not return on a reader without an end.", "quantifier": "every implementation of Read + Seek, every state, every feature set", "why_tests_cant": "implementations of the traits are arbitrary code; no test set covers them", "anchors": ["src/lib.rs: from_reader", "src/readers.rs: from_asf_reader", "src/readers.rs: from_ebml_reader", "src/readers.rs: from_mp4_reader", "src/readers.rs: from_rm_reader", "src/readers.rs: from_id3v2_reader"]}
{"id": "C54", "title": "Detection from memory is one explicit specification", "statement": "from_bytes returns Empty for no data; the format of the first matching signature if no enabled container reader is concerned; for a signed container what the structure of the data says (a refinement or the container itself, and the generic text or binary answer if the structure cannot be followed); the generic answer without any signature. The specification covers every byte string, assigns exactly one format to each, and any result of any build is that format.", "quantifier": "every byte sequence, every feature set, both profiles", "why_tests_cant": "an equivalence over all inputs between the code and a specification of all twelve containers, the signature table and the text rule", "anchors": ["src/lib.rs: from_bytes", "src/lib.rs: from_reader", "src/lib.rs: from_signature", "src/readers.rs: from_reader"]}
{"id": "C55", "title": "Detection from readers and files is the same specification", "statement": "from_reader on a reader that does not fail returns the format determined by three things only: the bytes returned by its first read (in which the signature is looked up), the whole stream from its start (about which the container and text rules are), and the largest offset it accepts. from_file is the case of a stream read from its beginning. Every such stream has exactly one format. How later reads are split or interrupted does not matter, except for PDF, SQLite 3 and XML data.", "quantifier": "every stream, starting position, first read, schedule of short and interrupted reads, largest offset, feature set and profile", "why_tests_cant": "an equivalence between the code and a specification over all streams and schedules", "anchors": ["src/lib.rs: from_reader", "src/lib.rs: from_file", "src/readers.rs: from_reader"]}
{"id": "C56", "title": "Overflow checks only matter for absurd sizes", "statement": "A build with overflow checks (debug) and one without (release) give the same result, and no panic, on all data except: MP4 data with a 64-bit box size in the twenty values from 2^63, ASF data with an object size in the forty values from 2^63 or an extended content description that ends beyond 2^64, and ZIP data with a ZIP64 locator that points to the last 32 bytes of the 64-bit range. In particular, MP4 data without the bytes 80 00 00 00 00 00 00, ASF data without 00 00 00 00 00 00 80 and sane extended content descriptions, and all data of other formats, never panics in a debug build (ZIP: 64-bit builds).", "quantifier": "every byte string, reader, file, feature set, profile and pointer width", "why_tests_cant": "the absence of overflow panics for every input that avoids a few sizes; a test only tries some inputs", "anchors": ["src/lib.rs: from_bytes", "src/lib.rs: from_reader", "src/readers.rs: from_asf_reader", "src/readers.rs: from_mp4_reader", "src/readers.rs: from_zip_reader"]}
{"id": "C57", "title": "Cargo features enable exactly the documented readers", "statement": "For every list of requested Cargo features, with or without default features: a reader is compiled in iff the request contains `reader` or the feature of that reader. Nothing is enabled by default; `reader` is the same build as all twelve features, for every input; when several packages request features, the reader set is the union (nothing is switched off); order, repetition and unknown names do not matter.", "quantifier": "every list of feature names, every input, reader and file", "why_tests_cant": "2^12 builds and all inputs; CI builds only a few combinations", "anchors": ["Cargo.toml: [features]", "src/readers.rs: from_fmt_reader", "src/readers.rs: from_generic_reader", "src/lib.rs: crate documentation"]}
{"id": "C58", "title": "from_reader returns on every stream that ends, whatever happens to it meanwhile", "statement": "For every implementation of Read + Seek with a cursor of its own that never delivers a byte at or behind some offset below 2^63 and interrupts finitely often, FileFormat::from_reader returns, even if the bytes differ from one call to the next: another process may rewrite, truncate or extend the file between any two calls. In builds without overflow checks (64 bits, or without the ZIP reader) it returns the error of the first read or a format.", "quantifier": "every implementation of Read + Seek of that kind, every history of edits, short reads and interruptions, every build", "why_tests_cant": "the interleavings of the reader with other writers are unbounded, and a loop that never ends is not observable by a test", "anchors": ["src/lib.rs: from_reader", "src/readers.rs: from_fmt_reader", "src/readers.rs: ReadData", "src/readers.rs: from_zip_reader", "src/readers.rs: from_mp4_reader"]}
{"id": "C59", "title": "The amount of data taken from the reader is bounded", "statement": "Whatever the caller's reader does (contents that change, streams without end, errors, short reads): when FileFormat::from_reader stops, the reader has delivered at most 118790 bytes if no enabled container reader is concerned, and otherwise at most a fixed amount more that depends on the container only (for example 10 bytes for executables, 150 for compound files, 8 KiB for XML, 32 KiB for SQLite, 32 MiB + 32767 for PDF); in all at most 139119114 bytes without reader-zip and reader-id3v2, 4387525690 with reader-zip. ID3v2 data: at most 14 times the length of the stream plus a constant. Putting a meter into the reader does not change the result.", "quantifier": "every implementation of Read + Seek, every build, every stopping point", "why_tests_cant": "for all streams, including endless ones, and all behaviours of the reader", "anchors": ["src/lib.rs: from_reader", "src/readers.rs: from_fmt_reader", "src/readers.rs: from_pdf_reader", "src/readers.rs: from_zip_reader", "src/readers.rs: from_txt_reader", "src/readers.rs: BufReader use"]}
{"id": "C60", "title": "Packages that are ZIP archives are recognised by their parts, in any order", "statement": "For every ZIP (or ZIP64) archive of at most 1024 entries whose entries are those a package of one of nineteen kinds consists of (DOCX, PPTX, XLSX, VSDX, 3MF, OpenXPS, APPX and its bundle, VSIX, APK, AAB, JAR, WAR, EAR, IPA, KMZ, USDZ, Sketch, XAP), with at least one of the parts that mark it, FileFormat::from_bytes reports that package, whatever the order, the data, the gaps and the comments. More generally the order of the entries is irrelevant unless a mimetype entry is present or two entries point to different formats. An archive that begins with a stored mimetype entry (EPUB, OpenDocument, OpenRaster) is reported as the format with that media type. Exceptions that are proved: the first marking entry wins if two disagree, a JAR with a Java package `word` is a DOCX, an OpenXPS document whose pages are not under Documents/ and a compressed MusicXML score without mimetype are plain ZIP archives, and so is every AIR package that begins with its media type.", "quantifier": "every archive, order of entries, entry data, comment, build", "why_tests_cant": "for all archives and permutations of their entries", "anchors": ["src/readers.rs: from_zip_reader", "src/lib.rs: from_bytes"]}
{"id": "C61", "title": "Media types, extensions and kinds are the registered ones and agree", "statement": "For every format with a media type registered at IANA (139 formats): media_type() is the registered one and extension() is one of the extensions of the registration, except for the fifteen formats of C48; for the other formats extension() is the one in use, except OpenXPS (oxps) and OpenOffice.org master documents (sxg). For every format, kind() and media_type() do not contradict each other: a top-level media type other than application and text determines the kind (an image may be a document, audio and video may be a playlist), and conversely.", "quantifier": "every format", "why_tests_cant": "tests look at single formats; the cross-check must hold for every format that is ever added", "anchors": ["src/formats.rs: formats!", "src/macros.rs: formats", "src/lib.rs: Kind"]}
{"id": "C62", "title": "A UTF-8 byte order mark does not change the result", "statement": "For 28 text formats (HTML, WebVTT, SubRip, XML and the XML vocabularies): data without a mark is recognised as that format iff the data with the mark EF BB BF in front is, provided no signature at a later offset is present. XML data with an XML declaration of at most 8194 bytes gives the same dialect with and without the mark, whatever readers are enabled; so does plain text of up to 65533 bytes. Data that begins with a UTF-16 mark and carries no signature is binary data. Proved exceptions: AbiWord documents with a document type declaration, other text formats (vCard, iCalendar, PEM, scripts, ...), a processing instruction that only begins with xml, XML in UTF-16.", "quantifier": "every input, format of the list, build", "why_tests_cant": "hyper-property over pairs of inputs of any length", "anchors": ["src/signatures.rs: signatures!", "src/macros.rs: signatures", "src/lib.rs: from_bytes", "src/readers.rs: from_xml_reader", "src/readers.rs: from_txt_reader"]}
{"id": "C63", "title": "XML documents are recognised by their root element unless another vocabulary is mentioned", "statement": "With reader-xml, for every document with the XML signature whose root element is one of 26 known ones (svg, kml, feed, rss, gpx, ...) and starts within the first 8197 bytes, wherever the prologue, comments and document type put it: if the first 8197 bytes contain no start of a tag of another known vocabulary, that vocabulary is reported. Proved exceptions: SOAP envelopes with the prefixes of the SOAP specifications, Atom with a prefix and timewise MusicXML are plain XML; XHTML with an inline drawing or formula and KML that mentions a feed in a comment are reported as the inline vocabulary; element names that merely begin like a known one (MyBatis <mapper>, <feedback>) are taken for it.", "quantifier": "every XML document, position of the root element, build", "why_tests_cant": "for documents of any shape and length", "anchors": ["src/readers.rs: from_xml_reader", "src/lib.rs: from_bytes"]}
{"id": "C64", "title": "The work of searching is bounded", "statement": "Searching a pattern of m bytes in data of n bytes, from the start or from the end, makes at most n - m + 1 rounds with at most m byte comparisons each; data that shares no byte with the pattern costs exactly n / m comparisons, and the upper bound is attained. So one detection compares at most 13 bytes for each byte it reads of a PDF document, however the reader splits the data (and it reads less than 33554432 + 32768 of them), at most 26 * 32743 for an SQLite database, at most 373 * 8192 for an XML document and at most 4 * 65554 for the end of a ZIP archive. Matching the signatures takes at most 855 length tests and 7207 byte comparisons, and at least one length test for each of the 726 alternatives if none matches.", "quantifier": "every data, pattern, reader that keeps the Read contract, build", "why_tests_cant": "worst-case work over all data and all ways of splitting it", "anchors": ["src/readers.rs: find", "src/readers.rs: rfind", "src/readers.rs: from_pdf_reader", "src/readers.rs: from_sqlite3_reader", "src/readers.rs: from_xml_reader", "src/readers.rs: from_zip_reader"]}
{"id": "C65", "title": "Header families are recognised in all their members", "statement": "Where a format's specification describes its header as a combination of fields, every combination is recognised: each Netpbm number with each white space, MPEG audio frames of each version, layer and protection, each script interpreter in each usual directory, each count of architectures of a universal Mach-O binary and each version of a Java class (the eighth byte decides between the two, whatever it is), each PCX version and encoding, each compression method of LHA, LArc and PMarc, each profile letter and release of 3GPP, each line end, and so on (647 headers). The file is reported as that format unless another signature is present too; some members of the families are never recognised.", "quantifier": "every file, header of the families, build", "why_tests_cant": "one fixture per format cannot cover the combinations and whatever follows them", "anchors": ["src/signatures.rs: signatures!", "src/lib.rs: from_reader"]}
{"id": "C66", "title": "Nothing is reported as a format without a header of it", "statement": "Without reader features, a file that is reported as a format carries one of the known headers of that format, or the essential part of one; with readers enabled, this holds for each format that no reader looks for, and any other reported format comes with a header of the format itself or of a container in which it is looked for (the exception are virtual hard disks, whose cookie is misspelled).", "quantifier": "every file, format, build", "why_tests_cant": "false positives cannot be sampled", "anchors": ["src/signatures.rs: signatures!", "src/lib.rs: from_reader"]}
{"id": "C67", "title": "Identifiers, Debug and equality", "statement": "The identifier of each format (what code writes and Debug prints) is its name in upper camel case, with a number at the beginning spelled out; the variants, and the kinds, are declared and numbered in alphabetical order without gaps; two formats are equal exactly when their identifiers, their names or their Display texts are equal, and a clone is the same format.", "quantifier": "every format, every pair of formats, every kind", "why_tests_cant": "447 formats and 200000 pairs", "anchors": ["src/macros.rs: formats! (derive)", "src/formats.rs: formats! (alphabetical order)", "src/lib.rs: Kind"]}
{"id": "C68", "title": "Failing I/O calls never make a file look like another format", "statement": "When a read or a seek fails with an I/O error after the header has been read, detection from a reader still reports either the format the same data has on a reader that never fails, or one of the two generic formats; so any other format that is reported is really that of the data, whichever calls failed. Plain text is reported only if the data is clean text, however the stream behaves. (The failure itself is not reported: the user gets a generic format, not an error.)", "quantifier": "every input, every position, every schedule of full, short, interrupted and failing reads and of failing seeks (for XML, SQLite and PDF without short reads), every combination of features", "why_tests_cant": "the number of schedules is unbounded; each of the twelve readers can fail at any of its calls", "anchors": ["src/lib.rs: FileFormat::from_reader", "src/readers.rs: all readers"]}
{"id": "C69", "title": "What the macros generate from the source text is what the tables say", "statement": "Expanding the macro signatures! (as written in macros.rs) with any table that can be written for it gives a function that, for every input, returns the format of the first entry one of whose values is present at its offsets, and nothing otherwise; it never panics, whatever the offsets, lengths and input. Expanding it with the text of signatures.rs gives the scan that detection uses. Expanding formats! with the text of formats.rs gives an enum with exactly the documented variants, in this order, with the documented traits, methods name, short_name (None exactly if the definition has none), media_type, extension and kind that return what the definitions say, and documentation that says the same.", "quantifier": "every table, every input, every width of usize that holds the offsets, builds with and without overflow checks; every format", "why_tests_cant": "tests see one table and few inputs; a wrong fallback arm or a slice without test of the length shows only for some of them", "anchors": ["src/macros.rs: formats!, signatures!", "src/signatures.rs: the invocation", "src/formats.rs: the invocation", "src/lib.rs: Kind"]}
{"id": "C70", "title": "The text of the readers does what the theorems about the readers say", "statement": "Parsing the text of readers.rs and evaluating it gives, for every format, build and reader: the same calls of Read and Seek in the same order, the same result (format, error or panic) and the same final position as the model of the readers, for from_fmt_reader (with the eleven readers it dispatches to) and from_generic_reader; the evaluation never meets a construct without a meaning or a type error. The text of FindBytes finds, for every data below half the address space and every pattern, the first (find) or last (rfind) occurrence and whether there is one (holds), without overflow or an index out of bounds.", "quantifier": "every implementation of Read + Seek that keeps the contracts of the traits (short reads, errors, other positions), every format, every subset of features, builds with and without overflow checks, usize of 32 bits or more, every number of rounds of the loops (at least 256)", "why_tests_cant": "a test compares results for one file; that the model and the code agree on every path, branch and call of 1200 lines ranges over every answer of every call", "anchors": ["src/readers.rs: from_fmt_reader, from_generic_reader, from_*_reader, ReadData, FindBytes"]}
{"id": "C71", "title": "The text of the entry points does what the theorems about them say", "statement": "Parsing the text of the entry points in lib.rs and evaluating it together with the text of readers.rs (C70) and of the function that the macro signatures! generates (C69) gives: from_reader the same result (format, error or panic) and the same final state of the reader as the model; from_file the error of opening, or from_reader on the file; from_bytes and From<&[u8]> from_reader on a cursor with any error replaced by the default; Default gives ArbitraryBinaryData. On a slice cursor the whole chain of texts gives what the model's from_bytes gives, so that the other theorems about from_bytes are about the text.", "quantifier": "every implementation of Read + Seek that keeps the contracts of the traits, every state, every outcome of opening a file, every slice shorter than 2^63, every subset of features, builds with and without overflow checks, usize of 32 bits or more", "why_tests_cant": "a test compares results for one input; that the model and the texts of four files agree ranges over every answer of every call", "anchors": ["src/lib.rs: from_bytes, from_file, from_reader, Default, From<&[u8]>", "src/readers.rs: from_fmt_reader, from_generic_reader", "src/signatures.rs: signatures!"]}
