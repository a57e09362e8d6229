(** Families of headers, described the way their specifications describe them: as combinations of
    a few fields (a version digit and a white space, a directory and an interpreter, a brand and its
    version digit, ...), independently of the library's table.  Uses [standard]/[carries] of SpecMagic.v. *)
From Coq Require Import List NArith String.
From Coq.Strings Require Import Byte.
From Verif Require Import Base Formats SpecSig SpecMagic SpecBom.
Import ListNotations.
Local Open Scope N_scope.
Local Open Scope string_scope.
Local Open Scope list_scope.

Definition octet (n : N) : byte := match Byte.of_N n with Some b => b | None => x00 end.
(** A file of the format [f] starts with [v]. *)
Definition starting (f : FileFormat) (v : bytes) (also : list FileFormat) : standard :=
  std f [(0, v)] None None also.
Definition numbers (first last : N) : list N :=
  map (fun k => first + N.of_nat k) (seq 0 (N.to_nat (last + 1 - first))).
Definition crlf : bytes := [x0d; x0a].
Definition lf : bytes := [x0a].
Definition cr : bytes := [x0d].
(** The line ends of Windows, Unix and the classic Macintosh. *)
Definition line_ends : list bytes := [crlf; lf; cr].

(** ** Netpbm: a magic number of two letters, then white space. *)
Definition netpbm_magics : list (FileFormat * string) :=
  [(PortableBitmap, "P1"); (PortableBitmap, "P4"); (PortableGraymap, "P2"); (PortableGraymap, "P5");
   (PortablePixmap, "P3"); (PortablePixmap, "P6"); (PortableArbitraryMap, "P7");
   (PortableFloatmap, "PF"); (PortableFloatmap, "Pf")].
Definition netpbm : list standard :=
  flat_map (fun m => map (fun w => starting (fst m) (bs (snd m) ++ [w]) []) [x20; x09; x0a; x0d]) netpbm_magics.

(** ** MPEG audio: eleven set bits, version (0: MPEG 2.5, 2: MPEG 2, 3: MPEG 1), layer (1: III,
    2: II), protection bit. *)
Definition frame_header (version layer protection : N) : bytes :=
  [xff; octet (224 + 8 * version + 2 * layer + protection)].
Definition lzh_like : list FileFormat := [Larc; Lha; Pmarc].
Definition mpeg_audio : list standard :=
  flat_map (fun p => map (fun v => starting Mpeg12AudioLayer3 (frame_header v 1 p) lzh_like) [0; 2; 3] ++
                     map (fun v => starting Mpeg12AudioLayer2 (frame_header v 2 p) lzh_like) [2; 3]) [0; 1].
(** ADTS: the same header with layer 0; the version bit says MPEG-4 or MPEG-2. *)
Definition adts (p : N) : list standard :=
  map (fun v => starting AdvancedAudioCoding (frame_header v 0 p) lzh_like) [2; 3].

(** ** Scripts: an interpreter in a directory, or found by env. *)
Definition shebang (f : FileFormat) (place interpreter : string) : standard :=
  starting f (bs "#!" ++ bs place ++ bs interpreter) [].
Definition bin : string := "/bin/".
Definition usr : string := "/usr/bin/".
Definition local : string := "/usr/local/bin/".
Definition env : string := "/usr/bin/env ".
Definition interpreters : list (FileFormat * string) :=
  [(ClojureScript, "clojure"); (ClojureScript, "clj"); (PythonScript, "python"); (PythonScript, "python3");
   (ToolCommandLanguageScript, "tclsh"); (ToolCommandLanguageScript, "wish"); (ToolCommandLanguageScript, "tcl");
   (RubyScript, "ruby"); (LuaScript, "lua"); (LuaScript, "luajit")].
Definition scripts : list standard :=
  flat_map (fun i => map (fun p => shebang (fst i) p (snd i)) [usr; local; env]) interpreters ++
  map (fun p => shebang PerlScript p "perl") [usr; env].
Definition shells : list standard :=
  map (shebang ShellScript bin) ["sh"; "bash"; "tcsh"; "ash"; "csh"; "ksh"; "zsh"] ++
  map (shebang ShellScript usr) ["bash"; "fish"; "tcsh"; "zsh"] ++
  map (shebang ShellScript local) ["bash"; "fish"; "tcsh"; "ash"; "zsh"] ++
  map (shebang ShellScript env) ["bash"; "fish"; "zsh"] ++
  map (shebang ShellScript "/usr/local/") ["bash"; "tcsh"].
(** Interpreters that are missed in some of the places. *)
Definition unknown_shebangs : list standard :=
  [shebang PerlScript local "perl"; shebang PerlScript bin "perl"; shebang PythonScript bin "python3"] ++
  map (shebang ShellScript usr) ["sh"; "dash"; "ksh"; "csh"; "ash"] ++
  map (shebang ShellScript local) ["ksh"; "dash"] ++
  map (shebang ShellScript env) ["sh"; "ksh"; "tcsh"; "dash"] ++
  [shebang ShellScript bin "dash"; shebang ShellScript bin "fish";
   starting ShellScript (bs "#! /bin/sh") []; starting PythonScript (bs "#! /usr/bin/env python") [];
   starting PythonScript (bs "#!/usr/bin/env -S python3") []].

(** ** CAFEBABE: Mach-O archives for several architectures count them (big endian, 32 bits), Java
    classes have a minor and a major version (45 and up). *)
Definition universal (count : N) : standard :=
  starting MachO [xca; xfe; xba; xbe; x00; x00; x00; octet count] [].
Definition class (minor major : N) : standard :=
  starting JavaClass [xca; xfe; xba; xbe; octet (minor / 256); octet (minor mod 256); x00; octet major] [].
Definition cafebabe : list standard :=
  map universal (numbers 1 18) ++ map (class 0) (numbers 45 254) ++ [class 3 45; class 65535 56; class 65535 61].

(** ** Graphics *)
(** PCX: version, encoding (none or run lengths), and a reserved zero at 64. *)
Definition pcx : list standard :=
  flat_map (fun v => map (fun e => std PictureExchange [(0, [x0a; octet v; octet e]); (64, [x00])] None None []) [0; 1])
    [0; 2; 3; 4; 5].
(** Windows metafiles: type (memory or disk), header size of nine words; or the Aldus header. *)
Definition wmf : list standard :=
  map (fun t => starting WindowsMetafile [octet t; x00; x09; x00] []) [1; 2] ++
  [starting WindowsMetafile [xd7; xcd; xc6; x9a] []].
Definition djvu : list standard :=
  map (fun t => std Djvu [(0, bs "AT&TFORM"); (12, bs t)] None None []) ["DJVU"; "DJVM"; "DJVI"; "THUM"].
(** IFF with groups of four or eight bytes. *)
Definition maya : list standard :=
  flat_map (fun t => [std MayaBinary [(0, bs "FOR4"); (8, bs t)] None None [];
                      std MayaBinary [(0, bs "FOR8"); (16, bs t)] None None []]) ["MAYA"; "Maya"].
(** AutoCAD: "AC", then the number of the version (1.2 to 2.22, then 1001 onwards). *)
Definition autocad : list standard :=
  map (fun v => starting AutocadDrawing (bs v) [])
    ["MC0.0"; "AC1.2"; "AC1.40"; "AC1.50"; "AC2.10"; "AC2.21"; "AC2.22"; "AC1001"; "AC1002"; "AC1003"; "AC1004";
     "AC1006"; "AC1009"; "AC1012"; "AC1014"; "AC1015"; "AC1018"; "AC1021"; "AC1024"; "AC1027"; "AC1032"].
Definition ply : list standard :=
  flat_map (fun nl => map (fun k => starting (fst k) (bs "ply" ++ nl ++ bs "format " ++ bs (snd k) ++ bs " 1.0") [])
    [(PolygonAscii, "ascii"); (PolygonBinary, "binary_little_endian"); (PolygonBinary, "binary_big_endian")]) line_ends.

(** ** Archives and disks *)
(** LHA and its relatives name the compression method behind the two bytes of header size and checksum. *)
Definition lzh (f : FileFormat) (method : string) : standard := std f [(2, bs method)] None None [JpegXl; WindowsBitmap].
Definition lzh_family : list standard :=
  map (lzh Lha) ["-lh0-"; "-lh1-"; "-lh2-"; "-lh3-"; "-lh4-"; "-lh5-"; "-lh6-"; "-lh7-"; "-lhd-"] ++
  map (lzh Larc) ["-lzs-"; "-lz2-"; "-lz3-"; "-lz4-"; "-lz5-"; "-lz7-"; "-lz8-"] ++
  map (lzh Pmarc) ["-pm0-"; "-pm1-"; "-pm2-"; "-pms-"; "-pc1-"].
(** Amiga: old or fast file system, international, directory cache; the last two (long names) are missed. *)
Definition amiga (kind : N) : standard := starting AmigaDiskFile (bs "DOS" ++ [octet kind]) [].
Definition amiga_disks : list standard := map amiga (numbers 0 5).
Definition amiga_long_names : list standard := map amiga (numbers 6 7).

(** ** Nintendo 64: one word in the four byte orders a copier may leave it in *)
Definition word_swapped (l : bytes) : bytes :=
  match l with [a; b; c; d; e; f; g; h] => [d; c; b; a; h; g; f; e] | _ => l end.
Definition byte_swapped (l : bytes) : bytes :=
  match l with [a; b; c; d; e; f; g; h] => [b; a; d; c; f; e; h; g] | _ => l end.
Definition n64_start : bytes := [x80; x37; x12; x40; x00; x00; x00; x0f].
Definition n64 : list standard :=
  map (fun v => starting Nintendo64Rom v [])
    [n64_start; byte_swapped n64_start; word_swapped n64_start; byte_swapped (word_swapped n64_start)].
(** Sega: "TMR SEGA" at 0x7ff0, and at 0x7fff the region (3, 4: Master System; 5, 6, 7: Game Gear)
    and the size of the ROM; the sizes 0xa, 0xb, 0xd and 2 are missed. *)
Definition sega (region size : N) : standard :=
  std (if (region <? 5)%N then SegaMasterSystemRom else GameGearRom)
    [(32752, bs "TMR SEGA"); (32767, [octet (16 * region + size)])] None None [].
Definition sega_roms : list standard := flat_map (fun r => map (sega r) [0; 1; 12; 14; 15]) [3; 4; 5; 6; 7].
Definition sega_other_sizes : list standard := flat_map (fun r => map (sega r) [2; 10; 11; 13]) [3; 4; 5; 6; 7].

(** ** ISO base media: a box of less than 256 bytes with a major brand *)
Definition branded (f : FileFormat) (brand : string) : standard :=
  std f [(0, [x00; x00; x00]); (4, bs "ftyp" ++ bs brand)] None None [].
(** 3GPP: a profile letter and the release. *)
Definition third_generation : list standard :=
  flat_map (fun p => map (fun r => branded ThirdGenerationPartnershipProject (String.append (String.append "3g" p) r))
    ["1"; "2"; "3"; "4"; "5"; "6"; "7"; "8"; "9"]) ["e"; "f"; "g"; "h"; "m"; "p"; "r"; "s"; "t"].
Definition brands : list (FileFormat * string) :=
  map (pair ThirdGenerationPartnershipProject2) ["3g2a"; "3g2b"; "3g2c"; "KDDI"] ++
  map (pair Mpeg4Part14) ["isom"; "iso2"; "iso3"; "iso4"; "iso5"; "iso6"; "mp21"; "mp41"; "mp42"; "mp71"; "mp4v"; "avc1";
    "dash"; "MSNV"; "XAVC"; "ARRI"; "mmp4"; "mobi"; "NDAS"; "NDSC"; "NDSH"; "NDSM"; "NDSP"; "NDSS";
    "NDXC"; "NDXH"; "NDXM"; "NDXP"; "NDXS"] ++
  flat_map (fun k => [(fst k, String.append "F4" (String.append (fst (snd k)) " ")); (fst k, String.append "f4" (String.append (snd (snd k)) " "))])
    [(FlashMp4Video, ("V", "v")); (FlashMp4ProtectedVideo, ("P", "p")); (FlashMp4Audio, ("A", "a")); (FlashMp4Audiobook, ("B", "b"))] ++
  map (pair HighEfficiencyImageFileFormat) ["mif1"; "heim"; "heis"; "avic"] ++
  map (pair HighEfficiencyImageFileFormatSequence) ["msf1"; "hevm"; "hevs"; "avcs"] ++
  map (pair HighEfficiencyImageCoding) ["heic"; "heix"] ++
  map (pair HighEfficiencyImageCodingSequence) ["hevc"; "hevx"] ++
  [(SonyMovie, "mqt "); (AppleQuicktime, "qt  "); (AppleItunesVideo, "M4V "); (AppleItunesAudio, "M4A ");
   (AppleItunesAudiobook, "M4B "); (AppleItunesProtectedAudio, "M4P "); (CanonRaw3, "crx ")].
Definition branded_files : list standard := map (fun b => branded (fst b) (snd b)) brands.
(** QuickTime files older than the brand: any of these atoms may come first. *)
Definition atom (t : string) : standard := std AppleQuicktime [(0, [x00; x00]); (4, bs t)] None None [WindowsIcon; WindowsCursor].
Definition quicktime : list standard := map atom ["free"; "mdat"; "moov"; "skip"; "wide"].
Definition preview_atom : list standard := [atom "pnot"].

(** ** Text *)
Definition lines (f : FileFormat) (first second : string) (ends : list bytes) : list standard :=
  map (fun nl => starting f (bs first ++ nl ++ bs second) []) ends.
Definition text_headers : list standard :=
  flat_map (fun indent => lines JsonFeed "{" (String.append indent """version"": ""https://jsonfeed.org/version/1.1""") line_ends)
    ["    "; "  "; String (Ascii.ascii_of_N 9) ""] ++
  lines Vcalendar "BEGIN:VCALENDAR" "VERSION:1.0" line_ends ++
  lines Glyphs "{" ".appVersion = ""1234" line_ends ++
  lines ShoutcastPlaylist "[playlist]" "" line_ends ++
  lines SubripText "1" "00:00:01,000 --> " [crlf; lf] ++
  lines DrawingExchangeFormatAscii "  0" "SECTION" [crlf; lf] ++
  flat_map (fun d => map (fun h => starting HypertextMarkupLanguage (bs "<!" ++ bs d ++ bs " " ++ bs h) []) ["HTML"; "html"])
    ["DOCTYPE"; "doctype"] ++
  map (fun k => starting PemPrivateKey (bs "-----BEGIN " ++ bs k ++ bs "PRIVATE KEY-----") [])
    [""; "ENCRYPTED "; "RSA "; "DSA "; "EC "; "ECDSA "] ++
  map (fun k => starting PemPublicKey (bs "-----BEGIN " ++ bs k ++ bs "PUBLIC KEY-----") [])
    [""; "RSA "; "DSA "; "EC "; "ECDSA "] ++
  map (fun k => starting Latex (bs "\document" ++ bs k) []) ["class"; "style"].
(** Group codes of a DXF file are right-justified in three columns only by custom; an hour of a subtitle
    need not be 0; the classic Macintosh line end. *)
Definition unknown_text_headers : list standard :=
  lines SubripText "1" "00:00:01,000 --> " [cr] ++ lines SubripText "1" "01:00:01,000 --> " line_ends ++
  lines SubripText "0" "00:00:01,000 --> " line_ends ++
  lines DrawingExchangeFormatAscii "  0" "SECTION" [cr] ++ lines DrawingExchangeFormatAscii "0" "SECTION" line_ends ++
  lines ShoutcastPlaylist "[Playlist]" "" line_ends ++
  [starting HypertextMarkupLanguage (bs "<!DOCTYPE Html") []; starting HypertextMarkupLanguage (bs "<HTML>") []].
(** IGES: the first line has 72 columns of text, the letter of the start section and the number 1. *)
Definition iges : list standard :=
  flat_map (fun nl => map (fun n => std InitialGraphicsExchangeSpecification [(72, bs "S" ++ bs n ++ nl)] None None [])
    ["      1"; "0000001"]) line_ends.

(** ** Camera raw files: TIFF with the tags in the byte order of the header *)
(** Nikon: 28 directory entries, the first of which is the subfile type (254), or 31 of which the
    first is the processing software (11). *)
Definition nikon_little : list standard :=
  [std NikonElectronicFile [(0, bs "II" ++ [x2a; x00; x08; x00; x00; x00; x1c; x00; xfe; x00])] None None [];
   std NikonElectronicFile [(0, bs "II" ++ [x2a; x00; x08; x00; x00; x00; x1f; x00; x0b; x00])] None None []].
(** The same in big endian, as most cameras write it: the table has the bytes in the wrong order. *)
Definition nikon_big : list standard :=
  [std NikonElectronicFile [(0, bs "MM" ++ [x00; x2a; x00; x00; x00; x08; x00; x1c; x00; xfe])] None None [];
   std NikonElectronicFile [(0, bs "MM" ++ [x00; x2a; x00; x00; x00; x08; x00; x1f; x00; x0b])] None None []].
Definition canon : list standard :=
  [std CanonRaw2 [(0, bs "II" ++ [x2a; x00; x10; x00; x00; x00] ++ bs "CR" ++ [x02; x00])] None None []].

(** ** AbiWord: the document type, on a line of its own, and the root element *)
Definition abiword_doctype : bytes :=
  bs "<!DOCTYPE abiword PUBLIC ""-//ABISOURCE//DTD AWML 1.0 Strict//EN"" ""http://www.abisource.com/awml.dtd"">".
Definition abiword_root (template : string) : bytes := bs "<abiword template=""" ++ bs template ++ bs """".
Definition abiword (mark nl : bytes) : list standard :=
  map (fun k => starting (fst k) (mark ++ abiword_doctype ++ nl ++ abiword_root (snd k)) [])
    [(Abiword, "false"); (AbiwordTemplate, "true")].
(** Missed: with a line end of two bytes, and (although the table has rows for it) with a byte order mark. *)
Definition abiword_missed : list standard := abiword [] crlf ++ abiword bom lf ++ abiword bom crlf.

(** ** Further headers, as in the magic files of file(1) *)
Definition other_headers : list standard :=
  [starting MicrosoftVisualStudioSolution (bom ++ crlf ++ bs "Microsoft Visual Studio Solution File, Format Version 12.00") [];
   starting MicrosoftVisualStudioSolution (bom ++ lf ++ bs "Microsoft Visual Studio Solution File, Format Version 12.00") [];
   starting MicrosoftVisualStudioSolution (bs "Microsoft Visual Studio Solution File, Format Version 12.00") [];
   starting Abiword (abiword_root "false") []; starting AbiwordTemplate (abiword_root "true") [];
   starting MathematicalMarkupLanguage (bs "<!DOCTYPE math PUBLIC") []; starting Extensible3d (bs "<!DOCTYPE X3D PUBLIC") [];
   starting WindowsImagingFormat (bs "MSWIM" ++ [x00; x00; x00]) []; starting WindowsImagingFormat (bs "WLPWM" ++ [x00; x00; x00]) [];
   starting VirtualMachineDisk (bs "COWD" ++ [x01]) []; starting VirtualMachineDisk (bs "KDMV" ++ [x01]) [];
   starting VirtualMachineDisk (bs "KDMV" ++ [x02]) []; starting VirtualMachineDisk (bs "KDMV" ++ [x03]) [];
   starting Cabinet (bs "ISc(") []; starting Cabinet (bs "MSCF") [];
   starting MsDosExecutable (bs "ZM") lzh_like; starting UnixCompress [x1f; xa0] lzh_like;
   starting StuffitX (bs "StuffIt!") []; starting StuffitX (bs "StuffIt?") [];
   std MetaInformationEncapsulation [(0, [x7e; x10; x04]); (4, bs "0MIE")] None None [];
   std MetaInformationEncapsulation [(0, [x7e; x18; x04]); (4, bs "0MIE")] None None [];
   std Cinema4d [(1, bs "C4DC4D6")] None None []; lzh Lha "-lh8-";
   starting MicrosoftWorksSpreadsheet [xff; x00; x02; x00; x04; x04; x05; x54; x02; x00] [];
   starting MicrosoftWorksSpreadsheet [x00; x00; x02; x00; x04; x04; x05; x54; x02; x00] [];
   starting MicrosoftWorksDatabase [x20; x54; x02; x00; x00; x00; x05; x54; x02; x00] [];
   std MicrosoftWorksWordProcessor [(0, [x01; xfe]); (112, [x01; x00])] None None lzh_like;
   std CorelPresentations [(0, xff :: bs "WPC"); (8, [x01; x0f])] None None [];
   std CorelPresentations [(0, xff :: bs "WPC"); (8, [x01; x10])] None None [];
   starting WordperfectDocument (xff :: bs "WPC") [CorelPresentations; WordperfectPresentations; WordperfectGraphics; WordperfectMacro];
   starting Tasty [x5c; xa1; xab; x1f] []; starting Xbox360Executable (bs "XEX1") []; starting Xbox360Executable (bs "XEX2") [];
   std Commodore64Program [(0, [x01; x08]); (6, [x9e])] None None lzh_like; starting Mtv (bs "AMVA") [];
   starting Model3dBinary (bs "3DMO") []; starting Model3dAscii (bs "3dmodel 1.0") []; starting AutodeskAlias (x8f :: bs "StudioPacketFile") [];
   std Stuffit [(0, bs "StuffIt (c)1997-"); (82, [x05])] None None [];
   starting CommonObjectFileFormat [x4c; x01] lzh_like; starting CommonObjectFileFormat [x64; x86] lzh_like;
   starting CommonObjectFileFormat [x00; x02] lzh_like; starting AppleDiskImage [x78; x01] lzh_like].
(** StuffIt behind a MacBinary header, Nintendo DS cartridges, embedded OpenType of the three versions. *)
Definition other_remote_headers : list standard :=
  [std Stuffit [(128, bs "SIT!"); (138, bs "rLau")] None None [];
   std NintendoDsRom [(192, [xc8; x60; x4f; xe2; x01; x70; x8f; xe2])] None None [];
   std NintendoDsRom [(192, [x24; xff; xae; x51; x69; x9a; xa2; x21])] None None [];
   std EmbeddedOpentype [(8, [x00; x00; x01; x00]); (34, bs "LP")] None None [];
   std EmbeddedOpentype [(8, [x01; x00; x02; x00]); (34, bs "LP")] None None [];
   std EmbeddedOpentype [(8, [x02; x00; x02; x00]); (34, bs "LP")] None None []].
(** Text formats may begin with a byte order mark (SpecBom.v). *)
Definition with_mark (s : standard) : list standard :=
  if existsb (fun f => (fmt_index f =? fmt_index (format_of s))%N) marked_formats then
    match magic s with
    | [(0, v)] => [std (format_of s) [(0, bom ++ v)] None None (refined_by s)]
    | _ => []
    end
  else [].

(** ** All of them *)
Definition families : list standard :=
  netpbm ++ mpeg_audio ++ adts 1 ++ scripts ++ shells ++ cafebabe ++ pcx ++ wmf ++ djvu ++ maya ++ autocad ++ ply ++
  lzh_family ++ amiga_disks ++ n64 ++ third_generation ++ branded_files ++ quicktime ++ text_headers ++
  nikon_little ++ canon ++ abiword [] lf ++ other_headers.
Definition remote_families : list standard := sega_roms ++ iges ++ other_remote_headers.
Definition missed_families : list standard :=
  adts 0 ++ unknown_shebangs ++ amiga_long_names ++ sega_other_sizes ++ preview_atom ++ unknown_text_headers ++
  nikon_big ++ abiword_missed.

(** ** The converse (C66) *)
(** For some formats only a part of the header is compared: here is the part that is essential. *)
Definition part (f : FileFormat) (o : N) (v : bytes) : standard := std f [(o, v)] None None [].
Definition brand_prefixes : list (FileFormat * string) :=
  brands ++ map (fun p => (ThirdGenerationPartnershipProject, String.append "3g" p)) ["e"; "f"; "g"; "h"; "m"; "p"; "r"; "s"; "t"] ++
  [(Av1ImageFileFormat, "avif"); (Av1ImageFileFormatSequence, "avis"); (ThirdGenerationPartnershipProject2, "3g2"); (FlashMp4Video, "F4V"); (FlashMp4Video, "f4v");
    (FlashMp4ProtectedVideo, "F4P"); (FlashMp4ProtectedVideo, "f4p"); (FlashMp4Audio, "F4A"); (FlashMp4Audio, "f4a");
    (FlashMp4Audiobook, "F4B"); (FlashMp4Audiobook, "f4b"); (SonyMovie, "mqt"); (AppleQuicktime, "qt");
    (AppleItunesVideo, "M4V"); (AppleItunesAudio, "M4A"); (AppleItunesAudiobook, "M4B"); (AppleItunesProtectedAudio, "M4P");
    (CanonRaw3, "crx")].
Definition cores : list standard :=
  map (fun b => part (fst b) 4 (bs "ftyp" ++ bs (snd b))) brand_prefixes ++
  map (fun t => part AppleQuicktime 4 (bs t)) ["free"; "mdat"; "moov"; "skip"; "wide"] ++
  map (fun b => part (fst b) 16 (bs "ftyp" ++ bs (snd b)))
    [(Jpeg2000Part1, "jp2 "); (Jpeg2000Part1, "JP2 "); (Jpeg2000Part2, "jpx "); (Jpeg2000Part3, "mjp2"); (Jpeg2000Part6, "jpm ")] ++
  map (fun k => part (fst k) 0 (bs (snd k)))
    [(MicrosoftVisualStudioSolution, "Microsoft Visual Studio Solution File, Format Version ");
     (JsonFeed, "{""version"":""https://jsonfeed.org/version/");
     (Opennurbs, "3D Geometry File Format"); (AgeEncryption, "age-encryption.org/"); (DrawingExchangeFormatBinary, "AutoCAD Binary DXF");
     (Fasttracker2ExtendedModule, "Extended Module:"); (Commodore64Cartridge, "C64 CARTRIDGE");
     (Model3dAscii, "3dmodel"); (Model3dBinary, "3DMO"); (UnixArchiver, "!<arch>");
     (DesignWebFormat, "(DWF V"); (AdaptiveMultiRate, "#!AMR");
     (AutocadDrawing, "AC1."); (AutocadDrawing, "AC10"); (AutocadDrawing, "AC2."); (AutocadDrawing, "MC0."); (Cpio, "0707"); (Magicavoxel, "VOX ");
     (Xbox360Executable, "XEX1"); (Xbox360Executable, "XEX2"); (Mtv, "AMV"); (Zoo, "ZOO"); (Postscript, "%!")] ++
  map (fun k => part (fst k) 0 (snd k))
    [(OptimizedDalvikExecutable, bs "dey" ++ lf);
     (MicrosoftVisualStudioSolution, bom ++ crlf ++ bs "Microsoft Visual Studio Solution File, Format Version ");
     (MicrosoftVisualStudioSolution, bom ++ lf ++ bs "Microsoft Visual Studio Solution File, Format Version "); (AutodeskAlias, x8f :: bs "StudioPacketFile"); (EncapsulatedPostscript, [xc5; xd0; xd3; xc6]);
     (JavaClass, [xca; xfe; xba; xbe]); (Cpio, [x71; xc7]); (Cpio, [xc7; x71]); (Tasty, [x5c; xa1; xab; x1f]);
     (JointPhotographicExpertsGroup, [xff; xd8; xff]); (JpegExtendedRange, [x49; x49; xbc]);
     (MicrosoftWorksDatabase, [x20; x54; x02; x00; x00; x00; x05; x54; x02; x00]);
     (WordperfectDocument, xff :: bs "WPC"); (AppleDiskImage, [x78; x01]); (CommonObjectFileFormat, [x4c; x01]); (CommonObjectFileFormat, [x64; x86]);
     (CommonObjectFileFormat, [x00; x02])] ++
  flat_map (fun k => [part (fst k) 0 (bs (snd k)); part (fst k) 0 (bom ++ bs (snd k))])
    [(Abiword, "<abiword template=""false""");
     (AbiwordTemplate, "<abiword template=""true"""); (Extensible3d, "<x3d"); (CollaborativeDesignActivity, "<collada");
     (ScalableVectorGraphics, "<SVG"); (SimpleObjectAccessProtocol, "<soap"); (ExtensibleStylesheetLanguageTransformations, "<xsl")] ++
  [part GameBoyAdvanceRom 4 [x24; xff; xae; x51; x69; x9a; xa2; x21]; 
   part NintendoDsRom 192 [x24; xff; xae; x51; x69; x9a; xa2; x21]; part NintendoDsRom 192 [xc8; x60; x4f; xe2; x01; x70; x8f; xe2];
   part MicrosoftWorksSpreadsheet 0 [x00; x00; x02; x00; x04; x04; x05; x54; x02; x00];
   part MicrosoftWorksSpreadsheet 0 [xff; x00; x02; x00; x04; x04; x05; x54; x02; x00]] ++
  (* several parts *)
  map (fun n => std MachO [(0, [xca; xfe; xba; xbe]); (7, [octet n])] None None []) (numbers 1 18 ++ [255]) ++
  flat_map (fun nl => map (fun k => part (fst k) 0 (bs "ply" ++ nl ++ bs "format " ++ bs (snd k)))
    [(PolygonAscii, "ascii"); (PolygonBinary, "binary_little_endian"); (PolygonBinary, "binary_big_endian")]) line_ends ++
  flat_map (fun nl => part Glyphs 0 (bs "{" ++ nl ++ bs ".appVersion = """) ::
    map (fun indent => part JsonFeed 0 (bs "{" ++ nl ++ bs indent ++ bs """version"": ""https://jsonfeed.org/version/"))
      ["    "; "  "; String (Ascii.ascii_of_N 9) ""]) line_ends ++
  flat_map (fun k => map (fun mark => std (fst k) [(0, mark ++ bs "<!DOCTYPE abiword PUBLIC"); (102, abiword_root (snd k))] None None [])
    [[]; bom]) [(Abiword, "false"); (AbiwordTemplate, "true")] ++
  flat_map (fun order => [std NikonElectronicFile [(0, order); (8, [x1c; x00; xfe; x00])] None None [];
                          std NikonElectronicFile [(0, order); (8, [x1f; x00; x0b; x00])] None None [];
                          std CanonRaw2 [(0, order); (8, bs "CR")] None None []])
    [bs "II" ++ [x2a; x00]; bs "MM" ++ [x00; x2a]] ++
  [std OggSpeex [(0, bs "OggS"); (28, bs "Speex  ")] None None [];
   std WindowsBitmap [(0, bs "BM"); (12, [x00; x00]); (15, [x00; x00; x00]); (26, [x01; x00])] None None [];
   std EncapsulatedPostscript [(0, bs "%!PS-Adobe-"); (14, bs " EPSF-")] None None [];
   std ThreeDimensionalStudio [(0, bs "MM"); (6, [x02]); (8, [x0a]); (16, bs "==")] None None [];
   std DalvikExecutable [(0, bs "dex" ++ lf); (7, [x00])] None None [];
   std Commodore64Program [(0, [x01; x08]); (6, [x9e])] None None [];
   std MicrosoftWorksWordProcessor [(0, [x01; xfe]); (112, [x01; x00])] None None [];
   std WordperfectPresentations [(0, xff :: bs "WPC"); (9, [x0a])] None None [];
   std CorelPresentations [(0, xff :: bs "WPC"); (9, [x0f])] None None [];
   std CorelPresentations [(0, xff :: bs "WPC"); (9, [x10])] None None [];
   std Stuffit [(0, bs "StuffIt (c)1997"); (82, [x05])] None None [];
   std Stuffit [(128, bs "SIT!"); (138, bs "rLau")] None None [];
   std EmbeddedOpentype [(8, [x00; x00; x01]); (34, bs "LP")] None None [];
   std EmbeddedOpentype [(8, [x01; x00; x02]); (34, bs "LP")] None None [];
   std EmbeddedOpentype [(8, [x02; x00; x02]); (34, bs "LP")] None None []].
(** Every header, with or without a mark. *)
Definition headers : list standard :=
  let all := standards ++ remote_standards ++ families ++ remote_families in all ++ flat_map with_mark all ++ cores.
(** The cookie of virtual hard disks is not the specified one (C48). *)
Definition misspelled : list FileFormat := [MicrosoftVirtualHardDisk].
