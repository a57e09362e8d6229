(** GENERATED by tools/gen_conformance.py from /repo/tests and /repo/fixtures.  Tests, not
    proofs: the model evaluated on the fixtures gives the formats the Rust tests assert. *)
From Coq Require Import List NArith Bool String.
From Verif Require Import Base Formats IO Lib Conf.
Local Open Scope N_scope.
Definition case1 := (* fixtures/archive/sample.ace *)
  mkcase false Ace [L "000000000000002a2a4143452a2a00"].
Definition case2 := (* fixtures/archive/sample.alz *)
  mkcase false Alz [L "414c5a0100"].
Definition case3 := (* fixtures/archive/sample.arj *)
  mkcase false ArchivedByRobertJung [L "60ea00000000000000000200"].
Definition case4 := (* fixtures/archive/sample.cab *)
  mkcase false Cabinet [L "4d53434600"].
Definition case5 := (* fixtures/archive/sample.cpio *)
  mkcase false Cpio [L "c77100"].
Definition case6 := (* fixtures/archive/sample.xar *)
  mkcase false ExtensibleArchive [L "7861722100"].
Definition case7 := (* fixtures/archive/sample.lzs *)
  mkcase false Larc [L "00002d6c7a322d00"].
Definition case8 := (* fixtures/archive/sample.lzh *)
  mkcase false Lha [L "00002d6c68302d00"].
Definition case9 := (* fixtures/archive/sample.mar *)
  mkcase false MozillaArchive [L "4d41523100"].
Definition case10 := (* fixtures/archive/sample.mla *)
  mkcase false MultiLayerArchive [L "4d4c4101000000"].
Definition case11 := (* fixtures/archive/sample.pma *)
  mkcase false Pmarc [L "00002d7063312d00"].
Definition case12 := (* fixtures/archive/sample.rar *)
  mkcase false RoshalArchive [L "526172211a07010000"].
Definition case13 := (* fixtures/archive/sample.sbx *)
  mkcase false Seqbox [L "53427800"].
Definition case14 := (* fixtures/archive/sample.7z *)
  mkcase false SevenZip [L "377abcaf271c00"].
Definition case15 := (* fixtures/archive/sample.sqsh *)
  mkcase false Squashfs [L "6873717300"].
Definition case16 := (* fixtures/archive/sample.sit *)
  mkcase false Stuffit [L "53495421000000000000724c617500"].
Definition case17 := (* fixtures/archive/sample.sitx *)
  mkcase false StuffitX [L "537475666649742100"].
Definition case18 := (* fixtures/archive/sample.tar *)
  mkcase false TapeArchive [R 257 x00; L "757374617200303000"].
Definition case19 := (* fixtures/archive/sample.a *)
  mkcase false UnixArchiver [L "213c617263683e00"].
Definition case20 := (* fixtures/archive/sample.wim *)
  mkcase false WindowsImagingFormat [L "4d5357494d000000"].
Definition case21 := (* fixtures/archive/sample.zip *)
  mkcase false Zip [L "504b030414000800080009bd1a550000000000000000000000000600200073616d706c6555540d0007c33d0963c33d0963c33d096375780b000104e803000004e80300000300504b0708000000000200000000000000504b0102140314000800080009bd1a55000000000200000000000000060020000000000000000000a4810000000073616d706c6555540d0007c33d0963c33d0963c33d096375780b000104e803000004e8030000504b0506000000000100010054000000560000000000"].
Definition case22 := (* fixtures/archive/sample.zoo *)
  mkcase false Zoo [L "5a4f4f00"].
Definition case23 := (* fixtures/archive/sample.zpaq *)
  mkcase false Zpaq [L "376b537400"].
Definition case24 := (* fixtures/audio/sample.amr *)
  mkcase false AdaptiveMultiRate [L "2321414d5200"].
Definition case25 := (* fixtures/audio/sample.aac *)
  mkcase false AdvancedAudioCoding [L "fff100"].
Definition case26 := (* fixtures/audio/sample.m4a *)
  mkcase false AppleItunesAudio [L "00000000667479704d344100"].
Definition case27 := (* fixtures/audio/sample.m4b *)
  mkcase false AppleItunesAudiobook [L "00000000667479704d344200"].
Definition case28 := (* fixtures/audio/sample.m4p *)
  mkcase false AppleItunesProtectedAudio [L "00000000667479704d345000"].
Definition case29 := (* fixtures/audio/sample.au *)
  mkcase false Au [L "2e736e6400"].
Definition case30 := (* fixtures/audio/sample.ac3 *)
  mkcase false AudioCodec3 [L "0b7700"].
Definition case31 := (* fixtures/audio/sample.aiff *)
  mkcase false AudioInterchangeFileFormat [L "464f524d000000004149464600"].
Definition case32 := (* fixtures/audio/sample.avr *)
  mkcase false AudioVisualResearch [L "3242495400"].
Definition case33 := (* fixtures/audio/sample.voc *)
  mkcase false CreativeVoice [L "437265617469766520566f6963652046696c651a1a0000"].
Definition case34 := (* fixtures/audio/sample.8svx *)
  mkcase false EightBitSampledVoice [L "464f524d000000003853565800"].
Definition case35 := (* fixtures/audio/sample.xm *)
  mkcase false Fasttracker2ExtendedModule [L "457874656e646564204d6f64756c653a00"].
Definition case36 := (* fixtures/audio/sample.f4a *)
  mkcase false FlashMp4Audio [L "000000006674797046344100"].
Definition case37 := (* fixtures/audio/sample.f4b *)
  mkcase false FlashMp4Audiobook [L "000000006674797046344200"].
Definition case38 := (* fixtures/audio/sample1.flac *)
  mkcase false FreeLosslessAudioCodec [L "664c614300"].
Definition case39 := (* fixtures/audio/sample2.flac *)
  mkcase true FreeLosslessAudioCodec [L "49443304000000000000664c61430000000000000000"].
Definition case40 := (* fixtures/audio/sample.it *)
  mkcase false ImpulseTrackerModule [L "494d504d00"].
Definition case41 := (* fixtures/audio/sample.mka *)
  mkcase true MatroskaAudio [L "1a45dfa3934282886d6174726f736b6142878102428581021853806701000000001ffd29114d9b74be4dbb8c53ab841549a96653ac8210034dbb8c53ab841654ae6b53ac82109d4dbb8d53ab84114d9b7453ac831ff5574dbb8d53ab841c53bb6b53ac831ff269ec4fbd"; R 4029 x00; L "1549a96640942ad7b18251604d80a36c696265626d6c2076302e372e37202b206c69626d6174726f736b612076302e382e315741bc6d6b766d657267652076322e392e3720282754656e6465726e6573732729206275696c74206f6e204a756c20203120323030392031383a34333a3335448988414fc885800000004461880458dc74f5c69a0073a49098840b3a48e2c1e1812939fe657368731654ae6bd4aed2d7810173c584f70a48b7838102b9810188810155aa81009c81016de7810023314f843f80000055ee81008689415f4d5045472f4c33"].
Definition case42 := (* fixtures/audio/sample.ape *)
  mkcase false MonkeysAudio [L "4d41432000"].
Definition case43 := (* fixtures/audio/sample.mp2 *)
  mkcase false Mpeg12AudioLayer2 [L "fff400"].
Definition case44 := (* fixtures/audio/sample1.mp3 *)
  mkcase false Mpeg12AudioLayer3 [L "fff200"].
Definition case45 := (* fixtures/audio/sample2.mp3 *)
  mkcase true Mpeg12AudioLayer3 [L "49443304000000000000fff200000000000000000000"].
Definition case46 := (* fixtures/audio/sample.mp4 *)
  mkcase true Mpeg4Part14Audio [L "0000000c6674797069736f6d0000000068646c720000000000000000736f756e"].
Definition case47 := (* fixtures/audio/sample.mpc *)
  mkcase false Musepack [L "4d50434b00"].
Definition case48 := (* fixtures/audio/sample.mid *)
  mkcase false MusicalInstrumentDigitalInterface [L "4d54686400"].
Definition case49 := (* fixtures/audio/sample.oga *)
  mkcase false OggFlac [L "4f676753"; R 24 x00; L "7f464c414300"].
Definition case50 := (* fixtures/audio/sample.opus *)
  mkcase false OggOpus [L "4f676753"; R 24 x00; L "4f7075734865616400"].
Definition case51 := (* fixtures/audio/sample.spx *)
  mkcase false OggSpeex [L "4f676753"; R 24 x00; L "5370656578202000"].
Definition case52 := (* fixtures/audio/sample.ogg *)
  mkcase false OggVorbis [L "4f676753"; R 24 x00; L "01766f7262697300"].
Definition case53 := (* fixtures/audio/sample.qcp *)
  mkcase false QualcommPurevoice [L "5249464600000000514c434d00"].
Definition case54 := (* fixtures/audio/sample.qoa *)
  mkcase false QuiteOkAudio [L "716f616600"].
Definition case55 := (* fixtures/audio/sample1.ra *)
  mkcase false Realaudio [L "2e7261fd00"].
Definition case56 := (* fixtures/audio/sample2.ra *)
  mkcase true Realaudio [L "2e524d4600000012000000000000000000024d44505200000057"; R 32 x00; L "047465737414617564696f2f782d706e2d7265616c617564696f00000000"].
Definition case57 := (* fixtures/audio/sample.s3m *)
  mkcase false ScreamTracker3Module [R 44 x00; L "5343524d00"].
Definition case58 := (* fixtures/audio/sample.dsf *)
  mkcase false SonyDsdStreamFile [L "4453442000"].
Definition case59 := (* fixtures/audio/sample.sf2 *)
  mkcase false Soundfont2 [L "52494646000000007366626b00"].
Definition case60 := (* fixtures/audio/sample.mod *)
  mkcase false UltimateSoundtrackerModule [R 1080 x00; L "4d2e4b2e00"].
Definition case61 := (* fixtures/audio/sample.wav *)
  mkcase false WaveformAudio [L "52494646000000005741564500"].
Definition case62 := (* fixtures/audio/sample.wv *)
  mkcase false Wavpack [L "7776706b00"].
Definition case63 := (* fixtures/audio/sample.wma *)
  mkcase true WindowsMediaAudio [L "3026b2758e66cf11a6d900aa0062ce6c00000000000000000100000000009107dcb7b7a9cf118ee600c00c2053652800000000000000409e69f84d5bcf11a8fd00805f5c442b"].
Definition case64 := (* fixtures/compressed/sample.bz *)
  mkcase false Bzip [L "425a3000"].
Definition case65 := (* fixtures/compressed/sample.bz2 *)
  mkcase false Bzip2 [L "425a6800"].
Definition case66 := (* fixtures/compressed/sample.bz3 *)
  mkcase false Bzip3 [L "425a33763100"].
Definition case67 := (* fixtures/compressed/sample.gz *)
  mkcase false Gzip [L "1f8b00"].
Definition case68 := (* fixtures/compressed/sample.lzfse *)
  mkcase false LempelZivFiniteStateEntropy [L "6276782d00"].
Definition case69 := (* fixtures/compressed/sample.lzma *)
  mkcase false LempelZivMarkovChainAlgorithm [L "5d00008000"].
Definition case70 := (* fixtures/compressed/sample.lrz *)
  mkcase false LongRangeZip [L "4c525a4900"].
Definition case71 := (* fixtures/compressed/sample.lz4 *)
  mkcase false Lz4 [L "04224d1800"].
Definition case72 := (* fixtures/compressed/sample.lz *)
  mkcase false Lzip [L "4c5a495000"].
Definition case73 := (* fixtures/compressed/sample.lzo *)
  mkcase false Lzop [L "894c5a4f000d0a1a0a00"].
Definition case74 := (* fixtures/compressed/sample.rz *)
  mkcase false Rzip [L "525a495000"].
Definition case75 := (* fixtures/compressed/sample.sz *)
  mkcase false Snappy [L "ff060000734e6150705900"].
Definition case76 := (* fixtures/compressed/sample.Z *)
  mkcase false UnixCompress [L "1fa000"].
Definition case77 := (* fixtures/compressed/sample.xz *)
  mkcase false Xz [L "fd377a585a0000"].
Definition case78 := (* fixtures/compressed/sample.zst *)
  mkcase false Zstandard [L "28b52ffd00"].
Definition case79 := (* fixtures/database/sample.accdb *)
  mkcase false MicrosoftAccess2007Database [L "000000005374616e646172642041434520444200"].
Definition case80 := (* fixtures/database/sample.mdb *)
  mkcase false MicrosoftAccessDatabase [L "000000005374616e64617264204a657420444200"].
Definition case81 := (* fixtures/database/sample1.wdb *)
  mkcase false MicrosoftWorksDatabase [L "20540200000005540200"].
Definition case82 := (* fixtures/database/sample2.wdb *)
  mkcase true MicrosoftWorksDatabase [L "d0cf11e0a1b11ae1000000000000000000000000000000003e000300feff0900060000000000000000000000010000000100000000000000001000000200000001000000feffffff0000000000000000"; R 432 xff; L "fdffffff07000000feffffff04000000050000000600000008000000fefffffffe"; R 479 xff; L "52006f006f007400200045006e007400720079"; R 45 x00; L "16000500ffffffffffffffff03000000c3dbcd28e20ace11a29a00aa004a1a72000000000000000000000000800dc53c9be0d9010300000040080000000000004d00610074004f00530054"; R 53 x00; L "0e000101ffffffff04000000ffffffff00000000000000000000000000000000000000001064893c9be0d901b0fab13c9be0d9010000000000000000000000004d004d"; R 61 x00; L "06000201ffffffffffffffffffffffff"; R 40 x00; L "0e000000000000004d004e0030"; R 59 x00; L "080002010200000001000000ffffffff"; R 36 x00; L "010000004707000000000000feffffff02000000030000000400000005000000060000000700000008000000090000000a0000000b0000000c0000000d0000000e0000000f000000100000001100000012000000130000001400000015000000160000001700000018000000190000001a0000001b0000001c0000001d0000001e000000feffffff20000000fe"; R 383 xff; L "4e440000010000000000000004"; R 51 x00; L "ff540200000005540200c35326540200000006000800000000000100000002000100ff0300010000040001000005000100ff01540c00000000000000010001000000565426000000417269616c0026540200000006000800000000000100000002000100ff0300012000140056542600000054696d6573204e657720526f6d616e00000000000100000002000100ff030001100018005a540a000502000000000020000007001f000000000000000a0017002f0000000000000000000000000004000400e900005c540200000066540200ff0031000100010b0018004669656c643100000000000000000000000000000000ff0f0b0018004669656c64320000"; L "0000000000000000010000000100ff0f08541800070000000100000000000200000100020000000000000000325404000000000057542600000054696d6573204e657720526f6d616e00c774c42d5db024234607d01cc774e7201000180047548a000000000054696d6573204e657720526f6d616e00000000000100ff0f04000400e9000003100018001800020082360000046d"; R 74 x00; L "01000100000000000000000000000a540001c0009d05c0009d05"; R 248 x00; L "64540400000000005f544d00010000000000000001000100000000000000000000000000000000000000000001000000d00764001800020082360000046d"; R 27 x00; L "5f544d00010000009f01000001000100000000000000000000000000000000000000000001000100d00764001800020082360000046d"; R 27 x00; L "24000100006f5401000033540100005054120001000000000000000000000000000000000067547401a0050000a00500000807000008070000c2410000852e0000d002000038040000a0050000a00500000807000008070000c2410000852e0000d00200003804000001"; R 307 x00; L "23541c00a005a00508070807c241852e010000000000d00238040000000000002600f2"; R 243 x00; L "2500f2"; R 243 x00; L "01"; R 60 x00; L "0100feff030a0000ffffffffc3dbcd28e20ace11a29a00aa004a1a72190000004d6963726f736f667420576f726b73204461746162617365000d0000004d5357010043006f006d0070004f0062006a"; R 49 x00; L "12000200ffffffffffffffffffffffff"; R 36 x00; L "1f0000005e"; R 75 x00; L "ffffffffffffffffffffffff"; R 116 x00; L "ffffffffffffffffffffffff"; R 116 x00; L "ffffffffffffffffffffffff"; R 48 x00; L "6f726b734442446f630000000000f439b271"; R 494 x00].
Definition case83 := (* fixtures/database/sample.odb *)
  mkcase true OpendocumentDatabase [L "504b030414000000000000000000f89f0df72700000027000000080000006d696d65747970656170706c69636174696f6e2f766e642e6f617369732e6f70656e646f63756d656e742e62617365504b0102140014000000000000000000f89f0df727000000270000000800000000000000000000000000000000006d696d6574797065504b05060000000001000100360000004d0000000000"].
Definition case84 := (* fixtures/database/sample.sqlite *)
  mkcase false Sqlite3 [L "53514c69746520666f726d617420330000"].
Definition case85 := (* fixtures/diagram/sample.cddx *)
  mkcase true CircuitDiagramDocument [L "504b03040a000000000049671b550000000000000000000000000f001c00636972637569746469616772616d2f5554090003c9f80963dcf8096375780b000104e803000004e8030000504b01021e030a000000000049671b550000000000000000000000000f0018000000000000001000ed4100000000636972637569746469616772616d2f5554050003c9f8096375780b000104e803000004e8030000504b0506000000000100010055000000490000000000"].
Definition case86 := (* fixtures/diagram/sample1.drawio *)
  mkcase false Drawio [L "3c6d7866696c6520686f73743d226170702e6469616772616d732e6e6574223e0a202020203c6469616772616d3e3c2f6469616772616d3e0a3c2f6d7866696c653e0a"].
Definition case87 := (* fixtures/diagram/sample2.drawio *)
  mkcase true Drawio [L "3c3f786d6c2076657273696f6e3d22312e302220656e636f64696e673d225554462d38223f3e0a3c6d7866696c6520686f73743d226170702e6469616772616d732e6e6574223e0a202020203c6469616772616d3e3c2f6469616772616d3e0a3c2f6d7866696c653e0a"].
Definition case88 := (* fixtures/diagram/sample.vsd *)
  mkcase true MicrosoftVisioDrawing [L "d0cf11e0a1b11ae1000000000000000000000000000000003e000400feff0c0006000000000000000100000001000000010000000000000000100000feffffff00000000feffffff0000000000000000"; R 432 xff; R 3584 x00; L "fdfffffffe"; R 4091 xff; L "52006f006f007400200045006e007400720079"; R 45 x00; L "16000501ffffffffffffffffffffffff141a020000000000c0000000000000460000000000000000000000000000000000000000feffffff"; R 72 x00; L "02000000ffffffffffffffffffffffff"; R 112 x00; L "02000000ffffffffffffffffffffffff"; R 112 x00; L "02000000ffffffffffffffffffffffff"; R 112 x00; L "02000000ffffffffffffffffffffffff"; R 112 x00; L "02000000ffffffffffffffffffffffff"; R 112 x00; L "02000000ffffffffffffffffffffffff"; R 112 x00; L "02000000ffffffffffffffffffffffff"; R 112 x00; L "02000000ffffffffffffffffffffffff"; R 112 x00; L "02000000ffffffffffffffffffffffff"; R 112 x00; L "02000000ffffffffffffffffffffffff"; R 112 x00; L "02000000ffffffffffffffffffffffff"; R 112 x00; L "02000000ffffffffffffffffffffffff"; R 112 x00; L "02000000ffffffffffffffffffffffff"; R 112 x00; L "02000000ffffffffffffffffffffffff"; R 112 x00; L "02000000ffffffffffffffffffffffff"; R 112 x00; L "02000000ffffffffffffffffffffffff"; R 112 x00; L "02000000ffffffffffffffffffffffff"; R 112 x00; L "02000000ffffffffffffffffffffffff"; R 112 x00; L "02000000ffffffffffffffffffffffff"; R 112 x00; L "02000000ffffffffffffffffffffffff"; R 112 x00; L "02000000ffffffffffffffffffffffff"; R 112 x00; L "02000000ffffffffffffffffffffffff"; R 112 x00; L "02000000ffffffffffffffffffffffff"; R 112 x00; L "02000000ffffffffffffffffffffffff"; R 112 x00; L "02000000ffffffffffffffffffffffff"; R 112 x00; L "02000000ffffffffffffffffffffffff"; R 112 x00; L "02000000ffffffffffffffffffffffff"; R 112 x00; L "02000000ffffffffffffffffffffffff"; R 112 x00; L "02000000ffffffffffffffffffffffff"; R 112 x00; L "02000000ffffffffffffffffffffffff"; R 112 x00; L "02000000ffffffffffffffffffffffff"; R 48 x00].
Definition case89 := (* fixtures/diagram/sample.vsdx *)
  mkcase true OfficeOpenXmlDrawing [L "504b03041400000000004d671b5500000000000000000000000006002000766973696f2f55540d0007d2f80963d2f80963d2f8096375780b000104e803000004e8030000504b010214031400000000004d671b55000000000000000000000000060020000000000000000000ed4100000000766973696f2f55540d0007d2f80963d2f80963d2f8096375780b000104e803000004e8030000504b0506000000000100010054000000440000000000"].
Definition case90 := (* fixtures/diagram/sample.sds *)
  mkcase true Starchart [L "d0cf11e0a1b11ae1000000000000000000000000000000003e000400feff0c0006000000000000000100000001000000010000000000000000100000feffffff00000000feffffff0000000000000000"; R 432 xff; R 3584 x00; L "fdfffffffe"; R 4091 xff; L "52006f006f007400200045006e007400720079"; R 45 x00; L "16000501ffffffffffffffffffffffffe0b7b3022542d01189ca008029e4b0b10000000000000000000000000000000000000000feffffff"; R 72 x00; L "02000000ffffffffffffffffffffffff"; R 112 x00; L "02000000ffffffffffffffffffffffff"; R 112 x00; L "02000000ffffffffffffffffffffffff"; R 112 x00; L "02000000ffffffffffffffffffffffff"; R 112 x00; L "02000000ffffffffffffffffffffffff"; R 112 x00; L "02000000ffffffffffffffffffffffff"; R 112 x00; L "02000000ffffffffffffffffffffffff"; R 112 x00; L "02000000ffffffffffffffffffffffff"; R 112 x00; L "02000000ffffffffffffffffffffffff"; R 112 x00; L "02000000ffffffffffffffffffffffff"; R 112 x00; L "02000000ffffffffffffffffffffffff"; R 112 x00; L "02000000ffffffffffffffffffffffff"; R 112 x00; L "02000000ffffffffffffffffffffffff"; R 112 x00; L "02000000ffffffffffffffffffffffff"; R 112 x00; L "02000000ffffffffffffffffffffffff"; R 112 x00; L "02000000ffffffffffffffffffffffff"; R 112 x00; L "02000000ffffffffffffffffffffffff"; R 112 x00; L "02000000ffffffffffffffffffffffff"; R 112 x00; L "02000000ffffffffffffffffffffffff"; R 112 x00; L "02000000ffffffffffffffffffffffff"; R 112 x00; L "02000000ffffffffffffffffffffffff"; R 112 x00; L "02000000ffffffffffffffffffffffff"; R 112 x00; L "02000000ffffffffffffffffffffffff"; R 112 x00; L "02000000ffffffffffffffffffffffff"; R 112 x00; L "02000000ffffffffffffffffffffffff"; R 112 x00; L "02000000ffffffffffffffffffffffff"; R 112 x00; L "02000000ffffffffffffffffffffffff"; R 112 x00; L "02000000ffffffffffffffffffffffff"; R 112 x00; L "02000000ffffffffffffffffffffffff"; R 112 x00; L "02000000ffffffffffffffffffffffff"; R 112 x00; L "02000000ffffffffffffffffffffffff"; R 48 x00].
Definition case91 := (* fixtures/disk/sample.adf *)
  mkcase false AmigaDiskFile [L "444f5300"].
Definition case92 := (* fixtures/disk/sample.dmg *)
  mkcase false AppleDiskImage [L "780100"].
Definition case93 := (* fixtures/disk/sample.iso *)
  mkcase false Iso9660 [R 32769 x00; L "434430303100"].
Definition case94 := (* fixtures/disk/sample.vhd *)
  mkcase false MicrosoftVirtualHardDisk [L "636f6e6e656374697800"].
Definition case95 := (* fixtures/disk/sample.vhdx *)
  mkcase false MicrosoftVirtualHardDisk2 [L "7668647866696c6500"].
Definition case96 := (* fixtures/disk/sample.qcow *)
  mkcase false QemuCopyOnWrite [L "514649fb00"].
Definition case97 := (* fixtures/disk/sample.vmdk *)
  mkcase false VirtualMachineDisk [L "4b444d560100"].
Definition case98 := (* fixtures/disk/sample.vdi *)
  mkcase false VirtualboxVirtualDiskImage [L "3c3c3c204f7261636c6520564d205669727475616c426f78204469736b20496d616765203e3e3e00"].
Definition case99 := (* fixtures/document/sample1.abw *)
  mkcase false Abiword [L "3c616269776f72642074656d706c6174653d2266616c7365223e0a3c2f616269776f72643e0a"].
Definition case100 := (* fixtures/document/sample2.abw *)
  mkcase true Abiword [L "3c3f786d6c2076657273696f6e3d22312e302220656e636f64696e673d225554462d38223f3e0a3c21444f435459504520616269776f7264205055424c494320222d2f2f414249534f555243452f2f4454442041574d4c20312e30205374726963742f2f454e222022687474703a2f2f7777772e616269736f757263652e636f6d2f61776d6c2e647464223e0a3c616269776f72642074656d706c6174653d2266616c7365223e0a3c2f616269776f72643e0a"].
Definition case101 := (* fixtures/document/sample1.awt *)
  mkcase false AbiwordTemplate [L "3c616269776f72642074656d706c6174653d2274727565223e0a3c2f616269776f72643e0a"].
Definition case102 := (* fixtures/document/sample2.awt *)
  mkcase true AbiwordTemplate [L "3c3f786d6c2076657273696f6e3d22312e302220656e636f64696e673d225554462d38223f3e0a3c21444f435459504520616269776f7264205055424c494320222d2f2f414249534f555243452f2f4454442041574d4c20312e30205374726963742f2f454e222022687474703a2f2f7777772e616269736f757263652e636f6d2f61776d6c2e647464223e0a3c616269776f72642074656d706c6174653d2274727565223e0a3c2f616269776f72643e0a"].
Definition case103 := (* fixtures/document/sample.indd *)
  mkcase false AdobeIndesignDocument [L "0606edf5d81d46e5bd31efe7fe74b71d00"].
Definition case104 := (* fixtures/document/sample.djvu *)
  mkcase false Djvu [L "41542654464f524d00000000444a564d00"].
Definition case105 := (* fixtures/document/sample.idml *)
  mkcase true IndesignMarkupLanguage [L "504b030414000000000000000000cb768f892b0000002b000000080000006d696d65747970656170706c69636174696f6e2f766e642e61646f62652e696e64657369676e2d69646d6c2d7061636b616765504b0102140014000000000000000000cb768f892b0000002b0000000800000000000000000000000000000000006d696d6574797065504b0506000000000100010036000000510000000000"].
Definition case106 := (* fixtures/document/sample.tex *)
  mkcase false Latex [L "5c646f63756d656e74636c6173737b61727469636c657d0a5c626567696e7b646f63756d656e747d0a5c656e647b646f63756d656e747d0a"].
Definition case107 := (* fixtures/document/sample.pub *)
  mkcase true MicrosoftPublisherDocument [L "d0cf11e0a1b11ae1000000000000000000000000000000003e000400feff0c0006000000000000000100000001000000010000000000000000100000feffffff00000000feffffff0000000000000000"; R 432 xff; R 3584 x00; L "fdfffffffe"; R 4091 xff; L "52006f006f007400200045006e007400720079"; R 45 x00; L "16000501ffffffffffffffffffffffff011202000000000000c00000000000460000000000000000000000000000000000000000feffffff"; R 72 x00; L "02000000ffffffffffffffffffffffff"; R 112 x00; L "02000000ffffffffffffffffffffffff"; R 112 x00; L "02000000ffffffffffffffffffffffff"; R 112 x00; L "02000000ffffffffffffffffffffffff"; R 112 x00; L "02000000ffffffffffffffffffffffff"; R 112 x00; L "02000000ffffffffffffffffffffffff"; R 112 x00; L "02000000ffffffffffffffffffffffff"; R 112 x00; L "02000000ffffffffffffffffffffffff"; R 112 x00; L "02000000ffffffffffffffffffffffff"; R 112 x00; L "02000000ffffffffffffffffffffffff"; R 112 x00; L "02000000ffffffffffffffffffffffff"; R 112 x00; L "02000000ffffffffffffffffffffffff"; R 112 x00; L "02000000ffffffffffffffffffffffff"; R 112 x00; L "02000000ffffffffffffffffffffffff"; R 112 x00; L "02000000ffffffffffffffffffffffff"; R 112 x00; L "02000000ffffffffffffffffffffffff"; R 112 x00; L "02000000ffffffffffffffffffffffff"; R 112 x00; L "02000000ffffffffffffffffffffffff"; R 112 x00; L "02000000ffffffffffffffffffffffff"; R 112 x00; L "02000000ffffffffffffffffffffffff"; R 112 x00; L "02000000ffffffffffffffffffffffff"; R 112 x00; L "02000000ffffffffffffffffffffffff"; R 112 x00; L "02000000ffffffffffffffffffffffff"; R 112 x00; L "02000000ffffffffffffffffffffffff"; R 112 x00; L "02000000ffffffffffffffffffffffff"; R 112 x00; L "02000000ffffffffffffffffffffffff"; R 112 x00; L "02000000ffffffffffffffffffffffff"; R 112 x00; L "02000000ffffffffffffffffffffffff"; R 112 x00; L "02000000ffffffffffffffffffffffff"; R 112 x00; L "02000000ffffffffffffffffffffffff"; R 112 x00; L "02000000ffffffffffffffffffffffff"; R 48 x00].
Definition case108 := (* fixtures/document/sample.doc *)
  mkcase true MicrosoftWordDocument [L "d0cf11e0a1b11ae1000000000000000000000000000000003b000300feff0900060000000000000000000000010000000f00000000000000001000000200000001000000feffffff0000000000000000"; R 432 xff; L "fdfffffffffffffffeffffff0400000005000000060000000700000008000000090000000a0000000b0000000c0000000d0000000e000000feffffff10000000fe"; R 447 xff; L "52006f006f007400200045006e007400720079"; R 45 x00; L "16000500ffffffffffffffffffffffff"; R 36 x00; L "feffffff"; R 76 x00; L "ffffffffffffffffffffffff"; R 36 x00; L "feffffff"; R 76 x00; L "ffffffffffffffffffffffff"; R 36 x00; L "feffffff"; R 76 x00; L "ffffffffffffffffffffffff"; R 36 x00; L "feffffff000000000000000001000000fefffffffeffffff0400000005000000060000000700000008000000090000000a0000000b0000000c0000000d0000000e0000000f000000100000001100000012000000130000001400000015000000160000001700000018000000190000001a0000001b0000001c0000001d0000001e0000001f000000feffffff2100000022000000feffffff2400000025000000260000002700000028000000290000002a0000002b0000002c0000002d0000002e0000002f000000300000003100000032000000330000003400000035000000360000003700000038000000390000003a0000003b0000003c0000003d000000"; L "3e0000003f000000400000004100000042000000430000004400000045000000460000004700000048000000490000004a0000004b0000004c0000004d0000004e0000004f000000500000005100000052000000530000005400000055000000560000005700000058000000590000005a0000005b000000feffffff5d000000fe"; R 139 xff; L "0100feff030a0000ffffffff0609020000000000c000000000000046180000004d6963726f736f667420576f72642d446f6b756d656e74000a0000004d53576f7264446f630010000000576f72642e446f63756d656e742e3800f439b271"; R 34 x00; L "01000002"; R 60 x00; L "120014000a0001005b000f0000000000000000005e000010f1ff02005e00000006004e006f0072006d0061006c0000000b0000003124012a2401412400003300422a004f4a0300514a0300434a18006d480c0473480c044b480200504a04006e480408744804085e4a0500614a18005f483904"; R 29 x00; L "4200fe1f010002014200000005005400690074007200650000000d000f0013a4f00014a478000624010018004f4a0600514a0600434a1c00504a07005e4a0500614a1c003e004210010002013e0000000e0043006f0072007000730020006400650020007400650078007400650000001000100012641401010013a4000014a48c00000022002f10010112012200000005004c00690073007400650000000200110004005e4a080040002210010022014000000007004c00e900670065006e006400650000000d00120013a4780014a478000c2401001200434a18003608015e4a0800614a18005d08013a00fe1f010032013a000000050049006e0064006500"; L "78000000050013000c24010018006d48ff007348ff006e48ff007448ff005e4a08005f48ff0000000000010000000400000e00000000ffffffff0008000002080000050000000008000002080000060000000000000001000000000000000210000000000000000100000050000008000000000900000047169001"; R 36 x00; L "540069006d006500730020004e0065007700200052006f006d0061006e0000003516900102"; R 35 x00; L "530079006d0062006f006c00000033269001"; R 36 x00; L "41007200690061006c000000691690010111"; R 34 x00; L "4c0069006200650072006100740069006f006e002000530065007200690066000000540069006d006500730020004e0065007700200052006f006d0061006e0000004b06900101"; R 35 x00; L "4e006f0074006f00200053006500720069006600200043004a004b0020005300430000005306900101"; R 35 x00; L "440072006f00690064002000530061006e007300200044006500760061006e00610067006100720069000000532690010110"; R 34 x00; L "4c0069006200650072006100740069006f006e002000530061006e007300000041007200690061006c0000004906900101"; R 35 x00; L "4e006f0074006f002000530061006e007300200043004a004b0020005300430000005324900101"; R 35 x00; L "440072006f00690064002000530061006e007300200044006500760061006e006100670061007200690000004200040001088d180000c5020000680100000000e64dab670000000000000000010000000000000000000000000001000000000004008390000000000000000000000000010000000000000000000000000027030020000000000004"; R 318 x00; L "1230"; R 82 x00; L "02000000000000000000000000000020000004"; R 36 x00; L "30"; R 48 x00; L "80"; R 52 x00; L "feff0000010002000000000000000000000000000000000001000000e0859ff2f94f6810ab9108002b27b3d9300000007c00000006000000010000003800000009000000400000000a0000004c0000000b000000580000000c000000640000000d0000007000000002000000e9fd00001e000000020000003000000040000000000000000000000040000000000000000000000040000000ffe370fc8bf4d80140"; R 31 x00; L "eca501014d2009040000f012bf000000000000300000000000080000020800000e0043616f6c616e3830000000000000000000000000000000000000090416002f0e0000000000000000000001"; R 31 x00; L "ffff0f000500000001000000ffff0f000600000001000000ffff0f0000000000000000000000000000000000880000000000b601000000000000b601"; R 34 x00; L "b601000014"; R 43 x00; L "ca0100000c000000d60100000c000000000000000000000003020000b202"; R 66 x00; L "e201"; R 54 x00; L "b5040000620200000000000000000000ee01000015"; R 475 x00; L "e20100000c"; R 115 x00; L "0200d9"; R 1027 x00; L "0d"; R 512 x00; L "0800000208"; R 505 x00; L "010008000002080000f9"; R 489 x00; L "06000003240061240041240000012d003c300040500000425002001fb0d02f20b0e03d21b06e0422b06e0423906e0424906e04335000002832000e30000000000000000000000000000000000000feff000001000200000000000000000000000000000000000200000002d5cdd59c2e1b10939708002b2cf9ae4400000005d5cdd59c2e1b10939708002b2cf9ae5c0000001800000001000000010000001000000002000000e9fd00001800000001000000010000001000000002000000e9fd"; R 142 x00; L "52006f006f007400200045006e007400720079"; R 45 x00; L "16000500ffffffffffffffff010000000609020000000000c0000000000000460000000000000000000000000000000000000000030000008017000000000000010043006f006d0070004f0062006a"; R 49 x00; L "120002000200000004000000ffffffff"; R 40 x00; L "6a0000000000000001004f006c0065"; R 57 x00; L "0a000200ffffffff03000000ffffffff"; R 36 x00; L "02000000140000000000000031005400610062006c0065"; R 53 x00; L "0e000200ffffffffffffffffffffffff"; R 36 x00; L "0300000017070000000000000500530075006d006d0061007200790049006e0066006f0072006d006100740069006f006e"; R 27 x00; L "280002000500000006000000ffffffff"; R 36 x00; L "20000000ac0000000000000057006f007200640044006f00630075006d0065006e0074"; R 41 x00; L "1a000200ffffffffffffffffffffffff"; R 36 x00; L "230000002f0e000000000000050044006f00630075006d0065006e007400530075006d006d0061007200790049006e0066006f0072006d006100740069006f006e000000000000000000000038000200ffffffffffffffffffffffff"; R 36 x00; L "5c00000074"; R 75 x00; L "ffffffffffffffffffffffff"; R 36 x00; L "feffffff0000000000000000"].
Definition case109 := (* fixtures/document/sample1.wps *)
  mkcase false MicrosoftWorksWordProcessor [L "01fe"; R 110 x00; L "01"; R 31 x00].
Definition case110 := (* fixtures/document/sample2.wps *)
  mkcase true MicrosoftWorksWordProcessor [L "d0cf11e0a1b11ae1000000000000000000000000000000003e000300feff0900060000000000000000000000010000000100000000000000001000000200000001000000feffffff0000000000000000"; R 432 xff; L "fdfffffffefffffffefffffffeffffffffffffffffffffffffffffffffffffff090000000a0000000b0000000c0000000d0000000e0000000f0000001000000011000000120000001300000014000000150000001600000017000000fe"; R 419 xff; L "52006f006f007400200045006e007400720079"; R 45 x00; L "16000500ffffffffffffffff01000000b25aa40e0a9ed111a40700c04fb932ba000000000000000000000000e0615d139be0d90103000000c00000000000000043004f004e00540045004e00540053"; R 49 x00; L "120002010200000003000000ffffffff"; R 36 x00; L "080000000020000000000000010043006f006d0070004f0062006a"; R 49 x00; L "12000200ffffffffffffffffffffffff"; R 40 x00; L "56000000000000005300500045004c004c0049004e0047"; R 49 x00; L "12000200ffffffffffffffffffffffff"; R 36 x00; L "02000000280000000000000001000000fefffffffe"; R 503 xff; L "0100feff030a0000ffffffffb25aa40e0a9ed111a40700c04fb932ba1a0000005175696c6c39362053746f72792047726f757020436c61737300ffffffff0100000000000000f439b271"; R 54 x00; L "060000000100000079aa9d60000000000100000079aa9d60000000000100000079aa9d60"; R 2396 x00; L "43484e4b574b532004000800100000030002000000200000f8011000ffffffff18005445585400000100000054455854000200000600000018004644505000000100000046445050000400000002000018004644504300000100000046445043000600000002000018005354534800000100000053545348000800001e000000180053545348010001000000535453481e080000320000001800535949440000010000005359494450080000140000001800534750200000010000005347502064080000040000001800494e4b20000001000000494e4b206808000004000000180042544550000001000000504c43206c080000180000001800425445430000"; L "01000000504c432084080000180000001800464f4e54000001000000464f4e549c0800003c000000180053545253000001000000504c4320d80800003a000000180050524e54000001000000574e5052120900005b15000018004652414d0000010000004652414d6d1e00008800000018005449544c0000010000005449544cf51e0000120000001800444f5020000001000000444f5020071f000028"; R 99 x00; L "0d000d000d000000000000004a0075006c0079"; R 157 x00; L "4100750067007500730074"; R 153 x00; L "530065007000740065006d006200650072"; R 147 x00; L "4f00630074006f000300010000000000020200000402000006020000fc01d401d401"; R 442 x00; L "28000000328222000000271a0200288a180000000020a0db290001100200082040b753000910010004000000010001000000000006020000f601"; R 488 x00; L "0a0000001222090400000a00000001000000f88819000400000000545348040000000000ffffffff1e00000002000000f88819000000000000545348080000001600000006000a0000000c2218f0010000000300040000000c220a00000003000000010000000300000004000000040000007400740001000000040000000000000000000000060200000004000001000000040000000000000000000000060200000006000028000000010000000089190004000000004f4e54040000000f00540069006d006500730020004e0065007700200052006f006d0061006e00000001020300000008000000ff000000010000000100000001000000000000000a00"; L "00000022010000000a0000000022070000000a00000000220600000003a4f8c361130000681b0000580200005802000000000000000000000000000000000000ec1447004d6963726f736f6674205072696e7420746f2050444600000000000000000000010403069c005014032f0100010009009a0b3408640001000f005802020001005802030001004134"; R 44 x00; L "0100000000000000010000000200000001000000ffffffff4749533400000000000000000000000044494e552200c80024032c113f5d7b7e"; R 28 x00; L "050000000000050001"; R 507 x00; L "01"; R 43 x00; L "c8000000534d544a000000001000b8007b00300038003400460030003100460041002d0045003600330034002d0034004400370037002d0038003300450045002d003000370034003800310037004300300033003500380031007d000000524553444c4c00556e69726573444c4c00506170657253697a65004134004f7269656e746174696f6e00504f525452414954005265736f6c7574696f6e005265734f7074696f6e3100436f6c6f724d6f646500436f6c6f720000000000000000000000000000000000002c1100005634444d01000000000000009c0a70221c000000ec00000003000000fa014f0834e6774d83ee074817c03581d00000004c000000"; L "0300000000080000000000000000000003000000000800002a000000000800000300000040000000560000000010000044006f00630075006d0065006e0074005500730065007200500061007300730077006f0072006400000044006f00630075006d0065006e0074004f0077006e0065007200500061007300730077006f0072006400000044006f00630075006d0065006e00740043007200790070007400530065006300750072006900740079"; R 4165 x00; L "080012002a00010077696e73706f6f6c00004d6963726f736f6674205072696e7420746f205044460000504f525450524f4d50543a000000000000000000000000000000000000020046000000001affff011207ff042254ab0f00052280c69a000622509353000722246305000822f06013000922f0601300131216001822010000001b22410000002e220100000040000000001affff011206ff042254ab0f000522f0f906000622509353000722246305000822f06013000922f0601300131216001822020000002e220200000055006e007400690074006c00650064000000280000000022304d73000122a025a3000322d06911000522d0691100181201"; L "00190a28220904"; R 201 x00; L "0a000000122209040000"].
Definition case111 := (* fixtures/document/sample.wri *)
  mkcase false MicrosoftWrite [L "31be000000ab"].
Definition case112 := (* fixtures/document/sample.docx *)
  mkcase true OfficeOpenXmlDocument [L "504b030414000000000048671b5500000000000000000000000005002000776f72642f55540d0007c9f80963dcf80963c9f8096375780b000104e803000004e8030000504b0102140314000000000048671b55000000000000000000000000050020000000000000000000ed4100000000776f72642f55540d0007c9f80963dcf80963c9f8096375780b000104e803000004e8030000504b0506000000000100010053000000430000000000"].
Definition case113 := (* fixtures/document/sample.odt *)
  mkcase true OpendocumentText [L "504b0304140000000000000000005ec6320c2700000027000000080000006d696d65747970656170706c69636174696f6e2f766e642e6f617369732e6f70656e646f63756d656e742e74657874504b01021400140000000000000000005ec6320c27000000270000000800000000000000000000000000000000006d696d6574797065504b05060000000001000100360000004d0000000000"].
Definition case114 := (* fixtures/document/sample.odm *)
  mkcase true OpendocumentTextMaster [L "504b0304140000000000000000004abea18a2e0000002e000000080000006d696d65747970656170706c69636174696f6e2f766e642e6f617369732e6f70656e646f63756d656e742e746578742d6d6173746572504b01021400140000000000000000004abea18a2e0000002e0000000800000000000000000000000000000000006d696d6574797065504b0506000000000100010036000000540000000000"].
Definition case115 := (* fixtures/document/sample.otm *)
  mkcase true OpendocumentTextMasterTemplate [L "504b030414000000000000000000d813c2b13700000037000000080000006d696d65747970656170706c69636174696f6e2f766e642e6f617369732e6f70656e646f63756d656e742e746578742d6d61737465722d74656d706c617465504b0102140014000000000000000000d813c2b137000000370000000800000000000000000000000000000000006d696d6574797065504b05060000000001000100360000005d0000000000"].
Definition case116 := (* fixtures/document/sample.ott *)
  mkcase true OpendocumentTextTemplate [L "504b030414000000000000000000e41192293000000030000000080000006d696d65747970656170706c69636174696f6e2f766e642e6f617369732e6f70656e646f63756d656e742e746578742d74656d706c617465504b0102140014000000000000000000e411922930000000300000000800000000000000000000000000000000006d696d6574797065504b0506000000000100010036000000560000000000"].
Definition case117 := (* fixtures/document/sample.xps *)
  mkcase true Openxps [L "504b030414000000000021863c580000000000000000000000000a002000446f63756d656e74732f55540d00076f77b6657177b6656f77b66575780b000104e803000004e8030000504b030414000000000021863c580000000000000000000000000c002000446f63756d656e74732f312f55540d00076f77b6656f77b6656f77b66575780b000104e803000004e8030000504b03041400000000000f863c5800000000000000000000000012002000446f63756d656e74732f312f50616765732f55540d00074e77b6657077b6656f77b66575780b000104e803000004e8030000504b03041400080008000f863c5800000000000000000000000019002000"; L "446f63756d656e74732f312f50616765732f312e667061676555540d00074e77b6654e77b6654e77b66575780b000104e803000004e80300000300504b0708000000000200000000000000504b0102140314000000000021863c580000000000000000000000000a0020000000000000000000ed4100000000446f63756d656e74732f55540d00076f77b6657177b6656f77b66575780b000104e803000004e8030000504b0102140314000000000021863c580000000000000000000000000c0020000000000000000000ed4148000000446f63756d656e74732f312f55540d00076f77b6656f77b6656f77b66575780b000104e803000004e8030000504b01"; L "0214031400000000000f863c58000000000000000000000000120020000000000000000000ed4192000000446f63756d656e74732f312f50616765732f55540d00074e77b6657077b6656f77b66575780b000104e803000004e8030000504b010214031400080008000f863c58000000000200000000000000190020000000000000000000a481e2000000446f63756d656e74732f312f50616765732f312e667061676555540d00074e77b6654e77b6654e77b66575780b000104e803000004e8030000504b05060000000004000400790100004b0100000000"].
Definition case118 := (* fixtures/document/sample.pdf *)
  mkcase false PortableDocumentFormat [L "255044462d00"].
Definition case119 := (* fixtures/document/sample.ps *)
  mkcase false Postscript [L "252100"].
Definition case120 := (* fixtures/document/sample.rtf *)
  mkcase false RichTextFormat [L "7b5c72746600"].
Definition case121 := (* fixtures/document/sample.sdw *)
  mkcase true Starwriter [L "d0cf11e0a1b11ae1000000000000000000000000000000003e000400feff0c0006000000000000000100000001000000010000000000000000100000feffffff00000000feffffff0000000000000000"; R 432 xff; R 3584 x00; L "fdfffffffe"; R 4091 xff; L "52006f006f007400200045006e007400720079"; R 45 x00; L "16000501ffffffffffffffffffffffffb0e9048b0e42d011a45e00a0249d57b10000000000000000000000000000000000000000feffffff"; R 72 x00; L "02000000ffffffffffffffffffffffff"; R 112 x00; L "02000000ffffffffffffffffffffffff"; R 112 x00; L "02000000ffffffffffffffffffffffff"; R 112 x00; L "02000000ffffffffffffffffffffffff"; R 112 x00; L "02000000ffffffffffffffffffffffff"; R 112 x00; L "02000000ffffffffffffffffffffffff"; R 112 x00; L "02000000ffffffffffffffffffffffff"; R 112 x00; L "02000000ffffffffffffffffffffffff"; R 112 x00; L "02000000ffffffffffffffffffffffff"; R 112 x00; L "02000000ffffffffffffffffffffffff"; R 112 x00; L "02000000ffffffffffffffffffffffff"; R 112 x00; L "02000000ffffffffffffffffffffffff"; R 112 x00; L "02000000ffffffffffffffffffffffff"; R 112 x00; L "02000000ffffffffffffffffffffffff"; R 112 x00; L "02000000ffffffffffffffffffffffff"; R 112 x00; L "02000000ffffffffffffffffffffffff"; R 112 x00; L "02000000ffffffffffffffffffffffff"; R 112 x00; L "02000000ffffffffffffffffffffffff"; R 112 x00; L "02000000ffffffffffffffffffffffff"; R 112 x00; L "02000000ffffffffffffffffffffffff"; R 112 x00; L "02000000ffffffffffffffffffffffff"; R 112 x00; L "02000000ffffffffffffffffffffffff"; R 112 x00; L "02000000ffffffffffffffffffffffff"; R 112 x00; L "02000000ffffffffffffffffffffffff"; R 112 x00; L "02000000ffffffffffffffffffffffff"; R 112 x00; L "02000000ffffffffffffffffffffffff"; R 112 x00; L "02000000ffffffffffffffffffffffff"; R 112 x00; L "02000000ffffffffffffffffffffffff"; R 112 x00; L "02000000ffffffffffffffffffffffff"; R 112 x00; L "02000000ffffffffffffffffffffffff"; R 112 x00; L "02000000ffffffffffffffffffffffff"; R 48 x00].
Definition case122 := (* fixtures/document/sample.sxw *)
  mkcase true SunXmlWriter [L "504b030414000000000000000000e1a531391e0000001e000000080000006d696d65747970656170706c69636174696f6e2f766e642e73756e2e786d6c2e777269746572504b0102140014000000000000000000e1a531391e0000001e0000000800000000000000000000000000000000006d696d6574797065504b0506000000000100010036000000440000000000"].
Definition case123 := (* fixtures/document/sample.sgw *)
  mkcase true SunXmlWriterGlobal [L "504b0304140000000000000000007cbc4da62500000025000000080000006d696d65747970656170706c69636174696f6e2f766e642e73756e2e786d6c2e7772697465722e676c6f62616c504b01021400140000000000000000007cbc4da625000000250000000800000000000000000000000000000000006d696d6574797065504b05060000000001000100360000004b0000000000"].
Definition case124 := (* fixtures/document/sample.stw *)
  mkcase true SunXmlWriterTemplate [L "504b030414000000000000000000b609f9bc2700000027000000080000006d696d65747970656170706c69636174696f6e2f766e642e73756e2e786d6c2e7772697465722e74656d706c617465504b0102140014000000000000000000b609f9bc27000000270000000800000000000000000000000000000000006d696d6574797065504b05060000000001000100360000004d0000000000"].
Definition case125 := (* fixtures/document/sample.uot *)
  mkcase true UniformOfficeFormatText [L "3c3f786d6c2076657273696f6e3d22312e302220656e636f64696e673d225554462d38223f3e0a3c756f663a554f4620786d6c6e733a756f663d22687474703a2f2f736368656d61732e756f662e6f72672f636e2f323030332f756f662220786d6c6e733ae8a1a83d22687474703a2f2f736368656d61732e756f662e6f72672f636e2f323030332f756f662d73707265616473686565742220786d6c6e733ae6bc943d22687474703a2f2f736368656d61732e756f662e6f72672f636e2f323030332f756f662d736c69646573686f772220786d6c6e733ae5ad973d22687474703a2f2f736368656d61732e756f662e6f72672f636e2f323030332f756f66"; L "2d776f726470726f632220786d6c6e733ae59bbe3d22687474703a2f2f736368656d61732e756f662e6f72672f636e2f323030332f67726170682220786d6c6e733a64743d22757569643a43324634313031302d363542332d313164312d413239462d3030414130304331343838322220786d6c6e733a68746d6c3d22687474703a2f2f7777772e77332e6f72672f54522f5245432d68746d6c34302220786d6c6e733a7873643d22687474703a2f2f7777772e77332e6f72672f323030312f584d4c536368656d612220786d6c6e733a7873693d22687474703a2f2f7777772e77332e6f72672f323030312f584d4c536368656d612d696e7374616e636522"; L "20756f663a6c616e67756167653d22636e2220756f663a6c6f6349443d2275303030302220756f663a76657273696f6e3d22312e302220756f663a6d696d65747970653d22766e642e756f662e74657874223e"].
Definition case126 := (* fixtures/document/sample1.wpd *)
  mkcase false WordperfectDocument [L "ff57504300"].
Definition case127 := (* fixtures/document/sample2.wpd *)
  mkcase true WordperfectDocument [L "d0cf11e0a1b11ae1000000000000000000000000000000003e000400feff0c0006000000000000000100000001000000010000000000000000100000feffffff00000000feffffff0000000000000000"; R 432 xff; R 3584 x00; L "fdfffffffe"; R 4091 xff; L "52006f006f007400200045006e007400720079"; R 45 x00; L "16000501ffffffffffffffffffffffffff739851ad2d200219370000929679cd0000000000000000000000000000000000000000feffffff"; R 72 x00; L "02000000ffffffffffffffffffffffff"; R 112 x00; L "02000000ffffffffffffffffffffffff"; R 112 x00; L "02000000ffffffffffffffffffffffff"; R 112 x00; L "02000000ffffffffffffffffffffffff"; R 112 x00; L "02000000ffffffffffffffffffffffff"; R 112 x00; L "02000000ffffffffffffffffffffffff"; R 112 x00; L "02000000ffffffffffffffffffffffff"; R 112 x00; L "02000000ffffffffffffffffffffffff"; R 112 x00; L "02000000ffffffffffffffffffffffff"; R 112 x00; L "02000000ffffffffffffffffffffffff"; R 112 x00; L "02000000ffffffffffffffffffffffff"; R 112 x00; L "02000000ffffffffffffffffffffffff"; R 112 x00; L "02000000ffffffffffffffffffffffff"; R 112 x00; L "02000000ffffffffffffffffffffffff"; R 112 x00; L "02000000ffffffffffffffffffffffff"; R 112 x00; L "02000000ffffffffffffffffffffffff"; R 112 x00; L "02000000ffffffffffffffffffffffff"; R 112 x00; L "02000000ffffffffffffffffffffffff"; R 112 x00; L "02000000ffffffffffffffffffffffff"; R 112 x00; L "02000000ffffffffffffffffffffffff"; R 112 x00; L "02000000ffffffffffffffffffffffff"; R 112 x00; L "02000000ffffffffffffffffffffffff"; R 112 x00; L "02000000ffffffffffffffffffffffff"; R 112 x00; L "02000000ffffffffffffffffffffffff"; R 112 x00; L "02000000ffffffffffffffffffffffff"; R 112 x00; L "02000000ffffffffffffffffffffffff"; R 112 x00; L "02000000ffffffffffffffffffffffff"; R 112 x00; L "02000000ffffffffffffffffffffffff"; R 112 x00; L "02000000ffffffffffffffffffffffff"; R 112 x00; L "02000000ffffffffffffffffffffffff"; R 112 x00; L "02000000ffffffffffffffffffffffff"; R 48 x00].
Definition case128 := (* fixtures/ebook/sample.lrf *)
  mkcase false BroadBandEbook [L "4c00520046000000"].
Definition case129 := (* fixtures/ebook/sample.epub *)
  mkcase true ElectronicPublication [L "504b0304140000000000000000006f61ab2c1400000014000000080000006d696d65747970656170706c69636174696f6e2f657075622b7a6970504b01021400140000000000000000006f61ab2c14000000140000000800000000000000000000000000000000006d696d6574797065504b05060000000001000100360000003a0000000000"].
Definition case130 := (* fixtures/ebook/sample1.fb2 *)
  mkcase false Fictionbook [L "3c46696374696f6e426f6f6b20786d6c6e733d22687474703a2f2f7777772e67726962757365722e72752f786d6c2f66696374696f6e626f6f6b2f322e302220786d6c6e733a786c696e6b3d22687474703a2f2f7777772e77332e6f72672f313939392f786c696e6b223e0a202020203c6465736372697074696f6e3e0a20202020202020203c7469746c652d696e666f3e0a2020202020202020202020203c67656e72653e556e6b6e6f776e3c2f67656e72653e0a2020202020202020202020203c617574686f723e3c66697273742d6e616d653e4a6f686e3c2f66697273742d6e616d653e3c6c6173742d6e616d653e446f653c2f6c6173742d6e616d65"; L "3e3c2f617574686f723e0a2020202020202020202020203c626f6f6b2d7469746c653e48656c6c6f20776f726c643c2f626f6f6b2d7469746c653e0a2020202020202020202020203c6c616e673e656e3c2f6c616e673e0a20202020202020203c2f7469746c652d696e666f3e0a202020203c2f6465736372697074696f6e3e0a202020203c626f64793e0a20202020202020203c703e48656c6c6f20776f726c64213c2f703e0a202020203c2f626f64793e0a3c2f46696374696f6e426f6f6b3e0a"].
Definition case131 := (* fixtures/ebook/sample2.fb2 *)
  mkcase true Fictionbook [L "3c3f786d6c2076657273696f6e3d22312e302220656e636f64696e673d225554462d38223f3e0a3c46696374696f6e426f6f6b20786d6c6e733d22687474703a2f2f7777772e67726962757365722e72752f786d6c2f66696374696f6e626f6f6b2f322e302220786d6c6e733a786c696e6b3d22687474703a2f2f7777772e77332e6f72672f313939392f786c696e6b223e0a202020203c6465736372697074696f6e3e0a20202020202020203c7469746c652d696e666f3e0a2020202020202020202020203c67656e72653e556e6b6e6f776e3c2f67656e72653e0a2020202020202020202020203c617574686f723e3c66697273742d6e616d653e4a6f68"; L "6e3c2f66697273742d6e616d653e3c6c6173742d6e616d653e446f653c2f6c6173742d6e616d653e3c2f617574686f723e0a2020202020202020202020203c626f6f6b2d7469746c653e48656c6c6f20776f726c643c2f626f6f6b2d7469746c653e0a2020202020202020202020203c6c616e673e656e3c2f6c616e673e0a20202020202020203c2f7469746c652d696e666f3e0a202020203c2f6465736372697074696f6e3e0a202020203c626f64793e0a20202020202020203c703e48656c6c6f20776f726c64213c2f703e0a202020203c2f626f64793e0a3c2f46696374696f6e426f6f6b3e0a"].
Definition case132 := (* fixtures/ebook/sample.fbz *)
  mkcase true FictionbookZip [L "504b03041403000008002c58c45689b17c01db000000c30100000a00000073616d706c652e6662325d514b8e83300cddf7140c7bf07c56549e2c46a3d1a8fb1e80960011a98d4c50dadb9726aa08cdca7e1f3b2fc13f737686e98779c8ae174bd377de3b37ee01bcf76527e6344f5a4a996161a18dead3a286cff23d8f96fdd51a1a3646ff55b274f0515515043657bb6c39d8e8e92c667c4c8948409d715617865a5ec140749a44ab230dc49e1062bb95d4b3eb5914b6462657507dd1eac03d212400dafa59feb246585b84e87f19fa4858845ba97f6d2d679ec5360809be35d89a3aa50921146b32788d86b07d82b8adb9259e31ddf986303e9d5187907c9a"; L "dadd01504b01023f031403000008002c58c45689b17c01db000000c30100000a0024000000000000002080a4810000000073616d706c652e6662320a002000000000000100180080f3c022c396d901800c5345c396d901800c5345c396d901504b050600000000010001005c000000030100000000"].
Definition case133 := (* fixtures/ebook/sample.lit *)
  mkcase false MicrosoftReader [L "49544f4c49544c5301000000280000000000000000000000c107900a7640d31187890000f8105754"].
Definition case134 := (* fixtures/ebook/sample.mobi *)
  mkcase false Mobipocket [R 60 x00; L "424f4f4b4d4f424900"].
Definition case135 := (* fixtures/executable/sample.prg *)
  mkcase false Commodore64Program [L "01080b085d1e9e32303935000000016764625f6c6f61645f727573745f7072657474795f7072696e746572732e707900a9ff8502a99f850320131820f90d4c261860a51648a51748a51848a51948a61a8eec19a61b8eed19a61c8eee19a61d8eef19a61e8ef019a61f8ef119a6208ef219a6218ef319ae97198606860aa9971865068506a91869008507ae98198608860ba9971865088508a91869008509a00018b10871068dc31918a50a69048506188a6909aa18bd9718a6067d97188dc41918a50a6908850618a50b6912aa18bd9718a6067d97188dc51918a50a690c850618a50b691baa18bd9718a6067d97188dc61918a50a6910850618a50b6924aa18"; L "bd9718a6067d97188dc71918a50a6914850618a50b692daa18bd9718a6067d97188dc81918a50a6918850618a50b6936aa18bd9718a6067d97188dc91918a50a691c850618a50b693faa18bd9718a6067d97188dca1918a50a6920850618a50b6948aa18bd9718a6067d97188dcb1918a50a6924850618a50b6951aa18bd9718a6067d97188dcc1918a50a6928850618a50b695aaa18bd9718a6067d97188dcd1918a50a692c850618a50b6963aa18bd9718a6067d97188dce1918a50a6930850618a50b696caa18bd9718a6067d97188dcf1918a50a6934850618a50b6975aa18bd9718a6067d97188dd01918a50a6938850618a50b697eaa18bd9718a6067d"; L "97188dd11918a50a693c850618a50b6987aa18bd9718a6067d97188dd21918a50a6940850618a50b6990aa18bd9718a6067d97188dd31918a50a6944850618a50b6999aa18bd9718a6067d97188dd41918a50a6948850618a50b69a2aa18bd9718a6067d97188dd51918a50a694c850618a50b69abaa18bd9718a6067d97188dd61918a50a6950850618a50b69b4aa18bd9718a6067d97188dd71918a50a6954850618a50b69bdaa18bd9718a6067d97188dd81918a50a6958850618a50b69c6aa18bd9718a6067d97188dd91918a50a695c850618a50b69cfaa18bd9718a6067d97188dda1918a50a6960850618a50b69d8aa18bd9718a6067d97188ddb1918"; L "a50a69038d971918a50b69fb8d9819ad9919ae9a1986068507860848bd9718aa688609850aaa18a5097d9718999b1918a50a6903188509a5086907aaa509c8c028f0034c180b18a50769028d991918a50669fd8d9a19aeab198edc19aeac198edd19aead198ede19aeae198edf19aeaf198ee019aeb0198ee119aeb1198ee219aeb2198ee319aeb3198ee419aeb4198ee519ae9b198ee619ae9c198ee719ae9d198ee819ae9e198ee919ae9f198eea19aea0198eeb19aea1198618aea2198619aea319861aaea419861baea519861caea619861daea719861eaea819861faea9198620aeaa198621aeb5198606aeb6198607aeb7198608aeb8198609aeb91986"; L "0aaeba19860baebb19860caebc19860daebd19860eaebe19860faebf198610aec0198611aec1198614aec2198615a2008617bdc319aa8aace6198416186516a00091048aace7198416186516a00191048aace8198416186516a00291048aace9198416186516a00391048aacea198416186516a00491048aaceb198416186516a00591048a186518c891048a186519c891048a18651ac891048a18651bc891048a18651cc891048a18651dc891048a18651ec891048a18651fc891048a186520c891048a186521c891048aacdc198416186516a01091048aacdd198416186516a01191048aacde198416186516a01291048aacdf198416186516a01391048aac"; L "e0198416186516a01491048aace1198416186516a01591048aace2198416186516a01691048aace3198416186516a01791048aace4198416186516a01891048aace5198416186516a01991048a186506c891048a186507c891048a186508c891048a186509c891048a18650ac891048a18650bc891048a18650cc891048a18650dc891048a18650ec891048a18650fc891048a186510c891048a186511c891048a186514c891048aa617186515c89104a5041869288504a50569008505e8e019f0034c2f0caef3198621aef2198620aef119861faef019861eaeef19861daeee19861caeed19861baeec19861a6885196885186885176885166018a50269ea85"; L "02a50369fe8503a51648a51748a51848a51948a51aa0059102a51b889102a51c889102a51d889102a51e889102a51f889102a2008616a2288617a2008618a22c8619a200861aa220861bae0d08a952203018a955203018a953203018a954203018a92d203018a94d203018a94f203018a953203018a920203018a950203018a94c203018a941203018a953203018a94d203018a941203018a920203018a945203018a958203018a941203018a94d203018a950203018a94c203018a945203018a90a203018a2ff8e0ed48e0fd4a2808e12d418a50269068504851ca50369008505851da2978606a218860718a5026906851fa5036900851ea201a900203f1818"; L "a51c6900851ca51d6901851d18a51f69028504a51e69018505a900a89104a200a901a89104860486054c2416a000a50a911a18a502690a850448a5036901aa6818690a85068a860569008507a9019104a902c89104c8a9049104c8a9089104c8a9109104a920c89104c8a9409104a980c89104a00aa9089104a900a001910685058508a200850418a502690a48a50369018507681865058506a50765088507860ea605860da40898d009a60de008900a4c2410c00090034c241018a502690a850848a5036901aa68186908850a8a86096900850b8405a50d186901d002e605a008850d9108a001a5058508910aa40eb1068509ae1bd4ad1bd48505e07fd007c9"; L "ffb0f04c0910e07fb0e9a60ce405a201b002a2008605c8840ea408a505f0034ca60f4c9c17a504a001911a18a502690a850448a5036901aa6818690a85068a860569008507a901889104a902c89104c8a9049104c8a9089104c8a9109104a920c89104c8a9409104a980c89104a00aa9089104a900a001910685058508a200850418a502690a48a5036901a86818650585069865088507860ea605860da40898d009a60de008900a4c1c11c00090034c1c1118a502690a850848a5036901aa68186908850a8a86096900850b8405a50d186901d002e605a008850d9108a001a5058508910aa40eb1068509ae1bd4ad1bd48505e07fd007c9ffb0f04c0111e07f"; L "b0e9a60ce405a201b002a2008605c8840ea408a505f0034c9e104cad17a504a002911a18a502690a850448a5036901aa6818690a85068a860569008507a901a0009104a902c89104a904c89104c8a9089104c8a9109104a920c89104c8a9409104a980c89104a00aa9089104a900a001910685058508a200850418a502690a48a5036901a86818650585069865088507860ea605860da40898d009a60de008900a4c1512c00090034c151218a502690a850848a5036901aa68186908850a8a86096900850b8405a50d186901d002e605a008850d9108a001a5058508910aa40eb1068509ae1bd4ad1bd48505e07fd007c9ffb0f04cfa11e07fb0e9a60ce405a2"; L "01b002a2008605c8840ea408a505f0034c97114cbe17a504a003911a18a502690a850448a5036901aa6818690a85068a860569008507a901a0009104a902c89104c8a9049104a908c89104c8a9109104a920c89104c8a9409104a980c89104a00aa9089104a900a001910685058508a200850418a502690a48a5036901a86818650585069865088507860ea605860da40898d009a60de008900a4c0e13c00090034c0e1318a502690a850848a5036901aa68186908850a8a86096900850b8405a50d186901d002e605a008850d9108a001a5058508910aa40eb1068509ae1bd4ad1bd48505e07fd007c9ffb0f04cf312e07fb0e9a60ce405a201b002a2008605"; L "c8840ea408a505f0034c90124ccf17a504a004911a18a502690a850448a5036901aa6818690a85068a860569008507a901a0009104a902c89104c8a9049104c8a9089104a910c89104a920c89104c8a9409104a980c89104a00aa9089104a900a001910685058508a200850418a502690a48a5036901a86818650585069865088507860ea605860da40898d009a60de008900a4c0714c00090034c071418a502690a850848a5036901aa68186908850a8a86096900850b8405a50d186901d002e605a008850d9108a001a5058508910aa40eb1068509ae1bd4ad1bd48505e07fd007c9ffb0f04cec13e07fb0e9a60ce405a201b002a2008605c8840ea408a505"; L "f0034c89134ce017a504a005911a18a502690a850448a5036901aa6818690a85068a860569008507a901a0009104a902c89104c8a9049104c8a9089104c8a9109104a920c89104c8a9409104a980c89104a00aa9089104a900a001910685058508a200850418a502690a48a5036901a86818650585069865088507860ea605860da40898d009a60de008900a4c0015c00090034c001518a502690a850848a5036901aa68186908850a8a86096900850b8405a50d186901d002e605a008850d9108a001a5058508910aa40eb1068509ae1bd4ad1bd48505e07fd007c9ffb0f04ce514e07fb0e9a60ce405a201b002a2008605c8840ea408a505f0034c82144cf1"; L "17a504a006911a18a502690a850448a5036901aa6818690a85068a860569008507a901a0009104a902c89104c8a9049104c8a9089104c8a9109104a920c89104a940c89104a980c89104a00aa9089104a900a001910685058508a200850418a502690a48a5036901a86818650585069865088507860ea605860da40898d009a60de008900a4cf915c00090034cf91518a502690a850848a5036901aa68186908850a8a86096900850b8405a50d186901d002e605a008850d9108a001a5058508910aa40eb1068509ae1bd4ad1bd48505e07fd007c9ffb0f04cde15e07fb0e9a60ce405a201b002a2008605c8840ea408a505f0034c7b154c0218a504a007911a"; L "a51f2907a200d008aad005a92e203018a61f860418a51a6908851aa51b6900851ba61e8605a605e001d007a504d0034c791718a502690648a5036900a86818a200860d65048506986505850718a502690a850848a5036901a86818690a850a9884096900850ba504186901d002e605851fa000911ca505851ec8911ca901889108a902c89108c8a9049108c8a9089108c8a9109108a920c89108c8a9409108a980c89108a00aa9089108a900a001910a8508a200860b850988b106850ca200860a18a502690a48a5036901aa68a40dc001650885048a65098505a60b860da608860ba40998d009a60be008900a4c2b0fc00090034c2b0f18a502690a850648a5"; L "036901aa6818690885088a860769008509a50b840e186901d002e60ea008850b9106a001a50e85079108a40db1048508ae1bd4ad1bd48506e07fd007c9ffb0f04c4617e07fb0e9a60ce406a201b002a2008606c8840da407a506f0034ce316a60a8604a508050aa60b86088409850aa200860da200860b4cc016a6168604a6178605204108a2a88e18d0a6188604a6198605204108a2b88e18d04c7917a5090504a60d860584088504a2004c860fa5090504a60d860584088504a2004c8010a5090504a60d860584088504a2004c7911a5090504a60d860584088504a2004c7212a5090504a60d860584088504a2004c6b13a5090504a60d860584088504a200"; L "4c6414a5090504a60d860584088504a2004c5d15a200a0978404a01984058606a245a9004c73188df419204008adf41960a8c90af00520d2ff9860a90d4c3518850a8ad004a50af02aa000a5048508a5058509b1069108e608d002e609e606d002e607a50ac60ac900d001ca8ad0e4a50ad0e0604c8918a0009104e604d002e605488aa868cac000f009a406d0e9e000d0e560c6064c8918807d7a7774706d6a6764615e5b5855524f4d4a4744413f3c393734322f2d2b28262422201e1c1a1816151311100f0d0c0b0a08070606050403030202020101010101010102020203030405060607080a0b0c0d0f1011131516181a1c1e20222426282b2d2f323437"; L "393c3f4144474a4d4f5255585b5e6164676a6d7074777a7d808386898c909396999c9fa2a5a8abaeb1b3b6b9bcbfc1c4c7c9ccced1d3d5d8dadcdee0e2e4e6e8eaebedeff0f1f3f4f5f6f8f9fafafbfcfdfdfefefefffffffffffffffefefefdfdfcfbfafaf9f8f6f5f4f3f1f0efedebeae8e6e4e2e0dedcdad8d5d3d1ceccc9c7c4c1bfbcb9b6b3b1aeaba8a5a29f9c999693908c898683"].
Definition case136 := (* fixtures/executable/sample.coff *)
  mkcase false CommonObjectFileFormat [L "4c0100"].
Definition case137 := (* fixtures/executable/sample.dex *)
  mkcase false DalvikExecutable [L "6465780a3033350000"].
Definition case138 := (* fixtures/executable/sample.dll *)
  mkcase true DynamicLinkLibrary [L "4d5a"; R 58 x00; L "40000000504500000000000000000000000000000000000000005c323000"].
Definition case139 := (* fixtures/executable/sample.elf *)
  mkcase false ExecutableAndLinkableFormat [L "7f454c4600"].
Definition case140 := (* fixtures/executable/sample.class *)
  mkcase false JavaClass [L "cafebabe00"].
Definition case141 := (* fixtures/executable/sample1.exe *)
  mkcase true LinearExecutable [L "4d5a"; R 58 x00; L "400000004c4500000000000000000000000000000000000000000000"].
Definition case142 := (* fixtures/executable/sample.bc *)
  mkcase false LlvmBitcode [L "4243c0de3514000005000000620c30244a59be669dfbb4bf0b51804c01000000210c0000160200000b02210002000000160000000781239141c80449061032399201840c250508191e048b628010450242920b42841032143808184b0a3242884870c421234412878c1041920264c808b1142043468820c901324284182a282a90317cb05c9120c4c8000000892000000d0000003222080920624600212b249810212524981019270c85a4906042645c2024648200a93902441f628e000c4c30561818081801000051180000820000001b4c23f8ffffffff017000092803800bc24020cc411ec2a11dcaa10de0e11dd2c11de8a11ce401080776600780688774"; L "708736608772388770608736b0877218077a78077968837b480772a0077400e00020dce11dda801ee4211ce0011ed2c11dcea10dda211ce8011d007a90877a28078098077a08877158873680077978077a288771a0877790873610877a30077328077968837948077d2807000f00821ec2411ecea11ce8a10dc6011eea01c0073cb08336b0033a00087a080779388772a0873630877208077aa8077928877900d6601cf0010fd8600dcc011fe6411ed8600ddaa11df0810dd6601ee6a11cd8600de6611eca410ed8600df0010fee0020e8a11edca11cda601ce0a11e807328077728077948877100368485f0ffffffff03610ef2100eed500e6d000fef900eee"; L "400fe5200f4038b0033b00843bbc431bd0833c84033cc0433ab8c339b4413b84033da003400ff2500fe50010f3400fe1300eebd006f0200fef400fe5300ef4f00ef2d006e2500fe6600ee5200f6d300fe9a00fe500e00140d04338c8c33994033db4c138c0433d00f8800776d00676400700410fe1200fe7500ef4d006e6500ee1400ff5200fe5300fc01a8c033ee0011bac8139e0c33cc8031bac413bb4033eb0c11accc33c94031bacc13ccc4339c8011bac013ee0c11d00043dd4833b94431b8c033cd403700ee5e00ee5200fe9300ec0066208005200491800000300000013826082200c13820100000013267cc0033bf8053ba083368087716803764807"; L "77a8077c68837370877ad8600ae5d006eda007e5d006f020077700077a300772a0077320076d000f72700771a0077320077a300772d006f020077720077a600774a0077640076d900e7640077a600774d006e6800770a00771200778d006ee80077a100776a0077320077a600774d006b310077280074a0f08111241868c140901344218f6409a879a7c61c70410c24024010000010000404000c0908a200800000200000000000000080002185221460104800000000000000000004000121b040a6b0800006481000000000a000000321e981019114c908c092647c604431275906536fbcd025ddf723639a4a029814228872200000000b1180000ac000000"; L "3308801cc4e11c6614013d88433884c38c4280077978077398710ce6000fed100ef4800e330c421ec2c11dcea11c6630053d88433884831bcc033dc8433d8c033dcc788c7470077b08077948877070077a700376788770208719cc110eec900ee1300f6e300fe3f00ef0500e3310c41dde211cd8211dc2611e6630893bbc833bd04339b4033cbc833c84033bccf0147660077b680737688772680737808770908770600776280776f8057678877780875f08877118877298877998812ceef00eeee00ef5c00eec300362c8a11ce4a11ccca11ce4a11cdc611cca211cc4811dca6106d6904339c84339984339c84339b8c33894433888033b94c32fbc833cfc82"; L "3bd4033bb0c30cc7698770588772708374680778608774188774a08719ce530fee000ff2500ee4900ee3400fe1200eec500e3320281ddcc11ec2411ed2211cdc811edce01ce4e11dea011e66185138b0433a9c833bcc50247660077b68073760877778077898514cf4900ff0500e331e6a1eca611ce8211ddec11d7e011ee4a11ccc211df0610654858338ccc33bb0433dd04339fcc23ce4433b88c33bb0c38cc50a877998877718877408077a28077298815ce3100eecc00ee5500ef33023c1d2411ee4e117d8e11dde011e6648193bb0833db4831b84c3388c4339ccc33cb8c139c8c33bd4033ccc48b471080776600771088771588719dbc60eec600fede0"; L "06f0200fe5300fe5200ff6500e6e100ee3300ee5300ff3e006e9e00ee4500ef83023e2ec611cc2811dd8e117ec211de6211dc4211dd8211de8211f66209d3bbc433db80339948339cc58bc7070077778077a08077a488777708719cbe70eef300fe1e00ee9400fe9a00fe530c3010373a8077718875f988770708774a08774d087729881844139e0c338b0433d904339cc40c4a01dcaa11de0411edec11c662463300ee1c00eec300fe9400fe50000007920000031000000721e482043880c19097232482023818c9191d144a01028643c3132428e9021a36820ac004a921c0d0500000077636861725f73697a65504943204c6576656c504945204c6576656c"; L "75777461626c656672616d652d706f696e746572636c616e672076657273696f6e2031352e302e37230803318230142308833182301c330c4780cc30248232c3900cca0c434228330c49a1cc1018321298a08cd8d8ecda5cdadec8ead8ca5cccd8c2cee646299485699c54d8d8ecda5cd2c8cadce846091e00000000a9180000250000000b0a7228877780077a587098433db8c338b04339d0c382e61cc6a10de8411ec2c11de6211de8211ddec11d1634e3600ee7500fe1200fe4400fe1200fe7500ef4b08081077928877060077678877108077a28077258709cc338b4013ba4833d94c3026b1cd8211cdce11cdc201ce4611cdc201ce8811ec2611cd0a11c"; L "c8611cc2811dd861c1010ff4200fe1500ff4800e00000000d11000000600000007cc3ca4833b9c033b94033da0833c94433890c301000000612000000a0000001304412c1000000001000000342300003311c3408cc2b0011108033062500c20080605a2ec0000007120000003000000320e102284018e040000000000000000650c00002b0000001203946001000000030000000e000000060000004c0000000100000058000000000000005800000003000000a000000000000000140000001300000027000000070000000400000000000000a00000000000000000000000030000000000000004000000040000000400000004000000ffffffff00240000"; L "08000000060000000800000006000000ffffffff082400002e000000060000000000000004000000ffffffff00180000000000005d0c00001000000012039474000000002e7374726d61696e7072696e746631352e302e377838365f36342d70632d6c696e75782d676e75696e7075742e632e4c2e73747200000000"].
Definition case143 := (* fixtures/executable/sample.luac *)
  mkcase false LuaBytecode [L "1b4c756100"].
Definition case144 := (* fixtures/executable/sample.mach *)
  mkcase false MachO [L "cafebabe0000000100"].
Definition case145 := (* fixtures/executable/sample2.exe *)
  mkcase false MsDosExecutable [L "4d5a"; R 62 x00].
Definition case146 := (* fixtures/executable/sample3.exe *)
  mkcase true NewExecutable [L "4d5a"; R 58 x00; L "400000004e4500000000000000000000000000000000000000000000"].
Definition case147 := (* fixtures/executable/sample.nso *)
  mkcase false NintendoSwitchExecutable [L "4e534f3000"].
Definition case148 := (* fixtures/executable/sample.dey *)
  mkcase false OptimizedDalvikExecutable [L "6465790a00"].
Definition case149 := (* fixtures/executable/sample4.exe *)
  mkcase true PortableExecutable [L "4d5a"; R 58 x00; L "40000000504500000000000000000000000000000000000000000000"].
Definition case150 := (* fixtures/executable/sample.wasm *)
  mkcase false WebassemblyBinary [L "0061736d00"].
Definition case151 := (* fixtures/executable/sample.xex *)
  mkcase false Xbox360Executable [L "5845583100"].
Definition case152 := (* fixtures/executable/sample.xbe *)
  mkcase false XboxExecutable [L "5842454800"].
Definition case153 := (* fixtures/font/sample1.fnt *)
  mkcase false BmfontAscii [L "696e666f20666163653d2253616d706c6522"].
Definition case154 := (* fixtures/font/sample2.fnt *)
  mkcase false BmfontBinary [L "424d4603"].
Definition case155 := (* fixtures/font/sample.eot *)
  mkcase false EmbeddedOpentype [L "000000000000000000000100000000000000000000000000000000000000000000004c5000"].
Definition case156 := (* fixtures/font/sample.flf *)
  mkcase false FigletFont [L "666c66326124203620352031362031352031360a"].
Definition case157 := (* fixtures/font/sample.glyphs *)
  mkcase false Glyphs [L "7b0a2e61707056657273696f6e203d202233313739223b0a2e666f726d617456657273696f6e203d20333b0a61786573203d20280a7b0a68696464656e203d20313b0a6e616d65203d205765696768743b0a746167203d20776768743b0a7d0a293b0a0a"].
Definition case158 := (* fixtures/font/sample.otf *)
  mkcase false Opentype [L "4f54544f0000"].
Definition case159 := (* fixtures/font/sample.ttf *)
  mkcase false Truetype [L "000100000000"].
Definition case160 := (* fixtures/font/sample.ttc *)
  mkcase false TruetypeCollection [L "74746366000a"].
Definition case161 := (* fixtures/font/sample.woff *)
  mkcase false WebOpenFontFormat [L "774f464600"].
Definition case162 := (* fixtures/font/sample.woff2 *)
  mkcase false WebOpenFontFormat2 [L "774f463200"].
Definition case163 := (* fixtures/formula/sample1.mathml *)
  mkcase false MathematicalMarkupLanguage [L "3c6d6174683e0a20203c6d693e2670693b3c2f6d693e0a20203c6d6f3e26496e76697369626c6554696d65733b3c2f6d6f3e0a20203c6d7375703e0a202020203c6d693e723c2f6d693e0a202020203c6d6e3e323c2f6d6e3e0a20203c2f6d7375703e0a3c2f6d6174683e0a"].
Definition case164 := (* fixtures/formula/sample2.mathml *)
  mkcase true MathematicalMarkupLanguage [L "3c3f786d6c2076657273696f6e3d22312e302220656e636f64696e673d225554462d38223f3e0a3c21444f4354595045206d617468205055424c494320222d2f2f5733432f2f445444204d6174684d4c20322e302f2f454e222022687474703a2f2f7777772e77332e6f72672f4d6174682f4454442f6d6174686d6c322f6d6174686d6c322e647464223e0a3c6d6174683e0a20203c6d693e2670693b3c2f6d693e0a20203c6d6f3e26496e76697369626c6554696d65733b3c2f6d6f3e0a20203c6d7375703e0a202020203c6d693e723c2f6d693e0a202020203c6d6e3e323c2f6d6e3e0a20203c2f6d7375703e0a3c2f6d6174683e0a"].
Definition case165 := (* fixtures/formula/sample.odf *)
  mkcase true OpendocumentFormula [L "504b030414000000000000000000078aa85b2a0000002a000000080000006d696d65747970656170706c69636174696f6e2f766e642e6f617369732e6f70656e646f63756d656e742e666f726d756c61504b0102140014000000000000000000078aa85b2a0000002a0000000800000000000000000000000000000000006d696d6574797065504b0506000000000100010036000000500000000000"].
Definition case166 := (* fixtures/formula/sample.otf *)
  mkcase true OpendocumentFormulaTemplate [L "504b030414000000000000000000562062d33300000033000000080000006d696d65747970656170706c69636174696f6e2f766e642e6f617369732e6f70656e646f63756d656e742e666f726d756c612d74656d706c617465504b0102140014000000000000000000562062d333000000330000000800000000000000000000000000000000006d696d6574797065504b0506000000000100010036000000590000000000"].
Definition case167 := (* fixtures/formula/sample.smf *)
  mkcase true Starmath [L "d0cf11e0a1b11ae1000000000000000000000000000000003e000400feff0c0006000000000000000100000001000000010000000000000000100000feffffff00000000feffffff0000000000000000"; R 432 xff; R 3584 x00; L "fdfffffffe"; R 4091 xff; L "52006f006f007400200045006e007400720079"; R 45 x00; L "16000501ffffffffffffffffffffffffe1b7b3022542d01189ca008029e4b0b10000000000000000000000000000000000000000feffffff"; R 72 x00; L "02000000ffffffffffffffffffffffff"; R 112 x00; L "02000000ffffffffffffffffffffffff"; R 112 x00; L "02000000ffffffffffffffffffffffff"; R 112 x00; L "02000000ffffffffffffffffffffffff"; R 112 x00; L "02000000ffffffffffffffffffffffff"; R 112 x00; L "02000000ffffffffffffffffffffffff"; R 112 x00; L "02000000ffffffffffffffffffffffff"; R 112 x00; L "02000000ffffffffffffffffffffffff"; R 112 x00; L "02000000ffffffffffffffffffffffff"; R 112 x00; L "02000000ffffffffffffffffffffffff"; R 112 x00; L "02000000ffffffffffffffffffffffff"; R 112 x00; L "02000000ffffffffffffffffffffffff"; R 112 x00; L "02000000ffffffffffffffffffffffff"; R 112 x00; L "02000000ffffffffffffffffffffffff"; R 112 x00; L "02000000ffffffffffffffffffffffff"; R 112 x00; L "02000000ffffffffffffffffffffffff"; R 112 x00; L "02000000ffffffffffffffffffffffff"; R 112 x00; L "02000000ffffffffffffffffffffffff"; R 112 x00; L "02000000ffffffffffffffffffffffff"; R 112 x00; L "02000000ffffffffffffffffffffffff"; R 112 x00; L "02000000ffffffffffffffffffffffff"; R 112 x00; L "02000000ffffffffffffffffffffffff"; R 112 x00; L "02000000ffffffffffffffffffffffff"; R 112 x00; L "02000000ffffffffffffffffffffffff"; R 112 x00; L "02000000ffffffffffffffffffffffff"; R 112 x00; L "02000000ffffffffffffffffffffffff"; R 112 x00; L "02000000ffffffffffffffffffffffff"; R 112 x00; L "02000000ffffffffffffffffffffffff"; R 112 x00; L "02000000ffffffffffffffffffffffff"; R 112 x00; L "02000000ffffffffffffffffffffffff"; R 112 x00; L "02000000ffffffffffffffffffffffff"; R 48 x00].
Definition case168 := (* fixtures/formula/sample.sxm *)
  mkcase true SunXmlMath [L "504b030414000000000000000000a78a05611c0000001c000000080000006d696d65747970656170706c69636174696f6e2f766e642e73756e2e786d6c2e6d617468504b0102140014000000000000000000a78a05611c0000001c0000000800000000000000000000000000000000006d696d6574797065504b0506000000000100010036000000420000000000"].
Definition case169 := (* fixtures/geospatial/sample.fit *)
  mkcase false FlexibleAndInteroperableDataTransfer [L "00000000000000002e46495400"].
Definition case170 := (* fixtures/geospatial/sample1.gml *)
  mkcase false GeographyMarkupLanguage [L "3c676d6c3a46656174757265436f6c6c656374696f6e20786d6c6e733a676d6c3d22687474703a2f2f7777772e6f70656e6769732e6e65742f676d6c223e0a3c2f676d6c3a46656174757265436f6c6c656374696f6e3e0a"].
Definition case171 := (* fixtures/geospatial/sample2.gml *)
  mkcase true GeographyMarkupLanguage [L "3c3f786d6c2076657273696f6e3d22312e30223f3e0a3c676d6c3a46656174757265436f6c6c656374696f6e20786d6c6e733a676d6c3d22687474703a2f2f7777772e6f70656e6769732e6e65742f676d6c223e0a3c2f676d6c3a46656174757265436f6c6c656374696f6e3e0a"].
Definition case172 := (* fixtures/geospatial/sample1.gpx *)
  mkcase false GpsExchangeFormat [L "3c67707820786d6c6e733d22687474703a2f2f7777772e746f706f6772616669782e636f6d2f4750582f312f31220a2020202020786d6c6e733a677078783d22687474703a2f2f7777772e6761726d696e2e636f6d2f786d6c736368656d61732f477078457874656e73696f6e732f7633220a2020202020786d6c6e733a6770787470783d22687474703a2f2f7777772e6761726d696e2e636f6d2f786d6c736368656d61732f547261636b506f696e74457874656e73696f6e2f7631220a202020202076657273696f6e3d22312e31223e0a3c2f6770783e0a"].
Definition case173 := (* fixtures/geospatial/sample2.gpx *)
  mkcase true GpsExchangeFormat [L "3c3f786d6c2076657273696f6e3d22312e302220656e636f64696e673d225554462d38223f3e0a3c67707820786d6c6e733d22687474703a2f2f7777772e746f706f6772616669782e636f6d2f4750582f312f31220a2020202020786d6c6e733a677078783d22687474703a2f2f7777772e6761726d696e2e636f6d2f786d6c736368656d61732f477078457874656e73696f6e732f7633220a2020202020786d6c6e733a6770787470783d22687474703a2f2f7777772e6761726d696e2e636f6d2f786d6c736368656d61732f547261636b506f696e74457874656e73696f6e2f7631220a202020202076657273696f6e3d22312e31223e0a3c2f6770783e"; L "0a"].
Definition case174 := (* fixtures/geospatial/sample1.kml *)
  mkcase false KeyholeMarkupLanguage [L "3c6b6d6c20786d6c6e733d22687474703a2f2f65617274682e676f6f676c652e636f6d2f6b6d6c2f322e31223e0a3c2f6b6d6c3e0a"].
Definition case175 := (* fixtures/geospatial/sample2.kml *)
  mkcase true KeyholeMarkupLanguage [L "3c3f786d6c2076657273696f6e3d22312e302220656e636f64696e673d225554462d38223f3e0a3c6b6d6c20786d6c6e733d22687474703a2f2f65617274682e676f6f676c652e636f6d2f6b6d6c2f322e31223e0a3c2f6b6d6c3e0a"].
Definition case176 := (* fixtures/geospatial/sample.kmz *)
  mkcase true KeyholeMarkupLanguageZip [L "504b030414000800080038b9715500000000000000000000000007002000646f632e6b6d6c55540d00072cb176632cb176632cb1766375780b000104e803000004e80300000300504b0708000000000200000000000000504b0102140314000800080038b97155000000000200000000000000070020000000000000000000a48100000000646f632e6b6d6c55540d00072cb176632cb176632cb1766375780b000104e803000004e8030000504b0506000000000100010055000000570000000000"].
Definition case177 := (* fixtures/geospatial/sample.shp *)
  mkcase false Shapefile [L "0000270a00"].
Definition case178 := (* fixtures/geospatial/sample1.tcx *)
  mkcase false TrainingCenterXml [L "3c547261696e696e6743656e746572446174616261736520786d6c6e733d22687474703a2f2f7777772e6761726d696e2e636f6d2f786d6c736368656d61732f547261696e696e6743656e74657244617461626173652f76322220786d6c6e733a7873693d22687474703a2f2f7777772e77332e6f72672f323030312f584d4c536368656d612d696e7374616e636522207873693a736368656d614c6f636174696f6e3d22687474703a2f2f7777772e6761726d696e2e636f6d2f786d6c736368656d61732f547261696e696e6743656e74657244617461626173652f763220687474703a2f2f7777772e6761726d696e2e636f6d2f786d6c736368656d6173"; L "2f547261696e696e6743656e746572446174616261736576322e787364223e0a20203c416374697669746965733e0a20203c2f416374697669746965733e0a3c2f547261696e696e6743656e74657244617461626173653e0a"].
Definition case179 := (* fixtures/geospatial/sample2.tcx *)
  mkcase true TrainingCenterXml [L "3c3f786d6c2076657273696f6e3d22312e302220656e636f64696e673d225554462d38223f3e0a3c547261696e696e6743656e746572446174616261736520786d6c6e733d22687474703a2f2f7777772e6761726d696e2e636f6d2f786d6c736368656d61732f547261696e696e6743656e74657244617461626173652f76322220786d6c6e733a7873693d22687474703a2f2f7777772e77332e6f72672f323030312f584d4c536368656d612d696e7374616e636522207873693a736368656d614c6f636174696f6e3d22687474703a2f2f7777772e6761726d696e2e636f6d2f786d6c736368656d61732f547261696e696e6743656e7465724461746162"; L "6173652f763220687474703a2f2f7777772e6761726d696e2e636f6d2f786d6c736368656d61732f547261696e696e6743656e746572446174616261736576322e787364223e0a20203c416374697669746965733e0a20203c2f416374697669746965733e0a3c2f547261696e696e6743656e74657244617461626173653e0a"].
Definition case180 := (* fixtures/image/sample.astc *)
  mkcase false AdaptableScalableTextureCompression [L "13aba15c00"].
Definition case181 := (* fixtures/image/sample.ai *)
  mkcase true AdobeIllustratorArtwork [L "255044462d0000000000000000000000000000000000004149507269766174654461746100000000000000000000000000"].
Definition case182 := (* fixtures/image/sample.psd *)
  mkcase false AdobePhotoshopDocument [L "3842505300"].
Definition case183 := (* fixtures/image/sample.apng *)
  mkcase false AnimatedPortableNetworkGraphics [L "89504e470d0a1a0a"; R 29 x00; L "6163544c00"].
Definition case184 := (* fixtures/image/sample.icns *)
  mkcase false AppleIconImage [L "69636e7300"].
Definition case185 := (* fixtures/image/sample.avif *)
  mkcase false Av1ImageFileFormat [L "00000000667479706176696600"].
Definition case186 := (* fixtures/image/sample.avifs *)
  mkcase false Av1ImageFileFormatSequence [L "00000000667479706176697300"].
Definition case187 := (* fixtures/image/sample.bpg *)
  mkcase false BetterPortableGraphics [L "425047fb00"].
Definition case188 := (* fixtures/image/sample.crw *)
  mkcase false CanonRaw [L "49491a000000484541504343445200"].
Definition case189 := (* fixtures/image/sample.cr2 *)
  mkcase false CanonRaw2 [L "4d4d002a00000000435200"].
Definition case190 := (* fixtures/image/sample.cr3 *)
  mkcase false CanonRaw3 [L "000000006674797063727800"].
Definition case191 := (* fixtures/image/sample.cin *)
  mkcase false Cineon [L "802a5fd700"].
Definition case192 := (* fixtures/image/sample.dpx *)
  mkcase false DigitalPictureExchange [L "5344505800"].
Definition case193 := (* fixtures/image/sample.eps *)
  mkcase false EncapsulatedPostscript [L "252150532d41646f62652d00000020455053462d00"].
Definition case194 := (* fixtures/image/sample.emf *)
  mkcase false EnhancedMetafile [L "01000000580000000000000000000000c0020000400200000000000000000000f8480000bd3b000020454d4600000100b41c000017010000040000000000000000000000000000000005000000040000520100000e0100000a0000001000000070000000400000000900000010000000c202000042020000260000001c0000000100000000000000010000000100000000000002250000000c00000001000000250000000c000000050000802a0000001800000070000000400000004001000008010000250000000c00000007000080280000000c000000010000000c000000100000000000000000000000260000001c000000010000000000000001000000"; L "0100000000000002250000000c00000001000000250000000c000000050000802a0000001800000070000000b80100004001000080020000250000000c00000007000080280000000c000000010000000c000000100000000000000000000000260000001c0000000100000000000000010000000100000000000002250000000c00000001000000250000000c000000050000802a0000001800000060020000400000003003000008010000250000000c00000007000080280000000c000000010000000c000000100000000000000000000000260000001c0000000100000000000000010000000100000000000002250000000c0000000100000025000000"; L "0c000000050000802a0000001800000060020000b80100003003000080020000250000000c00000007000080280000000c000000010000000c000000100000000000000000000000250000000c00000008000080250000000c000000050000802b00000018000000800000007000000028010000e9000000180000000c00000000000002190000000c000000ffffff02160000000c00000018000000120000000c000000010000001b000000100000000000000000000000250000000c00000000000080520000004c01000001000000edffffff000000000000000000000000bc020000000000000040002241007200690061006c"; R 271 x00; L "010101010101010101010000250000000c00000001000000540000007c00000040000000470000008c0000005c000000010000000040d3410040d341b000000087000000080000004c00000000000000000000000000000000000000000000005c00000041006e0061006c0079007300650020000d0000000c0000000b000000050000000a0000000a0000000b00000004000000160000000c00000000000000120000000c00000002000000160000000c00000018000000120000000c000000010000001b00000010000000000000000000000054000000a0000000230000005e000000a900000073000000010000000040d3410040d341930000009e000000"; L "0e0000004c0000000000000000000000000000000000000000000000680000004200650068006100760069006f0075007200200061006e00640020000e0000000a0000000b0000000b0000000b000000040000000c0000000b00000008000000040000000b0000000b0000000c00000004000000160000000c00000000000000120000000c00000002000000160000000c00000018000000120000000c000000010000001b000000100000000000000000000000540000007c00000044000000740000008900000089000000010000000040d3410040d341b4000000b4000000080000004c00000000000000000000000000000000000000000000005c000000"; L "5000610074007400650072006e0020000d0000000b00000006000000050000000b000000070000000c00000004000000160000000c00000000000000120000000c00000002000000160000000c00000018000000120000000c000000010000001b00000010000000000000000000000054000000a00000002f0000008a0000009d0000009f000000010000000040d3410040d3419f000000ca0000000e0000004c000000000000000000000000000000000000000000000068000000410063007400690076006900740069006500730020006f00660020000d0000000b00000006000000050000000b0000000500000006000000050000000b0000000b000000"; L "040000000c0000000600000004000000160000000c00000000000000120000000c00000002000000160000000c00000018000000120000000c000000010000001b000000100000000000000000000000540000007000000047000000a100000081000000b6000000010000000040d3410040d341b7000000e1000000060000004c00000000000000000000000000000000000000000000005800000065006d00610069006c0073000b000000100000000b00000005000000050000000b000000160000000c00000000000000120000000c000000020000000c000000100000000000000000000000250000000c00000008000080250000000c00000005000080"; L "2b0000001800000088000000e8010000300100004b020000160000000c00000018000000120000000c000000010000001b000000100000000000000000000000250000000c00000000000080540000007c00000048000000bf01000094000000d4010000010000000040d3410040d341b8000000ff010000080000004c00000000000000000000000000000000000000000000005c00000041006e0061006c0079007300650020000d0000000c0000000b000000050000000a0000000a0000000b00000004000000160000000c00000000000000120000000c00000002000000160000000c00000018000000120000000c000000010000001b00000010000000"; L "000000000000000054000000a800000025000000d6010000b8000000eb010000010000000040d3410040d34195000000160200000f0000004c00000000000000000000000000000000000000000000006c0000004f006300630075007200720065006e0063006500200061006e006400200000000f0000000a0000000a0000000c00000007000000070000000b0000000b0000000a0000000b000000050000000a0000000c0000000c00000004000000160000000c00000000000000120000000c00000002000000160000000c00000018000000120000000c000000010000001b000000100000000000000000000000540000009c00000032000000ec010000"; L "ab00000001020000010000000040d3410040d341a20000002c0200000d0000004c0000000000000000000000000000000000000000000000680000004600720065007100750065006e006300790020006f006600200000000c000000070000000a0000000c0000000b0000000a0000000c0000000a0000000b000000040000000c0000000600000005000000160000000c00000000000000120000000c00000002000000160000000c00000018000000120000000c000000010000001b00000010000000000000000000000054000000700000004f000000020200008900000017020000010000000040d3410040d341bf00000042020000060000004c000000"; L "00000000000000000000000000000000000000005800000065006d00610069006c0073000b000000100000000b00000005000000050000000b000000160000000c00000000000000120000000c000000020000000c000000100000000000000000000000250000000c00000008000080250000000c000000050000802b00000018000000780200007800000020030000c5000000160000000c00000018000000120000000c000000010000001b000000100000000000000000000000250000000c00000000000080540000007c000000380200004f0000008402000064000000010000000040d3410040d341a80200008f000000080000004c00000000000000"; L "000000000000000000000000000000005c00000041006e0061006c0079007300650020000d0000000c0000000b000000050000000a0000000a0000000b00000004000000160000000c00000000000000120000000c00000002000000160000000c00000018000000120000000c000000010000001b00000010000000000000000000000054000000940000002702000066000000960200007b000000010000000040d3410040d34197020000a60000000c0000004c0000000000000000000000000000000000000000000000640000004200720065006500630068006500730020006f00660020000e000000070000000a0000000b0000000a0000000b000000"; L "0b0000000b000000040000000c0000000600000005000000160000000c00000000000000120000000c00000002000000160000000c00000018000000120000000c000000010000001b00000010000000000000000000000054000000a80000001a0200007c0000009e02000091000000010000000040d3410040d3418a020000bc0000000f0000004c00000000000000000000000000000000000000000000006c0000004500780069007300740069006e006700200050006f006c0069006300790000000d0000000b000000040000000b00000006000000050000000b0000000c000000050000000c0000000c00000005000000050000000a0000000b000000"; L "160000000c00000000000000120000000c000000020000000c000000100000000000000000000000250000000c00000008000080250000000c000000050000802b0000001800000070020000e8010000180300004b020000160000000c00000018000000120000000c000000010000001b000000100000000000000000000000250000000c00000000000080540000007c00000030020000bf0100007c020000d4010000010000000040d3410040d341a0020000ff010000080000004c00000000000000000000000000000000000000000000005c00000041006e0061006c0079007300650020000d0000000c0000000b000000050000000a0000000a000000"; L "0b00000004000000160000000c00000000000000120000000c00000002000000160000000c00000018000000120000000c000000010000001b00000010000000000000000000000054000000ac00000011020000d60100009c020000eb010000010000000040d3410040d3418102000016020000100000004c00000000000000000000000000000000000000000000006c000000520065006c006100740069006f006e007300680069007000200074006f0020000d0000000b000000050000000b00000006000000050000000b0000000c0000000a0000000c000000040000000c00000005000000060000000c00000004000000160000000c00000000000000"; L "120000000c00000002000000160000000c00000018000000120000000c000000010000001b000000100000000000000000000000540000009c0000001b020000ec0100009102000001020000010000000040d3410040d3418b0200002c0200000d0000004c0000000000000000000000000000000000000000000000680000004f007400680065007200200065006d00610069006c007300200011110f000000060000000b0000000b00000008000000040000000b000000100000000b00000005000000050000000b00000004000000160000000c00000000000000120000000c00000002000000160000000c00000018000000120000000c00000001000000"; L "1b000000100000000000000000000000540000009c0000000e020000020200009902000017020000010000000040d3410040d3417e020000420200000d0000004c00000000000000000000000000000000000000000000006800000061006e006400200044006f00630075006d0065006e007400730011000b0000000b0000000c000000050000000d0000000b0000000b0000000b000000110000000a0000000c000000050000000b000000160000000c00000000000000120000000c000000020000000c000000100000000000000000000000260000001c0000000200000000000000010000000100000000000002250000000c0000000200000025000000"; L "0c000000050000802a00000018000000680100000001000038020000c8010000250000000c00000007000080280000000c000000020000000c000000100000000000000000000000250000000c00000008000080250000000c000000050000802b000000180000007801000048010000200200007e010000160000000c00000018000000120000000c000000010000001b000000100000000000000000000000250000000c000000000000805400000094000000230100001f0100009a01000034010000010000000040d3410040d341930100005f0100000c0000004c00000000000000000000000000000000000000000000006400000041006c006c002000"; L "43006f006d00700061006e00790020000d0000000500000005000000050000000e0000000c000000110000000b0000000a0000000c0000000b00000004000000160000000c00000000000000120000000c00000002000000160000000c00000018000000120000000c000000010000001b00000010000000000000000000000054000000700000003f01000036010000790100004b010000010000000040d3410040d341af01000076010000060000004c00000000000000000000000000000000000000000000005800000065006d00610069006c0073000b000000100000000b00000005000000050000000b000000160000000c0000000000000012000000"; L "0c000000020000000c000000100000000000000000000000250000000c0000000700008046000000280000001c00000047444943020000004f010000ef0100005a0200004202000000000000260000001c0000000200000000000000010000000100000000000000250000000c00000002000000250000000c000000040000805600000044000000e0000000b0010000e8010000000200000a000000500118028501400285012c0223022c0223024002580218022302f00123020402850104028501f001250000000c00000007000080280000000c00000002000000250000000c00000007000080250000000c00000000000080460000001400000008000000"; L "47444943030000000c00000010000000000000000000000046000000280000001c00000047444943020000004f010000770000005a020000ca00000000000000260000001c0000000200000000000000010000000100000000000000250000000c00000002000000250000000c000000040000805600000044000000e000000038000000e8010000880000000a0000005001a0008501c8008501b4002302b4002302c8005802a0002302780023028c0085018c0085017800250000000c00000007000080280000000c00000002000000250000000c00000007000080250000000c0000000000008046000000140000000800000047444943030000000c000000"; L "10000000000000000000000046000000280000001c0000004744494302000000a70000000f01000002010000b201000000000000260000001c0000000200000000000000010000000100000000000000250000000c00000002000000250000000c00000004000080560000004400000038000000d000000090000000700100000a000000d400100100013001ea003001ea00900100019001d400b001a8009001be009001be003001a8003001250000000c00000007000080280000000c00000002000000250000000c00000007000080250000000c0000000000008046000000140000000800000047444943030000000c000000100000000000000000000000"; L "46000000280000001c0000004744494302000000970200000f010000f2020000b201000000000000260000001c0000000200000000000000010000000100000000000000250000000c00000002000000250000000c00000004000080560000004400000028020000d000000080020000700100000a000000c4021001f0023001da023001da029001f0029001c402b00198029001ae029001ae02300198023001250000000c00000007000080280000000c00000002000000250000000c00000007000080250000000c0000000000008046000000140000000800000047444943030000000c00000010000000000000000000000046000000280000001c000000"; L "4744494302000000160100008101000083010000ef01000000000000260000001c0000000200000000000000010000000100000000000000250000000c0000000200000027000000180000000300000000000000b2b2b20000000000250000000c000000030000005600000044000000a70000004201000011010000ad0100000a000000710193018101c1017201b1014501dd015401ed012701dc011701ae012601be015301920143018201250000000c00000007000080280000000c00000002000000250000000c00000000000080280000000c00000003000000250000000c00000007000080250000000c00000000000080460000001400000008000000"; L "47444943030000000c00000010000000000000000000000046000000280000001c000000474449430200000016020000ce000000830200003b01000000000000260000001c0000000300000000000000010000000100000000000000250000000c0000000300000027000000180000000200000000000000b2b2b20000000000250000000c000000020000005600000044000000a70100008f00000011020000f90000000a0000007102e00081020e017202fe0045022a0154023901270228011702fa0026020a015302de004402cf00250000000c00000007000080280000000c00000003000000250000000c00000000000080280000000c00000002000000"; L "250000000c00000007000080250000000c0000000000008046000000140000000800000047444943030000000c00000010000000000000000000000046000000280000001c000000474449430200000016010000d6000000830100004301000000000000260000001c0000000200000000000000010000000100000000000000250000000c0000000200000027000000180000000300000000000000b2b2b20000000000250000000c000000030000005600000044000000a70000009700000011010000010100000a00000070013101420141015201320126010501170114012801e7005601d7004601e6007201130181010401250000000c00000007000080"; L "280000000c00000002000000250000000c00000000000080280000000c00000003000000250000000c00000007000080250000000c0000000000008046000000140000000800000047444943030000000c00000010000000000000000000000046000000280000001c0000004744494302000000160200008e01000083020000fb01000000000000260000001c0000000300000000000000010000000100000000000000250000000c0000000300000027000000180000000200000000000000b2b2b20000000000250000000c000000020000005600000044000000a70100004f01000011020000b90100000a0000007002e9014202f9015202ea012602bd01"; L "1702cc0128029f0156028f0146029e017202cb018102bc01250000000c00000007000080280000000c00000003000000250000000c00000000000080280000000c00000002000000250000000c00000007000080250000000c0000000000008046000000140000000800000047444943030000000c000000100000000000000000000000250000000c0000000d000080280000000c000000010000000e00000014000000000000001000000014000000"].
Definition case195 := (* fixtures/image/sample.xcf *)
  mkcase false ExperimentalComputingFacility [L "67696d702078636600"].
Definition case196 := (* fixtures/image/sample.ff *)
  mkcase false Farbfeld [L "6661726266656c6400"].
Definition case197 := (* fixtures/image/sample.fig *)
  mkcase true FigmaDesign [L "504b0304140008080000a394075b0000000000000000000000000a002d0063616e7661732e666967555405000132d694680a0020000000000001001800e0dd6083b907dc01e0dd6083b907dc01e0dd6083b907dc016669672d6b697769570000001f590000b5bd099c6c4759285e754e2fb3dcfd66df1312088b90855d444e6fd37d6f6fe9d33d736f54da9ee93333cdede91efaf4dcdce1f97c111111638c31c68818638c31c618111123c688181163c48831628c111111117988c8e3e5f178ff6fa9aa53a7bb6fe0ff7bbf777fbf3b5df59d3a5fd5a9e5abafbeadfec5ad0461d8d9089abbdb8110e71ca995aa6dbfe9359a02fe556bb97c3b5bf4aa4b791f"; L "b2b2e5e71b56dea1d2f96a0ed2ae5f5aaa7a654825fce6f1721e12494ab4fd3ce24a4598dbfed152bdddc8976b1ebe99aed69aa5c2f1b65facb5cab976abbed4f072f8fe9c4ab673b52ae6e775be912f34f27e11400b7e365fcdb7015c2fb6af6be51bc701b868031bf97a19817b72a542017ef766cba57cb5d9ce34a0f6ace763dbf6596d3b526b35e03bf2d8b2fd7eb391f72aa63f0ea83c7ff1c152b5996f78d96669193eb25c325d05cf0e35f2d95ab59acfc2c7ce68e1e1d98f755bcfd0fdda2e55b38d7c05daeb95dbe61d2871268d0cb4abd9f2a35acf52dfd68057f30dfa84b3bd53bd1046ea180e27e296deda1a8c3880e05372ed5a956a14945969"; L "949a88475687dda0bed909614638d000af49b8a050a5b64c49b9d21b747b838dc64e1fcb546bd5ebf38d1a96a9e5721a034fa9d75679f444ae966de1a7e0e3ac575df6680a2d356aad3ace9f42c3ab60b944a6562be7bd6abb5687de6d966a559c4acbf0ddb506ce231c0c9c35e512a19dcb97cba5ba4ff3037aa8095d41936fa1915f6a95bd46bb5e2b1f5f22248b5015744cae6d97dbd3cc1fc326ed8511cc22609f7fbc92a9e144de5faa42655582c2d097b247b1ab0efa45af9e6faf949ac5b67af7901a186ae0e12c0e4da65ccb1ec5a15c29e59668019c09b82af8a56755f2b9928763532c2d15cbf01f1f9fe30302fed87355b20d9ddd287b58e9792b"; L "9e5f2cb59b5033e4ce5ff61a252f43edbfa0a9121752a29d85fe80dc45ba885a7e17d30485c4259eef977c18d03660aeb5f0d9a5d313395fceaba1bacc20c2d63418c90b2ab55c8b6abd9ccb2fc103c85dc1b9466d05322f84355aaf557dc24a8d7811754db656013063bf127bb05df79ab8985f4c8fad4e7f0901caa54cc3a365f352ca174a54f3cbf8a1773c8fbdfe6d99468b28c2cb2b5ed55b82cf83b55aaa2e01e415cd8657f50bb546053257652b7ebb51ca9ab1bb1a161d4e704472cd111fd7c9b5f94a269fc389526fd49ab5e671eaf457c23a80f55a2865a8ecabacafe3c5489ff8ea957ca6eed16a7c8dbfd9d90e567ae3cd66706acc8be122ffba"; L "96d7a0e510cd5b09d3a152239ae240a36966b67951986caeb6825323316b0a27eb5ec32b97819e0219a9c0d7f18c4ac5c1e57c01a1e97c75a99df360b2783eaf1fc8035d6ad10ac28ceadf054ad7ca39fadc45e8c47afefa1a0df39e3a10977c011620755136effbb4828aa57c199fefd34bbded97541bf71b50a5556e96ea043c0063d502ca56aad669221e2ce68f79bc560f658bf9e506250fd791fe31f88c5a5627cf5484e0ac7ab9e513a56bc0bcd39f790ee7745f9cebb72a15684bfb48abaa97d979b45ccff7ebf93c4c874c2ba31614ad06d8026006d51a3c941766fac1a05b019a86cd8115d46e166124968abc49362ab4f1c99cd7389a47d48efa48"; L "9cb42e122aa04319d8577004b3b572cde492b4fce99d940f94965269f546ae96a3dae7f8159d9d8fc8c2825f2b34db9a842c16bd46cee468c3835d8097d2defcb12cf4137ff9be228df67e1fb60f43620f502d380ae5167455cd2f35b18a43f54e6fa0662f5457a60920701fa6ad869b8a1f6f40f84bfde11810cc54a4c5d81b06164dfa44a9c2dd9c84fde54809fb6219c8086e2769200d381ad80bd55a89c97c690bf8157fadd30f784412b82d37b334188512ed2f3087a9054d9ecb6e7e7d3d58535f315f0262dd0076c3cb119d12b946ad1e6525508afc12ad33a0e22d6cb493f1b247e32097c906b13bc72b957c93085412beae4483a91b9b5e2a7bb43a"; L "e6900864694b4dd5605a96985912ad7a9d16982cd75628016d6e72a37d9856e576d6abfb548dc9c1aa6c64691b4e22d25cb0361c75c6bde100ded19b2d528986da222592c2a3f968ca3af1d7fcf12eeee2ae19dd5cadd954dbbcb78cdfe594830e6ef7cd516f8bb77baa041ad32ee6d57c93d59dadd560d41af4c621f68f477d5b2f1dcb97897784cfcc32d177b2c341381e45f32a5da14e13f89c3ba3e2212176a28175fdac47bd922800c65c9bdf48aa0c954ef9e3d1f044e0f57b1bd8130699801d85b72d09fb9d4a3a5c38dbd98675a0bf8746983a4c5369471115e848fc0897b3f9eb5aa532ee19ccefaa998c84b3ac8645936d034ad97b7d3adacddb57"; L "e3dcb0f2d7e00cb7f2d7e232b7f2afc4856ee55f854bddcabf9a78dc52236bd7be8fbff6c8b0873d5329a98ec9e497f344b8f4873b99e1b01f7406b5ed40cfa844abcaf441105df499ff947e2bd34496015f3a4664c3c549459d5f1c8e7a6f1b0ec69d3ebcaee8b135b69a263b475ac054154ad4c2e8ede56034eeade1bb6eb3568fbf9a818959ab10811dee84417667140e47d01fb019794071a970a3e6c35a2e51f9fcf13c2e6e5e610eb0c954551dd6281c005ad9a3b46527ea447593f0932d6177a42a48c789c98421f6293567c68fb2f3b8aa91402d2c035d198e2abdd1085b62d69fde9b25cf03a81976a6ea12f1394eae136e32e9728063a76f8c66ba"; L "24f2c60b2351270e461ca9e797a8d797f1c7a9e70a44d44e6d0f47e3c9c5e40233daa4bd57ad18a101c08a52fd5203ccda75ca9ddde1ce7869d4ebaa8aa75664d44087979b1bbd53ef8cc7c168c00bb654a7a522144b28696077c6c34610f6de16585d44cda19e896848d422e299463b8335350f9d5cc947369408149c6f98b79344bbfc407d3b8c61c3af29cada84a31a7d2d4c339e34706a044ea79aa56db9990736543196098d063a731c989e9cdaee6878d4660514a4b37642ed40fa9b8a40daafafe1710d8bc23e0da706bd1796f8988c6f291a95381ddd43de4c116f7e213bdc81868dd47ba96f815e7aad668d4e5311aa24a13ab2138e7bebbb903d2d"; L "96ba978523c0729ecf862ee733f9e60af327091cf3ec66afdfd5dfa12a138c511a8c7aaa50c53e0f3f916c3e4dfaa5ebf3ed66adad36ed18800f58a54a1d8e65256424af8f3abd3e0c7b382b60474212ad2af732305e2d3ec052b195115277d8ade060ebd12a53bf72aa4fd5b85bd8263f5a429101ac75a85631437acc0dbf88c700929234ca9a69c08fcf966bc40a24e084d0b64e6ec9561df8f07c9b8e83ed46abda2cd1013805cb335742ae8c664eda7ead5de13ae66a9923283df0aa301d1503375fc2cfe9584d3c0067482030d40ce115a0996dac834f7db25203714ebbc4fc2aa5f9810b6f1591c7c436f30375fa48728e8e26292805c700e26dd2aa2b"; L "e672c02f13875a6d1fcd1fd7af2d4076b9c6a7eb4548f3071769d0f7983c0b55f672157a02ede32cc8039689636d8e3a031e7bfec2f3f8b4d86cd319afa47a4200ad80b940afc882a7367c3a9a161a357314722d90de9412168cb79fa40531fb4faa0ea7cd18b27404d1b8e62210a39a8f0006d3028a546298162388c6b4270231a6bd11c060dac70d8541c425a490ed8f0135be033128a33c188319ac87a8a638d2c3364ce33cc30632ca336d90c1781610d052b68dcff0d8067c6d434fe43c0942600b074e37829c9bef84c87cd288ef03c958b695296549d804a87546c299c5ca3ae664e2c21bb816cda304968b4192fc6e0c96e27dc3e4d37e5d0914e696"; L "607aa2644503e655510358e0142d1058bdbc3a16e3c0e60ad2993d13c0229c01e92cbd361af6fbb9de8849ceb7b4c5400f33ab4cef2249436a107481da8d91d7c81fab7b283cd03c01f26fcce62fb56073924e088241a80cd26921fb4360c22809fc7a1f981b991889792137e08fb30a7fdc0efc4930ff032f9fc287bbf8b00120281d016ec0d29b589a30f9e3e136bcb04658bb426e2b728e454d81e5ce4838ae29430984dd95128ef5825be98c47bd5342a6b6aeba0a2bdcbaea6ac4b375d535f874eb6a0426b6ae466072eb6a04a6ea9d11d0fad2a01bc07bcec64eaf2b56ad562cc2964147197878b2d3df0910ed0e1d6b2e021e02bab5dad90a8474d73b"; L "5bbdfe2e9497219da016a965e3706dd4db1e43cec5b2d0e65e075ed9d90a46bdb5426f6367c44c90121a0898a78a9701598b169d3bd3affadb9d35daf0ac7741f8023c8cd92a244875d4397b068282da1b621880f22ee9b78192024b9c9b781b8e48219178fd0a1d4489b58555aa334e3ddf64e1b18b6093c3e34396254d493cd8f2a7a62cfc7a338f350b8e177cca50ac3b9657c754272a558245c06bdf0fb600556f6d25e86d6c8e638540969bb38b94e05cd25b3b0d9e2cb073fe00be78733856cb2601e3d32ca96655e1f85d0442a647ec28ed2c0ada06f9281f85ca43cd19460702ee334b92a044ef0e1cb668372b049d314d8e7f92f52cf32bd96beadc"; L "2cee41275bf7592c083da93b177b5609df53206ec39341bad6c891c8c42b34f0f97caeca7b4db55521611e1c645000bd079803fc8ebd39fedd57e4dffd0dfe3de07974a83a98e5df4370aa24faef73fe8cc6328966ce442a8494dd5f2119ecd9597f057fcfa972b973b359927c9fe733737a7eb1447a970b14577761ad51c5f65d5462aa7671834f6a97e49a243bb8b450f6f03b2eab2c35b0c75fe0fb249bbafc288b86ae28ac1073fdc222ffbea8c8f55ed9e4fc8bafe3df97d4f9f7a578f2441172b990c1fcb7d5eaf4fbf246937e5f51e7f7afaa1fad623f5d5d065a89f261f8c5765edb68963d120937cb987f9597692ca3f0d7cb2c63fe35f08bed7eed"; L "32e379dd7291beebf599f20a8ecfb7c32f967b03fc62b9eff08e16f13bde983d4227eaefcc166811bf295ba7bc976d35b05c26c7fd96054a8ebfb902e347512cb6a700bf283f58825f941b14a15aacaf04bf88ff4891bf076a5bc2f6948bb5233566db8919ab967c527cd48ed45ff35a242f47eaaf453cd71da9bfee2ae4d88fd4af42f9835f3e52c1f79aa0e4c0f22d3c30c3ef327272c866c32fb6e358e56805e1c7ab65e241afafb68e623ddf05bb1db6ebbb71d783dfef59ae53ffbcb9ee3711de865f847f6fe36803f39d46bd88bfab8d5606c77dcd876301fc769bdc8ea059a5a3de3a0c138edfc6320836e17773999ff796f9bbdfb27c94e6cb89e546"; L "13fbb70fbfd8ce2ddfbf0ae53003f8c5fc107ef1bbb7e117bff7adf08b729611fca27c2584dfd7c0ef187eb19f76e0f775f07bd2f7afc67eba017e11df29f8457cbbf08bf8de06bf88efbfc02fe2fb3ef8457cff157e11dff7c32fe2fb6ff08bf86e94be7f0d22fc01995da616be1d1388f207318138df810944fa439840acefc404a2fd614c20de77610211ff082610f3bb21414dfd514c20e69b3081987f0c1388f9664c20e61fc70462be051388f9273081986fc50462fe494c20e6db20416dfe294c20e6db3181987f1a1388f90e4c20e69fc104627e0f2610f3cf620231bf171388f9e7308198ef84c4b588f9e7318198efc20462fe054c20e6bb318198"; L "7f111388f91e4c20e65fc20462be171388f997318198ef83c42b11f3af600231df8f09c4fcab9840cc0f600231ff1a2610f3839840ccbf8e09c4fc3e4c20e6dfc004627e3f245e85987f131388f9039840ccbf8509c4fc414c20e6dfc604627e081388f9773081983f8409c4fcbb9840cc0f43e2d588f9f73081981fc10462fe7d4c20e60f630231ff012610f347308198ff101388f9514c20e63fc20462fe28245e8398ff181388f9639840cc7f8209c4fc182610f39f6202313f8e09c4fc679840cc1fc70462fe734c20e62720f15ac4fc179840cc9fc00462fe4b4c20e627318198ff0a1388f9294c20e6bfc60462fe242610f3df6002313f0d0922517f8b"; L "09c4fc0c2610f3df6102313f8b09c4fcf79840cc9fc20462fe074c20e64f630231ff232610f367e4a4980dd8c2311e455e2da4660f1d64a02b9ded6d64d0a4b33e1a6e214b391ec25f27d31f425aaeee8e8350b892e57bc0db827e7d13f303e4268177ec76c61d2a9b16ee72af1b0c85e3e832e1b5ad511f0bd53be138f0873ba33540e18423e02889f39490449d3b56082010041027ed75df02e21e21e7c6d870e063c3cd4e777843886dde0456a98fec12e6dc6e30eef4fac82c07f0bd213222c0319f04d94800c23d649bc7c1168985f951fa646f150ee36b989e231d1157abcc4984b3f0ffb6ca353ade8458c3fcea08710ed0ac615e2c50638473050dd2"; L "01757480338433440e7a8c2712f7642fecad42c749915835aabd7d2219c2c923146f91a9310a1ad687a32d3110e91e8dd8ad52cc51aab909c78301361d40f39d0100e19455d2850e3004585ae0b86168d3e2602faeb13a241618b239dce97769a02a9d01be2ec559a3e1b8a30e378b21be02893deb53437a87147bb7a36e070a2af6055bc3b7f49085ad83a01ffa382df79fa489749b14874028bfd11bc0910e6b5ee975c79bd0b2c3316891b9e7b438c33e6e9d496d55998ba98730d397678fb1238a304533a0d70242b328ce312098b5e786344f715a96f088755ea88e30f3e2fc6d1619eb43cdbab842419a309fe9a47f9714179c54ba0092d16da180ee6e"; L "292edc34fa8518fc223ac75dd2e98f51760c8db97430ec858cec4e292eeb06283ac2e17f013d2079e4bab8bc6a4ac16912f5b64dc5b28352a7a6d232d7d249a73ed150d40592325e1dbdac137a5b29b4e367f51854a38b3e050ef0dafe2a12cdb2748cce4115583639a015c2499e087605acee7580967b033d7eb0d01092eb6d0430515c38a89ad3d38d30e131a7ce4949d0a0e99318cd39c7ed9cea85cdce064a00305955c449533ad2d370ed87d7363b2460188548804c8e6a2ae570fa397430aec13082c438687670c9dd010dea436343f1f984dcd3272502e87c50f00095cead77fafd5590ce62bb4231960b5b3d2d9d359f7790df5203985885d9c718df"; L "276572a3bfbbbd19c2ce2b535da3e20c61df95e95590699c78ebce1009f107a53cb06ef7e63d52ce6fc2788e00d589ccf014947940cac5b1d141c07970a4a40649b157c183ae69d5befe7003272b15690eb3ba3f6aebeb613086dd41cccbfd38c2808bf13f28e5a12e1ccd4f06dd32b5ff0b097938c780a89ff7c4be56c6bed689bed69df8dac4c4d72627bf3635fdb5e9d37ceddcf4d7ce7f0b5fbb30f9b58b935fbba768b54138a95590c97743b1090217deef9474c65ddb825939da08c6e26698b44338329706d5e00698524033a32f81e35d1284d6a65a582311ca30fa24106a01d5d769b70714ad0f15c1ea504d3e0a2b2b2d9219d5d9c29933f2211883"; L "1b887cc23ac367c77159f4ede597c09c17ae05b401a661610f4781ad4287fd6bbd370ac7a6d7b02e68909d4f2de1d00a677e6db805928b6ea87803693584d71709e97891e31c81faa79177ba27d5ce999ade25d20462b30ae8e14fa6c49cb50bcd5b06068e830249e84d29a3aa91c351330d0888a6d919d823a0d3095ce98c6080d538d88d66e921cf73781333d5607cc3108aabaf85aedb82b1791b883179019c8ea6e082015aba4913171a0a544dc9ee601bbfa133c2d1253e0d0b0947e2cc0ac5aa94feeed6eab0afda1052061a07f38ad3baa6106b71400e885c01ede5850e893e61f4355acd023a8e922962550f43bd6a51674641e7c436763b57278736"; L "72329a5c0a064af7ae5a142f025aef024cae25e444a14b7607b47d420ddddefa7a6dd0df6dc05802b1a6d2aeaab6b4b5b533c68e228684f13a71bc270d05768e84a766b64e213bdd632f84755feae2ca7724ccfc510f1e7c5c9a077900ed42bd1dcce2f2823da3c38fe018008a374c37021860e7043fd56d5a540fa1a093d6e2da8e2efe84c42901b4696934dcd986324f4ae1f214ebc2d94124d49076e1d800dc256e75abf4ec69201c3aeb13f6672548f96d548e33b33a5f613fdd635de1699e2feb36e4be59093df7be392efc80d3a203a673e7f91a0caaf96dd8356074b91f4e53acb9196c3d4fa391a49491431fed9e1e0716c223cbf397c80eb7a04128"; L "a43f7db1cee0642754bca5e3ea32f6604f4f0b22f88dce00396d27b61d48bd1de44fadf577b02b94e2a3df5925e27732400253db9e5694acb11ed9a84a26df6026d1014d254b49452e5fceb39a7aaab40fcb667b3be8d6b61b3b03341d453eca617a0edff0252924ecc4e560b041ecbbb3cdaa0c20645f020e60142073d0ad0da0990c4a7cf31a40560dbb241d96be8ce8a977be08bd47293ea2648212aa96f194336804b82ef1a8e2ae315f96c1936d6990d9595f87cd065e4da8863434aee48c6e81ea6157edf147c5bec3d18d714d6312dfb43149d518a016a9e97e484fb6682ed6a27a1fc8299d1a9cc4660f8e38a3ddda7648fd0fef7f0588581c8a7df6"; L "5568a882629f0e361497aaba01a82f70c4505bd81c7ad0e183aef8daccf108fa4ac5e724077c8097ebbda0dfc5e10de9a1d56c770d3a6aec8d0ba3210a2244620c2834f70cdf998c96320f36102aa56701da09acf48ae25cb80ea4dcc8db330d29680e02ce79ae065ae70a00270c188fe8237d7c832786b28276adb331ea6c6f5a0f534ac6912ef46187d4b63a35528908b2b6664d7d365f67834d0714324b556582eea29d7a2bc336147ddcf49110d547785477e6c69859365b859c22e9ce58f7040ee653b04ee08483c698eadcbd03278e5d5ff534f6692fcc0c475d75dc9e512019eeaca2926f15b874ac5c91a454b806b94e749649f742b59b075d18b0ad"; L "5c10a2b90c4cbee82be2dbe53b1d6047ec677ad3a48f84cff90cac9571f4f56f7760b701360f3901a47bd092001612ca86e6416410a86dd6626a1cb5a9d2111d549448372dce250499219c1c94a82ad967728eec4d73e8abaf8662a42fbe198e106b9a50734de99dc17a1fcfb3689a63a39ceb852dfd88fa709e9b6d087d05e55a9a119cc02ab77756fbbd7053558ccd6d0e9b4167ab1c350f2b71262b017a0f441eba43efa3b0b9c367473c15a2aaadfb37749022eac2c8b0c98926c4b9a5d97897aff99630935eddb7466402f5164a1bb16778a35433001a6436cecf4934128c170bad59740bcca24c7f6764b69e98c278098d764a6c1bd308b641e9a84a19"; L "8309612cb8255af3aac7c6925734f265af19c350c3e582e2895a63c56b28ebae65b41625d905195fb323921b39221d23db3f52817209e15c4e94ff0c2187748a046e1fb6806e6f07e57a89486697b46576a9701bb8ea2e1eb4406b7b834fd2c64c00b3a54b0251586e8c4349b0e66dd9d602bfac728ba75462cfae4aeca5cd1dd6f2be51d455b73b623fca46c47b1d716047f7d01d8e38486443bcc7118756a3febfcd118789d7a8e98f3a035a6f3217d0b386fecc338db8328463d7a00bf33bab20e7d862abb3c220c03de2c2b57e6f1b1627fa9ac0b79e1d49b9ce8d89bfce8ba49fe78f8275650b60aabd28dc0ed676fa9d9137d82091e3c51a8056651ae5"; L "25abb0dff6d529f3d2b54d206ab091ad79ab3083f571f132c0aeb6b45c4fcd7b10b94575da082f6f6a392b8c660ff6a49111a929f37a6199d74bff687e858c4327df427133090d1d6bee38d18c71f53826e2e398d4e398b2c7316dc6712e3c11dc700c0fc198c093fe426482561aaca38c9e2abe5ec8ee8ee90307c8f378880f72c1c9de9ab6e6d5b6006cec13b74d2518c80c95099bcb2f36f431dc32bacfaeb449d521272a01de859a722ff441a8ceca30bbe9e084420dea2720f9e6687f9f231248c140bea48d30b8a17391ed7cb356d7565f12d3916927e6b4ed97cbc65dba6442654de1a40218d72476fc2153056e4006447e1b23141158568cf657a311"; L "655bdb33b623437e3985c0103d7e938c78dbdab965ba3832671d562b38ce6a1ccbfb1c94b769905e874eb5034a8a4ed45fc9aab75c5a6263351179e7487f85cc381cfc25674d36e865fb3636cfd5ca25c00cc3897b363a14449e92c26f2c65d847ccaf03da76fddaf6f22bc916a472fc6864050edcce98365b674f080c68ef14ee9b3d6349fe4ae1ac450aac9bf0847c7203775b36658243f2c90dd06021bdfc10ac0ac8d576c628c522a618781bc55d872862807c1a4a148620dc67c702d8bd4f844869413ce1ad86c3fece3850f21ea908aefeba0f3a62e1adc051f1fa5f841732bdb59dd5de9adfd9daeea3d195d8a33e69794935090e4f8576359f57b66b"; L "5e79c53b4e3e259109ba70f6d2e47f2d8bad85135bfd839d2d9f495288f241452140d914325451b4d4c60e71b59c4b6b4a3ca75413e2f562dec2a4b710c6a6b7100ba3de4c22ac7a575902ae2b50c2761191acf948dec9422af706cbcd768eb8125b14684bd288c155ee347aea2b2f28b4ddaf1d25b65a393dbaf942811d3912f9636841c6be4b641c93ca8c76c2cd1a701203437b66efeb5450ad36cb05cbcf92cf164dda5d60fc616869924453d45d1f056fdd013e15a70008533778cb71c2ade110b85bb2eb03091bf5dac4abc90d942cdb2fc1d108b7a9233d2c8e6f5aa2cb04d241f32409c882f1dae6244e39b43ef651180e2d54a1c312494981b65a46"; L "87208950b25d07d8369574c360638b451630c514578e836231e53c604763e22dc5893bd61b3166d87e25846551b7ec14231e5f197d02df03b4893c5198ccf83c0fd04b6aa59807f2592c9573ed5aa1cd8fd1f4543b5e4b76716e472f3ade68cdb4029814e82ecd1ea0bcc4ca3abd011c740c37e1327f0b67c713f0eecea8878deff6c26da0bc5aa3a4b24a57e7d6fb3ba08854b56d5306a6e3a2d6b1c30b2c1554051b41bf032a894d7e2161bfb0a534d08b48f368bde06bbd3007273875c2abecf4c73dac3d1815f01caccf6c8ea3843928d7b1853c8eb2fec7f320aaa72df37fe53020d9e4d9d1b6e5c6dc39a137bda4d90e53f84e3b66c89bce2b5f4fcb8b"; L "61de549a1f74b7791aba814a92e42b17335c85fd7e8b5bf72947b8e66532041ef6d53c766c3d06d19f75ebeb5822a137df4a29972b934386d1484620d6484af32a30b4c8e22bbed6327cccb0a1b7cce4cbe46019afadd2339fa648a7f86c8c220e63783f677f19ca26b4f362be9ca9adf0fe00b4c8d30e45d95683231658b532c5322c08d9c036d857c81b0c14f5c00336683276b9f4a58a940a434aa5f6a6728ccf925b29558d9315faf6448e4dc98a77cc3c4a61c63c4a334af3742e5b6ba07f2a1ec2c8b179de10eb05f296d736c28b942341497c2eed2940aa5df02a253230dd4b59656ab98f322bbaf2fd78e88bda72000493e82582ce2f6ce27a908c82"; L "2dc02106d4bd9c72c13acc00e5987206e76cf1cd99357c990c36cfb27dffcfe676a9af3907b71f8c1cd05e22a6e95cca03dbd6aa5415e83c53245b6b118af3ed421a788129e655b3d031ed523597c763e78576e98967179997e0539101bfd82eac60974c4f0fd83d88eff892634f9e2c887c3640305827f69bdc81d562c8a2b37c29532a7387c0a22802ef48aca9a3dcf288fb47cfcc5a5df560c20468e06018d315316b2ae68ee7cbbcc844ada18282480e0402e7f72af18b505b99fd1e33e516db65e769daa496b4fff90cfc3b20e8dc3206f95f85af5d2390e18941aa19a0c6d69d7e195e53ea30ee8eaf0073c66f8baf39335e401986e3441a29d91b075b"; L "a178ce914e541688beae12f0d260e07b5f8642040769cc228a4bb909647f9288deae041db437c2fd1a09a9df232f3ee56f6a48b754c4dc31e79c991840d8c6df87765fda086b3c54295743a9921b5d90d90e81d7e52cc83268e764ea869b1aca85911505be56830bbd5301c93718a73f66312bab16e780970ad4263aaf0462151029a9c3e9b0dfd54234642a0a866170acb245166383587d0b7994b8d58ee47c76422096434900763b359a54fab0d72706fcda220a984d55a89957db3e2aca4fb02d5b02d82b50e8d3be842778393055e6bbbd317f4062dc83fd7c0c678352387cedabafba1a51c3a1614495c05087632c1c743d3cddbb6b20cdd199043ed0e4"; L "7e2e97c70045e404582c35f3991af3b392bc9e88d98135d74617e11ac509727d28e573c0861a7b2124610f68e1e6a2d661aa505aaa78b41ba4f104a444175eb95ef4947792f6c0a7900a2aaa8952c7a9d2e6984a91328c0f211922e99ca3b664d44dee84d64b9956899d1b90aea2522937559abb3119f2abb7b92080843e6b6d77a19f40ba77aaa9fb17b91ce466d17985d94bd7f4730256ee49dfa048e2e4c892764338ff69746ff8cba643afdaa6e041e8aa830906be7adbf2bbd916ae95e502af214aba20488cc1a0d72ac541127f19f4ba5e58677970874f770fca78b31f71fa13cbe01daeb8d106aaf92edee9ca9f516ce5ef132fadd4cca1785c8aff63"; L "9daeae56496e41d00b611df599f390e2e7642f54470a05f9058068d130fe1a550c3cfb1aa3a5d1ff88237e91ed2872b12ff87d4bf5fdab34db0ba44a89b41c3fee4e1c053eec0cdf0272297f0756248c3f9c73aa24194645d2271cf137204d3c59190e0770ee2ef7fabbc43603fc199099fbc3f5b1e28d7523df071f501d0e7896a86efe0d34e49c7142012c0fd88fa2e3ce138ef835d91b6c06a3ded87418f1ac776ab0d56ff4e06efdc07419817f59839564c03cb8cf3c200972f4e057f403140e44e0fb67b4a73054a74c78fe3bcaaca50b402c8206048f3b118c0bea277f663d21120cb08f5b3025d606e89f5b50125700ec094bda4436ab208894f20f66"; L "b7309257412b3f42334eebb6616cfe4146aa6ecd9990f90b09e643f1e984fca21ea30945d1bb1cf136c046d0f8bafa2ff60bb632e7fbec07d19cfcfef0b42a9d773be20ea5858acff45be4e93446f7a0d9ce5ad03acde3cf68a590b27f7e4a6d536a57e38de7475d5588c6feaf27953a9f846ecc5e035ffa371a59d08d3ee769c9b6b1131bdfd7232cd8d3b9603d14ef4fc8773b317003c10f24e48fb27295813e48d443f19984fc476566447df388146f8db24c6146ca4ece324d02ddd07f1d00a58eb4491c50213fc0e1c253edbbb5f209a4bd967ee9c7e30d0612a70c4d43f1be84bcc941e629f4464166675521fa0da392627dd94d8efc9a1c4ea8ba6e76"; L "e473526b0f911119ea0c7fc2b67ea18c8c028844fec0d98af6bd5b5df10d243dfd214a17ffdce5a4f6c297e2bfdbe66c67ea34632e6d6b0d33ee1d247b396b02c4058f6c4faaa2e7c5d993302e7a743c2378c94bc42533c0fc42733c15afe465e2d22920176e8d75ec9fb3c4653acd8f96c7f1083ee78817c4215c6cc5b22f1c892ba31c3ffeee75ed953a162fd6697ef43d636d487a9f142fd1197ef6e6ee84ade9fd52fc33d90e6bdf4f909f0c0765147603af8bc2dcff167b3a407c20ccb54bdc28ad22a001c2bd08be0316a55dea07ec52bc1f637fd945de6e1701428666ea00fe411bec033303abf6fa60348447efb01fc53d6e4f8a1f9af150cf8b53e2"; L "9db35ed56a88b7891fb61f9347ecf78977d930b3157fbff811d98f19478cc42f7149435a1e83129131e805c007202f05f93a88b4a03f0991147fa1c1e51efa7088bf04f1ce29369d4d8abf7746a735f508c537a4fc052d4f89f8b64f39e1146b78bb2bfe912c245ac0669427acb1ff54e213d874fb3dd01d4e3ebdc91d0f510a8b86364de5bd1a8a774bf967523f585f8f3ff9b834a6bae226f808a9cc6dc5ad49f16434f358527faf94efa0a6657add5e54ed4f13cc8a0df346d0d9019b59ec741bcdb25258dce34cd9b4feb01bb26985f2de5082d77759ce202995e4e5f17a346b258a98e61483bfbdafbd7bdf25c5fbdd48af3aa7925cec0db6927ade64f8"; L "e1772805dd6268c8da77da2e277b4c861fbea90b8dd56176e6e55e2bcb05bc2d3880404b0fe02f83725a105ea37d0c6abbcfc5a7a550e976a0f8a11880df2b6ce9b3cc2daef83d8b49a9992f3d3c05e45797806ad972e033ec3c172986c442ad685be9f3ec3c17a9865620afcbc48556960b5c179ae05d9783e65a67f861c3e469fb18897f77c328fad50bd18345e7f8051f38ff7ec480bd30caf2f3ebf985a8c48b6c0097f9ae8058bd50dce9c897aa343f694feb0faf990071c175ac7729186e0568f0f161475e6b03b8cc06d76c977a651cc4e536e37b4821f6813febc69ffa277adba5014e9ef7d293166ca1b8420325721d899f9b78a3b9d95b3b41ee56"; L "23f1f393d8e808719eb8cb1d4f2ae94371b723ffd8450bf20eea0d9ac3ed72b00edb486ccefc84b40b34705a4c94b8352a91198e418c3403cb4f4e969985e8b6a850f4a4872c04daeb3127f25393659ac3613f5ee4761240c1b904a996f11324c2f1d3724c5e0b1e5a538c1bd843e28194f8657796a2f4edce2a191ec06717898b03d8cf2b187f8401dfa5c0f8e506f80b0a489f6aa0772b28cc473869c16ac5757f6f54955989bf1cabca80efb3aa32c05fb1ab32d0fb15d4b7967418efab5f7522ef2dcba5f21271c12c38cfe67a68226de544cf64f8e15b281f317827ec3c17e913a8dee976b9c8969de72283702aca56519c0aed785947c46e18c5ee2a88"; L "27246523c630aae02ff8916602a3079fe0076c8459157fa95070ff55c5939caf035700ec12902f7cab2afe2906a6fa4b24113d223e2ba71ace8f0ae29fd5238cd3a55e85f3218662f99cb43ba0a106ef5f62509e0400febc8586f0fb417f1d3ae70baab8158aab2e7ecc21a0b2cabd5e8558113fce608ac7d5107fe8d86d8e46ee5167abc79a7858217f84bc8ece7cd4094f17b0ab29feda09c9120e043b68848bed847a7b6bc825c9dbdd0d388334d0fdf4ed09f19b94039abbb33520c007f4e325d22aff96f59c211fd4053cd03502f15e15bf6d9531c0877431f81a64517ec72aa4401fb2eb5643fbce8478da343082fd2d17c52f59b61d2045593c133d2a"; L "c6bd20e1e1dfe1316a00ab7c09b8ffcc905d5e3ee98c8dc192d119fe28522cb61d227719f3e0a6e841666adffa31398edb3edde3889fb1604d36847a8f05ca4536513f2b83288cd377c34614952235c9e864c03a6c68f46fc19935166d6d597cd0026180b545f1db515b9501d4fd8e7848f626a2a01d13bf6bb711c49dc0c4427b1eb64b5690da68a2fd7bf613eb0b1e41412328c1295f0a952511bcf061ab02b651f761b98d3df60cc6036ed454cbbc29145f4dc84fcbe1ea5bd03c523b0d13f47e373e407836202de93b93e27fcaed4857feb4231f57f9984afc1947feadee31145ba14fd4a71df1e508063a6584fc470489d4a95f70c45726de6666eb3f63"; L "ef33ecab11cc563583a4c391ff3b7a9609ded60ba64bfcbdbb36531dfc7947fc9fe8651ac92f3ae23f9d8ed1c0c029c791ffee6c458a1858d3aebcd1edcc52287ddd117fe4865311b9f7887f9704c5e38f71e0fb1fb27b5acfa98f4a385d9df6b13ea63ceb80607430edcff5a8145f926f512e541f93e25fdd6edcadea3129be80d616ab5a7bf26f2e9afe928b5d196d5dd0b4e1e984f841c780c9585c3c9310bf41da15584d277bc10d2c354a8adb1dfa3e755ea293f57bf4395051d1d0300b3feb90c3781de63532a9e233ae78c021f500a1bb3d297e4dbfcbba4da203cfa440efb60d723a728dc3da402cd61bf081f84b29f133ee0da4ea4177351d8eec0b"; L "aef8092702ab50ae6971ab022a6f337f67750c0a2ef5f8f3aef849f53cdb5983833f50e000650720fc12b7a927a5c1f6ced818c27c3c217e4e3d40ce6ddcdb863ebd53418a28a4e229ff3957fc2248a45827e503d13da1c4a0bf04fd874b1afa483523ac0d56a2d7a1c8e7143af4aec5280ee2898478a782e54fd2c47c3c217f5841b480b6120c7678b3fe6442fe88dd789c9de60285a712e2275c98316cf10fddf62f2ecd0ed833f4e60b2bc1151f7008cc3b4cecc96f39fa059ee0a1b825213e6817278684c0bfed18da07f418cfcb3047d67b642b8895ffc7d4f33a92a7b5de7647393542a1af38ebc6cfe34607847dbd30bfb51ac01ceb1a9b55e8b6cff2"; L "811cc4a2b0678daae4a8bc287e0877b113e4a344f871beba63e57af61929fe97131a0f09aaf081b4f8df160c3d2adee1806e8741c1164e4c4bf1f923fc4085787b302d7ed706f8010a0871462d8a8fb9dd1eca0ab754c03814bdffabc3ded88d21482e57814a71d6d2c47cc1516fb1b8a4a1459ef7268080c511127b745f42fcf7f82bf50e9c0ebae2fe84f812ccc83a2cf85c0f97254eb5af73ff83282c3fd8d922bd03c8869e4d88ff25f503ec14fde05309f1034e87a2ef0ed8d2735f9463d637139d462359f2fe292017ce063a188a6d0d7a701acac5f35ba09a857d057ed0203dcaf1e30a0b72a02a1515c2ce73919a76278e1d16ae988672f1e341dc1a"; L "f621477e5b1cc4e53ae37854e2378897c7215c6cb56f0c4c43f1b0235f61e5b9c4da3a527ed4fe82a853f75e3805e4c240c908f7b0d0c3b3d08e95e502275727e36f5f292e9f8471d163201bec82228e024f63f75d255e3601e282dfab4ddf1728c1c037a23d5f092d0f7c1562e49c38848b953bca00f02947fca13c19396b3f24c55551960b771960da1949ec7e8564049173f68740c3e8f2b0445ca6d57f37a02a0188c1238e7cb799d66aaedd2cc389d0986f163f2f59cee493fd28cfa5bb5439e36771afe41a291e75e82f2f2949e1afab8293f132bf57bc5fae453096d7fda65c47630c62c06109eb75b9283ea0b0987de749073e734a8d1317a126811d"; L "18c46dc93f006c0ae95a268df21f7080f3500fb49d483d32e5fb63fd6cb621fd830e301bc3e7317d7fbf23fec4e8789050ae8abfa2cf47a678046a65ec3aa5f626691c1e0bb0cf919f7826760a35e7d6bf8b10840ac369103c2b410b0fc2f08d0de8cc7727c5a7e4c92130f4b477d63747a8395914ff283b6ab7c799940980d908486f8d1fb82aff552918d11005b65447fe1b09af51764e53f6b3406725861c5adbac6d13f1c03145bf3ce3f728c50f39a0061c4767d277811819362e42705b12945ea016d8ac0440ae09f4d5a4b805e4f0283063677c8bbbf92927ecc1de03a203adb0ab7706411f3ff7bd4e872e61425173b15929e3fa7930058384b2ef06"; L "ac76f1be94f875ca79e3f1a8b7ba835be3a329f14fd68b6565fdf43e074d5bd7944b29472192c029693f486ae85d2918610d41a2b9b3b5cde79e6df12557fca679868295ccaecf113cbeea02d1b3fc29f12108f152f2211b0adbf2b352fc8e0101011df651ab84d3f6b9a4f890633785d4d2a1b827257ed7c09b301f06ca40e8d908f51af049a1b82f25ff01fd9ce13185409a6cfbef117f0c9d3fee9c12cfb9e2b3ceb61523eb76d00ab9dbda0de26657fc98920693f1fa125bae3ca2603eba54ed179f367d17198087a0d897bfef76671ab47fcc111f76c39906eb8f39e20f10fb0cbbf3c71df111fd169bd26b81692806f273eeaa31afffa8231e7557795b"; L "5c9e746ffd9f4ea4f65d8e45377862f21d00df9616cfc184413764269ff953b0677715affb03ee0828a82ecefcd2db5ddc5686ebebac34c25e7f2c25fec5813e85f7340942f06d09f1c70aac396104bf27011db4d5dbd0f261d246bd3f25fe246e7b02d53fe604daf0eb2657fca913731c792825fecae1f5ab292abbf93fe5ac21396eb04a2dda171e4ec1e978c45066b516c5df3adde1da0e9e15632e371f4a89bf03dcd3166d21a887e4a799bbf488e7251eb3dc5be5cef90cb598662a35fbf194f8373820c582d1be5d8aaf1a988a3efb0e29fe07ac6fe6a043ed63ccca6bea8a9f042e38169601359ffaac381146e423527c051ead7776fae3c9500eab30"; L "e7818764f95ff41e76368818081abd626cfefec4dd420b7934a05b82e54ab08fc384d4af572247f2ff744776956676dfef82fa6855ed86a1f8720a1490da92b08b0bfd4eb4258d7ce1fde8d973523c0caff687c8ae0de361253e0b2264b737e5fc7aab23fed2d52eb2b1d0105f90e2493c7fa01b2db55dbf045df065c584b07b7636e661fb00a1637b23459a1ed4eb693244c5e7a5f835a8038548b14750c53f33758a85147e27301d181c60ac62e5c16a48cb3f2408be3a62bf032efba1b4f827b7d3cbc2b3e626f9b97e2c0d546f8d0df00c06351b6395c1b149fc690c52827e8109672c243fe522250082af9916d039bb783e80e3c3892c3bcffe15c629cc"; L "04c1404f523e3be01c7d8a9bc126973107f7bf9efd241a927f70c9378dbd9881b6a6c5df98e123839245f149967ba8a6d1447faf2b9ec54850ec8b0fed7d100eed0898d8151e76c53d086ec0666d74e3f8e023ae781c7a932d462323463293e3f31f8643fa29558496b5de66ef702908476ed459e755f79994f8690b76b437cef7490a454f3f971277c3073039c1d30a413fed8a5f52507d3025f8e369f167eee6ce2a7ebedef191843de68a7b41678ba101bb1c64828bbbe2a3ee58ebb189f0bc3b253e81f384a63e9035e80c71534a7c514fd9a8ebffc3b5835c0b271dea4999ea4dcc8ff4b6511a5a5eb5b17064ee1ad5a872c92e0962ebc023f759d995c6"; L "98ef13c3e8249455a7ecadb11fd340093be0fc2f8dcd36da9d6687c3133d1045e3b984e3731c5aa54c11960231de92f36868d2ef807077a4ad1510efe4b3d29679e66e0f21b9ab8737818cd5b68e1c98844e1b0c6f80d3c886b6ad4ef130a85c7a14a0d056e5e64048890b71a4bd99e60d206eeeb60038fabbb00d84aae0a201c40bee012aa02cf474d1bd16285e781f50f11301925d5574bf01c40b1e083b27cd843e38667e5be70fd97d1d39c72d064628101992115772b72b9c5351d8c27b5de1ee46d9fbd0d09d6b38162b9454d0e3b1b22905cdc6aab8c7853948e3c426e373c8d1c3ce21e6d5e8a11dc9aa58a0980a38a316ed8f88e3c20b59f0e2378e"; L "ec985301f367d56a976cd2852692d11eb383343ecfc5565cfab85dfa79aeb26accdc3f9d33c7bd3187768d9b373b181414ad21913e3f009daef3bd41c10a01a7a19d5316341995e593a8dec55351f1f883741f0824f6fc3aacdf35e3ad381f0ed77a3a6a28831636864350927b7a429333de220521f4e194b946a679a7385ad91eed3cd20d7021b35400a6781c9c27cfbd7d113033eceeeab2fbe3602e7b40b592745907ad3612e010a83633bb703a0899b593e23087e66b04dd9d35d4202ac3ab33d6ac5924ee72c599d61859bd8f77e81694bf8dbe6d4b662bbed99f9c046d4e9ad7368e11789019a130acd7014988200d2608ab283226caca906a56fc8255"; L "1023b6817e688d0f04ef77359a107498d29928dc03be5b174547b766b6d8e6fb0784ca548f4f345545917570dba4ed90db3adc061528f951c209ac178250477963ba53efb2dc07bd9064feba96c79ea756297f4861f926f093c1c12e6847057f043ca92998703cbc1c59b999895cdeca61d32736fd28fec923ae9c7eae23e9ac4550b68eff30f465ac514efc5d2e85ce90beaf9a428e777887aa6ac9149f11b5e5516e4bac846e0a998467fb301f613b1792ed6878a943377e8cbb24f6261716f3c5bc871d7135459be5f4357c7d1aa5af65b7444a63ac0057a531e67542a55f2dd4c5b174f5347ab394d9412c4d57175fd7aa35f9eed1a80956e31c69055542"; L "6376599ce65e1c47b1343cd62aa3fd7f2b536c0dc7b3c550b26c584a0e3e9ab2eb6063c0e688844afb1470094e262219c3968d3d1672f92a9afa7691e87eea84f289c72b71b25e335fe5300db25e6e355484deb297cd17f54db8ee141e1d3eed09358808a30f7a92960ea9dd40691c18f85340b541673beaf40de869f82ae007d782cd61bf8bca1005ffd4e4b735ed0a1ce31d2d273b4057ea8553c543e843197fa14eade10e4999abbcd977892f2a720a147ac5ad30ed48d49a45768a9a812756a7d3b3a38fe0d876956aea19a05ca76985b560714e7cd2d57ee030faf1770a181f743c3194393586ea4635a7daaa64660c5e3deaf05893dd7893d7a32a9e75"; L "31b63266b5312692c24936df913aacb69276dd01ed5f8e29569d049eb3b6d97e406ea144b13cc46b9184032a658e5e85e18c94be3c24af752ce529e7ec853a07191175afc5e1189ab525f420e328210ae854d895dc6d55552aa18a61b66da049ff68a9de8ec23ca4288f97d528409a00e4e93e871755612d745d5683bb7a7e6552a1eaa4e2769572d28cd28ec70ea290c84891a51d09148f58af3034d90b95c529e7532ba7d7163b33e334a29f9be5ff1f27d75fc485117b684f433b1ac1b225d38ce3f832e09878aa90b803e393958e02d569016d14878f4a7c0588c4720c225e6ced41935ee2d2d072cb59db8980e8e8ccbec5dadf3c6faebc9b70f14ec65c"; L "bc75509f541cca0c6d3a0e3437dfc5c186d79d5f2ef925befd70c1de4417b5f3fb1ee38abed7dc70ded63188da93dfbc2f5e866a9f2ab43f2a6445299a2a7660aad86c740733b5460e2f52840a4d171e5240f5a6811f5670aad140cf5050aec080cfa44b1eab4dbc52bd8ea1e2c9fdf42cee4a726e8f79e69f6d471b38c78e2f706e2cf4c079b16803e7c763035c10f3c1bf9072d40c7471c5ea2f8a9cf72fb6e3085c321529e0b2782881cb310e52a3948359d7f68f5732b5729bc2cb5c513c5ea79ba991d7782170176d3f0ff595016d0e7a0498537b62bcc82fd7700cf8be5a4270e544a080174f070a78c9f22c6d46b442bf66ad50bb885ea653ca0d69ab"; L "47541cc5a80c89d0159d81c22c5f217d44bcdaaf232f683fd3b4459bce88fb531685692aa38db845471ce58d09294f5b4ea39fbedf8ec228ce44f80e4038f1f4f9d1d09dc12375bd6b1cd7bb14aec922718463fd44bc3b0128edb278e62193503c35de94807d926c42552e56163901749e61be93d8b19b13f6052df1b2caf9ba50a6e00f42df492b8b2d229bf12e9dfeb25ba7ba7de6a7857cea76bc29554984ea764035f5fcf45dce45d16cc88439cbb12b3872ed14c2644a011355f65e5399f53c5e19d92fdd99d03519932647c770e57817774009366d37b6a3ee98446c288dbc2b2112278763d689dc9d10c9ad9d10741f64339a102946dd34c5e1348169"; L "13d658b571596300be15925965c7a0bfc0a0c49005a0e2c9f14d8c201e40cc951037fadc4c539c28385c93afdb94b969bb9cd93743e66618ea203a8a6a49045b66271c4155605fb3ef83a68649c8db865babbda0a02ebcd0011262de9a9113f783090c4c1be9ca92d9d9e54432da63e307d5d31064a754054ebed4a4dbe2792b68ababaaa7686f223bdb9514d859fd556ac97d20412492c505184fb81f6c74d67673d30e87719c39ecaf45ee777d311259122a5e1a114ffabe273892807a9d94557c20fb20cc35bbcfd22c42055dbde2cb1f4a8839bb95f3b69e79bdb7213e94100b71f1db62acb9fca693401b1d4e4b3e0372e63ec911dd3887b140fac38eb9"; L "9820fee52a4e45a6562beba1e3c80e1cb8d0e19b8eb3f9b68a2ae82a760187c59c6f92fa76f2140e1e3268b13aea13df8f328811298829bb28654fd92a60e45a05fd58423af5897e016a40ea1244aa401f4df0c11d4e2be261187dd299eaf21f8651e3702d1844ba87468eeac923098cc28722220578344137b4dad5a943104646cc17bc5699032362e08e065ffc5ba78bab1d3f5fe640496ec9aac17131b627562c6137214e1bf6119a94bedd46c7558fa57a0c9d136c73396a606d5b6d2f27f57c913a048de3db9f00e7bf6d3ee27e04086e75b2a79c84d54f536dd295264ad650c4074eef708fc1eb7c2e714e5f58513c3bf292a058946dbc8794ae435f89"; L "2c55cd25dfeaee6ea1ef0f97444bf2392014ea2e22af099c6911b8368a1b87b793fbed6c11a30e31f568b6f0540135b56cb88afa1237d215aebea1bdd9689114c6c4405111549c95b8856d3c461ca7955915819439ad26aa2b332d6f55b844135849f8793c30353952a8597939e0c75577b8046cf344a3a7ea3c8d6b4f31b5a9e9cab40cd4cca0a12627726c8c929d95d35800c31360a2f24c8b31361f873933cc723484931f289c79151b4987ddb3ebebe92ef804ac4ea58a4be899fb64422675f8f99a6e2d50d3267bf62235057df43aaa0660030336c80a07253174dda4cdba38d004cedfcf364a7516b7d569eea92b3d9d2cdd24ef1ef1963d532681c651"; L "d8b3477c0eb84347d9eb285e5efd78b348c0b925dc7ce77d022ff82b25be44fd680d83efe091b2c197bdeecd787439ed3e105d603c2deab7fdd9b811bd48174a4b47bc0a6c9a74a3a9c835bc6c8b2e7bd55780c1e07b342b74164e402462d180bcd7e008701a0062953c3521a921651d07b734c398972e8226ba36c3a01705afe198b67a4f2485f49f27ee079e2c7498322dba4022ef2cc76352a8727aefb44e20b6fd9c9340d338ba6049aeee804a8325629f4be006ddd5f13375b407ba1049d95827452213bd00a2433cfdf21c6e55a38c34220ae0a7a08ba8cb5c6ec34049e616c84d999c411242c76a810a1666344105b23206411c73f64b0931df8d83be"; L "0cd33f0e2ab1a8f92bc0737587370c80e3eb06bea90caf9a08a12f308069044d91e5a015e73b89170014d040a04cceb4ca8b7fcee281a20f93d36d9265fdad20a8c739cb61dda8bb74f748d3811ae2c4c4f724f9a75d32e1cfea0de1aaf095a2dc641d265d2ced4c1673f8b1e0c73237abb76013aad461b7a0ab8445fe98494781aa6d935427c95c5e40dbced7601a69afa86f24643c5c275928b0e416b9cdc87c366930f3e6e5a4a7bdbf4eebe6e5ccf6f272e3a6a8891996a8c959fe642912e2167b74fa40cda9699b1635a80bcce8a4f5b414d29c0a4051dc09c5cd290a52c9d27110a2abde70ec7e89c4e7c433982a9454d8b96286b3dfb4879e33d341cf"; L "8df9e725667d63f29bf8b9a5a6dcf6d2a737599e9f367d5e781e9fc0456e9e39e5cfcb3db082461d3f6ee6bd3742d14007257e6caa95e2dc8902a5c89fc5f0ca286e3f6fd2df700e6f9d6b8dfad6c57387c8df0a99551c8ecb6297d4bd808fc7d6654fab625f1cc6ccdcd793627f1c2e9e4b88c3719016129fb16529013eeb8a03135fc35a86e86b0f5279f4a7690ed5c43cd38032bbde161daae7c55904d4ea894687ee5fbddc52d6dc959267af4dcfceaf27e439f1961aa1d9f971b8119d5d30559eadd72e34f7a6d274787b525c1441e815da9e2e36c03a0599bb31292e3120369a7b47525c4ac6d7011988487185177f074f532a421f477db52b8ea27516"; L "3c0ec647478d76a11145b8772c90090e69c1583a9eb02046069ef4e28d752c3d88b4638044ab3bee020a6a04c5cb4d188658720a575130e5182b9247f3c775c843d8748f56819d8dd849a2fcc732b5636d7dc5a94f6a6360a6d05aa04eeac0c4d1882e923a244bd6e04929c7b1bade053bafb9d511b806bec8512a618a135b2389898b1cd1aa00f956f479d2d4d28dc242c2bbf894b5f4748111ab7809e0aa5b1f95e137c6733467c56cad7ebc9d6be18ea4cf162aee0cec18845ac5a109ba2d135bd28032bb06e846512d13cc5e885b601b9a781b488ad88f1bc2040286a7f3c6a5c0d9ab7a271cada90b9eb5d54f64dfa7a265ea3b27939bda4b3545be0934"; L "6717453ab207b48c72b4d98e0dc32381765b59d08a4a6d8f169f527ba8067daec20ed8eb1b6750278a0f89f239989fbe52b751f791d768bcf3ca13dea9ce9cfa7cfdd18ed53437de94c4ccef4bcef8be54bca4b1649a40a07b716e199ab34dc6290965cc884132cc7595721bad1955b3916da07cce5c61a22c20952b41a232845e01e6668d75902f87591b212d0f55c82210725960730718de58ba39899131b18b6e03364172a94a66fb3d50234be425e84e50a40c807572bb73f49d6213de508e5aca70b8d36eecaedaaa55bd7273380eb78763957542902ca8b43bf9b232dff8d611cc7287d7dfab5ecbc0deb80dc229a4fa0f83bcd3d4e9477b07ef42daa8"; L "14d929b446a2c8f4cde1f6d630c4ed3f08064c3e2636649aa5337659bc2245b9b0d87b17faa6266635021ffedf34c46c80ce8c0d93d6cdf4064b9e1f09daec6917613b66350c965c9eaaeb85b8afab7b424dc6a760927835cece08c5a7140856a4654271cf9d13c1c00e0e9b9c72e155f61d117d0ecdfa4fe3ee05fcc8c0b8d3e1dd2a61a07a81d852355b42714f523ad1ad3a9103c7e9ee9da0b84170c6d3dc8a8e449b1ef655650fc2197510dc6032ced49ccae19c72ad1300b50924ec452e499bd2c427c02434a734f1be24da4b2ba15b2c2273ba1481c7264c2e45e0550cf964b5ba79713cee6cf4098eadfb21d876e8163b65ebe0867122226344c4d176"; L "496605c7af1e4cdb6f0774bfeff3bf3fb6dfe7eb09d7f936422c55a3380f70d042d79b75f54e921dce837e1fb466346152069225679e553834c5c654716b6ea95a6a824e5a5dff02ea734e62d8e34aa9a9c21ec75f8525455eb82829d41d86513836d0bd02957226b034dd57c1274c757b6f228cf538454cd6934e8de7fb931c7c3a0e56ce4d0f275919a6d127982a1bfcee6a7c1eeaa560eea69e20d6aefe340ec80bc335bb45f2f95aa4904641549332dec86d0ec46ded514914f731360a70a16ac2ab0eadfe0ac5234999b6bc51503ccdec04467c0701ef8eb6617796f1301d097175808fa09b052122b3121e744c1f4e79c688a74760f4f2ee470eea8e2e"; L "56e86dd43b7d34ec240164ef6d1d2d59d5eaa36200dcf36ad0193341c9a3d89b24d8020d984c4efa200f0d9119e0d52e9205be8b12b8473e06e43c102a7aac6868364bd52592589a7b5d13c8e8e8e5fed209d323f599d8f28151f471589d04b9c2f0193379523323ef01fab245bcc47b41906496a7589573c3553c19e34c4acb79f6b850d2dd05a04ee8db86bc4128ee4ccac530c60fc0312e29f78c2776ef50dc9d947b899943d1f93e9a45ba8ca287b036f7c7e0b3643a44cc0ec48ad5e2c16df40c7fe1541bf856faa43cb81d9beba04249ca4396b3947834290e9f8c4da38f26c51940ad56d0f6193af8cc4de0ec0a68aacd735f8ab37ad31439141f48ca"; L "b3c71105fd60529c13a36ae2a1a438d78c9c471ba40f6d3f6f7d0873ad36b0a82f1c7637cd2c7b3c0947dce76756ee4dca0b4fcedabcef4fca8bd6fa781b110dc5c554950a844104f292f137e740ee4bca4b3bf155f4b1a4b82c98b97f3f90942fb0a279a8401d44fe4ca88e55713917996201f002f5976ae149dc296e555cd189afd1c792e2456ba7bffff6eb525c19c6d7e0c793e2c503e5ea963fa5eed3150fa5e54b4a13514894ef955e7e09339b6567301cece24a6a6910732c64b2a07c1735e39750f72bc0b4d198147b4337c587b1b0a9c06b077413fbf6e6753bc168d7d266c58e9ed526c86ed10caeceaa59b42c5e22f9c32406eb9e257579041cf1"; L "b7f9a667ed4a299e82cd25725d0b2d62bada07cac026f4bc7300e5e1f1876383dae8f94e383e524acb02630e038d9035032ab07b78a9ed16efdf6c4801c30d87446d57a14c3d90b625a0a20c72af49658491064938508006502232c904a86123e9e534166cb56828e62c2b8ea4dd047589135fbe64cc3bdce7c79cc0b0e8438c1c83bc9ae6de4655d81606ead290b849682fcc2259e8ab3dc5bca1cd4aecb28308cba76137cdd22acd8c869dee5a071533a938c58ff7fb3349663846e2d9249e7e543de23349bc5b412da6ba0d669319f129d806ccb67a25ad4631713515d04abe020e3d864980b4d5a3c728f81a4433054388d3bad0f9279232d97bde75f409"; L "90ad0d2697c4934971394d35718b94294c6580bfd294fd22b409e9f4d58694e678052221e64859e31b95ecbcce93fce24d6241e795f13e813362919cf949ebb4879291a077e242937d5c71bdb3db8731410fa130b6bad0fee9934979603063ed3c9d140751b213852c39c4f58614dd08dd5e6b3be310fb67b0d61f921c7ac4f1740e5341145811cd3b03a6d40eaa79ce24cf85d6a08b341e4eea9f4bcab308d4082cd0d9ab7a0285e2b34979ce28501b8ecf17e469155a5a9c4bf564305ac7268bb8a24f3f8f9e59d79ddcec8af3b7f1d0b93b58d392da45718189724ff75c205b8e64ed4238d48c77d14bb7c4863665ec3f292ec69b6557318c60c4e8071b84"; L "ebd994bc145a073da9484dc8c3ff79d86680d9e64b8123470c40f682501f3189dddc2f5e38334adb738e7c11ef7f0d1555c38cd1cd6971657e469d7cde56233a41fd269f180b336706ad74a3d2aa02f185a44ca005a3876190acaa2de3b0a17e1d7466ebebd9cd1d147a2edacb2e2da5b90e45df8187d4fd0e574b7af876224eabe591544f42ad0426ed0a620f3d0a2f8c92854d986c54615aa6e1748df4134ff2c51e2ce9d1dae62eaef8b9ed69d8fcacc27a3a2c6ccf862fe2f769ffc8065e9fa52cd1d102511978f8204026bb628985f55274d21354481af2011da23a2d145f8403096633d83822565633ab710cc9ed59d0545737f14bc0333774a816d568"; L "af5aaae019b2ad6da4c43248e7e9eebe462caa8be3b02a8fc5897214c3f39564dcf69f919f81665b79ba244c14ca35bab918afdd5466f85eb9e4f9c67c445dbb49f770f3855e15327e49d96679e99865f69c6dc9375faa2e03462cb5409d5f28e5cbb9b6ae64118daa75660f1a93b71b79bcd268affef07d15af0a29b4dcc1169ac2fb9505cb81237ebbd1aaa2f78c797670da1af09072b339bc3c11f925ea973dcfdf2fa63bb803927607a4621d90b63b604e7fc8bc6af0c28c062f4e37788f61c507bbca90ead0692cf750c160dbeab91dd2d182da36a1ee0f4738e8fd83533a6003836e4ca1abb8320c7c470ab81d15aa84219fc41bbbd02197c3f523e89d"; L "2931afef653066830b71e530c34143bc083a100b726b0a5dc5c9cc9401b7a7c45e62f138fbae147a875b2e4fd6bb77a6e048071279cedd941407de1236401b0844da2a755b4a1c0ca3bb39f477bc37250ee5cda71ba5ac388c2e1fc69caa956946d7d64998f0b5f272be1d192e3a64e2552792e1e64acb7ca573c2f88f26ab3084942307455830ed66916653da64dab5862932b7d4c87be896a04acddb79bbe0824767fe459a7d7baa642ab997e765a980add9076f553dba757c3fb497ae376c976bb5a3643177a09a57d73d1f2c412b1aad66114b5a3d02442498ee9e6f808c26027ba38d1d0e5b0aca5543542a7af2386ecce708f5fdb8e970702ed72a1ef9"; L "f5bd3d15393614f42cc37b86431e7db259ec84059cd9841047d9dcb780d687a41b31e697aa21699a51e256a9af94d69a140439ac7cc560a8aa50aad3d791115cad5fb2752ec0a8c7c0aca10109b351e33273054785662cc885139ddca4d1e644d76a385e3cfe052ba854064f823be3cda152ee45fb079feddc6adc18c37123196093aff27bd836d910b7a4d8eee9546da46ee08d63d0ced7b6c796b2c024079fb6e7fbea8e4c5fb911ab9a91c0c41cc67b719da7d20920feafc1f1e1486cd1c25ce80f872776b6d5ad7f759b3838647b4e6c4bcc0f12408e61683a21dd44b82e9e90c2399dbbe4f338c6f936b1802a35deca14192297f67833ee48a131a7a946"; L "5920bfc75a1e4af578529b4e90c342537586339adc819e4b464b4545303396475a4038614eae2ea69b56b730bca2d51dc9e5e9b06691abc5bda9b8172017d09db665e6f19417e0b21dfe4c88b33cb4ca0705363917b0457f7451a89c744f73c8092c72c372d9232a8158d0c09fa82addf8dc5657daa6fca2573739de675566cedc763baf9c06f51ebec077d29afca2caeb0d7d4fe436b637b68fef8bfb9fedb77dca0ec43dc80e4eb9981d9ae5e37878868fe319d38e6c67469e5775ed6e25dc957c86540ad55ca3462c82ecd5a81bd9e4b503d4850339a8f9bd2ea40ed8272ada74ce6b344b590efee0e7f56ee754bd65ba31d4579b5a11bdf59345f4d34f15"; L "d1433f5d44238bb9227ae5cf17d11f7fa1a84db2178dddde9e42adc62143f6c2d68a3c23d9b062df15117a00f848724bb4cdfe0e910fc1e116fe3d03484c0b3ba05c4277c21cc2cece612f9d93c32f3eb7505a6a118ef32095f5eaea03ceafb0c9e105b02fa36f20325e17e5d182e5629c0cd4f797f8158e2b7129b6ea321871c4f382ebd0ff2f57c0b7aff032196ce60b959def8b48547e65833cf7143bf712e5a6fd5225687f190c1cfc7c9bef55b0d8cb8f66b09daf006e027eaef2a983aec68fb90601d7e2c7bdb2c2f6baafcae4f0c1ab33391c99d7a87b7b5f4b4d78dd0afdbcbe5eca36f983bfddafb51a64bcfb865205bfe73b403f805ff8c6b297c9"; L "e3777da7f62d7853a6d56c52bf78c6cb2083ed576697b0409b7af07235dd87795c4d5e830c860bb55693712d01fd5f522359ace479744bc4c4fb7433ef91727e898dec8fea234a19e732858614dfabe79d32537aa55767c316aef32213bc26cbb782e216c39c4c4e118e52b58008f2ea6b0b6aa49760ca9696349e22684a3855f2f35e238b26cd476c03f9bdd1bcbf98dd2fcda47d010840496747ef5f9e2b35c85c1edbf0c25c2ddb52f71abf48f7d8cb54500a1c751e8997ab7ebd0a7f615a613baf86e31bb6e29a2acff257e1110a3f4ed5f39a068562792dfc68c4af83b469d5eb9b1efb45bdb109a7920c4d32cf8cabcc16f3d9a3991a3a043ae8539acd"; L "d3d476d5192381eb48b524a9d3d63b290d435a8cdd9b36d3604e0f38d739af4b2cf859b4bf62e8a27168d9e7d74b55d3aefdd06a5ce0f003b39966e5219c565ceb61f46053ad3a03c63b5363f899f805b8deb1ff1874b62204e7e02fd7792eb54477d679d83fdcede72bc7b80bf057a1ba107b0db875529c9559e775b45cc3d12ac3f2bbae456f54d8e303a7272e6baca546a573258f0bd74dea3a9e58dcbc3d6c6d86242d46cb2e8948d2a56a482ecbc11254b02bf2957a11882cd67865214faae0171b92f6125847f946298bd4851575fcd62bf4b2bbd60e81f26a43d8be1d888d71437803909c7cc364bf03dec4eefe4e45b6dea44fa30d358bdb48e97d9d"; L "4182dfd419a4fb2d9d41f2bfac33afa29b89550637836366de1e375bc0f5b899f0d07d57b4d57c37aedf8827f81e9ae66dd5576f66df1148b52b133138811d0cbb598c2d4d97884ac3c0c69d463f089c8cfd487b496bc66e5d3936923e5cddf5d49d925fbab1809bc026369668ebcd957c8e58712d898d6645e7c4585b4b5e96a25da8d764ec35273b330068744f32f9df376bc6549343752144db73227935b17623f14032261eb09ce5a60504bd814a27d1609d98dcd1a8a3102dca64ac86484292b42424463022355fe5944ccc060ac5c0ab3331854b7b847dd838903f929af8a8303eaa1f85519d7aaed9d38e06469cfd47005f712210ac2eae67422c502c"; L "a9c826dfb01af03168403e163cd58982a992801c3414502654910a43f17138069837a200860ed97970e1c1e9623a5a2f92ecdde190d5e213762b6052532f3e697bf60531b1ba6b0af3f059b238e0cd7de065f34d76aa6bf9b4641da3ed73fde33e13ea04fa03b5bd3ab22ac95a950c7379e053b8b7fbde3289bcbc12f1e0f6751bca34c1615aa67c6820498e796c13938fdd7b089300b8833cb30bc436c809697e0155cc139791d71b40d368bb468eb656cd71c6f1a7aefe7012a04fe8e3a1723f8acf38a625e51c9dd33e781c67f2a99448644fa35880f5c6672c3a9d91cdddaa748298ca25328af95635348975f3854fa7e0f06387ec54df0dfb0d898544b9"; L "04a26dfe70d5174eac7c74dea589f2a994fd5c2dc40d73e30b1fdf4fc06b9f4e4d20527ab6897ea7fbdc29628af6e6a7bd398ff12d22f7cd9998941b1135ebb3307febf6752cda370ca69e3ada0973b493ca15ce51473c7d84736318b4725b3598ce8c967a9b4dc8bddc327a28e7da36d499d9123bfa856edce7533cea28730941dc22e3af5a77ca38ee761c0fc5ee81a5bc6a37f30bd0e9464ca4453824a6c998b8c4e4517642dc0acaa20e45c317cfa5d01e0f2f76f97a8a55b5a1f8464acd2271631a8328924d0d08c9fafdce29f1f634864f449009e02dde09b22b6501fcaeb498dbea8c603b0cc4bbd3621ed548e2a6b45c305d6a4c1f41891cf3c19153"; L "2e2fa7f1dce90668c13b6f3bede8c7204e40b142928aa84c8a03ff470d60ab7e91400b0590727a44489a45906dc21e0bd4a5546d2f9728fe974371bfa6c02e73b26de6f4992d49689f1f6b474e306d54deb48eda7d5dbd2f27e20d13cebc3277115f85b911195f7e0dc66838dea40b6b03bc80cd25bdb9d5935f81112318534cd0b581a4be378e974821c81448a3662eac0de882c43993517d364fa1ada296592381a8f8027644435604e1b7529028efb752d08f4db8e88d44e71468cade0c45b73172fd3ccabfb8cb9bc33adf03e0d223f50dca0ed14cd3a909e0d204301298ff9f53603672e1cce9417c07acb2d8b04d7cb2bb0eb25a331e89f1301a3c7b6c"; L "52b1b191d6c041fe1afcd039367b899ae02a0bdb63e864a3d2c7b1c378916aabd60aafd3e8bd646cce45fdcc574261c436d805912a05743949bcb76715d2cb311676dba1bbbc26228a3fefb5edcafc644a49ee2450e3ca864f6375914ecc2b6302a8d97432d9768df5012148a0bb469cee3b68a548b1c6e8c0e3d825a06eda7c6e814166b70e07ef5dc06e355e3e2b20311fa2134522b2c2af8d74baa6ae1f2171f4c9d85506464c6a95794662d80390c017ec6ba33d5c123239ee6cd836a0186401e824c658002aa962e56bd63d391b8b62fb1d85ca841232a5759c3bed8e851617ecb2420108b48389dbe398ffe4c84a1741609d27a7aa0215765aa60c768a"; L "514f41f4025dc149639ee2ac77b67afd5d66ab763102fe7bd23261e1c4c8426999040508e2b22e3cc1f5c37510067d2f9403f2f682c689b6f326c3df4bdf6a17e68f5f5476f69c762cc4040bcd1bdc5e1d84208cb081da09b8737a5103746971675a725171b72e43dcad9eb502fd61bbc1365fd00185a32280c545db63d55f148a89ce01a17a1724f469e962e7683392907cc92213208cb08b3193e0a5916ad93db04802467f1f68b1fcf8456440c1a36bcacc60914a24ba702cf22e2479cf84d018c50e26e7366b205f6c8358a408643697278e301103468593d5f89500cad79e0e0715103d299307d43a611c99a6059428d8b1f20e1f542c883b811ced05d9"; L "93056b791fcc47e30a469e01daee07bde4e09782c92731f2049a7987e20330cf31d708425886206148cb34977bf52be1e430a76b6baa37f05ca692cc52634ec791ed8c36c223216b6eec1719f9f3be3aa222932f6b43536559c4de81d1450d4e0fcf12ec4d43ee80da50f96158811ac7d43d0e1869070e2ada4a4e863b5b78f706b6a26070a08253ad1015e13624b566895112048f3be6b49f36a7f3f48c628a578f9d50395a088bb0815127f391528e541e53ef476210c7368c903a2c88d69e2e4af5ae9a1d2ca64ea8037034e5f4548ba61829484ab189955ce35b23bc319974ca11227b344d8174694e3d02cb569948e38026acf2347b928c50dd96e14463"; L "f7d13486dfb3ef5ee00e7a69b6e5b36bae68ae9448e554af71740514fdc2c9baaa011c8489726dffba96473246d702d66b8d66c3a3a8070906fb4aee9de4acc7a62d5e360f729fa31a6fda00b218a5ab5d2ff2597dcec0f3cba838a6a7284136702f67d7b960c34d0317eb18ef84650e509ca3a2e84f35da82bdb18f8ddede1f875bb51d883f298316cdcff2b9f060f4a851433f8aa89e43e691d21f448f0e478f72317467d80f4ccbceb4a1cb28dbe553fc59c741d5d2cae4dbcd62ab92a97a25527969a0a9ed1c0da13139b7c9cecee6f1794bb51a46032d93189664345cf27cfdc06b2ca9972f50a04a5e95b950036a99e8e3f9d145ea917ff4381c9ae0fb"; L "14fce22cd650ac354ad7e3e9b9cca2ef46eccb2e05c10c4c831630e5a41b455938f63d2b5d542db8d672ec3577b902adf04e7385cab6ca30840af6c22aea829bde923db22f32407b14aee4290c1a81b299892fbebe86ceedb6230da8f38e36a3b9fdd2ecf47d274a4ef118acef52740f0ccb077bea4e9827703f8f1e5ab4d158a338ff1f8a00000028b52ffd20bf0d0400240601010200030004030100000200040105446f63756d656e74000601087f0000000c0000007f1a001d001f01dd020100010000210004020550616765203113327be2e1e10f027e496e7465726e616c204f6e6c792043616e7661730006008e010100000c0015061aac03614a08d1"; L "19c08ea8561329c1adead3569dc092602d4f504b07081559986bbd590000bd590000504b0304140008080000a394075b0000000000000000000000000d002d007468756d626e61696c2e706e67555405000132d694680a002000000000000100180070906983b907dc0170906983b907dc0170906983b907dc0189504e470d0a1a0a0000000d494844520000019000000190080600000080bf36cc000000097048597300000b1300000b1301009a9c18000000017352474200aece1ce90000000467414d410000b18f0bfc610500000283494441547801edc08100000000c2b0fb53a710c056"; R 620 x00; L "f01bc617000118bd127c0000000049454e44ae426082504b07082cc62593ee020000ee020000504b0304140008080800a394075b00000000000000000000000009002d006d6574612e6a736f6e555405000132d694680a002000000000000100180030656b83b907dc0130656b83b907dc0130656b83b907dc01758ecd0a83301084df65cfa1a8b5febd474fa58468b6ba18931263ffc477ef2a859ebc0cec3033dfced018421be48041413543ad9abef56eb25a36ce38bf7a2cd1218ef32ccda3539964715e164526a0ddf1eb1d9f01f1222074d3505b45468ef4c115f0241d3aa8d22812d021b55dd80ece7ab41a3dbfe2bc26ab028e6bfec50001ef4d7fdd"; L "63f2af1e9385ab373228ad1a9800671b2818d42040e3038dbbf3a847c3835a1ab23dcf5eaecb17504b070886e2cb54ad0000000e010000504b0304140008080000a394075b00000000000000000000000007002d00696d616765732f555405000132d694680a002000000000000100180050246e83b907dc0150246e83b907dc0150246e83b907dc01504b0708000000000000000000000000504b01021400140008080000a394075b1559986bbd590000bd5900000a002d00000000000000000000000000000063616e7661732e666967555405000132d694680a0020000000000001001800e0dd6083b907dc01e0dd6083b907dc01e0dd6083b907dc01504b"; L "01021400140008080000a394075b2cc62593ee020000ee0200000d002d0000000000000000000000225a00007468756d626e61696c2e706e67555405000132d694680a002000000000000100180070906983b907dc0170906983b907dc0170906983b907dc01504b01021400140008080800a394075b86e2cb54ad0000000e01000009002d0000000000000000000000785d00006d6574612e6a736f6e555405000132d694680a002000000000000100180030656b83b907dc0130656b83b907dc0130656b83b907dc01504b01021400140008080000a394075b00000000000000000000000007002d0000000000000010000000895e0000696d616765732f55"; L "5405000132d694680a002000000000000100180050246e83b907dc0150246e83b907dc0150246e83b907dc01504b0506000000000400040093010000eb5e00000000"].
Definition case198 := (* fixtures/image/sample.flif *)
  mkcase false FreeLosslessImageFormat [L "464c494600"].
Definition case199 := (* fixtures/image/sample.raf *)
  mkcase false FujifilmRaw [L "46554a4946494c4d4343442d52415700"].
Definition case200 := (* fixtures/image/sample.gif *)
  mkcase false GraphicsInterchangeFormat [L "47494638376100"].
Definition case201 := (* fixtures/image/sample.heic *)
  mkcase false HighEfficiencyImageCoding [L "00000000667479706865696300"].
Definition case202 := (* fixtures/image/sample.heics *)
  mkcase false HighEfficiencyImageCodingSequence [L "00000000667479706865766300"].
Definition case203 := (* fixtures/image/sample.heif *)
  mkcase false HighEfficiencyImageFileFormat [L "00000000667479706d69663100"].
Definition case204 := (* fixtures/image/sample.heifs *)
  mkcase false HighEfficiencyImageFileFormatSequence [L "00000000667479706d73663100"].
Definition case205 := (* fixtures/image/sample.jpg *)
  mkcase false JointPhotographicExpertsGroup [L "ffd8ff00"].
Definition case206 := (* fixtures/image/sample.j2c *)
  mkcase false Jpeg2000Codestream [L "ff4fff5100"].
Definition case207 := (* fixtures/image/sample.jp2 *)
  mkcase false Jpeg2000Part1 [L "00000000000000000000000000000000667479706a70322000"].
Definition case208 := (* fixtures/image/sample.jpx *)
  mkcase false Jpeg2000Part2 [L "00000000000000000000000000000000667479706a70782000"].
Definition case209 := (* fixtures/image/sample.jpm *)
  mkcase false Jpeg2000Part6 [L "00000000000000000000000000000000667479706a706d2000"].
Definition case210 := (* fixtures/image/sample.jxr *)
  mkcase false JpegExtendedRange [L "4949bc00"].
Definition case211 := (* fixtures/image/sample.jls *)
  mkcase false JpegLs [L "ffd8fff700"].
Definition case212 := (* fixtures/image/sample.jng *)
  mkcase false JpegNetworkGraphics [L "8b4a4e470d0a1a0a00"].
Definition case213 := (* fixtures/image/sample.jxl *)
  mkcase false JpegXl [L "0000000c4a584c200d0a870a00"].
Definition case214 := (* fixtures/image/sample.ktx *)
  mkcase false KhronosTexture [L "ab4b5458203131bb0d0a1a0a00"].
Definition case215 := (* fixtures/image/sample.ktx2 *)
  mkcase false KhronosTexture2 [L "ab4b5458203230bb0d0a1a0a00"].
Definition case216 := (* fixtures/image/sample.miff *)
  mkcase false MagickImageFileFormat [L "69643d496d6167654d616769636b00"].
Definition case217 := (* fixtures/image/sample.dds *)
  mkcase false MicrosoftDirectdrawSurface [L "4444532000"].
Definition case218 := (* fixtures/image/sample.mng *)
  mkcase false MultipleImageNetworkGraphics [L "8a4d4e470d0a1a0a00"].
Definition case219 := (* fixtures/image/sample.nef *)
  mkcase false NikonElectronicFile [L "4d4d002a000000001c00fe0000"].
Definition case220 := (* fixtures/image/sample.orf *)
  mkcase false OlympusRawFormat [L "4949524f080000001800"].
Definition case221 := (* fixtures/image/sample.odg *)
  mkcase true OpendocumentGraphics [L "504b0304140000000000000000009f032ec42b0000002b000000080000006d696d65747970656170706c69636174696f6e2f766e642e6f617369732e6f70656e646f63756d656e742e6772617068696373504b01021400140000000000000000009f032ec42b0000002b0000000800000000000000000000000000000000006d696d6574797065504b0506000000000100010036000000510000000000"].
Definition case222 := (* fixtures/image/sample.otg *)
  mkcase true OpendocumentGraphicsTemplate [L "504b030414000000000000000000df25ade93400000034000000080000006d696d65747970656170706c69636174696f6e2f766e642e6f617369732e6f70656e646f63756d656e742e67726170686963732d74656d706c617465504b0102140014000000000000000000df25ade934000000340000000800000000000000000000000000000000006d696d6574797065504b05060000000001000100360000005a0000000000"].
Definition case223 := (* fixtures/image/sample.exr *)
  mkcase false Openexr [L "762f310100"].
Definition case224 := (* fixtures/image/sample.ora *)
  mkcase true Openraster [L "504b030414000000000000000000c79af08c1000000010000000080000006d696d6574797065696d6167652f6f70656e726173746572504b0102140014000000000000000000c79af08c10000000100000000800000000000000000000000000000000006d696d6574797065504b0506000000000100010036000000360000000000"].
Definition case225 := (* fixtures/image/sample.rw2 *)
  mkcase false PanasonicRaw [L "494955001800000088e774d800"].
Definition case226 := (* fixtures/image/sample.pcx *)
  mkcase false PictureExchange [L "0a05"; R 101 x00].
Definition case227 := (* fixtures/image/sample.pam *)
  mkcase false PortableArbitraryMap [L "50370a"].
Definition case228 := (* fixtures/image/sample.pbm *)
  mkcase false PortableBitmap [L "50310a"].
Definition case229 := (* fixtures/image/sample.pfm *)
  mkcase false PortableFloatmap [L "50460a"].
Definition case230 := (* fixtures/image/sample.pgm *)
  mkcase false PortableGraymap [L "50320a"].
Definition case231 := (* fixtures/image/sample.png *)
  mkcase false PortableNetworkGraphics [L "89504e470d0a1a0a00"].
Definition case232 := (* fixtures/image/sample.ppm *)
  mkcase false PortablePixmap [L "50330a"].
Definition case233 := (* fixtures/image/sample.qoi *)
  mkcase false QuiteOkImage [L "716f696600"].
Definition case234 := (* fixtures/image/sample.hdr *)
  mkcase false RadianceHdr [L "233f52414449414e43450a00"].
Definition case235 := (* fixtures/image/sample1.svg *)
  mkcase false ScalableVectorGraphics [L "3c73766720786d6c6e733d22687474703a2f2f7777772e77332e6f72672f323030302f737667222077696474683d223122206865696768743d2231223e0a3c2f7376673e0a"].
Definition case236 := (* fixtures/image/sample2.svg *)
  mkcase true ScalableVectorGraphics [L "3c3f786d6c2076657273696f6e3d22312e302220656e636f64696e673d225554462d38223f3e0a3c73766720786d6c6e733d22687474703a2f2f7777772e77332e6f72672f323030302f737667222077696474683d223122206865696768743d2231223e0a3c2f7376673e0a"].
Definition case237 := (* fixtures/image/sample.sgi *)
  mkcase false SiliconGraphicsImage [L "01da000a"].
Definition case238 := (* fixtures/image/sample1.sketch *)
  mkcase true Sketch [L "53514c69746520666f726d61742033"; R 1841 x00; L "636f6d2e626f68656d69616e636f64696e672e736b657463683300"].
Definition case239 := (* fixtures/image/sample2.sketch *)
  mkcase true Sketch43 [L "504b03041400080008008ab3a8580000000000000000000000000d002000646f63756d656e742e6a736f6e75780b000104e803000004e803000055540d000764e03b6664e03b6664e03b660300504b0708000000000200000000000000504b010214031400080008008ab3a8580000000002000000000000000d0018000000000000000000a48100000000646f63756d656e742e6a736f6e75780b000104e803000004e8030000555405000164e03b66504b05060000000001000100530000005d0000000000"].
Definition case240 := (* fixtures/image/sample.sda *)
  mkcase true Stardraw [L "d0cf11e0a1b11ae1000000000000000000000000000000003e000400feff0c0006000000000000000100000001000000010000000000000000100000feffffff00000000feffffff0000000000000000"; R 432 xff; R 3584 x00; L "fdfffffffe"; R 4091 xff; L "52006f006f007400200045006e007400720079"; R 45 x00; L "16000501ffffffffffffffffffffffffa005892ebd85d11189d0008029e4b0b10000000000000000000000000000000000000000feffffff"; R 72 x00; L "02000000ffffffffffffffffffffffff"; R 112 x00; L "02000000ffffffffffffffffffffffff"; R 112 x00; L "02000000ffffffffffffffffffffffff"; R 112 x00; L "02000000ffffffffffffffffffffffff"; R 112 x00; L "02000000ffffffffffffffffffffffff"; R 112 x00; L "02000000ffffffffffffffffffffffff"; R 112 x00; L "02000000ffffffffffffffffffffffff"; R 112 x00; L "02000000ffffffffffffffffffffffff"; R 112 x00; L "02000000ffffffffffffffffffffffff"; R 112 x00; L "02000000ffffffffffffffffffffffff"; R 112 x00; L "02000000ffffffffffffffffffffffff"; R 112 x00; L "02000000ffffffffffffffffffffffff"; R 112 x00; L "02000000ffffffffffffffffffffffff"; R 112 x00; L "02000000ffffffffffffffffffffffff"; R 112 x00; L "02000000ffffffffffffffffffffffff"; R 112 x00; L "02000000ffffffffffffffffffffffff"; R 112 x00; L "02000000ffffffffffffffffffffffff"; R 112 x00; L "02000000ffffffffffffffffffffffff"; R 112 x00; L "02000000ffffffffffffffffffffffff"; R 112 x00; L "02000000ffffffffffffffffffffffff"; R 112 x00; L "02000000ffffffffffffffffffffffff"; R 112 x00; L "02000000ffffffffffffffffffffffff"; R 112 x00; L "02000000ffffffffffffffffffffffff"; R 112 x00; L "02000000ffffffffffffffffffffffff"; R 112 x00; L "02000000ffffffffffffffffffffffff"; R 112 x00; L "02000000ffffffffffffffffffffffff"; R 112 x00; L "02000000ffffffffffffffffffffffff"; R 112 x00; L "02000000ffffffffffffffffffffffff"; R 112 x00; L "02000000ffffffffffffffffffffffff"; R 112 x00; L "02000000ffffffffffffffffffffffff"; R 112 x00; L "02000000ffffffffffffffffffffffff"; R 48 x00].
Definition case241 := (* fixtures/image/sample.sxd *)
  mkcase true SunXmlDraw [L "504b030414000000000000000000e533d0b81c0000001c000000080000006d696d65747970656170706c69636174696f6e2f766e642e73756e2e786d6c2e64726177504b0102140014000000000000000000e533d0b81c0000001c0000000800000000000000000000000000000000006d696d6574797065504b0506000000000100010036000000420000000000"].
Definition case242 := (* fixtures/image/sample.std *)
  mkcase true SunXmlDrawTemplate [L "504b030414000000000000000000128fc1782500000025000000080000006d696d65747970656170706c69636174696f6e2f766e642e73756e2e786d6c2e647261772e74656d706c617465504b0102140014000000000000000000128fc17825000000250000000800000000000000000000000000000000006d696d6574797065504b05060000000001000100360000004b0000000000"].
Definition case243 := (* fixtures/image/sample.tiff *)
  mkcase false TagImageFileFormat [L "4d4d002a00"].
Definition case244 := (* fixtures/image/sample.webp *)
  mkcase false Webp [L "52494646000000005745425000"].
Definition case245 := (* fixtures/image/sample.ani *)
  mkcase false WindowsAnimatedCursor [L "524946460000000041434f4e00"].
Definition case246 := (* fixtures/image/sample.bmp *)
  mkcase false WindowsBitmap [L "424d0e190000000000003604000028000000460000002e0000000100"].
Definition case247 := (* fixtures/image/sample.cur *)
  mkcase false WindowsCursor [L "0000020000"].
Definition case248 := (* fixtures/image/sample.ico *)
  mkcase false WindowsIcon [L "0000010000"].
Definition case249 := (* fixtures/image/sample.wmf *)
  mkcase false WindowsMetafile [L "d7cdc69a00"].
Definition case250 := (* fixtures/image/sample1.wpg *)
  mkcase false WordperfectGraphics [L "ff575043100000000116010000000000"].
Definition case251 := (* fixtures/image/sample2.wpg *)
  mkcase true WordperfectGraphics [L "d0cf11e0a1b11ae1000000000000000000000000000000003e000400feff0c0006000000000000000100000001000000010000000000000000100000feffffff00000000feffffff0000000000000000"; R 432 xff; R 3584 x00; L "fdfffffffe"; R 4091 xff; L "52006f006f007400200045006e007400720079"; R 45 x00; L "16000501ffffffffffffffffffffffff60fe2e4099191b1099ae04021c0070020000000000000000000000000000000000000000feffffff"; R 72 x00; L "02000000ffffffffffffffffffffffff"; R 112 x00; L "02000000ffffffffffffffffffffffff"; R 112 x00; L "02000000ffffffffffffffffffffffff"; R 112 x00; L "02000000ffffffffffffffffffffffff"; R 112 x00; L "02000000ffffffffffffffffffffffff"; R 112 x00; L "02000000ffffffffffffffffffffffff"; R 112 x00; L "02000000ffffffffffffffffffffffff"; R 112 x00; L "02000000ffffffffffffffffffffffff"; R 112 x00; L "02000000ffffffffffffffffffffffff"; R 112 x00; L "02000000ffffffffffffffffffffffff"; R 112 x00; L "02000000ffffffffffffffffffffffff"; R 112 x00; L "02000000ffffffffffffffffffffffff"; R 112 x00; L "02000000ffffffffffffffffffffffff"; R 112 x00; L "02000000ffffffffffffffffffffffff"; R 112 x00; L "02000000ffffffffffffffffffffffff"; R 112 x00; L "02000000ffffffffffffffffffffffff"; R 112 x00; L "02000000ffffffffffffffffffffffff"; R 112 x00; L "02000000ffffffffffffffffffffffff"; R 112 x00; L "02000000ffffffffffffffffffffffff"; R 112 x00; L "02000000ffffffffffffffffffffffff"; R 112 x00; L "02000000ffffffffffffffffffffffff"; R 112 x00; L "02000000ffffffffffffffffffffffff"; R 112 x00; L "02000000ffffffffffffffffffffffff"; R 112 x00; L "02000000ffffffffffffffffffffffff"; R 112 x00; L "02000000ffffffffffffffffffffffff"; R 112 x00; L "02000000ffffffffffffffffffffffff"; R 112 x00; L "02000000ffffffffffffffffffffffff"; R 112 x00; L "02000000ffffffffffffffffffffffff"; R 112 x00; L "02000000ffffffffffffffffffffffff"; R 112 x00; L "02000000ffffffffffffffffffffffff"; R 112 x00; L "02000000ffffffffffffffffffffffff"; R 48 x00].
Definition case252 := (* fixtures/image/sample.xpm *)
  mkcase false XPixmap [L "2f2a2058504d202a2f0a7374617469632063686172202a2073616d706c655f78706d5b5d203d207b7d3b0a"].
Definition case253 := (* fixtures/metadata/sample.xml *)
  mkcase false AndroidBinaryXml [L "0300080000"].
Definition case254 := (* fixtures/metadata/sample.torrent *)
  mkcase false Bittorrent [L "64383a616e6e6f756e636500"].
Definition case255 := (* fixtures/metadata/sample.cda *)
  mkcase false CdAudio [L "524946460000000043444441666d742000"].
Definition case256 := (* fixtures/metadata/sample.id3 *)
  mkcase false Id3v2 [L "49443304000000000000000000000000000000000000"].
Definition case257 := (* fixtures/metadata/sample.alias *)
  mkcase false MacosAlias [L "626f6f6b000000006d61726b0000000000"].
Definition case258 := (* fixtures/metadata/sample.mie *)
  mkcase false MetaInformationEncapsulation [L "7e100400304d494500"].
Definition case259 := (* fixtures/metadata/sample.tasty *)
  mkcase false Tasty [L "5ca1ab1f00"].
Definition case260 := (* fixtures/metadata/sample.lnk *)
  mkcase false WindowsShortcut [L "4c0000000114020000000000c00000000000004600"].
Definition case261 := (* fixtures/model/sample1.amf *)
  mkcase false AdditiveManufacturingFormat [L "3c616d6620756e69743d22696e6368222076657273696f6e3d22312e31223e0a3c2f616d663e0a"].
Definition case262 := (* fixtures/model/sample2.amf *)
  mkcase true AdditiveManufacturingFormat [L "3c3f786d6c2076657273696f6e3d22312e302220656e636f64696e673d227574662d38223f3e0a3c616d6620756e69743d22696e6368222076657273696f6e3d22312e31223e0a3c2f616d663e0a"].
Definition case263 := (* fixtures/model/sample.dwg *)
  mkcase false AutocadDrawing [L "41433130333200"].
Definition case264 := (* fixtures/model/sample.123dx *)
  mkcase true Autodesk123d [L "504b0304140000000000827dff560000000000000000000000000f002000467573696f6e5b4163746976655d2f55540d0007a5bac764a5bac764a5bac76475780b000104e803000004e8030000504b01021403140000000000827dff560000000000000000000000000f0020000000000000000000fd4100000000467573696f6e5b4163746976655d2f55540d0007a5bac764a5bac764a5bac76475780b000104e803000004e8030000504b050600000000010001005d0000004d0000000000"].
Definition case265 := (* fixtures/model/sample.wire *)
  mkcase false AutodeskAlias [L "8f53747564696f5061636b657446696c65"].
Definition case266 := (* fixtures/model/sample.iam *)
  mkcase true AutodeskInventorAssembly [L "d0cf11e0a1b11ae1000000000000000000000000000000003e000400feff0c0006000000000000000100000001000000010000000000000000100000feffffff00000000feffffff0000000000000000"; R 432 xff; R 3584 x00; L "fdfffffffe"; R 4091 xff; L "52006f006f007400200045006e007400720079"; R 45 x00; L "16000501ffffffffffffffffffffffffe1810fe6b349d01193c37e07060000000000000000000000000000000000000000000000feffffff"; R 72 x00; L "02000000ffffffffffffffffffffffff"; R 112 x00; L "02000000ffffffffffffffffffffffff"; R 112 x00; L "02000000ffffffffffffffffffffffff"; R 112 x00; L "02000000ffffffffffffffffffffffff"; R 112 x00; L "02000000ffffffffffffffffffffffff"; R 112 x00; L "02000000ffffffffffffffffffffffff"; R 112 x00; L "02000000ffffffffffffffffffffffff"; R 112 x00; L "02000000ffffffffffffffffffffffff"; R 112 x00; L "02000000ffffffffffffffffffffffff"; R 112 x00; L "02000000ffffffffffffffffffffffff"; R 112 x00; L "02000000ffffffffffffffffffffffff"; R 112 x00; L "02000000ffffffffffffffffffffffff"; R 112 x00; L "02000000ffffffffffffffffffffffff"; R 112 x00; L "02000000ffffffffffffffffffffffff"; R 112 x00; L "02000000ffffffffffffffffffffffff"; R 112 x00; L "02000000ffffffffffffffffffffffff"; R 112 x00; L "02000000ffffffffffffffffffffffff"; R 112 x00; L "02000000ffffffffffffffffffffffff"; R 112 x00; L "02000000ffffffffffffffffffffffff"; R 112 x00; L "02000000ffffffffffffffffffffffff"; R 112 x00; L "02000000ffffffffffffffffffffffff"; R 112 x00; L "02000000ffffffffffffffffffffffff"; R 112 x00; L "02000000ffffffffffffffffffffffff"; R 112 x00; L "02000000ffffffffffffffffffffffff"; R 112 x00; L "02000000ffffffffffffffffffffffff"; R 112 x00; L "02000000ffffffffffffffffffffffff"; R 112 x00; L "02000000ffffffffffffffffffffffff"; R 112 x00; L "02000000ffffffffffffffffffffffff"; R 112 x00; L "02000000ffffffffffffffffffffffff"; R 112 x00; L "02000000ffffffffffffffffffffffff"; R 112 x00; L "02000000ffffffffffffffffffffffff"; R 48 x00].
Definition case267 := (* fixtures/model/sample.idw *)
  mkcase true AutodeskInventorDrawing [L "d0cf11e0a1b11ae1000000000000000000000000000000003e000400feff0c0006000000000000000100000001000000010000000000000000100000feffffff00000000feffffff0000000000000000"; R 432 xff; R 3584 x00; L "fdfffffffe"; R 4091 xff; L "52006f006f007400200045006e007400720079"; R 45 x00; L "16000501fffffffffffffffffffffffff1fdf9bbdc52d0118c040800090be8ec0000000000000000000000000000000000000000feffffff"; R 72 x00; L "02000000ffffffffffffffffffffffff"; R 112 x00; L "02000000ffffffffffffffffffffffff"; R 112 x00; L "02000000ffffffffffffffffffffffff"; R 112 x00; L "02000000ffffffffffffffffffffffff"; R 112 x00; L "02000000ffffffffffffffffffffffff"; R 112 x00; L "02000000ffffffffffffffffffffffff"; R 112 x00; L "02000000ffffffffffffffffffffffff"; R 112 x00; L "02000000ffffffffffffffffffffffff"; R 112 x00; L "02000000ffffffffffffffffffffffff"; R 112 x00; L "02000000ffffffffffffffffffffffff"; R 112 x00; L "02000000ffffffffffffffffffffffff"; R 112 x00; L "02000000ffffffffffffffffffffffff"; R 112 x00; L "02000000ffffffffffffffffffffffff"; R 112 x00; L "02000000ffffffffffffffffffffffff"; R 112 x00; L "02000000ffffffffffffffffffffffff"; R 112 x00; L "02000000ffffffffffffffffffffffff"; R 112 x00; L "02000000ffffffffffffffffffffffff"; R 112 x00; L "02000000ffffffffffffffffffffffff"; R 112 x00; L "02000000ffffffffffffffffffffffff"; R 112 x00; L "02000000ffffffffffffffffffffffff"; R 112 x00; L "02000000ffffffffffffffffffffffff"; R 112 x00; L "02000000ffffffffffffffffffffffff"; R 112 x00; L "02000000ffffffffffffffffffffffff"; R 112 x00; L "02000000ffffffffffffffffffffffff"; R 112 x00; L "02000000ffffffffffffffffffffffff"; R 112 x00; L "02000000ffffffffffffffffffffffff"; R 112 x00; L "02000000ffffffffffffffffffffffff"; R 112 x00; L "02000000ffffffffffffffffffffffff"; R 112 x00; L "02000000ffffffffffffffffffffffff"; R 112 x00; L "02000000ffffffffffffffffffffffff"; R 112 x00; L "02000000ffffffffffffffffffffffff"; R 48 x00].
Definition case268 := (* fixtures/model/sample.ipt *)
  mkcase true AutodeskInventorPart [L "d0cf11e0a1b11ae1000000000000000000000000000000003e000400feff0c0006000000000000000100000001000000010000000000000000100000feffffff00000000feffffff0000000000000000"; R 432 xff; R 3584 x00; L "fdfffffffe"; R 4091 xff; L "52006f006f007400200045006e007400720079"; R 45 x00; L "16000501ffffffffffffffffffffffff90b4294db249d01193c37e07060000000000000000000000000000000000000000000000feffffff"; R 72 x00; L "02000000ffffffffffffffffffffffff"; R 112 x00; L "02000000ffffffffffffffffffffffff"; R 112 x00; L "02000000ffffffffffffffffffffffff"; R 112 x00; L "02000000ffffffffffffffffffffffff"; R 112 x00; L "02000000ffffffffffffffffffffffff"; R 112 x00; L "02000000ffffffffffffffffffffffff"; R 112 x00; L "02000000ffffffffffffffffffffffff"; R 112 x00; L "02000000ffffffffffffffffffffffff"; R 112 x00; L "02000000ffffffffffffffffffffffff"; R 112 x00; L "02000000ffffffffffffffffffffffff"; R 112 x00; L "02000000ffffffffffffffffffffffff"; R 112 x00; L "02000000ffffffffffffffffffffffff"; R 112 x00; L "02000000ffffffffffffffffffffffff"; R 112 x00; L "02000000ffffffffffffffffffffffff"; R 112 x00; L "02000000ffffffffffffffffffffffff"; R 112 x00; L "02000000ffffffffffffffffffffffff"; R 112 x00; L "02000000ffffffffffffffffffffffff"; R 112 x00; L "02000000ffffffffffffffffffffffff"; R 112 x00; L "02000000ffffffffffffffffffffffff"; R 112 x00; L "02000000ffffffffffffffffffffffff"; R 112 x00; L "02000000ffffffffffffffffffffffff"; R 112 x00; L "02000000ffffffffffffffffffffffff"; R 112 x00; L "02000000ffffffffffffffffffffffff"; R 112 x00; L "02000000ffffffffffffffffffffffff"; R 112 x00; L "02000000ffffffffffffffffffffffff"; R 112 x00; L "02000000ffffffffffffffffffffffff"; R 112 x00; L "02000000ffffffffffffffffffffffff"; R 112 x00; L "02000000ffffffffffffffffffffffff"; R 112 x00; L "02000000ffffffffffffffffffffffff"; R 112 x00; L "02000000ffffffffffffffffffffffff"; R 112 x00; L "02000000ffffffffffffffffffffffff"; R 48 x00].
Definition case269 := (* fixtures/model/sample.ipn *)
  mkcase true AutodeskInventorPresentation [L "d0cf11e0a1b11ae1000000000000000000000000000000003e000400feff0c0006000000000000000100000001000000010000000000000000100000feffffff00000000feffffff0000000000000000"; R 432 xff; R 3584 x00; L "fdfffffffe"; R 4091 xff; L "52006f006f007400200045006e007400720079"; R 45 x00; L "16000501ffffffffffffffffffffffff803a2876dd50d311a7e300c04f79d7bc0000000000000000000000000000000000000000feffffff"; R 72 x00; L "02000000ffffffffffffffffffffffff"; R 112 x00; L "02000000ffffffffffffffffffffffff"; R 112 x00; L "02000000ffffffffffffffffffffffff"; R 112 x00; L "02000000ffffffffffffffffffffffff"; R 112 x00; L "02000000ffffffffffffffffffffffff"; R 112 x00; L "02000000ffffffffffffffffffffffff"; R 112 x00; L "02000000ffffffffffffffffffffffff"; R 112 x00; L "02000000ffffffffffffffffffffffff"; R 112 x00; L "02000000ffffffffffffffffffffffff"; R 112 x00; L "02000000ffffffffffffffffffffffff"; R 112 x00; L "02000000ffffffffffffffffffffffff"; R 112 x00; L "02000000ffffffffffffffffffffffff"; R 112 x00; L "02000000ffffffffffffffffffffffff"; R 112 x00; L "02000000ffffffffffffffffffffffff"; R 112 x00; L "02000000ffffffffffffffffffffffff"; R 112 x00; L "02000000ffffffffffffffffffffffff"; R 112 x00; L "02000000ffffffffffffffffffffffff"; R 112 x00; L "02000000ffffffffffffffffffffffff"; R 112 x00; L "02000000ffffffffffffffffffffffff"; R 112 x00; L "02000000ffffffffffffffffffffffff"; R 112 x00; L "02000000ffffffffffffffffffffffff"; R 112 x00; L "02000000ffffffffffffffffffffffff"; R 112 x00; L "02000000ffffffffffffffffffffffff"; R 112 x00; L "02000000ffffffffffffffffffffffff"; R 112 x00; L "02000000ffffffffffffffffffffffff"; R 112 x00; L "02000000ffffffffffffffffffffffff"; R 112 x00; L "02000000ffffffffffffffffffffffff"; R 112 x00; L "02000000ffffffffffffffffffffffff"; R 112 x00; L "02000000ffffffffffffffffffffffff"; R 112 x00; L "02000000ffffffffffffffffffffffff"; R 112 x00; L "02000000ffffffffffffffffffffffff"; R 48 x00].
Definition case270 := (* fixtures/model/sample.blend *)
  mkcase false Blender [L "424c454e44455200"].
Definition case271 := (* fixtures/model/sample.c4d *)
  mkcase false Cinema4d [L "0043344443344436"].
Definition case272 := (* fixtures/model/sample1.dae *)
  mkcase false CollaborativeDesignActivity [L "3c434f4c4c41444120786d6c6e733d22687474703a2f2f7777772e636f6c6c6164612e6f72672f323030352f31312f434f4c4c414441536368656d61222076657273696f6e3d22312e342e312220786d6c6e733a7873693d22687474703a2f2f7777772e77332e6f72672f323030312f584d4c536368656d612d696e7374616e6365223e0a3c2f434f4c4c4144413e0a"].
Definition case273 := (* fixtures/model/sample2.dae *)
  mkcase true CollaborativeDesignActivity [L "3c3f786d6c2076657273696f6e3d22312e302220656e636f64696e673d227574662d38223f3e0a3c434f4c4c41444120786d6c6e733d22687474703a2f2f7777772e636f6c6c6164612e6f72672f323030352f31312f434f4c4c414441536368656d61222076657273696f6e3d22312e342e312220786d6c6e733a7873693d22687474703a2f2f7777772e77332e6f72672f323030312f584d4c536368656d612d696e7374616e6365223e0a3c2f434f4c4c4144413e0a"].
Definition case274 := (* fixtures/model/sample.dwf *)
  mkcase false DesignWebFormat [L "28445746205630362e30302900"].
Definition case275 := (* fixtures/model/sample.dwfx *)
  mkcase true DesignWebFormatXps [L "504b0304140000000000d4991b55000000000000000000000000040020006477662f55540d000701510a6301510a6301510a6375780b000104e803000004e8030000504b01021403140000000000d4991b55000000000000000000000000040020000000000000000000ed41000000006477662f55540d000701510a6301510a6301510a6375780b000104e803000004e8030000504b0506000000000100010052000000420000000000"].
Definition case276 := (* fixtures/model/sample1.dxf *)
  mkcase false DrawingExchangeFormatAscii [L "2020300a53454354494f4e0a"].
Definition case277 := (* fixtures/model/sample2.dxf *)
  mkcase false DrawingExchangeFormatBinary [L "4175746f4341442042696e6172792044584600"].
Definition case278 := (* fixtures/model/sample1.x3d *)
  mkcase false Extensible3d [L "3c5833442070726f66696c653d22496e7465726368616e6765222076657273696f6e3d22332e32220a2020202020786d6c6e733a7873643d22687474703a2f2f7777772e77332e6f72672f323030312f584d4c536368656d612d696e7374616e6365220a20202020207873643a6e6f4e616d657370616365536368656d614c6f636174696f6e3d22687474703a2f2f7777772e77656233642e6f72672f73706563696669636174696f6e732f7833642d332e322e787364223e0a3c2f5833443e0a"].
Definition case279 := (* fixtures/model/sample2.x3d *)
  mkcase true Extensible3d [L "3c3f786d6c2076657273696f6e3d22312e302220656e636f64696e673d225554462d38223f3e0a3c21444f435459504520583344205055424c4943202249534f2f2f57656233442f2f4454442058334420332e322f2f454e220a202022687474703a2f2f7777772e77656233642e6f72672f73706563696669636174696f6e732f7833642d332e322e647464223e0a3c5833442070726f66696c653d22496e7465726368616e6765222076657273696f6e3d22332e32220a2020202020786d6c6e733a7873643d22687474703a2f2f7777772e77332e6f72672f323030312f584d4c536368656d612d696e7374616e6365220a20202020207873643a6e6f4e61"; L "6d657370616365536368656d614c6f636174696f6e3d22687474703a2f2f7777772e77656233642e6f72672f73706563696669636174696f6e732f7833642d332e322e787364223e0a3c2f5833443e0a"].
Definition case280 := (* fixtures/model/sample.fbx *)
  mkcase false Filmbox [L "4b617964617261204642582042696e617279202000"].
Definition case281 := (* fixtures/model/sample.f3d *)
  mkcase true Fusion360 [L "504b03041400000000000daefd5600000000000000000000000018002000467573696f6e41737365744e616d655b4163746976655d2f55540d00070a6dc5640a6dc5640a6dc56475780b000104e803000004e8030000504b010214031400000000000daefd56000000000000000000000000180020000000000000000000ed4100000000467573696f6e41737365744e616d655b4163746976655d2f55540d00070a6dc5640a6dc5640a6dc56475780b000104e803000004e8030000504b0506000000000100010066000000560000000000"].
Definition case282 := (* fixtures/model/sample.glb *)
  mkcase false GlTransmissionFormatBinary [L "676c544600"].
Definition case283 := (* fixtures/model/sample.drc *)
  mkcase false GoogleDraco [L "445241434f00"].
Definition case284 := (* fixtures/model/sample.iges *)
  mkcase false InitialGraphicsExchangeSpecification [L "5354415254205245434f524420474f20484552452e"; R 51 x20; L "53202020202020310a"].
Definition case285 := (* fixtures/model/sample.iqe *)
  mkcase false InterQuakeExport [L "2320496e7465722d5175616b65204578706f7274"].
Definition case286 := (* fixtures/model/sample.iqm *)
  mkcase false InterQuakeModel [L "494e5445525155414b454d4f44454c00"].
Definition case287 := (* fixtures/model/sample.vox *)
  mkcase false Magicavoxel [L "564f582000"].
Definition case288 := (* fixtures/model/sample.ma *)
  mkcase false MayaAscii [L "2f2f4d617961204153434949"].
Definition case289 := (* fixtures/model/sample.mb *)
  mkcase false MayaBinary [L "464f5234000000004d41594100"].
Definition case290 := (* fixtures/model/sample.a3d *)
  mkcase false Model3dAscii [L "33646d6f64656c20312e300a"].
Definition case291 := (* fixtures/model/sample.m3d *)
  mkcase false Model3dBinary [L "33444d4f00"].
Definition case292 := (* fixtures/model/sample.3dm *)
  mkcase false Opennurbs [L "33442047656f6d657472792046696c6520466f726d617420202020202020363001"].
Definition case293 := (* fixtures/model/sample1.ply *)
  mkcase false PolygonAscii [L "706c790a666f726d617420617363696920312e300a636f6d6d656e742053616d706c650a"].
Definition case294 := (* fixtures/model/sample2.ply *)
  mkcase false PolygonBinary [L "706c790a666f726d61742062696e6172795f6c6974746c655f656e6469616e20312e300a636f6d6d656e742053616d706c650a"].
Definition case295 := (* fixtures/model/sample.skp *)
  mkcase false Sketchup [L "fffeff0e53006b0065007400630068005500700020004d006f00640065006c0000"].
Definition case296 := (* fixtures/model/sample.sldasm *)
  mkcase true SolidworksAssembly [L "d0cf11e0a1b11ae1000000000000000000000000000000003e000400feff0c0006000000000000000100000001000000010000000000000000100000feffffff00000000feffffff0000000000000000"; R 432 xff; R 3584 x00; L "fdfffffffe"; R 4091 xff; L "52006f006f007400200045006e007400720079"; R 45 x00; L "16000501ffffffffffffffffffffffff363da383c527ce11bfd400400513bb570000000000000000000000000000000000000000feffffff"; R 72 x00; L "02000000ffffffffffffffffffffffff"; R 112 x00; L "02000000ffffffffffffffffffffffff"; R 112 x00; L "02000000ffffffffffffffffffffffff"; R 112 x00; L "02000000ffffffffffffffffffffffff"; R 112 x00; L "02000000ffffffffffffffffffffffff"; R 112 x00; L "02000000ffffffffffffffffffffffff"; R 112 x00; L "02000000ffffffffffffffffffffffff"; R 112 x00; L "02000000ffffffffffffffffffffffff"; R 112 x00; L "02000000ffffffffffffffffffffffff"; R 112 x00; L "02000000ffffffffffffffffffffffff"; R 112 x00; L "02000000ffffffffffffffffffffffff"; R 112 x00; L "02000000ffffffffffffffffffffffff"; R 112 x00; L "02000000ffffffffffffffffffffffff"; R 112 x00; L "02000000ffffffffffffffffffffffff"; R 112 x00; L "02000000ffffffffffffffffffffffff"; R 112 x00; L "02000000ffffffffffffffffffffffff"; R 112 x00; L "02000000ffffffffffffffffffffffff"; R 112 x00; L "02000000ffffffffffffffffffffffff"; R 112 x00; L "02000000ffffffffffffffffffffffff"; R 112 x00; L "02000000ffffffffffffffffffffffff"; R 112 x00; L "02000000ffffffffffffffffffffffff"; R 112 x00; L "02000000ffffffffffffffffffffffff"; R 112 x00; L "02000000ffffffffffffffffffffffff"; R 112 x00; L "02000000ffffffffffffffffffffffff"; R 112 x00; L "02000000ffffffffffffffffffffffff"; R 112 x00; L "02000000ffffffffffffffffffffffff"; R 112 x00; L "02000000ffffffffffffffffffffffff"; R 112 x00; L "02000000ffffffffffffffffffffffff"; R 112 x00; L "02000000ffffffffffffffffffffffff"; R 112 x00; L "02000000ffffffffffffffffffffffff"; R 112 x00; L "02000000ffffffffffffffffffffffff"; R 48 x00].
Definition case297 := (* fixtures/model/sample.slddrw *)
  mkcase true SolidworksDrawing [L "d0cf11e0a1b11ae1000000000000000000000000000000003e000400feff0c0006000000000000000100000001000000010000000000000000100000feffffff00000000feffffff0000000000000000"; R 432 xff; R 3584 x00; L "fdfffffffe"; R 4091 xff; L "52006f006f007400200045006e007400720079"; R 45 x00; L "16000501ffffffffffffffffffffffff343da383c527ce11bfd400400513bb570000000000000000000000000000000000000000feffffff"; R 72 x00; L "02000000ffffffffffffffffffffffff"; R 112 x00; L "02000000ffffffffffffffffffffffff"; R 112 x00; L "02000000ffffffffffffffffffffffff"; R 112 x00; L "02000000ffffffffffffffffffffffff"; R 112 x00; L "02000000ffffffffffffffffffffffff"; R 112 x00; L "02000000ffffffffffffffffffffffff"; R 112 x00; L "02000000ffffffffffffffffffffffff"; R 112 x00; L "02000000ffffffffffffffffffffffff"; R 112 x00; L "02000000ffffffffffffffffffffffff"; R 112 x00; L "02000000ffffffffffffffffffffffff"; R 112 x00; L "02000000ffffffffffffffffffffffff"; R 112 x00; L "02000000ffffffffffffffffffffffff"; R 112 x00; L "02000000ffffffffffffffffffffffff"; R 112 x00; L "02000000ffffffffffffffffffffffff"; R 112 x00; L "02000000ffffffffffffffffffffffff"; R 112 x00; L "02000000ffffffffffffffffffffffff"; R 112 x00; L "02000000ffffffffffffffffffffffff"; R 112 x00; L "02000000ffffffffffffffffffffffff"; R 112 x00; L "02000000ffffffffffffffffffffffff"; R 112 x00; L "02000000ffffffffffffffffffffffff"; R 112 x00; L "02000000ffffffffffffffffffffffff"; R 112 x00; L "02000000ffffffffffffffffffffffff"; R 112 x00; L "02000000ffffffffffffffffffffffff"; R 112 x00; L "02000000ffffffffffffffffffffffff"; R 112 x00; L "02000000ffffffffffffffffffffffff"; R 112 x00; L "02000000ffffffffffffffffffffffff"; R 112 x00; L "02000000ffffffffffffffffffffffff"; R 112 x00; L "02000000ffffffffffffffffffffffff"; R 112 x00; L "02000000ffffffffffffffffffffffff"; R 112 x00; L "02000000ffffffffffffffffffffffff"; R 112 x00; L "02000000ffffffffffffffffffffffff"; R 48 x00].
Definition case298 := (* fixtures/model/sample.sldprt *)
  mkcase true SolidworksPart [L "d0cf11e0a1b11ae1000000000000000000000000000000003e000400feff0c0006000000000000000100000001000000010000000000000000100000feffffff00000000feffffff0000000000000000"; R 432 xff; R 3584 x00; L "fdfffffffe"; R 4091 xff; L "52006f006f007400200045006e007400720079"; R 45 x00; L "16000501ffffffffffffffffffffffff303da383c527ce11bfd400400513bb570000000000000000000000000000000000000000feffffff"; R 72 x00; L "02000000ffffffffffffffffffffffff"; R 112 x00; L "02000000ffffffffffffffffffffffff"; R 112 x00; L "02000000ffffffffffffffffffffffff"; R 112 x00; L "02000000ffffffffffffffffffffffff"; R 112 x00; L "02000000ffffffffffffffffffffffff"; R 112 x00; L "02000000ffffffffffffffffffffffff"; R 112 x00; L "02000000ffffffffffffffffffffffff"; R 112 x00; L "02000000ffffffffffffffffffffffff"; R 112 x00; L "02000000ffffffffffffffffffffffff"; R 112 x00; L "02000000ffffffffffffffffffffffff"; R 112 x00; L "02000000ffffffffffffffffffffffff"; R 112 x00; L "02000000ffffffffffffffffffffffff"; R 112 x00; L "02000000ffffffffffffffffffffffff"; R 112 x00; L "02000000ffffffffffffffffffffffff"; R 112 x00; L "02000000ffffffffffffffffffffffff"; R 112 x00; L "02000000ffffffffffffffffffffffff"; R 112 x00; L "02000000ffffffffffffffffffffffff"; R 112 x00; L "02000000ffffffffffffffffffffffff"; R 112 x00; L "02000000ffffffffffffffffffffffff"; R 112 x00; L "02000000ffffffffffffffffffffffff"; R 112 x00; L "02000000ffffffffffffffffffffffff"; R 112 x00; L "02000000ffffffffffffffffffffffff"; R 112 x00; L "02000000ffffffffffffffffffffffff"; R 112 x00; L "02000000ffffffffffffffffffffffff"; R 112 x00; L "02000000ffffffffffffffffffffffff"; R 112 x00; L "02000000ffffffffffffffffffffffff"; R 112 x00; L "02000000ffffffffffffffffffffffff"; R 112 x00; L "02000000ffffffffffffffffffffffff"; R 112 x00; L "02000000ffffffffffffffffffffffff"; R 112 x00; L "02000000ffffffffffffffffffffffff"; R 112 x00; L "02000000ffffffffffffffffffffffff"; R 48 x00].
Definition case299 := (* fixtures/model/sample.scdoc *)
  mkcase true SpaceclaimDocument [L "504b03041400000000002c72c5560000000000000000000000000b0020005370616365436c61696d2f55540d000754d27d6454d27d6454d27d6475780b000104e803000004e8030000504b010214031400000000002c72c5560000000000000000000000000b0020000000000000000000ed41000000005370616365436c61696d2f55540d000754d27d6454d27d6454d27d6475780b000104e803000004e8030000504b0506000000000100010059000000490000000000"].
Definition case300 := (* fixtures/model/sample.step *)
  mkcase false StandardForTheExchangeOfProductModelData [L "49534f2d31303330332d32313b"].
Definition case301 := (* fixtures/model/sample.stl *)
  mkcase false StereolithographyAscii [L "736f6c69642073616d706c650a20206661636574206e6f726d616c20302e30202d312e3020302e300a202020206f75746572206c6f6f700a20202020202076657274657820302e3020302e3020302e300a20202020202076657274657820312e3020302e3020302e300a20202020202076657274657820302e3020302e3020312e300a20202020656e646c6f6f700a2020656e6466616365740a20206661636574206e6f726d616c20302e3020302e30202d312e300a202020206f75746572206c6f6f700a20202020202076657274657820302e3020302e3020302e300a20202020202076657274657820302e3020312e3020302e300a202020202020766572"; L "74657820312e3020302e3020302e300a20202020656e646c6f6f700a2020656e6466616365740a20206661636574206e6f726d616c202d312e3020302e3020302e300a202020206f75746572206c6f6f700a20202020202076657274657820302e3020302e3020302e300a20202020202076657274657820302e3020302e3020312e300a20202020202076657274657820302e3020312e3020302e300a20202020656e646c6f6f700a2020656e6466616365740a20206661636574206e6f726d616c20302e35373720302e35373720302e3537370a202020206f75746572206c6f6f700a20202020202076657274657820312e3020302e3020302e300a202020"; L "20202076657274657820302e3020312e3020302e300a20202020202076657274657820302e3020302e3020312e300a20202020656e646c6f6f700a2020656e6466616365740a656e64736f6c69640a"].
Definition case302 := (* fixtures/model/sample.3mf *)
  mkcase true ThreeDimensionalManufacturingFormat [L "504b030414000000000074671b550000000000000000000000000300200033442f55540d00071df909631ff909631df9096375780b000104e803000004e8030000504b030414000800080074671b550000000000000000000000000f00200033442f73616d706c652e6d6f64656c55540d00071df909631df909631df9096375780b000104e803000004e80300000300504b0708000000000200000000000000504b0102140314000000000074671b55000000000000000000000000030020000000000000000000ed410000000033442f55540d00071df909631ff909631df9096375780b000104e803000004e8030000504b0102140314000800080074671b"; L "550000000002000000000000000f0020000000000000000000a4814100000033442f73616d706c652e6d6f64656c55540d00071df909631df909631df9096375780b000104e803000004e8030000504b05060000000002000200ae000000a00000000000"].
Definition case303 := (* fixtures/model/sample.3ds *)
  mkcase false ThreeDimensionalStudio [L "4d4d0000000002000a000000000000003d3d00"].
Definition case304 := (* fixtures/model/sample.max *)
  mkcase true ThreeDimensionalStudioMax [L "d0cf11e0a1b11ae1000000000000000000000000000000003e000400feff0c0006000000000000000100000001000000010000000000000000100000feffffff00000000feffffff0000000000000000"; R 432 xff; R 3584 x00; L "fdfffffffe"; R 4091 xff; L "52006f006f007400200045006e007400720079"; R 45 x00; L "16000501ffffffffffffffffffffffff7b8cdd1cc081a0459fed04143144cc1e0000000000000000000000000000000000000000feffffff"; R 72 x00; L "02000000ffffffffffffffffffffffff"; R 112 x00; L "02000000ffffffffffffffffffffffff"; R 112 x00; L "02000000ffffffffffffffffffffffff"; R 112 x00; L "02000000ffffffffffffffffffffffff"; R 112 x00; L "02000000ffffffffffffffffffffffff"; R 112 x00; L "02000000ffffffffffffffffffffffff"; R 112 x00; L "02000000ffffffffffffffffffffffff"; R 112 x00; L "02000000ffffffffffffffffffffffff"; R 112 x00; L "02000000ffffffffffffffffffffffff"; R 112 x00; L "02000000ffffffffffffffffffffffff"; R 112 x00; L "02000000ffffffffffffffffffffffff"; R 112 x00; L "02000000ffffffffffffffffffffffff"; R 112 x00; L "02000000ffffffffffffffffffffffff"; R 112 x00; L "02000000ffffffffffffffffffffffff"; R 112 x00; L "02000000ffffffffffffffffffffffff"; R 112 x00; L "02000000ffffffffffffffffffffffff"; R 112 x00; L "02000000ffffffffffffffffffffffff"; R 112 x00; L "02000000ffffffffffffffffffffffff"; R 112 x00; L "02000000ffffffffffffffffffffffff"; R 112 x00; L "02000000ffffffffffffffffffffffff"; R 112 x00; L "02000000ffffffffffffffffffffffff"; R 112 x00; L "02000000ffffffffffffffffffffffff"; R 112 x00; L "02000000ffffffffffffffffffffffff"; R 112 x00; L "02000000ffffffffffffffffffffffff"; R 112 x00; L "02000000ffffffffffffffffffffffff"; R 112 x00; L "02000000ffffffffffffffffffffffff"; R 112 x00; L "02000000ffffffffffffffffffffffff"; R 112 x00; L "02000000ffffffffffffffffffffffff"; R 112 x00; L "02000000ffffffffffffffffffffffff"; R 112 x00; L "02000000ffffffffffffffffffffffff"; R 112 x00; L "02000000ffffffffffffffffffffffff"; R 48 x00].
Definition case305 := (* fixtures/model/sample.u3d *)
  mkcase false Universal3d [L "55334400"].
Definition case306 := (* fixtures/model/sample.usda *)
  mkcase false UniversalSceneDescriptionAscii [L "237573646120312e30"].
Definition case307 := (* fixtures/model/sample.usdc *)
  mkcase false UniversalSceneDescriptionBinary [L "5058522d5553444300"].
Definition case308 := (* fixtures/model/sample.usdz *)
  mkcase true UniversalSceneDescriptionZip [L "504b030414000800080062a3fb560000000000000000000000000b00200073616d706c652e7573646355540d0007f9b6c264f9b6c264f9b6c26475780b000104e803000004e80300000300504b0708000000000200000000000000504b0102140314000800080062a3fb560000000002000000000000000b0020000000000000000000a4810000000073616d706c652e7573646355540d0007f9b6c264f9b6c264f9b6c26475780b000104e803000004e8030000504b05060000000001000100590000005b0000000000"].
Definition case309 := (* fixtures/model/sample.wrl *)
  mkcase false VirtualRealityModelingLanguage [L "2356524d4c2056322e302075746638"].
Definition case310 := (* fixtures/other/sample.mso *)
  mkcase false Activemime [L "4163746976654d696d650000"].
Definition case311 := (* fixtures/other/sample.asf *)
  mkcase false AdvancedSystemsFormat [L "3026b2758e66cf11a6d900aa0062ce6c0000000000000000000000000000"].
Definition case312 := (* fixtures/other/sample.age *)
  mkcase false AgeEncryption [L "6167652d656e6372797074696f6e2e6f72672f76310a2d3e205832353531392058456c30644a36793343374b5a6b676d67575569636736334579584a6977424a57385064594a2f635942450a71525330414d6a646a50765a2f5754303855324b4c34472b50496f6f41336879333853764c7076614331450a2d2d2d20484b324e6d4f424e3944707130477736784d4375684663516c514c765a2f775155692f3273634c473735730a"].
Definition case313 := (* fixtures/other/sample.arsc *)
  mkcase false AndroidResourceStorageContainer [L "02000c0000"].
Definition case314 := (* fixtures/other/sample.arrow *)
  mkcase false ApacheArrowColumnar [L "4152524f573100"].
Definition case315 := (* fixtures/other/sample.avro *)
  mkcase false ApacheAvro [L "4f626a0100"].
Definition case316 := (* fixtures/other/sample.parquet *)
  mkcase false ApacheParquet [L "5041523100"].
Definition case317 := (* fixtures/other/sample.bin *)
  mkcase false ArbitraryBinaryData [L "0000000000000000000000"].
Definition case318 := (* fixtures/other/sample1.atom *)
  mkcase false Atom [L "3c6665656420786d6c6e733d22687474703a2f2f7777772e77332e6f72672f323030352f41746f6d223e0a093c7469746c653e48656c6c6f20776f726c64213c2f7469746c653e0a093c7375627469746c653e48656c6c6f20776f726c64213c2f7375627469746c653e0a093c656e7472793e0a09093c7469746c653e48656c6c6f20776f726c64213c2f7469746c653e0a09093c636f6e74656e7420747970653d227868746d6c223e0a0909093c64697620786d6c6e733d22687474703a2f2f7777772e77332e6f72672f313939392f7868746d6c223e0a090909093c703e48656c6c6f20776f726c64213c2f703e0a0909093c2f6469763e0a09093c2f63"; L "6f6e74656e743e0a09093c617574686f723e0a0909093c6e616d653e4a6f686e20446f653c2f6e616d653e0a09093c2f617574686f723e0a093c2f656e7472793e0a3c2f666565643e0a"].
Definition case319 := (* fixtures/other/sample2.atom *)
  mkcase true Atom [L "3c3f786d6c2076657273696f6e3d22312e302220656e636f64696e673d227574662d38223f3e0a3c6665656420786d6c6e733d22687474703a2f2f7777772e77332e6f72672f323030352f41746f6d223e0a093c7469746c653e48656c6c6f20776f726c64213c2f7469746c653e0a093c7375627469746c653e48656c6c6f20776f726c64213c2f7375627469746c653e0a093c656e7472793e0a09093c7469746c653e48656c6c6f20776f726c64213c2f7469746c653e0a09093c636f6e74656e7420747970653d227868746d6c223e0a0909093c64697620786d6c6e733d22687474703a2f2f7777772e77332e6f72672f313939392f7868746d6c223e0a"; L "090909093c703e48656c6c6f20776f726c64213c2f703e0a0909093c2f6469763e0a09093c2f636f6e74656e743e0a09093c617574686f723e0a0909093c6e616d653e4a6f686e20446f653c2f6e616d653e0a09093c2f617574686f723e0a093c2f656e7472793e0a3c2f666565643e0a"].
Definition case320 := (* fixtures/other/sample.clj *)
  mkcase false ClojureScript [L "23212f7573722f62696e2f636c6f6a7572650a287072696e746c6e202248656c6c6f20576f726c6422290a"].
Definition case321 := (* fixtures/other/sample.cfb *)
  mkcase false CompoundFileBinary [L "d0cf11e0a1b11ae1000000000000000000000000000000003e000400feff0c0006000000000000000100000001000000010000000000000000100000feffffff00000000feffffff0000000000000000"; R 432 xff; R 3584 x00; L "fdfffffffe"; R 4091 xff; L "52006f006f007400200045006e007400720079"; R 45 x00; L "16000501ffffffffffffffffffffffff"; R 36 x00; L "feffffff"; R 72 x00; L "02000000ffffffffffffffffffffffff"; R 112 x00; L "02000000ffffffffffffffffffffffff"; R 112 x00; L "02000000ffffffffffffffffffffffff"; R 112 x00; L "02000000ffffffffffffffffffffffff"; R 112 x00; L "02000000ffffffffffffffffffffffff"; R 112 x00; L "02000000ffffffffffffffffffffffff"; R 112 x00; L "02000000ffffffffffffffffffffffff"; R 112 x00; L "02000000ffffffffffffffffffffffff"; R 112 x00; L "02000000ffffffffffffffffffffffff"; R 112 x00; L "02000000ffffffffffffffffffffffff"; R 112 x00; L "02000000ffffffffffffffffffffffff"; R 112 x00; L "02000000ffffffffffffffffffffffff"; R 112 x00; L "02000000ffffffffffffffffffffffff"; R 112 x00; L "02000000ffffffffffffffffffffffff"; R 112 x00; L "02000000ffffffffffffffffffffffff"; R 112 x00; L "02000000ffffffffffffffffffffffff"; R 112 x00; L "02000000ffffffffffffffffffffffff"; R 112 x00; L "02000000ffffffffffffffffffffffff"; R 112 x00; L "02000000ffffffffffffffffffffffff"; R 112 x00; L "02000000ffffffffffffffffffffffff"; R 112 x00; L "02000000ffffffffffffffffffffffff"; R 112 x00; L "02000000ffffffffffffffffffffffff"; R 112 x00; L "02000000ffffffffffffffffffffffff"; R 112 x00; L "02000000ffffffffffffffffffffffff"; R 112 x00; L "02000000ffffffffffffffffffffffff"; R 112 x00; L "02000000ffffffffffffffffffffffff"; R 112 x00; L "02000000ffffffffffffffffffffffff"; R 112 x00; L "02000000ffffffffffffffffffffffff"; R 112 x00; L "02000000ffffffffffffffffffffffff"; R 112 x00; L "02000000ffffffffffffffffffffffff"; R 112 x00; L "02000000ffffffffffffffffffffffff"; R 48 x00].
Definition case322 := (* fixtures/other/sample.der *)
  mkcase false DerCertificate [L "308200"].
Definition case323 := (* fixtures/other/sample.dcm *)
  mkcase false DigitalImagingAndCommunicationsInMedicine [R 128 x00; L "4449434d00"].
Definition case324 := (* fixtures/other/sample.empty *)
  mkcase false Empty [].
Definition case325 := (* fixtures/other/sample.ebml *)
  mkcase false ExtensibleBinaryMetaLanguage [L "1a45dfa3010000000000001f4286810142f7810142f2810442f3810842828474657374"].
Definition case326 := (* fixtures/other/sample.xml *)
  mkcase false ExtensibleMarkupLanguage [L "3c3f786d6c2076657273696f6e3d22312e30223f3e0a3c726f6f743e48656c6c6f20576f726c643c2f726f6f743e0a"].
Definition case327 := (* fixtures/other/sample1.xsl *)
  mkcase false ExtensibleStylesheetLanguageTransformations [L "3c78736c3a7374796c65736865657420786d6c6e733a78736c3d22687474703a2f2f7777772e77332e6f72672f313939392f58534c2f5472616e73666f726d222076657273696f6e3d22312e30223e0a3c2f78736c3a7374796c6573686565743e0a"].
Definition case328 := (* fixtures/other/sample2.xsl *)
  mkcase true ExtensibleStylesheetLanguageTransformations [L "3c3f786d6c2076657273696f6e3d22312e30223f3e0a3c78736c3a7374796c65736865657420786d6c6e733a78736c3d22687474703a2f2f7777772e77332e6f72672f313939392f58534c2f5472616e73666f726d222076657273696f6e3d22312e30223e0a3c2f78736c3a7374796c6573686565743e0a"].
Definition case329 := (* fixtures/other/sample1.fla *)
  mkcase true FlashCs5Project [L "504b0304140008000800a8043a580000000000000000000000000f002000444f4d446f63756d656e742e786d6c55540d0007acf0b265acf0b265acf0b26575780b000104e803000004e80300000300504b0708000000000200000000000000504b01021403140008000800a8043a580000000002000000000000000f0020000000000000000000a48100000000444f4d446f63756d656e742e786d6c55540d0007acf0b265acf0b265acf0b26575780b000104e803000004e8030000504b050600000000010001005d0000005f0000000000"].
Definition case330 := (* fixtures/other/sample2.fla *)
  mkcase true FlashProject [L "d0cf11e0a1b11ae1000000000000000000000000000000003e000400feff0c0006000000000000000100000001000000010000000000000000100000feffffff00000000feffffff0000000000000000"; R 432 xff; R 3584 x00; L "fdfffffffe"; R 4091 xff; L "52006f006f007400200045006e007400720079"; R 45 x00; L "16000501fffffffffffffffffffffffffe35f2b4a6dc0348b7b2c25a453c836b0000000000000000000000000000000000000000feffffff"; R 72 x00; L "02000000ffffffffffffffffffffffff"; R 112 x00; L "02000000ffffffffffffffffffffffff"; R 112 x00; L "02000000ffffffffffffffffffffffff"; R 112 x00; L "02000000ffffffffffffffffffffffff"; R 112 x00; L "02000000ffffffffffffffffffffffff"; R 112 x00; L "02000000ffffffffffffffffffffffff"; R 112 x00; L "02000000ffffffffffffffffffffffff"; R 112 x00; L "02000000ffffffffffffffffffffffff"; R 112 x00; L "02000000ffffffffffffffffffffffff"; R 112 x00; L "02000000ffffffffffffffffffffffff"; R 112 x00; L "02000000ffffffffffffffffffffffff"; R 112 x00; L "02000000ffffffffffffffffffffffff"; R 112 x00; L "02000000ffffffffffffffffffffffff"; R 112 x00; L "02000000ffffffffffffffffffffffff"; R 112 x00; L "02000000ffffffffffffffffffffffff"; R 112 x00; L "02000000ffffffffffffffffffffffff"; R 112 x00; L "02000000ffffffffffffffffffffffff"; R 112 x00; L "02000000ffffffffffffffffffffffff"; R 112 x00; L "02000000ffffffffffffffffffffffff"; R 112 x00; L "02000000ffffffffffffffffffffffff"; R 112 x00; L "02000000ffffffffffffffffffffffff"; R 112 x00; L "02000000ffffffffffffffffffffffff"; R 112 x00; L "02000000ffffffffffffffffffffffff"; R 112 x00; L "02000000ffffffffffffffffffffffff"; R 112 x00; L "02000000ffffffffffffffffffffffff"; R 112 x00; L "02000000ffffffffffffffffffffffff"; R 112 x00; L "02000000ffffffffffffffffffffffff"; R 112 x00; L "02000000ffffffffffffffffffffffff"; R 112 x00; L "02000000ffffffffffffffffffffffff"; R 112 x00; L "02000000ffffffffffffffffffffffff"; R 112 x00; L "02000000ffffffffffffffffffffffff"; R 48 x00].
Definition case331 := (* fixtures/other/sample.fits *)
  mkcase false FlexibleImageTransportSystem [L "53494d504c4520203d202020202020202020202020202020202020202054000a"].
Definition case332 := (* fixtures/other/sample.mo *)
  mkcase false GettextMachineObject [L "950412de00"].
Definition case333 := (* fixtures/other/sample.html *)
  mkcase false HypertextMarkupLanguage [L "3c21646f63747970652068746d6c3e0a3c68746d6c206c616e673d22656e223e0a3c686561643e0a202020203c7469746c653e48656c6c6f20576f726c643c2f7469746c653e0a3c2f686561643e0a3c626f64793e0a3c2f626f64793e0a3c2f68746d6c3e0a"].
Definition case334 := (* fixtures/other/sample.ics *)
  mkcase false Icalendar [L "424547494e3a5643414c454e4441520a56455253494f4e3a322e300a454e443a5643414c454e4441520a"].
Definition case335 := (* fixtures/other/sample.icc *)
  mkcase false IccProfile [R 36 x00; L "6163737000"].
Definition case336 := (* fixtures/other/sample.jks *)
  mkcase false JavaKeystore [L "feedfeed00"].
Definition case337 := (* fixtures/other/sample.json *)
  mkcase false JsonFeed [L "7b0a20202276657273696f6e223a202268747470733a2f2f6a736f6e666565642e6f72672f76657273696f6e2f312e31222c0a2020227469746c65223a20224d79204578616d706c652046656564222c0a202022686f6d655f706167655f75726c223a202268747470733a2f2f6578616d706c652e6f72672f222c0a202022666565645f75726c223a202268747470733a2f2f6578616d706c652e6f72672f666565642e6a736f6e222c0a2020226974656d73223a205b0a202020207b0a202020202020226964223a202232222c0a20202020202022636f6e74656e745f74657874223a2022546869732069732061207365636f6e64206974656d2e222c0a20"; L "20202020202275726c223a202268747470733a2f2f6578616d706c652e6f72672f7365636f6e642d6974656d220a202020207d2c0a202020207b0a202020202020226964223a202231222c0a20202020202022636f6e74656e745f68746d6c223a20223c703e48656c6c6f2c20776f726c64213c2f703e222c0a2020202020202275726c223a202268747470733a2f2f6578616d706c652e6f72672f696e697469616c2d706f7374220a202020207d0a20205d0a7d0a"].
Definition case338 := (* fixtures/other/sample.lua *)
  mkcase false LuaScript [L "23212f7573722f62696e2f6c75610a7072696e74282248656c6c6f20576f726c6422290a"].
Definition case339 := (* fixtures/other/sample.chm *)
  mkcase false MicrosoftCompiledHtmlHelp [L "4954534600"].
Definition case340 := (* fixtures/other/sample.mpp *)
  mkcase true MicrosoftProjectPlan [L "d0cf11e0a1b11ae1000000000000000000000000000000003e000400feff0c0006000000000000000100000001000000010000000000000000100000feffffff00000000feffffff0000000000000000"; R 432 xff; R 3584 x00; L "fdfffffffe"; R 4091 xff; L "52006f006f007400200045006e007400720079"; R 45 x00; L "16000501ffffffffffffffffffffffff3a8fb774c8c8d111be1100c04fb6faf10000000000000000000000000000000000000000feffffff"; R 72 x00; L "02000000ffffffffffffffffffffffff"; R 112 x00; L "02000000ffffffffffffffffffffffff"; R 112 x00; L "02000000ffffffffffffffffffffffff"; R 112 x00; L "02000000ffffffffffffffffffffffff"; R 112 x00; L "02000000ffffffffffffffffffffffff"; R 112 x00; L "02000000ffffffffffffffffffffffff"; R 112 x00; L "02000000ffffffffffffffffffffffff"; R 112 x00; L "02000000ffffffffffffffffffffffff"; R 112 x00; L "02000000ffffffffffffffffffffffff"; R 112 x00; L "02000000ffffffffffffffffffffffff"; R 112 x00; L "02000000ffffffffffffffffffffffff"; R 112 x00; L "02000000ffffffffffffffffffffffff"; R 112 x00; L "02000000ffffffffffffffffffffffff"; R 112 x00; L "02000000ffffffffffffffffffffffff"; R 112 x00; L "02000000ffffffffffffffffffffffff"; R 112 x00; L "02000000ffffffffffffffffffffffff"; R 112 x00; L "02000000ffffffffffffffffffffffff"; R 112 x00; L "02000000ffffffffffffffffffffffff"; R 112 x00; L "02000000ffffffffffffffffffffffff"; R 112 x00; L "02000000ffffffffffffffffffffffff"; R 112 x00; L "02000000ffffffffffffffffffffffff"; R 112 x00; L "02000000ffffffffffffffffffffffff"; R 112 x00; L "02000000ffffffffffffffffffffffff"; R 112 x00; L "02000000ffffffffffffffffffffffff"; R 112 x00; L "02000000ffffffffffffffffffffffff"; R 112 x00; L "02000000ffffffffffffffffffffffff"; R 112 x00; L "02000000ffffffffffffffffffffffff"; R 112 x00; L "02000000ffffffffffffffffffffffff"; R 112 x00; L "02000000ffffffffffffffffffffffff"; R 112 x00; L "02000000ffffffffffffffffffffffff"; R 112 x00; L "02000000ffffffffffffffffffffffff"; R 48 x00].
Definition case341 := (* fixtures/other/sample.sln *)
  mkcase false MicrosoftVisualStudioSolution [L "4d6963726f736f66742056697375616c2053747564696f20536f6c7574696f6e2046696c652c20466f726d61742056657273696f6e2031322e30300a232056697375616c2053747564696f20323031330a56697375616c53747564696f56657273696f6e203d2031322e302e33313130312e300a4d696e696d756d56697375616c53747564696f56657273696f6e203d2031302e302e34303231392e310a"].
Definition case342 := (* fixtures/other/sample.mp4 *)
  mkcase false Mpeg4Part14 [L "00000000667479706176633100"].
Definition case343 := (* fixtures/other/sample.bat *)
  mkcase false MsDosBatch [L "406563686f206f66660a6563686f2048656c6c6f20776f726c64210a"].
Definition case344 := (* fixtures/other/sample1.musicxml *)
  mkcase false Musicxml [L "3c73636f72652d70617274776973652076657273696f6e3d22342e30223e0a3c2f73636f72652d70617274776973653e0a"].
Definition case345 := (* fixtures/other/sample2.musicxml *)
  mkcase true Musicxml [L "3c3f786d6c2076657273696f6e3d22312e302220656e636f64696e673d225554462d38223f3e0a3c73636f72652d70617274776973652076657273696f6e3d22342e30223e0a3c2f73636f72652d70617274776973653e0a"].
Definition case346 := (* fixtures/other/sample.mxl *)
  mkcase true MusicxmlZip [L "504b0304140000000000000000002e4215822200000022000000080000006d696d65747970656170706c69636174696f6e2f766e642e7265636f72646172652e6d75736963786d6c504b01021400140000000000000000002e42158222000000220000000800000000000000000000000000000000006d696d6574797065504b0506000000000100010036000000480000000000"].
Definition case347 := (* fixtures/other/sample.ogx *)
  mkcase false OggMultiplexedMedia [L "4f67675300"].
Definition case348 := (* fixtures/other/sample.pcap *)
  mkcase false PcapDump [L "a1b2c3d400"].
Definition case349 := (* fixtures/other/sample.pcapng *)
  mkcase false PcapNextGenerationDump [L "0a0d0d0a00"].
Definition case350 := (* fixtures/other/sample.crt *)
  mkcase false PemCertificate [L "2d2d2d2d2d424547494e2043455254494649434154452d2d2d2d2d00"].
Definition case351 := (* fixtures/other/sample.csr *)
  mkcase false PemCertificateSigningRequest [L "2d2d2d2d2d424547494e20434552544946494341544520524551554553542d2d2d2d2d00"].
Definition case352 := (* fixtures/other/sample.key *)
  mkcase false PemPrivateKey [L "2d2d2d2d2d424547494e2045434453412050524956415445204b45592d2d2d2d2d00"].
Definition case353 := (* fixtures/other/sample.pub *)
  mkcase false PemPublicKey [L "2d2d2d2d2d424547494e205055424c4943204b45592d2d2d2d2d0a"].
Definition case354 := (* fixtures/other/sample.pl *)
  mkcase false PerlScript [L "23212f7573722f62696e2f7065726c0a7072696e74282248656c6c6f20576f726c645c6e22293b0a"].
Definition case355 := (* fixtures/other/sample.pst *)
  mkcase false PersonalStorageTable [L "2142444e00"].
Definition case356 := (* fixtures/other/sample1.asc *)
  mkcase false PgpMessage [L "2d2d2d2d2d424547494e20504750204d4553534147452d2d2d2d2d0a"].
Definition case357 := (* fixtures/other/sample2.asc *)
  mkcase false PgpPrivateKeyBlock [L "2d2d2d2d2d424547494e205047502050524956415445204b455920424c4f434b2d2d2d2d2d0a"].
Definition case358 := (* fixtures/other/sample3.asc *)
  mkcase false PgpPublicKeyBlock [L "2d2d2d2d2d424547494e20504750205055424c4943204b455920424c4f434b2d2d2d2d2d0a"].
Definition case359 := (* fixtures/other/sample4.asc *)
  mkcase false PgpSignature [L "2d2d2d2d2d424547494e20504750205349474e41545552452d2d2d2d2d0a"].
Definition case360 := (* fixtures/other/sample5.asc *)
  mkcase false PgpSignedMessage [L "2d2d2d2d2d424547494e20504750205349474e4544204d4553534147452d2d2d2d2d0a"].
Definition case361 := (* fixtures/other/sample.txt *)
  mkcase true PlainText [L "41686f6a207376c49b74650a426f6e6a6f7572206d6f6e64650a4368c3a06f207468e1babf206769e1bb9b690a4369616f206d6f6e646f0a4861692064756e69610a48616c6c6f2057656c740a48616c6c6f20576572656c640a48616c6c6f207772c3a26c640a48616c6cc3b3206865696d75720a48616c6f2044756e69610a48616c6f2044756e79610a4865692056657264656e0a486569206d6161696c6d610a48656a2056657264656e0a48656a2076c3a4726c64656e0a48656c6c6f20576f726c640a48656c6c6f2057c3aa72656c640a48656c6cc3b32056696cc3a1670a48656c6f204279640a486f6c61204d756e646f0a486f6c61206dc3b36e0a"; L "48c3a06c6f2061205368616f676861696c0a4b6169786f204d756e6475610a4c616261732070617361756c690a4c65666174c5a165204c756d656c610a4d6f206b69204f20496c6520416979650a4d6f69656e2057656c740a4d6f6c6f204c697a77650a4d6f6e6920447a696b6f204c6170616e73690a4e6465776f20e1bba477610a4f6cc3a1204d756e646f0a506f7a64726176207376696a6574650a506f7a647261766c6a656e20737665740a50c3ab727368656e6465746a6520426f74c3ab0a53616c616d752044756e69610a53616c6f6d2044756e796f0a53616c7574204c756d650a53616e6e752044756e6979610a53617775626f6e61204d686c"; L "6162610a53656c616d2044c3bc6e79610a537665696b612070617361756c650a54657265206d6161696c6d0a576974616a20c59b7769656369650ace93ceb5ceb9ceac20cf83cebfcf8520ce9acf8ccf83cebcceb50ad097d0b4d180d0b0d0b2d0b5d0b920d181d0b2d18fd1820ad097d0b4d180d0b0d0b2d0be20d0a1d0b2d0b5d182d0b50ad097d0b4d180d0b0d0b2d0be20d181d0b2d0b5d182d1830ad09fd180d0b8d0b2d0b5d18220d0bcd0b8d1800ad09fd180d0b8d0b2d196d18220d0a1d0b2d196d1820ad09fd180d18bd0b2d196d182d0b0d0bdd0bdd0b520d0a1d183d181d0b2d0b5d1820ad0a1d0b0d0b9d0bd20d183d18320d0b4d18dd0bbd185"; L "d0b8d0b90ad0a1d0b0d0bbd0b0d0bc20d0b4d2afd0b9d0bdd3a90ad0a1d0b0d0bbd0bed0bc20d2b6d0b0d2b3d0bed0bd0ad0a1d399d0bbd0b5d0bc20d398d0bbd0b5d0bc0ad4b2d5a1d680d5a5d68220d5a1d5b7d5add5a1d680d5b00ad794d7a2d79cd79020d795d795d7a2d79cd7980ad7a9d79cd795d79d20d7a2d795d79cd79d0ad8b3d984d8a7d98520d8afd986db8cd8a70ad8b3d984d8a7d98520d986da93db8c0ad985d8b1d8add8a8d8a720d8a8d8a7d984d8b9d8a7d984d9850ae0a4a8e0a4aee0a4b8e0a58de0a495e0a4bee0a4b020e0a4b8e0a482e0a4b8e0a4bee0a4b00ae0a4a8e0a4aee0a4b8e0a58de0a4a4e0a58720e0a4a6e0a581e0a4"; L "a8e0a4bfe0a4afe0a4be0ae0a693e0a6b9e0a78720e0a6ace0a6bfe0a6b6e0a78de0a6ac0ae0a8b8e0a8a4e0a8bf20e0a8b8e0a98de0a8b0e0a98020e0a885e0a895e0a8bee0a8b220e0a8a6e0a981e0a8a8e0a8bfe0a8860ae0b4b9e0b4b2e0b587e0b4be20e0b4b5e0b587e0b5bee0b4a1e0b58d0ae0b784e0b799e0b6bde0b79d20e0b780e0b6bbe0b78ae0b6bde0b78ae0b6a9e0b78a0ae0b8aae0b8a7e0b8b1e0b8aae0b894e0b8b5e0b88ae0b8b2e0b8a7e0b982e0b8a5e0b8810ae18099e18084e180bae180b9e18082e1809ce180ace18095e180abe18080e18099e180b9e18098e180ace1809ce180b1e180ace180800ae18392e18390e1839be183"; L "90e183a0e183afe1839de18391e1839020e1839be183a1e1839de183a4e1839ae18398e1839d0ae188b0e1888be1889d20e1888de18b91e1888d0ae38193e38293e381abe381a1e381afe4b896e7958c0ae4bda0e5a5bde4b896e7958c0a"].
Definition case362 := (* fixtures/other/sample.py *)
  mkcase false PythonScript [L "23212f7573722f62696e2f707974686f6e0a7072696e74282248656c6c6f20576f726c6422290a"].
Definition case363 := (* fixtures/other/sample1.rss *)
  mkcase false ReallySimpleSyndication [L "3c7273732076657273696f6e3d22322e30223e0a3c2f7273733e0a"].
Definition case364 := (* fixtures/other/sample2.rss *)
  mkcase true ReallySimpleSyndication [L "3c3f786d6c2076657273696f6e3d22312e30223f3e0a3c7273732076657273696f6e3d22322e30223e0a3c2f7273733e0a"].
Definition case365 := (* fixtures/other/sample.rm *)
  mkcase false Realmedia [L "2e524d460000001200000000000000000000"].
Definition case366 := (* fixtures/other/sample.rb *)
  mkcase false RubyScript [L "23212f7573722f62696e2f656e7620727562790a70757473202248656c6c6f20576f726c64220a"].
Definition case367 := (* fixtures/other/sample.sh *)
  mkcase false ShellScript [L "23212f62696e2f626173680a6563686f202248656c6c6f20576f726c64220a"].
Definition case368 := (* fixtures/other/sample1.soap *)
  mkcase false SimpleObjectAccessProtocol [L "3c736f61703a456e76656c6f706520786d6c6e733a736f61703d22687474703a2f2f7777772e77332e6f72672f323030332f30352f736f61702d656e76656c6f7065223e0a3c2f736f61703a456e76656c6f70653e0a"].
Definition case369 := (* fixtures/other/sample2.soap *)
  mkcase true SimpleObjectAccessProtocol [L "3c3f786d6c2076657273696f6e3d22312e30223f3e0a3c736f61703a456e76656c6f706520786d6c6e733a736f61703d22687474703a2f2f7777772e77332e6f72672f323030332f30352f736f61702d656e76656c6f7065223e0a3c2f736f61703a456e76656c6f70653e0a"].
Definition case370 := (* fixtures/other/sample.swf *)
  mkcase false SmallWebFormat [L "43575300"].
Definition case371 := (* fixtures/other/sample1.tmx *)
  mkcase false TiledMapXml [L "3c6d61702076657273696f6e3d22312e38222074696c656476657273696f6e3d22312e382e3022206f7269656e746174696f6e3d226f7274686f676f6e616c222072656e6465726f726465723d2272696768742d646f776e222077696474683d2231303022206865696768743d22313030222074696c6577696474683d223332222074696c656865696768743d2233322220696e66696e6974653d223022206e6578746c6179657269643d223222206e6578746f626a65637469643d2231223e0a203c6c617965722069643d223122206e616d653d2254657374222077696474683d2231303022206865696768743d22313030223e0a20203c6461746120656e"; L "636f64696e673d226261736536342220636f6d7072657373696f6e3d227a737464223e0a2020204b4c55762f5742416d30304141416741415141384848516e42413d3d0a20203c2f646174613e0a203c2f6c617965723e0a3c2f6d61703e0a"].
Definition case372 := (* fixtures/other/sample2.tmx *)
  mkcase true TiledMapXml [L "3c3f786d6c2076657273696f6e3d22312e302220656e636f64696e673d225554462d38223f3e0a3c6d61702076657273696f6e3d22312e38222074696c656476657273696f6e3d22312e382e3022206f7269656e746174696f6e3d226f7274686f676f6e616c222072656e6465726f726465723d2272696768742d646f776e222077696474683d2231303022206865696768743d22313030222074696c6577696474683d223332222074696c656865696768743d2233322220696e66696e6974653d223022206e6578746c6179657269643d223222206e6578746f626a65637469643d2231223e0a203c6c617965722069643d223122206e616d653d22546573"; L "74222077696474683d2231303022206865696768743d22313030223e0a20203c6461746120656e636f64696e673d226261736536342220636f6d7072657373696f6e3d227a737464223e0a2020204b4c55762f5742416d30304141416741415141384848516e42413d3d0a20203c2f646174613e0a203c2f6c617965723e0a3c2f6d61703e0a"].
Definition case373 := (* fixtures/other/sample1.tsx *)
  mkcase false TiledTilesetXml [L "3c74696c657365742076657273696f6e3d22312e38222074696c656476657273696f6e3d22312e382e3022206e616d653d2274657374222074696c6577696474683d2231222074696c656865696768743d2231222074696c65636f756e743d22302220636f6c756d6e733d2230222f3e0a"].
Definition case374 := (* fixtures/other/sample2.tsx *)
  mkcase true TiledTilesetXml [L "3c3f786d6c2076657273696f6e3d22312e302220656e636f64696e673d225554462d38223f3e0a3c74696c657365742076657273696f6e3d22312e38222074696c656476657273696f6e3d22312e382e3022206e616d653d2274657374222074696c6577696474683d2231222074696c656865696768743d2231222074696c65636f756e743d22302220636f6c756d6e733d2230222f3e0a"].
Definition case375 := (* fixtures/other/sample.tcl *)
  mkcase false ToolCommandLanguageScript [L "23212f7573722f62696e2f74636c73680a70757473202248656c6c6f20576f726c64220a"].
Definition case376 := (* fixtures/other/sample.vcs *)
  mkcase false Vcalendar [L "424547494e3a5643414c454e4441520a56455253494f4e3a312e300a454e443a5643414c454e4441520a"].
Definition case377 := (* fixtures/other/sample.vcf *)
  mkcase false Vcard [L "424547494e3a56434152440a454e443a56434152440a"].
Definition case378 := (* fixtures/other/sample.wat *)
  mkcase false WebassemblyText [L "286d6f64756c6529"].
Definition case379 := (* fixtures/other/sample.wpm *)
  mkcase false WordperfectMacro [L "ff575043000000000101"].
Definition case380 := (* fixtures/other/sample1.xlf *)
  mkcase false XmlLocalizationInterchangeFileFormat [L "3c786c69666620786d6c6e733d2275726e3a6f617369733a6e616d65733a74633a786c6966663a646f63756d656e743a322e30222076657273696f6e3d22322e30223e0a3c2f786c6966663e0a"].
Definition case381 := (* fixtures/other/sample2.xlf *)
  mkcase true XmlLocalizationInterchangeFileFormat [L "3c3f786d6c2076657273696f6e3d22312e302220656e636f64696e673d225554462d38223f3e0a3c786c69666620786d6c6e733d2275726e3a6f617369733a6e616d65733a74633a786c6966663a646f63756d656e743a322e30222076657273696f6e3d22322e30223e0a3c2f786c6966663e0a"].
Definition case382 := (* fixtures/package/sample.air *)
  mkcase true AdobeIntegratedRuntime [L "504b0304140000000000ba5ec456000000000000000000000000090020004d4554412d494e462f55540d0007305f7c643b5f7c64305f7c6475780b000104e803000004e8030000504b0304140000000000c05ec4560000000000000000000000000d0020004d4554412d494e462f4149522f55540d0007385f7c64435f7c64385f7c6475780b000104e803000004e8030000504b0304140008000800c05ec4560000000000000000000000001c0020004d4554412d494e462f4149522f6170706c69636174696f6e2e786d6c55540d0007385f7c64385f7c64385f7c6475780b000104e803000004e80300000300504b0708000000000200000000000000504b"; L "01021403140000000000ba5ec456000000000000000000000000090020000000000000000000ed41000000004d4554412d494e462f55540d0007305f7c643b5f7c64305f7c6475780b000104e803000004e8030000504b01021403140000000000c05ec4560000000000000000000000000d0020000000000000000000ed41470000004d4554412d494e462f4149522f55540d0007385f7c64435f7c64385f7c6475780b000104e803000004e8030000504b01021403140008000800c05ec4560000000002000000000000001c0020000000000000000000a481920000004d4554412d494e462f4149522f6170706c69636174696f6e2e786d6c55540d000738"; L "5f7c64385f7c64385f7c6475780b000104e803000004e8030000504b050600000000030003001c010000fe0000000000"].
Definition case383 := (* fixtures/package/sample.aab *)
  mkcase true AndroidAppBundle [L "504b0304140008000800a78138580000000000000000000000000f00200042756e646c65436f6e6669672e706255540d00070a29b1650a29b1650a29b16575780b000104e803000004e80300000300504b0708000000000200000000000000504b01021403140008000800a78138580000000002000000000000000f0020000000000000000000b4810000000042756e646c65436f6e6669672e706255540d00070a29b1650a29b1650a29b16575780b000104e803000004e8030000504b050600000000010001005d0000005f0000000000"].
Definition case384 := (* fixtures/package/sample.apk *)
  mkcase true AndroidPackage [L "504b0304140008000800245f1b5500000000000000000000000013002000416e64726f69644d616e69666573742e786d6c55540d000775ea096375ea096375ea096375780b000104e803000004e80300000300504b0708000000000200000000000000504b01021403140008000800245f1b55000000000200000000000000130020000000000000000000a48100000000416e64726f69644d616e69666573742e786d6c55540d000775ea096375ea096375ea096375780b000104e803000004e8030000504b0506000000000100010061000000630000000000"].
Definition case385 := (* fixtures/package/sample.AppImage *)
  mkcase false Appimage [L "7f454c46020101004149020000000000"].
Definition case386 := (* fixtures/package/sample.deb *)
  mkcase false DebianPackage [L "213c617263683e0a64656269616e2d62696e61727900"].
Definition case387 := (* fixtures/package/sample.ear *)
  mkcase true EnterpriseApplicationArchive [L "504b030414000000000033047155000000000000000000000000090020004d4554412d494e462f55540d000752737563567375635273756375780b000104e803000004e8030000504b030414000800080011691b55000000000000000000000000140020004d4554412d494e462f4d414e49464553542e4d4655540d000733fb096333fb09634273756375780b000104e803000004e80300000300504b0708000000000200000000000000504b030414000800080033047155000000000000000000000000180020004d4554412d494e462f6170706c69636174696f6e2e786d6c55540d000752737563527375635273756375780b000104e803000004e80300"; L "000300504b0708000000000200000000000000504b0102140314000000000033047155000000000000000000000000090020000000000000000000ed41000000004d4554412d494e462f55540d000752737563567375635273756375780b000104e803000004e8030000504b0102140314000800080011691b55000000000200000000000000140020000000000000000000a481470000004d4554412d494e462f4d414e49464553542e4d4655540d000733fb096333fb09634273756375780b000104e803000004e8030000504b0102140314000800080033047155000000000200000000000000180020000000000000000000a481ab0000004d4554412d49"; L "4e462f6170706c69636174696f6e2e786d6c55540d000752737563527375635273756375780b000104e803000004e8030000504b050600000000030003001f010000130100000000"].
Definition case388 := (* fixtures/package/sample.crx *)
  mkcase false GoogleChromeExtension [L "4372323400"].
Definition case389 := (* fixtures/package/sample.ipa *)
  mkcase true IosAppStorePackage [L "504b03041400000000003ab47155000000000000000000000000080020005061796c6f61642f55540d0007c1a87663cba87663c1a8766375780b000104e803000004e8030000504b03041400000000003ab47155000000000000000000000000130020005061796c6f61642f53616d706c652e6170702f55540d0007c1a87663cba87663c1a8766375780b000104e803000004e8030000504b010214031400000000003ab47155000000000000000000000000080020000000000000000000ed41000000005061796c6f61642f55540d0007c1a87663cba87663c1a8766375780b000104e803000004e8030000504b010214031400000000003ab47155000000"; L "000000000000000000130020000000000000000000ed41460000005061796c6f61642f53616d706c652e6170702f55540d0007c1a87663cba87663c1a8766375780b000104e803000004e8030000504b05060000000002000200b7000000970000000000"].
Definition case390 := (* fixtures/package/sample.jar *)
  mkcase true JavaArchive [L "504b030414000000000011691b55000000000000000000000000090020004d4554412d494e462f55540d000733fb096335fb096333fb096375780b000104e803000004e8030000504b030414000800080011691b55000000000000000000000000140020004d4554412d494e462f4d414e49464553542e4d4655540d000733fb096333fb096333fb096375780b000104e803000004e80300000300504b0708000000000200000000000000504b0102140314000000000011691b55000000000000000000000000090020000000000000000000ed41000000004d4554412d494e462f55540d000733fb096335fb096333fb096375780b000104e803000004e803"; L "0000504b0102140314000800080011691b55000000000200000000000000140020000000000000000000a481470000004d4554412d494e462f4d414e49464553542e4d4655540d000733fb096333fb096333fb096375780b000104e803000004e8030000504b05060000000002000200b9000000ab0000000000"].
Definition case391 := (* fixtures/package/sample.msi *)
  mkcase true MicrosoftSoftwareInstaller [L "d0cf11e0a1b11ae1000000000000000000000000000000003e000400feff0c0006000000000000000100000001000000010000000000000000100000feffffff00000000feffffff0000000000000000"; R 432 xff; R 3584 x00; L "fdfffffffe"; R 4091 xff; L "52006f006f007400200045006e007400720079"; R 45 x00; L "16000501ffffffffffffffffffffffff84100c0000000000c0000000000000460000000000000000000000000000000000000000feffffff"; R 72 x00; L "02000000ffffffffffffffffffffffff"; R 112 x00; L "02000000ffffffffffffffffffffffff"; R 112 x00; L "02000000ffffffffffffffffffffffff"; R 112 x00; L "02000000ffffffffffffffffffffffff"; R 112 x00; L "02000000ffffffffffffffffffffffff"; R 112 x00; L "02000000ffffffffffffffffffffffff"; R 112 x00; L "02000000ffffffffffffffffffffffff"; R 112 x00; L "02000000ffffffffffffffffffffffff"; R 112 x00; L "02000000ffffffffffffffffffffffff"; R 112 x00; L "02000000ffffffffffffffffffffffff"; R 112 x00; L "02000000ffffffffffffffffffffffff"; R 112 x00; L "02000000ffffffffffffffffffffffff"; R 112 x00; L "02000000ffffffffffffffffffffffff"; R 112 x00; L "02000000ffffffffffffffffffffffff"; R 112 x00; L "02000000ffffffffffffffffffffffff"; R 112 x00; L "02000000ffffffffffffffffffffffff"; R 112 x00; L "02000000ffffffffffffffffffffffff"; R 112 x00; L "02000000ffffffffffffffffffffffff"; R 112 x00; L "02000000ffffffffffffffffffffffff"; R 112 x00; L "02000000ffffffffffffffffffffffff"; R 112 x00; L "02000000ffffffffffffffffffffffff"; R 112 x00; L "02000000ffffffffffffffffffffffff"; R 112 x00; L "02000000ffffffffffffffffffffffff"; R 112 x00; L "02000000ffffffffffffffffffffffff"; R 112 x00; L "02000000ffffffffffffffffffffffff"; R 112 x00; L "02000000ffffffffffffffffffffffff"; R 112 x00; L "02000000ffffffffffffffffffffffff"; R 112 x00; L "02000000ffffffffffffffffffffffff"; R 112 x00; L "02000000ffffffffffffffffffffffff"; R 112 x00; L "02000000ffffffffffffffffffffffff"; R 112 x00; L "02000000ffffffffffffffffffffffff"; R 48 x00].
Definition case392 := (* fixtures/package/sample.vsix *)
  mkcase true MicrosoftVisualStudioExtension [L "504b0304140008000800bc741c5500000000000000000000000016002000657874656e73696f6e2e767369786d616e696665737455540d0007a5610b63a5610b63a5610b6375780b000104e803000004e80300000300504b0708000000000200000000000000504b01021403140008000800bc741c55000000000200000000000000160020000000000000000000a48100000000657874656e73696f6e2e767369786d616e696665737455540d0007a5610b63a5610b63a5610b6375780b000104e803000004e8030000504b0506000000000100010064000000660000000000"].
Definition case393 := (* fixtures/package/sample.nsp *)
  mkcase false NintendoSwitchPackage [L "5046533000"].
Definition case394 := (* fixtures/package/sample.rpm *)
  mkcase false RedHatPackageManager [L "edabeedb00"].
Definition case395 := (* fixtures/package/sample.war *)
  mkcase true WebApplicationArchive [L "504b03041400000000004c047155000000000000000000000000080020005745422d494e462f55540d000780737563827375638073756375780b000104e803000004e8030000504b03041400080008004c0471550000000000000000000000000f0020005745422d494e462f7765622e786d6c55540d000780737563807375638073756375780b000104e803000004e80300000300504b0708000000000200000000000000504b030414000000000043047155000000000000000000000000090020004d4554412d494e462f55540d00076f737563707375636f73756375780b000104e803000004e8030000504b030414000800080011691b55000000000000"; L "000000000000140020004d4554412d494e462f4d414e49464553542e4d4655540d000733fb096333fb09634273756375780b000104e803000004e80300000300504b0708000000000200000000000000504b010214031400000000004c047155000000000000000000000000080020000000000000000000ed41000000005745422d494e462f55540d000780737563827375638073756375780b000104e803000004e8030000504b010214031400080008004c0471550000000002000000000000000f0020000000000000000000a481460000005745422d494e462f7765622e786d6c55540d000780737563807375638073756375780b000104e803000004e8"; L "030000504b0102140314000000000043047155000000000000000000000000090020000000000000000000ed41a50000004d4554412d494e462f55540d00076f737563707375636f73756375780b000104e803000004e8030000504b0102140314000800080011691b55000000000200000000000000140020000000000000000000a481ec0000004d4554412d494e462f4d414e49464553542e4d4655540d000733fb096333fb09634273756375780b000104e803000004e8030000504b050600000000040004006c010000500100000000"].
Definition case396 := (* fixtures/package/sample.appxbundle *)
  mkcase true WindowsAppBundle [L "504b0304140000000000f50937580000000000000000000000000d002000417070784d657461646174612f55540d00072e05af653105af652e05af6575780b000104e803000004e8030000504b0304140008000800f509375800000000000000000000000023002000417070784d657461646174612f4170707842756e646c654d616e69666573742e786d6c55540d00072e05af652e05af652e05af6575780b000104e803000004e80300000300504b0708000000000200000000000000504b01021403140000000000f50937580000000000000000000000000d0020000000000000000000ed4100000000417070784d657461646174612f55540d00072e05"; L "af653105af652e05af6575780b000104e803000004e8030000504b01021403140008000800f5093758000000000200000000000000230020000000000000000000a4814b000000417070784d657461646174612f4170707842756e646c654d616e69666573742e786d6c55540d00072e05af652e05af652e05af6575780b000104e803000004e8030000504b05060000000002000200cc000000be0000000000"].
Definition case397 := (* fixtures/package/sample.appx *)
  mkcase true WindowsAppPackage [L "504b030414000800080058b6715500000000000000000000000010002000417070784d616e69666573742e786d6c55540d0007b9ac7663b9ac7663b9ac766375780b000104e803000004e80300000300504b0708000000000200000000000000504b0102140314000800080058b67155000000000200000000000000100020000000000000000000a48100000000417070784d616e69666573742e786d6c55540d0007b9ac7663b9ac7663b9ac766375780b000104e803000004e8030000504b050600000000010001005e000000600000000000"].
Definition case398 := (* fixtures/package/sample.xap *)
  mkcase true Xap [L "504b030414000800080004671b55000000000000000000000000100020004170704d616e69666573742e78616d6c55540d000749f8096349f8096349f8096375780b000104e803000004e80300000300504b0708000000000200000000000000504b0102140314000800080004671b55000000000200000000000000100020000000000000000000a481000000004170704d616e69666573742e78616d6c55540d000749f8096349f8096349f8096375780b000104e803000004e8030000504b050600000000010001005e000000600000000000"].
Definition case399 := (* fixtures/package/sample.xpi *)
  mkcase true Xpinstall [L "504b030414000000000013601b55000000000000000000000000090020004d4554412d494e462f55540d000746eb096349eb096346eb096375780b000104e803000004e8030000504b030414000800080013601b55000000000000000000000000140020004d4554412d494e462f6d6f7a696c6c612e72736155540d000746eb096346eb096346eb096375780b000104e803000004e80300000300504b0708000000000200000000000000504b0102140314000000000013601b55000000000000000000000000090020000000000000000000ed41000000004d4554412d494e462f55540d000746eb096349eb096346eb096375780b000104e803000004e803"; L "0000504b0102140314000800080013601b55000000000200000000000000140020000000000000000000a481470000004d4554412d494e462f6d6f7a696c6c612e72736155540d000746eb096346eb096346eb096375780b000104e803000004e8030000504b05060000000002000200b9000000ab0000000000"].
Definition case400 := (* fixtures/playlist/sample1.asx *)
  mkcase false AdvancedStreamRedirector [L "3c6173782076657273696f6e3d22332e30223e0a20203c7469746c653e53616d706c653c2f7469746c653e0a20203c656e7472793e0a202020203c7469746c653e53616d706c653c2f7469746c653e0a20203c2f656e7472793e0a3c2f6173783e0a"].
Definition case401 := (* fixtures/playlist/sample2.asx *)
  mkcase true AdvancedStreamRedirector [L "3c3f786d6c2076657273696f6e3d22312e302220656e636f64696e673d225554462d38223f3e0a3c6173782076657273696f6e3d22332e30223e0a20203c7469746c653e53616d706c653c2f7469746c653e0a20203c656e7472793e0a202020203c7469746c653e53616d706c653c2f7469746c653e0a20203c2f656e7472793e0a3c2f6173783e0a"].
Definition case402 := (* fixtures/playlist/sample.m3u *)
  mkcase false Mp3Url [L "234558544d335500"].
Definition case403 := (* fixtures/playlist/sample1.mpd *)
  mkcase false MpegDashMpd [L "3c4d504420786d6c6e733a7363746533353d22687474703a2f2f7777772e736374652e6f72672f736368656d61732f33352f32303136223e0a20203c506572696f642073746172743d2250543053223e0a202020203c4576656e7453747265616d2074696d657363616c653d2239303030302220736368656d6549645572693d2275726e3a736374653a7363746533353a323031333a786d6c223e0a2020202020203c4576656e742070726573656e746174696f6e54696d653d22393030303030223e0a20202020202020203c7363746533353a53706c696365496e666f53656374696f6e3e0a202020202020202020203c7363746533353a54696d65536967"; L "6e616c2f3e0a202020202020202020203c7363746533353a5365676d656e746174696f6e44657363726970746f722073706c6963654576656e7449643d223122207365676d656e746174696f6e5479706549643d22353222207365676d656e746174696f6e4475726174696f6e3d223237303030303022207365676d656e746174696f6e55706964547970653d223922207365676d656e746174696f6e557069643d223122207365676d656e744e756d3d223122207365676d656e747345787065637465643d223122202f3e0a20202020202020203c2f7363746533353a53706c696365496e666f53656374696f6e3e0a2020202020203c2f4576656e743e0a"; L "2020202020203c4576656e742070726573656e746174696f6e54696d653d2233363030303030223e0a20202020202020203c7363746533353a53706c696365496e666f53656374696f6e3e0a202020202020202020203c7363746533353a54696d655369676e616c2f3e0a202020202020202020203c7363746533353a5365676d656e746174696f6e44657363726970746f722073706c6963654576656e7449643d223122207365676d656e746174696f6e5479706549643d22353322207365676d656e746174696f6e55706964547970653d223922207365676d656e746174696f6e557069643d223222207365676d656e744e756d3d223122207365676d65"; L "6e747345787065637465643d223122202f3e0a20202020202020203c2f7363746533353a53706c696365496e666f53656374696f6e3e0a2020202020203c2f4576656e743e0a202020203c2f4576656e7453747265616d3e0a20203c2f506572696f643e0a3c2f4d50443e0a"].
Definition case404 := (* fixtures/playlist/sample2.mpd *)
  mkcase true MpegDashMpd [L "3c3f786d6c2076657273696f6e3d22312e302220656e636f64696e673d227574662d38223f3e0a3c4d504420786d6c6e733a7363746533353d22687474703a2f2f7777772e736374652e6f72672f736368656d61732f33352f32303136223e0a20203c506572696f642073746172743d2250543053223e0a202020203c4576656e7453747265616d2074696d657363616c653d2239303030302220736368656d6549645572693d2275726e3a736374653a7363746533353a323031333a786d6c223e0a2020202020203c4576656e742070726573656e746174696f6e54696d653d22393030303030223e0a20202020202020203c7363746533353a53706c6963"; L "65496e666f53656374696f6e3e0a202020202020202020203c7363746533353a54696d655369676e616c2f3e0a202020202020202020203c7363746533353a5365676d656e746174696f6e44657363726970746f722073706c6963654576656e7449643d223122207365676d656e746174696f6e5479706549643d22353222207365676d656e746174696f6e4475726174696f6e3d223237303030303022207365676d656e746174696f6e55706964547970653d223922207365676d656e746174696f6e557069643d223122207365676d656e744e756d3d223122207365676d656e747345787065637465643d223122202f3e0a20202020202020203c2f7363"; L "746533353a53706c696365496e666f53656374696f6e3e0a2020202020203c2f4576656e743e0a2020202020203c4576656e742070726573656e746174696f6e54696d653d2233363030303030223e0a20202020202020203c7363746533353a53706c696365496e666f53656374696f6e3e0a202020202020202020203c7363746533353a54696d655369676e616c2f3e0a202020202020202020203c7363746533353a5365676d656e746174696f6e44657363726970746f722073706c6963654576656e7449643d223122207365676d656e746174696f6e5479706549643d22353322207365676d656e746174696f6e55706964547970653d223922207365"; L "676d656e746174696f6e557069643d223222207365676d656e744e756d3d223122207365676d656e747345787065637465643d223122202f3e0a20202020202020203c2f7363746533353a53706c696365496e666f53656374696f6e3e0a2020202020203c2f4576656e743e0a202020203c2f4576656e7453747265616d3e0a20203c2f506572696f643e0a3c2f4d50443e0a"].
Definition case405 := (* fixtures/playlist/sample.pls *)
  mkcase false ShoutcastPlaylist [L "5b706c61796c6973745d0a46696c65313d0a"].
Definition case406 := (* fixtures/playlist/sample.wpl *)
  mkcase false WindowsMediaPlaylist [L "3c3f77706c2076657273696f6e3d22312e30223f3e0a3c736d696c3e0a202020203c686561643e0a202020203c2f686561643e0a202020203c626f64793e0a202020203c2f626f64793e0a3c2f736d696c3e0a"].
Definition case407 := (* fixtures/playlist/sample1.xspf *)
  mkcase false XmlShareablePlaylistFormat [L "3c706c61796c6973742076657273696f6e3d22312220786d6c6e733d22687474703a2f2f787370662e6f72672f6e732f302f223e0a20203c747261636b4c6973743e0a202020203c747261636b3e0a2020202020203c7469746c653e53616d706c653c2f7469746c653e0a202020203c2f747261636b3e0a20203c2f747261636b4c6973743e0a3c2f706c61796c6973743e0a"].
Definition case408 := (* fixtures/playlist/sample2.xspf *)
  mkcase true XmlShareablePlaylistFormat [L "3c3f786d6c2076657273696f6e3d22312e302220656e636f64696e673d225554462d38223f3e0a3c706c61796c6973742076657273696f6e3d22312220786d6c6e733d22687474703a2f2f787370662e6f72672f6e732f302f223e0a20203c747261636b4c6973743e0a202020203c747261636b3e0a2020202020203c7469746c653e53616d706c653c2f7469746c653e0a202020203c2f747261636b3e0a20203c2f747261636b4c6973743e0a3c2f706c61796c6973743e0a"].
Definition case409 := (* fixtures/presentation/sample1.shw *)
  mkcase false CorelPresentations [L "ff57504300000000000f"].
Definition case410 := (* fixtures/presentation/sample2.shw *)
  mkcase true CorelPresentations7 [L "d0cf11e0a1b11ae1000000000000000000000000000000003e000400feff0c0006000000000000000100000001000000010000000000000000100000feffffff00000000feffffff0000000000000000"; R 432 xff; R 3584 x00; L "fdfffffffe"; R 4091 xff; L "52006f006f007400200045006e007400720079"; R 45 x00; L "16000501ffffffffffffffffffffffff62fe2e4099191b1099ae04021c0070020000000000000000000000000000000000000000feffffff"; R 72 x00; L "02000000ffffffffffffffffffffffff"; R 112 x00; L "02000000ffffffffffffffffffffffff"; R 112 x00; L "02000000ffffffffffffffffffffffff"; R 112 x00; L "02000000ffffffffffffffffffffffff"; R 112 x00; L "02000000ffffffffffffffffffffffff"; R 112 x00; L "02000000ffffffffffffffffffffffff"; R 112 x00; L "02000000ffffffffffffffffffffffff"; R 112 x00; L "02000000ffffffffffffffffffffffff"; R 112 x00; L "02000000ffffffffffffffffffffffff"; R 112 x00; L "02000000ffffffffffffffffffffffff"; R 112 x00; L "02000000ffffffffffffffffffffffff"; R 112 x00; L "02000000ffffffffffffffffffffffff"; R 112 x00; L "02000000ffffffffffffffffffffffff"; R 112 x00; L "02000000ffffffffffffffffffffffff"; R 112 x00; L "02000000ffffffffffffffffffffffff"; R 112 x00; L "02000000ffffffffffffffffffffffff"; R 112 x00; L "02000000ffffffffffffffffffffffff"; R 112 x00; L "02000000ffffffffffffffffffffffff"; R 112 x00; L "02000000ffffffffffffffffffffffff"; R 112 x00; L "02000000ffffffffffffffffffffffff"; R 112 x00; L "02000000ffffffffffffffffffffffff"; R 112 x00; L "02000000ffffffffffffffffffffffff"; R 112 x00; L "02000000ffffffffffffffffffffffff"; R 112 x00; L "02000000ffffffffffffffffffffffff"; R 112 x00; L "02000000ffffffffffffffffffffffff"; R 112 x00; L "02000000ffffffffffffffffffffffff"; R 112 x00; L "02000000ffffffffffffffffffffffff"; R 112 x00; L "02000000ffffffffffffffffffffffff"; R 112 x00; L "02000000ffffffffffffffffffffffff"; R 112 x00; L "02000000ffffffffffffffffffffffff"; R 112 x00; L "02000000ffffffffffffffffffffffff"; R 48 x00].
Definition case411 := (* fixtures/presentation/sample.ppt *)
  mkcase true MicrosoftPowerpointPresentation [L "d0cf11e0a1b11ae1000000000000000000000000000000003b000300feff0900060000000000000000000000010000003e00000000000000001000000200000001000000feffffff0000000000000000"; R 432 xff; L "fdfffffffffffffffefffffffeffffff05000000060000000700000008000000090000000a0000000b0000000c0000000d0000000e0000000f0000001000000011000000120000001300000014000000150000001600000017000000feffffff190000001a0000001b0000001c0000001d0000001e0000001f000000200000002100000022000000230000002400000025000000260000002700000028000000290000002a0000002b0000002c0000002d0000002e0000002f000000300000003100000032000000330000003400000035000000360000003700000038000000390000003a0000003b0000003c0000003d000000feffffff3f000000fe"; R 259 xff; L "52006f006f007400200045006e007400720079"; R 45 x00; L "16000500ffffffffffffffffffffffff"; R 36 x00; L "feffffff"; R 76 x00; L "ffffffffffffffffffffffff"; R 36 x00; L "feffffff"; R 76 x00; L "ffffffffffffffffffffffff"; R 36 x00; L "feffffff"; R 76 x00; L "ffffffffffffffffffffffff"; R 36 x00; L "feffffff0000000000000000fefffffffefffffffeffffff04000000050000000600000007000000fe"; R 483 xff; L "0100feff030a0000ffffffff108d81649b4fcf1186ea00aa00b929e8110000004d5320506f776572506f696e742039370000000000000000000000000000000001000002"; R 62 x00; L "f60f24000000140000005fc091e3842600000c00f4030300000043757272656e742055736572080000000000000000000000000000000000000000000000feff000001000200000000000000000000000000000000000200000002d5cdd59c2e1b10939708002b2cf9ae4400000005d5cdd59c2e1b10939708002b2cf9ae5c0000001800000001000000010000001000000002000000e9fd0000c00000000400000000000000280000000100000054000000020000005c00000003000000b400000002000000020000000a0000005f5049445f4755494400030000000c0000005f5049445f484c494e4b5300000002000000e9fd0000410000004e0000007b00"; L "440042003100410043003900360034002d0045003300390043002d0031003100440032002d0041003100450046002d003000300036003000390037004400410035003600380039007d00000000004100000004"; R 43 x00; L "0f00e803920500000100e90328000000dc010000dc01000020130000c01800000100000002000000030000000000000001000600000000010f00f2038c0200002f00c80f0c0000003000d20f04000000000000000f00d507300100000000b70f44000000540069006d006500730020004e0065007700200052006f006d0061006e"; R 37 x00; L "06101000b70f4400000041007200690061006c"; R 57 x00; L "06102000b70f440000004e006f0074006f002000530061006e007300200043004a004b002000530043"; R 35 x00; L "06003000b70f44000000430061006e0074006100720065006c006c"; R 49 x00; L "06000000a40f10000000800066000000ffffffff1200000000000000a90f0a000000070000000200090800004000a30f0e0100000500fffd3f000e00222000006400000000fe00005d00fdfffdff000000001b010000000003000000ffffef00000001000200ffffffff1200000000fe0000ff7d20000e00132000006400000000fe00005d00fdfffdffd40120010000ffffef00000001000200ffffffff1200000000fe0000ff7d20000e00222000006400000000fe00005d00fdfffdffd00240020000ffffef00000001000200ffffffff1200000000fe0000ff7d20000e00132000006400000000fe00005d00fdfffdfff00360030000ffffef0000000100"; L "0200ffffffff1200000000fe0000ff7d20000e00bb0000006400000000fe00005d00fdfffdff100580040000ffffef00000001000200ffffffff1200000000fe00000f000b048c0000000f0000f084000000000006f030000000031000000500000013000000040000000100000007000000020000000a000000030000000200000004000000040000001f0001f00000000063000bf024000000810100b8ff00830100000000bf0110001000c00101000008ff010800080001020200000840001ef110000000040000080100000802000008f70000101f00f00f1c0000000000f3031400000002000000000000000000000000000080000000000f00d0073e01"; L "00001f00ff0314000000020000040c0000000000000000000000010000000f00fa03670000000000fe03030000000001000000fd03340000005500000064000000550000006400000055000000640000005500000064000000ac170000da0d0000f4fcffffacffffff010000007000fb030800000000000000700800007000fb030800000001000000400b00000f0007043c0000000000fd0334000000aa000000c8000000aa000000c8000000aa000000c8000000aa000000c8000000ac170000da0d0000f4fcffffacffffff010000001f00fa03670000000000fe03030000000101000000fd03340000003b000000640000003b000000640000003b000000"; L "640000003b00000064000000ac1700000c0f000028f9ffffb8ffffff010000007000fb030800000000000000400b00007000fb030800000001000000700800003f00d90f0c0000000000da0f040000000d0025004f00d90f0c0000000000da0f040000000d003d000f00f00f1c0000000000f3031400000004000000040000000000000000010000000000002f00f00f1c0000000000f303140000000500000004000000000000000001000000000000010001045000000000000001ffffff7f"; R 68 x00; L "010000000000ea03000000000f00f803801200000200ef03180000000100000001020000000000000000000000000000000000006000f00720000000ffffff0000000000808080000000000000cc99003333cc00ccccff00b2b2b2006000f007200000000000ff00ffffff0000000000ffff0000ff99000000ffff00ff000000969696006000f00720000000ffffcc0000000000666633008080000033993300800000000033cc00ffcc66006000f00720000000ffffff00000000003333330000000000dddddd00808080004d4d4d00eaeaea006000f00720000000ffffff00000000008080800000000000ffcc66000000ff00cc00cc00c0c0c0006000f007"; L "20000000ffffff00000000008080800000000000c0c0c0000066ff00ff000000009900006000f00720000000ffffff000000000080808000000000003399ff0099ffcc00cc00cc00b2b2b2000000a30f0e0100000500fffd3f000e00222000006400000000fe01005d00fdfffdff000000001b010000000003000000ffffef00000001000200ffffffff0000000000fe0000ff7d20000e00132000006400000000fe01005d00fdfffdffd40120010000ffffef00000001000200ffffffff0000000000fe0000ff7d20000e00222000006400000000fe01005d00fdfffdffd00240020000ffffef00000001000200ffffffff0000000000fe0000ff7d20000e00"; L "132000006400000000fe01005d00fdfffdfff00360030000ffffef00000001000200ffffffff0000000000fe0000ff7d20000e00bb0000006400000000fe01005d00fdfffdff100580040000ffffef00000001000200ffffffff0000000000fe00001000a30f0e0100000500fffd3f000e00222000006400000000fe00005d00ffffffffd80000001b010000000003000000ffffef00000001000200ffffffff0000000000fe0000ff7d20000e00132000006400000000fe00005d00ffffffffd40120010000ffffef00000001000200ffffffff0000000000fe0000ff7d20000e00222000006400000000fe00005d00ffffffffd00240020000ffffef000000"; L "01000200ffffffff0000000000fe0000ff7d20000e00132000006400000000fe00005d00fffffffff00360030000ffffef00000001000200ffffffff0000000000fe0000ff7d20000e00bb0000006400000000fe00005d00ffffffff100580040000ffffef00000001000200ffffffff0000000000fe00002000a30f0e0100000500fffd3f000e00222000006400000000fe000064001e000000000000001b010000000002000000ffffef0000000000ffffffffffff0c00000000fe0000ff7d20000e00132000006400000000fe000064001e000000d40120010000ffffef0000000000ffffffffffff0c00000000fe0000ff7d20000e002220000064000000"; L "00fe000064001e000000d00240020000ffffef0000000000ffffffffffff0c00000000fe0000ff7d20000e00132000006400000000fe000064001e000000f00360030000ffffef0000000000ffffffffffff0c00000000fe0000ff7d20000e00bb0000006400000000fe000064001e000000100580040000ffffef0000000000ffffffffffff0c00000000fe00004000a30f0e0100000500fffd3f000e00222000006400000000fe00005d00fdfffdff000000001b010000000003000000ffffef00000001000200ffffffff1200000000fe0000ff7d20000e00132000006400000000fe00005d00fdfffdffd40120010000ffffef00000001000200ffffffff"; L "1200000000fe0000ff7d20000e00222000006400000000fe00005d00fdfffdffd00240020000ffffef00000001000200ffffffff1200000000fe0000ff7d20000e00132000006400000000fe00005d00fdfffdfff00360030000ffffef00000001000200ffffffff1200000000fe0000ff7d20000e00bb0000006400000000fe00005d00fdfffdff100580040000ffffef00000001000200ffffffff1200000000fe00005000a30fde00000005000000ff7d00000e00222000006400000000fe01005d00fdfffdffd8000000ffff0700000001002000000000fe0100ff7d00000e00132000006400000000fe01005d00fdfffdffd4012001ffff070000000100"; L "2000000000fe0200ff7d00000e00222000006400000000fe01005d00fdfffdffd0024002ffff0700000001002000000000fe0300ff7d00000e00132000006400000000fe01005d00fdfffdfff0036003ffff0700000001002000000000fe0400ff7d00000e00bb0000006400000000fe01005d00fdfffdff10058004ffff0700000001002000000000fe6000a30fde00000005000000ff7d00000e00222000006400000000fe01005d00fdfffdff00000000ffff0700000001000000000000fe0100ff7d00000e00132000006400000000fe01005d00fdfffdffd4012001ffff0700000001000000000000fe0200ff7d00000e00222000006400000000fe0100"; L "5d00fdfffdffd0024002ffff0700000001000000000000fe0300ff7d00000e00132000006400000000fe01005d00fdfffdfff0036003ffff0700000001000000000000fe0400ff7d00000e00bb0000006400000000fe01005d00fdfffdff10058004ffff0700000001000000000000fe7000a30fde00000005000000ff7d00000f00222000006400000000fe0000640014000000d8000000ffff0700000000002000000000fe0100ff7d00000f00132000006400000000fe0000640014000000d4012001ffff0700000000001c00000000fe0200ff7d00000f00222000006400000000fe0000640014000000d0024002ffff0700000000001800000000fe0300"; L "ff7d00000f00132000006400000000fe0000640014000000f0036003ffff0700000000001400000000fe0400ff7d00000f00bb0000006400000000fe000064001400000010058004ffff0700000000001400000000fe8000a30fde00000005000000ff7d00000f00222000006400000000fe0000640014000000d8000000ffff0700000000002000000000fe0100ff7d00000f00132000006400000000fe0000640014000000d4012001ffff0700000000001c00000000fe0200ff7d00000f00222000006400000000fe0000640014000000d0024002ffff0700000000001800000000fe0300ff7d00000f00132000006400000000fe0000640014000000f003"; L "6003ffff0700000000001400000000fe0400ff7d00000f00bb0000006400000000fe000064001400000010058004ffff0700000000001400000000fe0f000c04280900000f0002f020090000100008f00800000006000000060400000f0003f0b20800000f0004f028000000010009f0100000000000000000000000000000000000000002000af00800000000040000050000000f0004f03a01000012000af00800000001040000000a000013010bf0660000007f0001000500800024307a00810000000000820000000000830000000000840000000000850000000000870001000000bf0004000400bf0100001000c0013465a400c10100000100c201cb9a"; L "5b00d60102000000d70102000000ff0101000900010202000008000010f008000000e300e400f700e6000f0011f0100000000000c30b0800000000000000010000000f000df08c00000000009f0f04000000000000000000a00f5800000043006c0069007100750065007a00200070006f00750072002000e9006400690074006500720020006c006500200066006f0072006d00610074002000640075002000740065007800740065002d00740069007400720065000000a20f060000002d00000000000000aa0f0a0000002d0000000100000000000f0004f08202000012000af00800000002040000000a000013010bf0660000007f00010005008000e430"; L "7a008100000000008200186f0000830000000000840000000000850000000000870000000000bf0004000400bf0100001000c0013465a400c10100000100c201cb9a5b00d60102000000d70102000000ff0101000900010202000008000010f008000000e800e400f700f4000f0011f0100000000000c30b0800000001000000020000000f000df0d401000000009f0f04000000010000000000a00f7c01000043006c0069007100750065007a00200070006f00750072002000e9006400690074006500720020006c006500200066006f0072006d0061007400200064007500200070006c0061006e002000640065002000740065007800740065000d005300"; L "650063006f006e00640020006e0069007600650061007500200064006500200070006c0061006e000d00540072006f00690073006900e8006d00650020006e0069007600650061007500200064006500200070006c0061006e000d00510075006100740072006900e8006d00650020006e0069007600650061007500200064006500200070006c0061006e000d00430069006e00710075006900e8006d00650020006e0069007600650061007500200064006500200070006c0061006e000d005300690078006900e8006d00650020006e0069007600650061007500200064006500200070006c0061006e000d0053006500700074006900e8006d0065002000"; L "6e0069007600650061007500200064006500200070006c0061006e000000a20f2a0000002f00000000001600000001001900000002001900000003001900000004001700000004001800000004000000aa0f0a000000bf0000000100000000000f0004f08a01000012000af00800000003040000000a000013010bf0660000007f00010005008000a4317a00810000000000820000000000830000000000840000000000850000000000870000000000bf0004000400bf0100001000c0013465a400c10100000100c201cb9a5b00d60102000000d70102000000ff0101000900010202000008000010f008000000f700e400e800f8000f0011f0100000000000"; L "c30b0800000000000000070000000f000df0dc00000000009f0f04000000040000000000a00f020000002a000000a10f2a0000000200000000004f780a000800640000005d00fdfffdff01000200000000002700000003000e00000000fe0000f80f04000000000000000000aa0f0e000000020000000700000001000c0400000000a60f6a000000040000001900000000001b01000036020000510300006c04000087050000a2060000bd070000d8080000f30900000e0b0000290c0000440d00005f0e00007a0f000095100000b0110000cb120000e6130000011500001c16000037170000521800006d190000881a00000f0004f08a01000012000af00800"; L "000004040000000a000013010bf0660000007f0001000500800064327a00810000000000820000000000830000000000840000000000850000000000870000000000bf0004000400bf0100001000c0013465a400c10100000100c201cb9a5b00d60102000000d70102000000ff0101000900010202000008000010f008000000f700ea00f000f8000f0011f0100000000000c30b0800000000000000090000000f000df0dc00000000009f0f04000000040000000000a00f020000002a000000a10f2a0000000200000000004f780a000800640001005d00fdfffdff01000200000000002700000003000e00000000fe0000fa0f04000000000000000000aa0f"; L "0e000000020000000700000001000c0400000000a60f6a000000040000001900000000001b01000036020000510300006c04000087050000a2060000bd070000d8080000f30900000e0b0000290c0000440d00005f0e00007a0f000095100000b0110000cb120000e6130000011500001c16000037170000521800006d190000881a00000f0004f08a01000012000af00800000005040000000a000013010bf0660000007f0001000500800024337a00810000000000820000000000830000000000840000000000850000000000870000000000bf0004000400bf0100001000c0013465a400c10100000100c201cb9a5b00d60102000000d70102000000ff01"; L "01000900010202000008000010f008000000f700f300f700f8000f0011f0100000000000c30b0800000000000000080000000f000df0dc00000000009f0f04000000040000000000a00f020000002a000000a10f2a0000000200000000004f780a000800640002005d00fdfffdff01000200000000002700000003000e00000000fe0000d80f04000000000000000000aa0f0e000000020000000700000001000c0400000000a60f6a000000040000001900000000001b01000036020000510300006c04000087050000a2060000bd070000d8080000f30900000e0b0000290c0000440d00005f0e00007a0f000095100000b0110000cb120000e61300000115"; L "00001c16000037170000521800006d190000881a00000f0004f04e00000012000af00800000006040000000c000093000bf0360000008001000000008101ffffff008301000000009301c2870b009401c2870b00bf0112001200ff01000008000403090000003f03010001001000f00720000000ffffff0000000000808080000000000000cc99003333cc00ccccff00b2b2b2000f00f003ba0900000100f1030800000001000080000000000f000c047a0900000f0002f072090000200008f00800000009000000090800000f0003f00a0900000f0004f028000000010009f0100000000000000000000000000000000000000002000af00800000000080000"; L "050000000f0004f08200000022000af00800000001080000000a0000f3000bf05a0000008500020000008700010000004701040000008001000000008101ffffff00830100000000bf0110001000c00100000000c10100000100c201ffffff00cb0190240000d60101000000d70102000000ff01000009003f0200000200000010f008000000000000002013c0180f0004f07c00000022000af00800000002080000000a0000e3000bf0540000008500020000008700010000004701040000008001000000008101ffffff00830100000000bf0110001000c0013465a400c10100000100c201cb9a5b00d60102000000d70102000000ff01000009003f020000"; L "0200000010f008000000000000002013c0180f0004f0ba00000012000af00800000003080000000a000013010bf0660000007f00010005008000e4337a00810000000000820000000000830000000000840000000000850000000000870001000000bf0004000400bf0100001000c0013465a400c10100000100c201cb9a5b00d60102000000d70102000000ff0101000900010202000008000010f008000000e1015001cc11260b0f0011f0100000000000c30b0800000000000000050000000f000df00c00000000009f0f04000000020000000f0004f0ba00000012000af00800000004080000000a000013010bf0660000007f00010005008000a4347a00"; L "810000000000820000000000830000000000840000000000850000000000870000000000bf0004000400bf0100001000c0013465a400c10100000100c201cb9a5b00d60102000000d70102000000ff0101000900010202000008000010f008000000c10bea013411e1160f0011f0100000000000c30b0800000000000000060000000f000df00c00000000009f0f04000000020000000f0004f08a01000012000af00800000005080000000a000013010bf0660000007f0001000500800064357a00810000000000820000000000830000000000840000000000850000000000870000000000bf0004000400bf0100001000c0013465a400c10100000100c201"; L "cb9a5b00d60102000000d70102000000ff0101000900010202000008000010f008000000000000004a083a010f0011f0100000000000c30b08000000000000000a0000000f000df0dc00000000009f0f04000000040000000000a00f020000002a000000a10f2a0000000200000000004f780a000800640000005d00fdfffdff01000200000000002700000003000e00000000fe0000f90f04000000000000000000aa0f0e000000020000000700000001000c0400000000a60f6a000000040000001900000000001b01000036020000510300006c04000087050000a2060000bd070000d8080000f30900000e0b0000290c0000440d00005f0e00007a0f0000"; L "95100000b0110000cb120000e6130000011500001c16000037170000521800006d190000881a00000f0004f08a01000012000af00800000006080000000a000013010bf0660000007f0001000500800024367a00810000000000820000000000830000000000840000000000850000000000870000000000bf0004000400bf0100001000c0013465a400c10100000100c201cb9a5b00d60102000000d70102000000ff0101000900010202000008000010f0080000000000d30a1d133a010f0011f0100000000000c30b0800000000000000070000000f000df0dc00000000009f0f04000000040000000000a00f020000002a000000a10f2a00000002000000"; L "00004f780a000800640002005d00fdfffdff01000200000000002700000003000e00000000fe0000f80f04000000000000000000aa0f0e000000020000000700000001000c0400000000a60f6a000000040000001900000000001b01000036020000510300006c04000087050000a2060000bd070000d8080000f30900000e0b0000290c0000440d00005f0e00007a0f000095100000b0110000cb120000e6130000011500001c16000037170000521800006d190000881a00000f0004f08a01000012000af00800000007080000000a000013010bf0660000007f00010005008000e4367a008100000000008200000000008300000000008400000000008500"; L "00000000870002000000bf0004000400bf0100001000c0013465a400c10100000100c201cb9a5b00d60102000000d70102000000ff0101000900010202000008000010f008000000831700004a08bd180f0011f0100000000000c30b0800000000000000090000000f000df0dc00000000009f0f04000000040000000000a00f020000002a000000a10f2a0000000200000000004f780a000800640000005d00fdfffdff01000200000000002700000003000e00000000fe0000fa0f04000000000000000000aa0f0e000000020000000700000001000c0400000000a60f6a000000040000001900000000001b01000036020000510300006c04000087050000"; L "a2060000bd070000d8080000f30900000e0b0000290c0000440d00005f0e00007a0f000095100000b0110000cb120000e6130000011500001c16000037170000521800006d190000881a00000f0004f08a01000012000af00800000008080000000a000013010bf0660000007f00010005008000a4377a00810000000000820000000000830000000000840000000000850000000000870002000000bf0004000400bf0100001000c0013465a400c10100000100c201cb9a5b00d60102000000d70102000000ff0101000900010202000008000010f0080000008317d30a1d13bd180f0011f0100000000000c30b0800000000000000080000000f000df0dc00"; L "000000009f0f04000000040000000000a00f020000002a000000a10f2a0000000200000000004f780a000800640002005d00fdfffdff01000200000000002700000003000e00000000fe0000d80f04000000000000000000aa0f0e000000020000000700000001000c0400000000a60f6a000000040000001900000000001b01000036020000510300006c04000087050000a2060000bd070000d8080000f30900000e0b0000290c0000440d00005f0e00007a0f000095100000b0110000cb120000e6130000011500001c16000037170000521800006d190000881a00000f0004f04800000012000af00800000009080000000c000083000bf0300000008101"; L "ffffff008301000000009301debd680094018e9f8b00bf0112001200ff01000000000403090000003f03010001001000f00720000000ffffff0000000000808080000000000000cc99003333cc00ccccff00b2b2b2000f00ee03840200000200ef03180000001000000000000000000000000000008000010000020000000000f90310000000000400000000000002001500000000000f00d90f0c0000000000da0f04000000000025000f000c04a60000000f0002f09e000000300008f00800000001000000010c00000f0003f0300000000f0004f028000000010009f0100000000000000000000000000000000000000002000af008000000000c00000500"; L "00000f0004f04e00000012000af008000000010c0000000c000093000bf0360000008001000000008101ffffff008301000000009301c2870b009401c2870b00bf0112001200ff01000008000403090000003f03010001001000f00720000000ffffff0000000000808080000000000000cc99003333cc00ccccff00b2b2b2000f0088135a0100000f008a13520100000000ba0f100000005f005f005f005000500054003100300000008b13320100000000eb2e08000000f95dc401301b47e10000002b04000000000000001f0044f106010000000027f120000000000000000000000000000000030000000000000000000000ffffffff120000000f003df1"; L "0d000000400142f10500000001090000001f0044f1c1000000000027f12000000000000000000000000100000003000000000000000000000000000000180000000f003df10d000000400142f1050000000104000000000041f11400000001000000010000000000000000000000030000003f0025f12c000000000028f110000000010000000900000000000000000000000f003cf10c0000000000012b04000000010000004f0025f12c000000000028f110000000010000000a00000000000000000000000f003cf10c0000000000012b04000000010000000f00022b000000000f00f003ec0100000100f1030800000000010000030000000f00d90f0c00"; L "00000000da0f04000000000035000f000c04980100000f0002f090010000400008f00800000003000000031000000f0003f0280100000f0004f028000000010009f0100000000000000000000000000000000000000002000af00800000000100000050000000f0004f058000000a20c0af00800000001100000000a000043000bf018000000850002000000870001000000d601010000003f0200000200000010f008000000e1015001cd11270b0f0011f0100000000000c30b08000000000000000b0000000f0004f090000000a20c0af00800000002100000000a0000a3000bf03c000000850002000000870001000000bf0100001000c0013465a400c101"; L "00000100c201cb9a5b00d60102000000d70102000000ff01000009003f0200000200000010f008000000c10bea013511790f0f0011f0100000000000c30b08000000010000000c0000000f000df00c00000000009f0f04000000020000000f0004f04800000012000af00800000003100000000c000083000bf0300000008101ffffff0083010000000093018e9f8b009401debd6800bf0112001200ff01000008000403090000003f03010001001000f00720000000ffffff0000000000808080000000000000cc99003333cc00ccccff00b2b2b200000072171800000001005000000000009a05000022180000e4210000702400000000f50f1c0000000001"; L "0000bc0d000300000000642600000100000005000000010012"; R 345 x00; L "feff0000010002000000000000000000000000000000000001000000e0859ff2f94f6810ab9108002b27b3d930000000cc4a000007000000010000004000000009000000480000000a000000540000000b000000600000000c0000006c0000000d00000078000000110000008400000002000000e9fd00001e00000002000000340000004000000000d505570000000040000000000000000000000040000000d894c66c91f4d801400000001fc7072b92f4d80147000000404a0000ffffffff08000000280000004f0000004f0000000100180000000000104a000000000000000000000000000000000000"; R 237 xff; L "000000"; R 237 xff; L "000000"; R 237 xff; L "000000"; R 237 xff; L "000000"; R 237 xff; L "000000"; R 237 xff; L "000000"; R 237 xff; L "000000"; R 237 xff; L "000000"; R 237 xff; L "000000"; R 237 xff; L "000000"; R 237 xff; L "000000"; R 237 xff; L "000000"; R 237 xff; L "000000"; R 237 xff; L "000000"; R 237 xff; L "000000"; R 237 xff; L "000000"; R 237 xff; L "000000"; R 237 xff; L "000000"; R 237 xff; L "000000"; R 237 xff; L "000000"; R 237 xff; L "000000"; R 237 xff; L "000000"; R 237 xff; L "000000"; R 237 xff; L "000000"; R 237 xff; L "000000"; R 237 xff; L "000000"; R 237 xff; L "000000"; R 237 xff; L "000000"; R 237 xff; L "000000"; R 237 xff; L "000000"; R 237 xff; L "000000"; R 237 xff; L "000000"; R 237 xff; L "000000"; R 237 xff; L "000000"; R 237 xff; L "000000"; R 237 xff; L "000000"; R 237 xff; L "000000"; R 237 xff; L "000000"; R 237 xff; L "000000"; R 237 xff; L "000000"; R 237 xff; L "000000"; R 237 xff; L "000000"; R 237 xff; L "000000"; R 237 xff; L "000000"; R 237 xff; L "000000"; R 237 xff; L "000000"; R 237 xff; L "000000"; R 237 xff; L "000000"; R 237 xff; L "000000"; R 237 xff; L "000000"; R 237 xff; L "000000"; R 237 xff; L "000000"; R 237 xff; L "000000"; R 237 xff; L "000000"; R 237 xff; L "000000"; R 237 xff; L "000000"; R 237 xff; L "000000"; R 237 xff; L "000000"; R 237 xff; L "000000"; R 237 xff; L "000000"; R 237 xff; L "000000"; R 237 xff; L "000000"; R 237 xff; L "000000"; R 237 xff; L "000000"; R 237 xff; L "000000"; R 237 xff; L "000000"; R 237 xff; L "000000"; R 237 xff; L "000000"; R 237 xff; L "000000"; R 237 xff; L "000000"; R 237 xff; L "000000"; R 237 xff; L "000000"; R 237 xff; L "000000"; R 237 xff; L "000000"; R 237 xff; L "000000"; R 237 xff; L "000000"; R 237 xff; L "000000"; R 237 xff; L "000000"; R 237 xff; R 263 x00; L "52006f006f007400200045006e007400720079"; R 45 x00; L "16000500ffffffffffffffff01000000108d81649b4fcf1186ea00aa00b929e80000000000000000000000000000000000000000030000000002000000000000010043006f006d0070004f0062006a"; R 49 x00; L "120002000200000003000000ffffffff"; R 40 x00; L "390000000000000001004f006c0065"; R 57 x00; L "0a000200ffffffffffffffffffffffff"; R 36 x00; L "010000001400000000000000430075007200720065006e007400200055007300650072"; R 41 x00; L "1a0002000400000005000000ffffffff"; R 36 x00; L "020000002c00000000000000500069006300740075007200650073"; R 49 x00; L "12000200ffffffffffffffffffffffff"; R 36 x00; L "feffffff000000000000000050006f0077006500720050006f0069006e007400200044006f00630075006d0065006e0074"; R 27 x00; L "280002000600000007000000ffffffff"; R 36 x00; L "04000000a8260000000000000500530075006d006d0061007200790049006e0066006f0072006d006100740069006f006e"; R 27 x00; L "28000200ffffffffffffffffffffffff"; R 36 x00; L "18000000fc4a000000000000050044006f00630075006d0065006e007400530075006d006d0061007200790049006e0066006f0072006d006100740069006f006e000000000000000000000038000200ffffffffffffffffffffffff"; R 36 x00; L "030000001c01000000000000"].
Definition case412 := (* fixtures/presentation/sample.pptx *)
  mkcase true OfficeOpenXmlPresentation [L "504b03041400000000004a671b55000000000000000000000000040020007070742f55540d0007ccf80963eaf80963ccf8096375780b000104e803000004e8030000504b010214031400000000004a671b55000000000000000000000000040020000000000000000000ed41000000007070742f55540d0007ccf80963eaf80963ccf8096375780b000104e803000004e8030000504b0506000000000100010052000000420000000000"].
Definition case413 := (* fixtures/presentation/sample.odp *)
  mkcase true OpendocumentPresentation [L "504b0304140000000000000000003326aca82f0000002f000000080000006d696d65747970656170706c69636174696f6e2f766e642e6f617369732e6f70656e646f63756d656e742e70726573656e746174696f6e504b01021400140000000000000000003326aca82f0000002f0000000800000000000000000000000000000000006d696d6574797065504b0506000000000100010036000000550000000000"].
Definition case414 := (* fixtures/presentation/sample.otp *)
  mkcase true OpendocumentPresentationTemplate [L "504b030414000000000000000000ef0c143a3800000038000000080000006d696d65747970656170706c69636174696f6e2f766e642e6f617369732e6f70656e646f63756d656e742e70726573656e746174696f6e2d74656d706c617465504b0102140014000000000000000000ef0c143a38000000380000000800000000000000000000000000000000006d696d6574797065504b05060000000001000100360000005e0000000000"].
Definition case415 := (* fixtures/presentation/sample.sdd *)
  mkcase true Starimpress [L "d0cf11e0a1b11ae1000000000000000000000000000000003e000400feff0c0006000000000000000100000001000000010000000000000000100000feffffff00000000feffffff0000000000000000"; R 432 xff; R 3584 x00; L "fdfffffffe"; R 4091 xff; L "52006f006f007400200045006e007400720079"; R 45 x00; L "16000501ffffffffffffffffffffffffc03c2d011642d01189cb008029e4b0b10000000000000000000000000000000000000000feffffff"; R 72 x00; L "02000000ffffffffffffffffffffffff"; R 112 x00; L "02000000ffffffffffffffffffffffff"; R 112 x00; L "02000000ffffffffffffffffffffffff"; R 112 x00; L "02000000ffffffffffffffffffffffff"; R 112 x00; L "02000000ffffffffffffffffffffffff"; R 112 x00; L "02000000ffffffffffffffffffffffff"; R 112 x00; L "02000000ffffffffffffffffffffffff"; R 112 x00; L "02000000ffffffffffffffffffffffff"; R 112 x00; L "02000000ffffffffffffffffffffffff"; R 112 x00; L "02000000ffffffffffffffffffffffff"; R 112 x00; L "02000000ffffffffffffffffffffffff"; R 112 x00; L "02000000ffffffffffffffffffffffff"; R 112 x00; L "02000000ffffffffffffffffffffffff"; R 112 x00; L "02000000ffffffffffffffffffffffff"; R 112 x00; L "02000000ffffffffffffffffffffffff"; R 112 x00; L "02000000ffffffffffffffffffffffff"; R 112 x00; L "02000000ffffffffffffffffffffffff"; R 112 x00; L "02000000ffffffffffffffffffffffff"; R 112 x00; L "02000000ffffffffffffffffffffffff"; R 112 x00; L "02000000ffffffffffffffffffffffff"; R 112 x00; L "02000000ffffffffffffffffffffffff"; R 112 x00; L "02000000ffffffffffffffffffffffff"; R 112 x00; L "02000000ffffffffffffffffffffffff"; R 112 x00; L "02000000ffffffffffffffffffffffff"; R 112 x00; L "02000000ffffffffffffffffffffffff"; R 112 x00; L "02000000ffffffffffffffffffffffff"; R 112 x00; L "02000000ffffffffffffffffffffffff"; R 112 x00; L "02000000ffffffffffffffffffffffff"; R 112 x00; L "02000000ffffffffffffffffffffffff"; R 112 x00; L "02000000ffffffffffffffffffffffff"; R 112 x00; L "02000000ffffffffffffffffffffffff"; R 48 x00].
Definition case416 := (* fixtures/presentation/sample.sxi *)
  mkcase true SunXmlImpress [L "504b030414000000000000000000f3e0db581f0000001f000000080000006d696d65747970656170706c69636174696f6e2f766e642e73756e2e786d6c2e696d7072657373504b0102140014000000000000000000f3e0db581f0000001f0000000800000000000000000000000000000000006d696d6574797065504b0506000000000100010036000000450000000000"].
Definition case417 := (* fixtures/presentation/sample.sti *)
  mkcase true SunXmlImpressTemplate [L "504b0304140000000000000000006e8aca3b2800000028000000080000006d696d65747970656170706c69636174696f6e2f766e642e73756e2e786d6c2e696d70726573732e74656d706c617465504b01021400140000000000000000006e8aca3b28000000280000000800000000000000000000000000000000006d696d6574797065504b05060000000001000100360000004e0000000000"].
Definition case418 := (* fixtures/presentation/sample.uop *)
  mkcase true UniformOfficeFormatPresentation [L "3c3f786d6c2076657273696f6e3d22312e302220656e636f64696e673d225554462d3822207374616e64616c6f6e653d226e6f223f3e0a3c756f663a554f4620786d6c6e733a756f663d22687474703a2f2f736368656d61732e756f662e6f72672f636e2f323030332f756f662220786d6c6e733ae59bbe3d22687474703a2f2f736368656d61732e756f662e6f72672f636e2f323030332f67726170682220786d6c6e733ae5ad973d22687474703a2f2f736368656d61732e756f662e6f72672f636e2f323030332f756f662d776f726470726f632220786d6c6e733ae6bc943d22687474703a2f2f736368656d61732e756f662e6f72672f636e2f323030"; L "332f756f662d736c69646573686f772220786d6c6e733ae8a1a83d22687474703a2f2f736368656d61732e756f662e6f72672f636e2f323030332f756f662d73707265616473686565742220786d6c6e733a7873693d22687474703a2f2f7777772e77332e6f72672f323030312f584d4c536368656d612d696e7374616e63652220756f663a6c616e67756167653d22636e2220756f663a76657273696f6e3d22312e302220756f663a6c6f6349443d2275303030302220756f663a6d696d65747970653d22766e642e756f662e70726573656e746174696f6e223e"].
Definition case419 := (* fixtures/presentation/sample3.shw *)
  mkcase false WordperfectPresentations [L "ff57504300000000000a"].
Definition case420 := (* fixtures/rom/sample.a78 *)
  mkcase false Atari7800Rom [L "0141544152493738303000"].
Definition case421 := (* fixtures/rom/sample.crt *)
  mkcase false Commodore64Cartridge [L "4336342043415254524944474520202000000040010000200100000000000000666c696d626f71756573742e6d3269000000"].
Definition case422 := (* fixtures/rom/sample.gba *)
  mkcase false GameBoyAdvanceRom [L "0000000024ffae51699aa22100"].
Definition case423 := (* fixtures/rom/sample.gbc *)
  mkcase false GameBoyColorRom [R 260 x00; L "ceed6666cc0d000b"; R 55 x00; L "8000"].
Definition case424 := (* fixtures/rom/sample.gb *)
  mkcase false GameBoyRom [R 260 x00; L "ceed6666cc0d000b00"].
Definition case425 := (* fixtures/rom/sample.gg *)
  mkcase false GameGearRom [R 32752 x00; L "544d522053454741000000000000005000"].
Definition case426 := (* fixtures/rom/sample.md *)
  mkcase false MegaDriveRom [R 256 x00; L "53454741204d45474120445249564500"].
Definition case427 := (* fixtures/rom/sample.ngc *)
  mkcase false NeoGeoPocketColorRom [L "204c4943454e53454420425920534e4b20434f52504f524154494f4e0000000000000010"].
Definition case428 := (* fixtures/rom/sample.ngp *)
  mkcase false NeoGeoPocketRom [L "434f5059524947485420425920534e4b20434f52504f524154494f4e00"].
Definition case429 := (* fixtures/rom/sample.z64 *)
  mkcase false Nintendo64Rom [L "803712400000000f00"].
Definition case430 := (* fixtures/rom/sample.nds *)
  mkcase false NintendoDsRom [R 192 x00; L "24ffae51699aa22100"].
Definition case431 := (* fixtures/rom/sample.nes *)
  mkcase false NintendoEntertainmentSystemRom [L "4e45531a00"].
Definition case432 := (* fixtures/rom/sample.xci *)
  mkcase false NintendoSwitchRom [R 256 x00; L "48454144000000000000000000fa00"].
Definition case433 := (* fixtures/rom/sample.sms *)
  mkcase false SegaMasterSystemRom [R 32752 x00; L "544d522053454741000000000000003000"].
Definition case434 := (* fixtures/spreadsheet/sample.xls *)
  mkcase true MicrosoftExcelSpreadsheet [L "d0cf11e0a1b11ae1000000000000000000000000000000003b000300feff0900060000000000000000000000010000000800000000000000001000000200000001000000feffffff0000000000000000"; R 432 xff; L "fdfffffffffffffffeffffff04000000050000000600000007000000feffffff09000000fe"; R 475 xff; L "52006f006f007400200045006e007400720079"; R 45 x00; L "16000500ffffffffffffffffffffffff"; R 36 x00; L "feffffff"; R 76 x00; L "ffffffffffffffffffffffff"; R 36 x00; L "feffffff"; R 76 x00; L "ffffffffffffffffffffffff"; R 36 x00; L "feffffff"; R 76 x00; L "ffffffffffffffffffffffff"; R 36 x00; L "feffffff00000000000000000100000002000000030000000400000005000000060000000700000008000000090000000a0000000b0000000c0000000d0000000e0000000f000000100000001100000012000000130000001400000015000000160000001700000018000000feffffff1a000000fefffffffeffffff1d0000001e000000feffffff20000000fe"; R 383 xff; L "0908100000060500bb0dcc070000000006000000e1000200b004c10002000000e20000005c00700004000043616c63"; R 105 x20; L "42000200b004610102000000c00100003d01020001009c0002000e00af0102000000bc01020000003d00120000000000004000203800000000000100f4014000020000008d00020000002200020000000e0002000100b70102000000da000200000031001a00c8000000ff7f9001000000020000050141007200690061006c0031001a00c8000000ff7f9001000000000000050141007200690061006c0031001a00c8000000ff7f9001000000000000050141007200690061006c0031001a00c8000000ff7f9001000000000000050141007200690061006c001e040c00a40007000047656e6572616ce00014000000a400f5ff200000000000000000000000"; L "c020e000140001000000f5ff200000f40000000000000000c020e000140001000000f5ff200000f40000000000000000c020e000140002000000f5ff200000f40000000000000000c020e000140002000000f5ff200000f40000000000000000c020e000140000000000f5ff200000f40000000000000000c020e000140000000000f5ff200000f40000000000000000c020e000140000000000f5ff200000f40000000000000000c020e000140000000000f5ff200000f40000000000000000c020e000140000000000f5ff200000f40000000000000000c020e000140000000000f5ff200000f40000000000000000c020e000140000000000f5ff200000f4"; L "0000000000000000c020e000140000000000f5ff200000f40000000000000000c020e000140000000000f5ff200000f40000000000000000c020e000140000000000f5ff200000f40000000000000000c020e00014000000a4000100200000000000000000000000c020e000140001002b00f5ff200000f00000000000000000c020e000140001002900f5ff200000f00000000000000000c020e000140001002c00f5ff200000f00000000000000000c020e000140001002a00f5ff200000f00000000000000000c020e000140001000900f5ff200000f00000000000000000c02093020400008000ff93020400108003ff93020400118006ff930204001280"; L "04ff93020400138007ff93020400148005ff600102000000850010005304000000000800466575696c6c65318c00040021002100c1010800c1010000548d0100eb005a000f0000f052000000000006f01800000000040000020000000100000001000000010000000100000033000bf012000000bf0008000800810109000008c0014000000840001ef1100000000d0000080c00000817000008f7000010630815006308000000000000000000001500000000000000020a0000000908100000061000bb0dcc0700000000060000000c00020064000f000200010011000200000010000800fca9f1d24d62503f5f000200010080000800000000000000000025"; L "0204000000000181000200c1042a00020000002b0002000000820002000100140023002000002643262254696d6573204e657720526f6d616e2c4e6f726d616c222631322641150028002500002643262254696d6573204e657720526f6d616e2c4e6f726d616c222631325061676520265083000200000084000200000026000800333333333333e93f27000800333333333333e93f28000800832dd8822dd8f03f29000800832dd8822dd8f03fa10022000100640001000100010082002c012c01333333333333e93f333333333333e93f01005500020008007d000c0000000001890b0f000000000000020e000000000000000000000000000000ec005000"; L "0f0002f048000000100008f00800000001000000000400000f0003f0300000000f0004f028000000010009f0100000000000000000000000000000000000000002000af00800000000040000050000003e021200b606000000004000000000000000000000001d000f0003000000000000010000000000000067081700670800000000000000000000020001ffffffff000000000a000000000000000000000000000000000000000100feff030a0000ffffffff1008020000000000c0000000000000461b0000004d6963726f736f667420457863656c2039372d546162656c6c6500060000004269666638"; R 60 x00; L "01000002"; R 60 x00; L "feff0000010002000000000000000000000000000000000001000000e0859ff2f94f6810ab9108002b27b3d9300000007c00000006000000010000003800000009000000400000000a0000004c0000000b000000580000000c000000640000000d0000007000000002000000e9fd00001e000000020000003000000040000000000000000000000040000000000000000000000040000000b094ef2790f4d80140"; R 31 x00; L "feff000001000200000000000000000000000000000000000200000002d5cdd59c2e1b10939708002b2cf9ae4400000005d5cdd59c2e1b10939708002b2cf9ae5c0000001800000001000000010000001000000002000000e9fd00001800000001000000010000001000000002000000e9fd"; R 462 x00; L "52006f006f007400200045006e007400720079"; R 45 x00; L "16000500ffffffffffffffff010000001008020000000000c000000000000046000000000000000000000000000000000000000003000000400800000000000057006f0072006b0062006f006f006b"; R 49 x00; L "120002000200000004000000ffffffff"; R 40 x00; L "3006000000000000010043006f006d0070004f0062006a"; R 49 x00; L "1200020003000000ffffffffffffffff"; R 36 x00; L "19000000490000000000000001004f006c0065"; R 57 x00; L "0a000200ffffffffffffffffffffffff"; R 36 x00; L "1b00000014000000000000000500530075006d006d0061007200790049006e0066006f0072006d006100740069006f006e"; R 27 x00; L "28000200ffffffff05000000ffffffff"; R 36 x00; L "1c000000ac00000000000000050044006f00630075006d0065006e007400530075006d006d0061007200790049006e0066006f0072006d006100740069006f006e000000000000000000000038000200ffffffffffffffffffffffff"; R 36 x00; L "1f00000074"; R 75 x00; L "ffffffffffffffffffffffff"; R 36 x00; L "feffffff"; R 76 x00; L "ffffffffffffffffffffffff"; R 36 x00; L "feffffff0000000000000000"].
Definition case435 := (* fixtures/spreadsheet/sample.xlr *)
  mkcase true MicrosoftWorks6Spreadsheet [L "d0cf11e0a1b11ae1000000000000000000000000000000003e000300feff0900060000000000000000000000010000000100000000000000001000000200000001000000feffffff0000000000000000"; R 432 xff; L "fdfffffffefffffffeffffff0400000005000000fefffffffeffffffffffffffffffffffffffffffffffffff0c0000000d0000000e0000000f0000001000000011000000120000001300000003000000"; R 432 xff; L "52006f006f007400200045006e007400720079"; R 45 x00; L "16000500ffffffffffffffff03"; R 31 x00; L "101c19279be0d90106000000400000000000000057006f0072006b0062006f006f006b"; R 49 x00; L "12000200ffffffffffffffffffffffff"; R 36 x00; L "0b0000000c1600000000000057006b0073005300530057006f0072006b0042006f006f006b"; R 39 x00; L "1c000200ffffffffffffffffffffffff"; R 40 x00; L "3d0000000000000057006b00730053005300430068006100720074"; R 45 x00; L "160002010100000002000000ffffffff"; R 36 x00; L "feffffff0000000000000000fe"; R 511 xff; L "0000000000f5ff200000f40000000000000000c020e000140000000000f5ff200000f40000000000000000c020e000140000000000f5ff200000f40000000000000000c020e000140000000000f5ff200000f40000000000000000c020e000140000000000f5ff200000f40000000000000000c020e000140000000000f5ff200000f40000000000000000c020e000140000000000f5ff200000f40000000000000000c020e000140000000000f5ff200000f40000000000000000c020e000140000000000f5ff200000f40000000000000000c020e0001400000000000100200000000000000000000000c020e000140001002b00f5ff200000f80000000000"; L "000000c020e000140001002900f5ff200000f80000000000000000c020e000140001002c00f5ff200000f80000000000000000c020e000140001002a00f5ff200000f80000000000000000c020e000140001000900f5ff200000f80000000000000000c020e0001400060000000000200000fc0000000000000000c02093020400108003ff93020400118006ff93020400128004ff93020400138007ff93020400008000ff93020400148005ff60010200010085001400eb130000000006015300680065006500740031008c00040021002100ae010400010001041700080001000000000000000a0000000908100000061000bb0dcc0701000000060000000b"; L "02140000000000000000000000000000000000000000000d00020001000c00020064000f000200010011000200000010000800fca9f1d24d62503f5f00020001002a00020000002b0002000000820002000100800008000000000000000000250204000000ff0081000200c104140000001500000083000200000084000200000026000800000000000000f43f27000800000000000000f43f28000800000000000000f03f29000800000000000000f03fa100220009006400010000000000820058025802000000000000e03f000000000000e83f01001200020000004d00de"; R 67 x00; L "01040000dc00000003000000010009"; R 141 x00; L "550002000a0000020e0000000000000000000000010000003e021200b606000000000000000000000000000000001d000f00030000000000000100000000000000a0000400010001000a00000030002e00300030003000300045002b00300030001e041b00ae000b000130002e003000300030003000300045002b00300030001e041d00af000c000130002e0030003000300030003000300045002b00300030001e041f00b0000d000130002e00300030003000300030003000300045002b00300030001e043100b100160001240023002c002300230030002e0030005f0029003b002800240023002c002300230030002e0030005c0029001e043900b2001a"; L "0001240023002c002300230030002e003000300030005f0029003b002800240023002c002300230030002e003000300030005c0029001e043d00b3001c0001240023002c002300230030002e0030003000300030005f0029003b002800240023002c002300230030002e0030003000300030005c0029001e044100b4001e0001240023002c002300230030002e00300030003000300030005f0029003b002800240023002c002300230030002e00300030003000300030005c0029001e044500b500200001240023002c002300230030002e003000300030003000300030005f0029003b002800240023002c002300230030002e003000300030003000300030"; L "005c0029001e044900b600220001240023002c002300230030002e0030003000300030003000300030005f0029003b002800240023002c002300230030002e0030010002000000000102000000010129001400000000002000417269616c"; R 28 x00; L "0200000007000130002e00300030003000300025001e041500ba0008000130002e003000300030003000300025001e041700bb0009000130002e0030003000300030003000300025001e041900bc000a000130002e00300030003000300030003000300025001e041300bd0007000123002c002300230030002e0030001e041700be0009000123002c002300230030002e003000300030001e041900bf000a000123002c002300230030002e0030003000300030001e041b00c0000b000123002c002300230030002e00300030003000300030001e041d00c1000c000123002c002300230030002e003000300030003000300030001e041f00c2000d00012300"; L "2c002300230030002e0030003000300030003000300030001e041900c3000a000164005c002d006d006d006d005c002d00790079001e041d00c4000c00016d006d006d006d00200064002c00200079007900790079001e040b00c5000300016d002f0064001e040d00c6000400016d002f00790079001e041900c7000a00016d006d006d006d002c00200079007900790079001e041300c8000700016d006d006d006d002000640064001e040b00c9000300016d006d006d001e040d00ca000400016d006d006d006d001e040900cb00020001640064001e040d00cc0004000164006400640064001e040900cd00020001790079001e040d00ce000400017900"; L "7900790079001e040900cf00020001300030001e040b00d0000300013000300030001e040d00d10004000130003000300030001e040f00d200050001300030003000300030001e041100d3000600013000300030003000300030001e041300d40007000130003000300030003000300030001e041500d500080001300030003000300030003000300030001e041100d60006000123005c0020003f002f0032001e041100d70006000123005c0020003f002f0033001e041100d80006000123005c0020003f002f0034001e041100d90006000123005c0020003f002f0038001e041300da0007000123005c0020003f002f00310030001e041300db0007000123"; L "005c0020003f002f00310036001e041300dc0007000123005c0020003f002f00330032001e041500dd0008000123005c0020003f002f003100300030001e043d00de001c0001240023002c002300230030002e0030005f0029003b005b005200650064005d005c002800240023002c002300230030002e0030005c0029001e044500df00200001240023002c002300230030002e003000300030005f0029003b005b005200650064005d005c002800240023002c002300230030002e003000300030005c0029001e044900e000220001240023002c002300230030002e0030003000300030005f0029003b005b005200650064005d005c002800240023002c00"; L "2300230030002e0030003000300030005c0029001e044d00e100240001240023002c002300230030002e00300030003000300030005f0029003b005b005200650064005d005c002800240023002c002300230030002e00300030003000300030005c0029001e045100e200260001240023002c002300230030002e003000300030003000300030005f0029003b005b005200650064005d005c002800240023002c002300230030002e003000300030003000300030005c0029001e045500e300280001240023002c002300230030002e0030003000300030003000300030005f0029003b005b005200650064005d005c002800240023002c002300230030002e"; L "0030003000300030003000300030005c0029001e043900e4001a000123002c002300230030002e0030005f0029003b005b005200650064005d005c00280023002c002300230030002e0030005c0029001e044100e5001e000123002c002300230030002e003000300030005f0029003b005b005200650064005d005c00280023002c002300230030002e003000300030005c0029001e044500e60020000123002c002300230030002e0030003000300030005f0029003b005b005200650064005d005c00280023002c002300230030002e0030003000300030005c0029001e044900e70022000123002c002300230030002e00300030003000300030005f0029"; L "003b005b005200650064005d005c00280023002c002300230030002e00300030003000300030005c0029001e044d00e80024000123002c002300230030002e003000300030003000300030005f0029003b005b005200650064005d005c00280023002c002300230030002e003000300030003000300030005c0029001e045100e90026000123002c002300230030002e0030003000300030003000300030005f0029003b005b005200650064005d005c00280023002c002300230030002e0030003000300030003000300030005c0029001e041700ea0009000123005c0020003f003f002f003f003f003f001e042900eb00120001ac2023002c002300230030"; L "005f0029003b002800ac2023002c002300230030005c0029001e043100ec00160001ac2023002c002300230030002e0030005f0029003b002800ac2023002c002300230030002e0030005c0029001e043500ed00180001ac2023002c002300230030002e00300030005f0029003b002800ac2023002c002300230030002e00300030005c0029001e043900ee001a0001ac2023002c002300230030002e003000300030005f0029003b002800ac2023002c002300230030002e003000300030005c0029001e043d00ef001c0001ac2023002c002300230030002e0030003000300030005f0029003b002800ac2023002c002300230030002e0030003000300030"; L "005c0029001e044100f0001e0001ac2023002c002300230030002e00300030003000300030005f0029003b002800ac2023002c002300230030002e00300030003000300030005c0029001e044500f100200001ac2023002c002300230030002e003000300030003000300030005f0029003b002800ac2023002c002300230030002e003000300030003000300030005c0029001e044900f200220001ac2023002c002300230030002e0030003000300030003000300030005f0029003b002800ac2023002c002300230030002e0030003000300030003000300030005c0029001e043500f300180001ac2023002c002300230030005f0029003b005b00520065"; L "0064005d005c002800ac2023002c002300230030005c0029001e043d00f4001c0001ac2023002c002300230030002e0030005f0029003b005b005200650064005d005c002800ac2023002c002300230030002e0030005c0029001e044100f5001e0001ac2023002c002300230030002e00300030005f0029003b005b005200650064005d005c002800ac2023002c002300230030002e00300030005c0029"; R 41 x00; L "0908100000060500bb0dcc070100000006000000e1000200e404c10002000000e20000005c0070004d005300200057006f0072006b00730020002000200020002000200020002000200020002000200020002000200020002000200020002000200020002000200020002000200020002000200020002000200020002000200020002000200020002000200020002000200020002000200042000200e4046101020000003d01020001009c0002000e00190002000000120002000000130002000000af0102000000bc01020000003d001200000000006f63df2f380000000000010058024000020000008d00020000002200020000000e0002000100b7010200"; L "0000da000200000031001a00c8000000ff7f9001000000000000050141007200690061006c0031001a00c8000100ff7fbc02000000000000050141007200690061006c0031001a00c8000200ff7f9001000000000000050141007200690061006c0031001a00c8000300ff7fbc02000000000000050141007200690061006c0031001a00c8000000ff7f9001000000000000050141007200690061006c0031001a00c8000000ff7f9001000000200000050141007200690061006c001e041c000500170000222422232c2323305f293b5c28222422232c2323305c291e04210006001c0000222422232c2323305f293b5b5265645d5c28222422232c2323305c"; L "291e04220007001d0000222422232c2323302e30305f293b5c28222422232c2323302e30305c291e0427000800220000222422232c2323302e30305f293b5b5265645d5c28222422232c2323302e30305c291e0437002a003200005f282224222a20232c2323305f293b5f282224222a205c28232c2323305c293b5f282224222a20222d225f293b5f28405f291e042e0029002900005f282a20232c2323305f293b5f282a205c28232c2323305c293b5f282a20222d225f293b5f28405f291e043f002c003a00005f282224222a20232c2323302e30305f293b5f282224222a205c28232c2323302e30305c293b5f282224222a20222d223f3f5f293b5f2840"; L "5f291e0436002b003100005f282a20232c2323302e30305f293b5f282a205c28232c2323302e30305c293b5f282a20222d223f3f5f293b5f28405f291e040b00a40003000130002e0030001e040f00a50005000130002e003000300030001e041100a60006000130002e0030003000300030001e041300a70007000130002e00300030003000300030001e041500a80008000130002e003000300030003000300030001e041700a90009000130002e0030003000300030003000300030001e040f00aa00050001300045002b00300030001e041300ab0007000130002e00300045002b00300030001e041700ac0009000130002e0030003000300045002b0030"; L "0030001e041900ad000a000130002e00300030003000300045002b00300030001e041b00ae000b000130002e003000300030003000300045002b00300030001e041d00af000c000130002e0030003000300030003000300045002b00300030001e041f00b0000d000130002e00300030003000300030003000300045002b00300030001e043100b100160001240023002c002300230030002e0030005f0029003b002800240023002c002300230030002e0030005c0029001e043900b2001a0001240023002c002300230030002e003000300030005f0029003b002800240023002c002300230030002e003000300030005c0029001e043d00b3001c00012400"; L "23002c002300230030002e0030003000300030005f0029003b002800240023002c002300230030002e0030003000300030005c0029001e044100b4001e0001240023002c002300230030002e00300030003000300030005f0029003b002800240023002c002300230030002e00300030003000300030005c0029001e044500b500200001240023002c002300230030002e003000300030003000300030005f0029003b002800240023002c002300230030002e003000300030003000300030005c0029001e044900b600220001240023002c002300230030002e0030003000300030003000300030005f0029003b002800240023002c002300230030002e0030"; L "003000300030003000300030005c0029001e040d00b70004000130002e00300025001e041100b80006000130002e0030003000300025001e041300b90007000130002e00300030003000300025001e041500ba0008000130002e003000300030003000300025001e041700bb0009000130002e0030003000300030003000300025001e041900bc000a000130002e00300030003000300030003000300025001e041300bd0007000123002c002300230030002e0030001e041700be0009000123002c002300230030002e003000300030001e041900bf000a000123002c002300230030002e0030003000300030001e041b00c0000b000123002c002300230030"; L "002e00300030003000300030001e041d00c1000c000123002c002300230030002e003000300030003000300030001e041f00c2000d000123002c002300230030002e0030003000300030003000300030001e041900c3000a000164005c002d006d006d006d005c002d00790079001e041d00c4000c00016d006d006d006d00200064002c00200079007900790079001e040b00c5000300016d002f0064001e040d00c6000400016d002f00790079001e041900c7000a00016d006d006d006d002c00200079007900790079001e041300c8000700016d006d006d006d002000640064001e040b00c9000300016d006d006d001e040d00ca000400016d006d006d"; L "006d001e040900cb00020001640064001e040d00cc0004000164006400640064001e040900cd00020001790079001e040d00ce0004000179007900790079001e040900cf00020001300030001e040b00d0000300013000300030001e040d00d10004000130003000300030001e040f00d200050001300030003000300030001e041100d3000600013000300030003000300030001e041300d40007000130003000300030003000300030001e041500d500080001300030003000300030003000300030001e041100d60006000123005c0020003f002f0032001e041100d70006000123005c0020003f002f0033001e041100d80006000123005c0020003f002f"; L "0034001e041100d90006000123005c0020003f002f0038001e041300da0007000123005c0020003f002f00310030001e041300db0007000123005c0020003f002f00310036001e041300dc0007000123005c0020003f002f00330032001e041500dd0008000123005c0020003f002f003100300030001e043d00de001c0001240023002c002300230030002e0030005f0029003b005b005200650064005d005c002800240023002c002300230030002e0030005c0029001e044500df00200001240023002c002300230030002e003000300030005f0029003b005b005200650064005d005c002800240023002c002300230030002e003000300030005c002900"; L "1e044900e000220001240023002c002300230030002e0030003000300030005f0029003b005b005200650064005d005c002800240023002c002300230030002e0030003000300030005c0029001e044d00e100240001240023002c002300230030002e00300030003000300030005f0029003b005b005200650064005d005c002800240023002c002300230030002e00300030003000300030005c0029001e045100e200260001240023002c002300230030002e003000300030003000300030005f0029003b005b005200650064005d005c002800240023002c002300230030002e003000300030003000300030005c0029001e045500e30028000124002300"; L "2c002300230030002e0030003000300030003000300030005f0029003b005b005200650064005d005c002800240023002c002300230030002e0030003000300030003000300030005c0029001e043900e4001a000123002c002300230030002e0030005f0029003b005b005200650064005d005c00280023002c002300230030002e0030005c0029001e044100e5001e000123002c002300230030002e003000300030005f0029003b005b005200650064005d005c00280023002c002300230030002e003000300030005c0029001e044500e60020000123002c002300230030002e0030003000300030005f0029003b005b005200650064005d005c00280023"; L "002c002300230030002e0030003000300030005c0029001e044900e70022000123002c002300230030002e00300030003000300030005f0029003b005b005200650064005d005c00280023002c002300230030002e00300030003000300030005c0029001e044d00e80024000123002c002300230030002e003000300030003000300030005f0029003b005b005200650064005d005c00280023002c002300230030002e003000300030003000300030005c0029001e045100e90026000123002c002300230030002e0030003000300030003000300030005f0029003b005b005200650064005d005c00280023002c002300230030002e003000300030003000"; L "3000300030005c0029001e041700ea0009000123005c0020003f003f002f003f003f003f001e042900eb00120001ac2023002c002300230030005f0029003b002800ac2023002c002300230030005c0029001e043100ec00160001ac2023002c002300230030002e0030005f0029003b002800ac2023002c002300230030002e0030005c0029001e043500ed00180001ac2023002c002300230030002e00300030005f0029003b002800ac2023002c002300230030002e00300030005c0029001e043900ee001a0001ac2023002c002300230030002e003000300030005f0029003b002800ac2023002c002300230030002e003000300030005c0029001e043d"; L "00ef001c0001ac2023002c002300230030002e0030003000300030005f0029003b002800ac2023002c002300230030002e0030003000300030005c0029001e044100f0001e0001ac2023002c002300230030002e00300030003000300030005f0029003b002800ac2023002c002300230030002e00300030003000300030005c0029001e044500f100200001ac2023002c002300230030002e003000300030003000300030005f0029003b002800ac2023002c002300230030002e003000300030003000300030005c0029001e044900f200220001ac2023002c002300230030002e0030003000300030003000300030005f0029003b002800ac2023002c0023"; L "00230030002e0030003000300030003000300030005c0029001e043500f300180001ac2023002c002300230030005f0029003b005b005200650064005d005c002800ac2023002c002300230030005c0029001e043d00f4001c0001ac2023002c002300230030002e0030005f0029003b005b005200650064005d005c002800ac2023002c002300230030002e0030005c0029001e044100f5001e0001ac2023002c002300230030002e00300030005f0029003b005b005200650064005d005c002800ac2023002c002300230030002e00300030005c0029001e044500f600200001ac2023002c002300230030002e003000300030005f0029003b005b00520065"; L "0064005d005c002800ac2023002c002300230030002e003000300030005c0029001e044900f700220001ac2023002c002300230030002e0030003000300030005f0029003b005b005200650064005d005c002800ac2023002c002300230030002e0030003000300030005c0029001e044d00f800240001ac2023002c002300230030002e00300030003000300030005f0029003b005b005200650064005d005c002800ac2023002c002300230030002e00300030003000300030005c0029001e045100f900260001ac2023002c002300230030002e003000300030003000300030005f0029003b005b005200650064005d005c002800ac2023002c0023002300"; L "30002e003000300030003000300030005c0029001e045500fa00280001ac2023002c002300230030002e0030003000300030003000300030005f0029003b005b005200650064005d005c002800ac2023002c002300230030002e0030003000300030003000300030005c002900e000140000000000f5ff200000000000000000000000c020e000140001000000f5ff200000f40000000000000000c020e000140001000000f5ff200000f40000000000000000c020e000140002000000f5ff200000f40000000000000000c020e000140002000000f5ff200000f40000000000000000c020e000140000000000f5ff200000f40000000000000000c020e00014"].
Definition case436 := (* fixtures/spreadsheet/sample.wks *)
  mkcase false MicrosoftWorksSpreadsheet [L "ff000200040405540200c35326540200000006000800000000000000000002000100ff03000100006254160000000000000000000000030005000000000000000000040001000005000100ff01540c00000000000000010001000000565426000000417269616c0005000000000000000000040001000005000100ff01540c000000200014005a540a000502000000000000000007001f000000000000000a0017002f0000000000000000000000000004000400ec00005c540200000066540200ff00310001000124000100006f540100005054120001000000000000000000000000000000000067547401a0050000a00500000807000008070000c2410000"; L "852e0000d002000038040000a0050000a00500000807000008070000c2410000852e0000d00200003804000001"; R 307 x00; L "23541c00a005a00508070807c241852e010000000000d00238040000000000002600f2"; R 243 x00; L "2500f2"; R 243 x00; L "01000000"].
Definition case437 := (* fixtures/spreadsheet/sample.xlsx *)
  mkcase true OfficeOpenXmlSpreadsheet [L "504b03041400000000004b671b5500000000000000000000000003002000786c2f55540d0007cff80963fef80963cff8096375780b000104e803000004e8030000504b010214031400000000004b671b55000000000000000000000000030020000000000000000000ed4100000000786c2f55540d0007cff80963fef80963cff8096375780b000104e803000004e8030000504b0506000000000100010051000000410000000000"].
Definition case438 := (* fixtures/spreadsheet/sample.ods *)
  mkcase true OpendocumentSpreadsheet [L "504b030414000000000000000000856c398a2e0000002e000000080000006d696d65747970656170706c69636174696f6e2f766e642e6f617369732e6f70656e646f63756d656e742e7370726561647368656574504b0102140014000000000000000000856c398a2e0000002e0000000800000000000000000000000000000000006d696d6574797065504b0506000000000100010036000000540000000000"].
Definition case439 := (* fixtures/spreadsheet/sample.ots *)
  mkcase true OpendocumentSpreadsheetTemplate [L "504b0304140000000000000000007b96a34e3700000037000000080000006d696d65747970656170706c69636174696f6e2f766e642e6f617369732e6f70656e646f63756d656e742e73707265616473686565742d74656d706c617465504b01021400140000000000000000007b96a34e37000000370000000800000000000000000000000000000000006d696d6574797065504b05060000000001000100360000005d0000000000"].
Definition case440 := (* fixtures/spreadsheet/sample.sdc *)
  mkcase true Starcalc [L "d0cf11e0a1b11ae1000000000000000000000000000000003e000400feff0c0006000000000000000100000001000000010000000000000000100000feffffff00000000feffffff0000000000000000"; R 432 xff; R 3584 x00; L "fdfffffffe"; R 4091 xff; L "52006f006f007400200045006e007400720079"; R 45 x00; L "16000501ffffffffffffffffffffffffa03f543fa6b61b10996104021c0070020000000000000000000000000000000000000000feffffff"; R 72 x00; L "02000000ffffffffffffffffffffffff"; R 112 x00; L "02000000ffffffffffffffffffffffff"; R 112 x00; L "02000000ffffffffffffffffffffffff"; R 112 x00; L "02000000ffffffffffffffffffffffff"; R 112 x00; L "02000000ffffffffffffffffffffffff"; R 112 x00; L "02000000ffffffffffffffffffffffff"; R 112 x00; L "02000000ffffffffffffffffffffffff"; R 112 x00; L "02000000ffffffffffffffffffffffff"; R 112 x00; L "02000000ffffffffffffffffffffffff"; R 112 x00; L "02000000ffffffffffffffffffffffff"; R 112 x00; L "02000000ffffffffffffffffffffffff"; R 112 x00; L "02000000ffffffffffffffffffffffff"; R 112 x00; L "02000000ffffffffffffffffffffffff"; R 112 x00; L "02000000ffffffffffffffffffffffff"; R 112 x00; L "02000000ffffffffffffffffffffffff"; R 112 x00; L "02000000ffffffffffffffffffffffff"; R 112 x00; L "02000000ffffffffffffffffffffffff"; R 112 x00; L "02000000ffffffffffffffffffffffff"; R 112 x00; L "02000000ffffffffffffffffffffffff"; R 112 x00; L "02000000ffffffffffffffffffffffff"; R 112 x00; L "02000000ffffffffffffffffffffffff"; R 112 x00; L "02000000ffffffffffffffffffffffff"; R 112 x00; L "02000000ffffffffffffffffffffffff"; R 112 x00; L "02000000ffffffffffffffffffffffff"; R 112 x00; L "02000000ffffffffffffffffffffffff"; R 112 x00; L "02000000ffffffffffffffffffffffff"; R 112 x00; L "02000000ffffffffffffffffffffffff"; R 112 x00; L "02000000ffffffffffffffffffffffff"; R 112 x00; L "02000000ffffffffffffffffffffffff"; R 112 x00; L "02000000ffffffffffffffffffffffff"; R 112 x00; L "02000000ffffffffffffffffffffffff"; R 48 x00].
Definition case441 := (* fixtures/spreadsheet/sample.sxc *)
  mkcase true SunXmlCalc [L "504b03041400000000000000000045bc13941c0000001c000000080000006d696d65747970656170706c69636174696f6e2f766e642e73756e2e786d6c2e63616c63504b010214001400000000000000000045bc13941c0000001c0000000800000000000000000000000000000000006d696d6574797065504b0506000000000100010036000000420000000000"].
Definition case442 := (* fixtures/spreadsheet/sample.stc *)
  mkcase true SunXmlCalcTemplate [L "504b030414000000000000000000d3dae59b2500000025000000080000006d696d65747970656170706c69636174696f6e2f766e642e73756e2e786d6c2e63616c632e74656d706c617465504b0102140014000000000000000000d3dae59b25000000250000000800000000000000000000000000000000006d696d6574797065504b05060000000001000100360000004b0000000000"].
Definition case443 := (* fixtures/spreadsheet/sample.uos *)
  mkcase true UniformOfficeFormatSpreadsheet [L "3c3f786d6c2076657273696f6e3d22312e302220656e636f64696e673d225554462d38223f3e0a3c756f663a554f4620786d6c6e733a756f663d22687474703a2f2f736368656d61732e756f662e6f72672f636e2f323030332f756f662220786d6c6e733ae8a1a83d22687474703a2f2f736368656d61732e756f662e6f72672f636e2f323030332f756f662d73707265616473686565742220786d6c6e733ae6bc943d22687474703a2f2f736368656d61732e756f662e6f72672f636e2f323030332f756f662d736c69646573686f772220786d6c6e733ae5ad973d22687474703a2f2f736368656d61732e756f662e6f72672f636e2f323030332f756f66"; L "2d776f726470726f632220786d6c6e733ae59bbe3d22687474703a2f2f736368656d61732e756f662e6f72672f636e2f323030332f67726170682220786d6c6e733a64743d22757569643a43324634313031302d363542332d313164312d413239462d3030414130304331343838322220786d6c6e733a68746d6c3d22687474703a2f2f7777772e77332e6f72672f54522f5245432d68746d6c34302220786d6c6e733a7873643d22687474703a2f2f7777772e77332e6f72672f323030312f584d4c536368656d612220786d6c6e733a7873693d22687474703a2f2f7777772e77332e6f72672f323030312f584d4c536368656d612d696e7374616e636522"; L "20756f663a6c616e67756167653d22636e2220756f663a6c6f6349443d2275303030302220756f663a76657273696f6e3d22312e302220756f663a6d696d65747970653d22766e642e756f662e7370726561647368656574223e"].
Definition case444 := (* fixtures/subtitle/sample.mks *)
  mkcase true MatroskaSubtitles [L "1a45dfa3934282886d6174726f736b6142878102428581021853806701000000001ffd29114d9b74be4dbb8c53ab841549a96653ac8210034dbb8c53ab841654ae6b53ac82109d4dbb8d53ab84114d9b7453ac831ff5574dbb8d53ab841c53bb6b53ac831ff269ec4fbd"; R 4029 x00; L "1549a96640942ad7b18251604d80a36c696265626d6c2076302e372e37202b206c69626d6174726f736b612076302e382e315741bc6d6b766d657267652076322e392e3720282754656e6465726e6573732729206275696c74206f6e204a756c20203120323030392031383a34333a3335448988414fc885800000004461880458dc74f5c69a0073a49098840b3a48e2c1e1812939fe657368731654ae6bd4aed2d7810173c584f70a48b7838102b9810188810155aa81009c81016de7810023314f843f80000055ee81008689535f544558542f574542565454"].
Definition case445 := (* fixtures/subtitle/sample.mp4 *)
  mkcase true Mpeg4Part14Subtitles [L "0000000c6674797069736f6d0000000068646c72000000000000000074657874"].
Definition case446 := (* fixtures/subtitle/sample.srt *)
  mkcase false SubripText [L "310a30303a30323a31372c343430202d2d3e2030303a30323a32302c3337350a48656c6c6f20776f726c64210a"].
Definition case447 := (* fixtures/subtitle/sample1.ttml *)
  mkcase false TimedTextMarkupLanguage [L "3c747420786d6c6e733d22687474703a2f2f7777772e77332e6f72672f6e732f74746d6c2220786d6c6e733a7474733d22687474703a2f2f7777772e77332e6f72672f6e732f74746d6c237374796c696e67223e0a20203c686561643e0a202020203c7374796c696e673e0a2020202020203c7374796c6520786d6c3a69643d22733122207474733a666f6e7453697a653d223234707822207474733a666f6e7446616d696c793d22417269616c22207474733a74657874416c69676e3d2263656e746572222f3e0a202020203c2f7374796c696e673e0a20203c2f686561643e0a20203c626f64793e0a202020203c6469763e0a2020202020203c70206265"; L "67696e3d2230303a30303a30322e3030302220656e643d2230303a30303a30362e30303022207374796c653d227331223e48656c6c6f20776f726c64213c2f703e0a202020203c2f6469763e0a20203c2f626f64793e0a3c2f74743e0a"].
Definition case448 := (* fixtures/subtitle/sample2.ttml *)
  mkcase true TimedTextMarkupLanguage [L "3c3f786d6c2076657273696f6e3d22312e302220656e636f64696e673d225554462d38223f3e0a3c747420786d6c6e733d22687474703a2f2f7777772e77332e6f72672f6e732f74746d6c2220786d6c6e733a7474733d22687474703a2f2f7777772e77332e6f72672f6e732f74746d6c237374796c696e67223e0a20203c686561643e0a202020203c7374796c696e673e0a2020202020203c7374796c6520786d6c3a69643d22733122207474733a666f6e7453697a653d223234707822207474733a666f6e7446616d696c793d22417269616c22207474733a74657874416c69676e3d2263656e746572222f3e0a202020203c2f7374796c696e673e0a20"; L "203c2f686561643e0a20203c626f64793e0a202020203c6469763e0a2020202020203c7020626567696e3d2230303a30303a30322e3030302220656e643d2230303a30303a30362e30303022207374796c653d227331223e48656c6c6f20776f726c64213c2f703e0a202020203c2f6469763e0a20203c2f626f64793e0a3c2f74743e0a"].
Definition case449 := (* fixtures/subtitle/sample1.usf *)
  mkcase false UniversalSubtitleFormat [L "3c5553465375627469746c65732076657273696f6e3d22312e30223e0a20203c6d657461646174613e0a202020203c7469746c653e54686520556e6976657273616c205375627469746c6520466f726d61742073616d706c653c2f7469746c653e0a202020203c6c616e677561676520636f64653d22656e67223e456e676c6973683c2f6c616e67756167653e0a202020203c646174653e323030322d31312d30383c2f646174653e0a202020203c636f6d6d656e743e5468697320697320612073686f7274206578616d706c65206f66205553462e3c2f636f6d6d656e743e0a20203c2f6d657461646174613e0a3c2f5553465375627469746c65733e0a"].
Definition case450 := (* fixtures/subtitle/sample2.usf *)
  mkcase true UniversalSubtitleFormat [L "3c3f786d6c2076657273696f6e3d22312e302220656e636f64696e673d225554462d38223f3e0a0a3c5553465375627469746c65732076657273696f6e3d22312e30223e0a20203c6d657461646174613e0a202020203c7469746c653e54686520556e6976657273616c205375627469746c6520466f726d61742073616d706c653c2f7469746c653e0a202020203c6c616e677561676520636f64653d22656e67223e456e676c6973683c2f6c616e67756167653e0a202020203c646174653e323030322d31312d30383c2f646174653e0a202020203c636f6d6d656e743e5468697320697320612073686f7274206578616d706c65206f66205553462e3c2f"; L "636f6d6d656e743e0a20203c2f6d657461646174613e0a3c2f5553465375627469746c65733e0a"].
Definition case451 := (* fixtures/subtitle/sample.vtt *)
  mkcase false WebVideoTextTracks [L "5745425654540a0a30303a31312e303030202d2d3e2030303a31332e3030300a3c76204a6f686e20446f653e48656c6c6f20776f726c64210a"].
Definition case452 := (* fixtures/video/sample.amv *)
  mkcase false ActionsMediaVideo [L "5249464600000000414d562000"].
Definition case453 := (* fixtures/video/sample.m4v *)
  mkcase false AppleItunesVideo [L "00000000667479704d345600"].
Definition case454 := (* fixtures/video/sample.mov *)
  mkcase false AppleQuicktime [L "0000000066747970717400"].
Definition case455 := (* fixtures/video/sample.avi *)
  mkcase false AudioVideoInterleave [L "52494646000000004156492000"].
Definition case456 := (* fixtures/video/sample.fli *)
  mkcase false AutodeskAnimator [L "0000000011af00"].
Definition case457 := (* fixtures/video/sample.flc *)
  mkcase false AutodeskAnimatorPro [L "0000000012af00"].
Definition case458 := (* fixtures/video/sample.m2ts *)
  mkcase false BdavMpeg2TransportStream [L "0000000047"; R 191 x00; L "4700"].
Definition case459 := (* fixtures/video/sample.f4p *)
  mkcase false FlashMp4ProtectedVideo [L "000000006674797046345000"].
Definition case460 := (* fixtures/video/sample.f4v *)
  mkcase false FlashMp4Video [L "000000006674797046345600"].
Definition case461 := (* fixtures/video/sample.flv *)
  mkcase false FlashVideo [L "464c560100"].
Definition case462 := (* fixtures/video/sample.mj2 *)
  mkcase false Jpeg2000Part3 [L "00000000000000000000000000000000667479706d6a703200"].
Definition case463 := (* fixtures/video/sample.mxf *)
  mkcase false MaterialExchangeFormat [L "060e2b34020501010d010201010200"].
Definition case464 := (* fixtures/video/sample.mk3d *)
  mkcase true Matroska3dVideo [L "1a45dfa3a34286810142f7810142f2810442f381084282886d6174726f736b614287810442858102185380670100000000a2e4c1114d9b74be4dbb8c53ab841549a96653ac8210034dbb8c53ab841654ae6b53ac82109f4dbb8d53ab841c53bb6b53ac83a2de454dbb8d53ab841254c36753ac83a2e153ec4fbd"; R 4029 x00; L "1549a96640962ad7b1830f42404d80a36c696265626d6c2076312e332e30202b206c69626d6174726f736b612076312e342e315741c16d6b766d657267652076372e312e30202827476f6f64204c6f76652729203634626974206275696c74206f6e204a756c20323820323031342030393a31343a353844898446bcd80044618805fb5f865af0c80073a49071a0c6701c48978cae9aacf20b60a8f11654ae6b40b2aef7d7810173c588f601e7dbc2858f5b8381019c81006de78101868f565f4d532f5646572f464f5552434363a2a828000000d002000098010000010018004449565880720d000000000000000000000000000000000022b59c83756e64e0"; L "9ab08202d0ba82019854b084000002d054ba840000019853b88101"].
Definition case465 := (* fixtures/video/sample.mkv *)
  mkcase true MatroskaVideo [L "1a45dfa3934282886d6174726f736b6142878101428581011853806701000000003930ff114d9b74dd4dbb8c53ab841549a96653ac8210034dbb8c53ab841654ae6b53ac8210e54dbb8d53ab84114d9b7453ac8339308a4dbb8d53ab841c53bb6b53ac833930564dbb8d53ab841043a77053ac8301dcf84dbb8c53ab841941a46953ac821bfdec4f9e"; R 3998 x00; L "1549a96640dc2ad7b1830f42404d80a36c696265626d6c2076302e372e36202b206c69626d6174726f736b612076302e382e305741c66d6b766d657267652076312e362e3520282757617463686572204f662054686520536b6965732729206275696c74206f6e2044656320203720323030352031383a35333a3533448984463b380044618802429ff5e534b6007ba9be5b4b41415d204b696d69204761204e6f7a6f6d75204569656e202d20417975204d617975205468656174657220352028666f72206570732031312b31322973a490add947834705530289d825e632d49f8e1654ae6b470fae40d0d7810173c584a22a5cea838101b9810188810155aa"; L "81009c81006de7810123314f843f80000055ee8100868f565f4d532f5646572f464f55524343"].
Definition case466 := (* fixtures/video/sample.dvr-ms *)
  mkcase true MicrosoftDigitalVideoRecording [L "3026b2758e66cf11a6d900aa0062ce6c00000000000000000200000000009107dcb7b7a9cf118ee600c00c2053652800000000000000c0ef19bc4d5bcf11a8fd00805f5c442b40a4d0d207e3d21197f000a0c95ea8504000000000000000010022004400560052002000460069006c0065002000560065007200730069006f006e000000"].
Definition case467 := (* fixtures/video/sample.mpg *)
  mkcase false Mpeg12Video [L "000001ba00"].
Definition case468 := (* fixtures/video/sample.ts *)
  mkcase false Mpeg2TransportStream [L "47"; R 187 x00; L "4700"].
Definition case469 := (* fixtures/video/sample.mp4 *)
  mkcase true Mpeg4Part14Video [L "0000000c6674797069736f6d0000000068646c72000000000000000076696465"].
Definition case470 := (* fixtures/video/sample.mtv *)
  mkcase false Mtv [L "414d5600"].
Definition case471 := (* fixtures/video/sample.ogm *)
  mkcase false OggMedia [L "4f676753"; R 24 x00; L "01766964656f00"].
Definition case472 := (* fixtures/video/sample.ogv *)
  mkcase false OggTheora [L "4f676753"; R 24 x00; L "807468656f726100"].
Definition case473 := (* fixtures/video/sample.rv *)
  mkcase true Realvideo [L "2e524d4600000012000000000000000000024d44505200000057"; R 32 x00; L "047465737414766964656f2f782d706e2d7265616c766964656f00000000"].
Definition case474 := (* fixtures/video/sample.sgi *)
  mkcase false SiliconGraphicsMovie [L "4d4f564900"].
Definition case475 := (* fixtures/video/sample.mqv *)
  mkcase false SonyMovie [L "00000000667479706d717400"].
Definition case476 := (* fixtures/video/sample.3gp *)
  mkcase false ThirdGenerationPartnershipProject [L "000000006674797033677000"].
Definition case477 := (* fixtures/video/sample.3g2 *)
  mkcase false ThirdGenerationPartnershipProject2 [L "000000006674797033673200"].
Definition case478 := (* fixtures/video/sample.webm *)
  mkcase true Webm [L "1a45dfa3010000000000001f4286810142f7810142f2810442f381084282847765626d"].
Definition case479 := (* fixtures/video/sample.wmv *)
  mkcase true WindowsMediaVideo [L "3026b2758e66cf11a6d900aa0062ce6c00000000000000000100000000009107dcb7b7a9cf118ee600c00c2053652800000000000000c0ef19bc4d5bcf11a8fd00805f5c442b"].
Definition case480 := (* fixtures/video/sample.wtv *)
  mkcase false WindowsRecordedTvShow [L "b7d800203749da11a64e0007e95ead8d00"].
Definition cases : list conf_case :=
  [case1; case2; case3; case4; case5; case6; case7; case8; case9; case10; case11; case12; case13; case14; case15; case16; case17; case18; case19; case20; case21; case22; case23; case24; case25; case26; case27; case28; case29; case30; case31; case32; case33; case34; case35; case36; case37; case38; case39; case40; case41; case42; case43; case44; case45; case46; case47; case48; case49; case50; case51; case52; case53; case54; case55; case56; case57; case58; case59; case60; case61; case62; case63; case64; case65; case66; case67; case68; case69; case70; case71; case72; case73; case74; case75; case76; case77; case78; case79; case80; case81; case82; case83; case84; case85; case86; case87; case88; case89; case90; case91; case92; case93; case94; case95; case96; case97; case98; case99; case100; case101; case102; case103; case104; case105; case106; case107; case108; case109; case110; case111; case112; case113; case114; case115; case116; case117; case118; case119; case120; case121; case122; case123; case124; case125; case126; case127; case128; case129; case130; case131; case132; case133; case134; case135; case136; case137; case138; case139; case140; case141; case142; case143; case144; case145; case146; case147; case148; case149; case150; case151; case152; case153; case154; case155; case156; case157; case158; case159; case160; case161; case162; case163; case164; case165; case166; case167; case168; case169; case170; case171; case172; case173; case174; case175; case176; case177; case178; case179; case180; case181; case182; case183; case184; case185; case186; case187; case188; case189; case190; case191; case192; case193; case194; case195; case196; case197; case198; case199; case200; case201; case202; case203; case204; case205; case206; case207; case208; case209; case210; case211; case212; case213; case214; case215; case216; case217; case218; case219; case220; case221; case222; case223; case224; case225; case226; case227; case228; case229; case230; case231; case232; case233; case234; case235; case236; case237; case238; case239; case240; case241; case242; case243; case244; case245; case246; case247; case248; case249; case250; case251; case252; case253; case254; case255; case256; case257; case258; case259; case260; case261; case262; case263; case264; case265; case266; case267; case268; case269; case270; case271; case272; case273; case274; case275; case276; case277; case278; case279; case280; case281; case282; case283; case284; case285; case286; case287; case288; case289; case290; case291; case292; case293; case294; case295; case296; case297; case298; case299; case300; case301; case302; case303; case304; case305; case306; case307; case308; case309; case310; case311; case312; case313; case314; case315; case316; case317; case318; case319; case320; case321; case322; case323; case324; case325; case326; case327; case328; case329; case330; case331; case332; case333; case334; case335; case336; case337; case338; case339; case340; case341; case342; case343; case344; case345; case346; case347; case348; case349; case350; case351; case352; case353; case354; case355; case356; case357; case358; case359; case360; case361; case362; case363; case364; case365; case366; case367; case368; case369; case370; case371; case372; case373; case374; case375; case376; case377; case378; case379; case380; case381; case382; case383; case384; case385; case386; case387; case388; case389; case390; case391; case392; case393; case394; case395; case396; case397; case398; case399; case400; case401; case402; case403; case404; case405; case406; case407; case408; case409; case410; case411; case412; case413; case414; case415; case416; case417; case418; case419; case420; case421; case422; case423; case424; case425; case426; case427; case428; case429; case430; case431; case432; case433; case434; case435; case436; case437; case438; case439; case440; case441; case442; case443; case444; case445; case446; case447; case448; case449; case450; case451; case452; case453; case454; case455; case456; case457; case458; case459; case460; case461; case462; case463; case464; case465; case466; case467; case468; case469; case470; case471; case472; case473; case474; case475; case476; case477; case478; case479; case480].

(** Evaluated when this file is compiled; a mismatch stops the build.  (The result is a test
    outcome, so no proof term is kept.) *)
Definition conformance_checked : unit :=
  ltac:(let r := eval vm_compute in (forallb case_ok cases) in
        match r with true => exact tt end).
