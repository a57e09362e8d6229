(** GENERATED by tools/gen_tables.py from /repo/src/signatures.rs.  Do not edit.

    The table given to the macro [signatures!] (/repo/src/macros.rs lines 157-179): for every
    format its alternatives (one per [value = ...] line, joined by ||), each a list of
    (offset, value) parts (joined by &&).  Order as in the source. *)
From Coq Require Import List NArith.
From Coq.Strings Require Import Byte.
From Verif Require Import Formats.
Import ListNotations.

Definition sig_part : Set := (N * list byte)%type.
Definition sig_alt : Set := list sig_part.
Definition sig_entry : Set := (FileFormat * list sig_alt)%type.

Definition signatures : list sig_entry :=
[
  (MicrosoftVisualStudioSolution, (* signatures.rs:5 *)
   [
    [(0%N, [xef; xbb; xbf; x0d; x0a; x4d; x69; x63; x72; x6f; x73; x6f; x66; x74; x20; x56; x69; x73; x75; x61; x6c; x20; x53; x74; x75; x64; x69; x6f; x20; x53; x6f; x6c; x75; x74; x69; x6f; x6e; x20; x46; x69; x6c; x65; x2c; x20; x46; x6f; x72; x6d; x61; x74; x20; x56; x65; x72; x73; x69; x6f; x6e; x20])] (* signatures.rs:6 .....Microsoft.Visual.Studio.Solution.File,.Format.Version. *);
    [(0%N, [xef; xbb; xbf; x0a; x4d; x69; x63; x72; x6f; x73; x6f; x66; x74; x20; x56; x69; x73; x75; x61; x6c; x20; x53; x74; x75; x64; x69; x6f; x20; x53; x6f; x6c; x75; x74; x69; x6f; x6e; x20; x46; x69; x6c; x65; x2c; x20; x46; x6f; x72; x6d; x61; x74; x20; x56; x65; x72; x73; x69; x6f; x6e; x20])] (* signatures.rs:7 ....Microsoft.Visual.Studio.Solution.File,.Format.Version. *);
    [(0%N, [x4d; x69; x63; x72; x6f; x73; x6f; x66; x74; x20; x56; x69; x73; x75; x61; x6c; x20; x53; x74; x75; x64; x69; x6f; x20; x53; x6f; x6c; x75; x74; x69; x6f; x6e; x20; x46; x69; x6c; x65; x2c; x20; x46; x6f; x72; x6d; x61; x74; x20; x56; x65; x72; x73; x69; x6f; x6e; x20])] (* signatures.rs:8 Microsoft.Visual.Studio.Solution.File,.Format.Version. *)
   ]);
  (Abiword, (* signatures.rs:11 *)
   [
    [(0%N, [xef; xbb; xbf; x3c; x21; x44; x4f; x43; x54; x59; x50; x45; x20; x61; x62; x69; x77; x6f; x72; x64; x20; x50; x55; x42; x4c; x49; x43]); (102%N, [x3c; x61; x62; x69; x77; x6f; x72; x64; x20; x74; x65; x6d; x70; x6c; x61; x74; x65; x3d; x22; x66; x61; x6c; x73; x65; x22])] (* signatures.rs:12 ...<!DOCTYPE.abiword.PUBLIC <abiword.template=.false. *);
    [(0%N, [x3c; x21; x44; x4f; x43; x54; x59; x50; x45; x20; x61; x62; x69; x77; x6f; x72; x64; x20; x50; x55; x42; x4c; x49; x43]); (102%N, [x3c; x61; x62; x69; x77; x6f; x72; x64; x20; x74; x65; x6d; x70; x6c; x61; x74; x65; x3d; x22; x66; x61; x6c; x73; x65; x22])] (* signatures.rs:13 <!DOCTYPE.abiword.PUBLIC <abiword.template=.false. *);
    [(0%N, [xef; xbb; xbf; x3c; x61; x62; x69; x77; x6f; x72; x64; x20; x74; x65; x6d; x70; x6c; x61; x74; x65; x3d; x22; x66; x61; x6c; x73; x65; x22])] (* signatures.rs:14 ...<abiword.template=.false. *);
    [(0%N, [x3c; x61; x62; x69; x77; x6f; x72; x64; x20; x74; x65; x6d; x70; x6c; x61; x74; x65; x3d; x22; x66; x61; x6c; x73; x65; x22])] (* signatures.rs:15 <abiword.template=.false. *)
   ]);
  (AbiwordTemplate, (* signatures.rs:18 *)
   [
    [(0%N, [xef; xbb; xbf; x3c; x21; x44; x4f; x43; x54; x59; x50; x45; x20; x61; x62; x69; x77; x6f; x72; x64; x20; x50; x55; x42; x4c; x49; x43]); (102%N, [x3c; x61; x62; x69; x77; x6f; x72; x64; x20; x74; x65; x6d; x70; x6c; x61; x74; x65; x3d; x22; x74; x72; x75; x65; x22])] (* signatures.rs:19 ...<!DOCTYPE.abiword.PUBLIC <abiword.template=.true. *);
    [(0%N, [x3c; x21; x44; x4f; x43; x54; x59; x50; x45; x20; x61; x62; x69; x77; x6f; x72; x64; x20; x50; x55; x42; x4c; x49; x43]); (102%N, [x3c; x61; x62; x69; x77; x6f; x72; x64; x20; x74; x65; x6d; x70; x6c; x61; x74; x65; x3d; x22; x74; x72; x75; x65; x22])] (* signatures.rs:20 <!DOCTYPE.abiword.PUBLIC <abiword.template=.true. *);
    [(0%N, [xef; xbb; xbf; x3c; x61; x62; x69; x77; x6f; x72; x64; x20; x74; x65; x6d; x70; x6c; x61; x74; x65; x3d; x22; x74; x72; x75; x65; x22])] (* signatures.rs:21 ...<abiword.template=.true. *);
    [(0%N, [x3c; x61; x62; x69; x77; x6f; x72; x64; x20; x74; x65; x6d; x70; x6c; x61; x74; x65; x3d; x22; x74; x72; x75; x65; x22])] (* signatures.rs:22 <abiword.template=.true. *)
   ]);
  (JsonFeed, (* signatures.rs:25 *)
   [
    [(0%N, [x7b; x0d; x0a; x20; x20; x20; x20; x22; x76; x65; x72; x73; x69; x6f; x6e; x22; x3a; x20; x22; x68; x74; x74; x70; x73; x3a; x2f; x2f; x6a; x73; x6f; x6e; x66; x65; x65; x64; x2e; x6f; x72; x67; x2f; x76; x65; x72; x73; x69; x6f; x6e; x2f])] (* signatures.rs:26 {.......version.:..https://jsonfeed.org/version/ *);
    [(0%N, [x7b; x0a; x20; x20; x20; x20; x22; x76; x65; x72; x73; x69; x6f; x6e; x22; x3a; x20; x22; x68; x74; x74; x70; x73; x3a; x2f; x2f; x6a; x73; x6f; x6e; x66; x65; x65; x64; x2e; x6f; x72; x67; x2f; x76; x65; x72; x73; x69; x6f; x6e; x2f])] (* signatures.rs:27 {......version.:..https://jsonfeed.org/version/ *);
    [(0%N, [x7b; x0d; x20; x20; x20; x20; x22; x76; x65; x72; x73; x69; x6f; x6e; x22; x3a; x20; x22; x68; x74; x74; x70; x73; x3a; x2f; x2f; x6a; x73; x6f; x6e; x66; x65; x65; x64; x2e; x6f; x72; x67; x2f; x76; x65; x72; x73; x69; x6f; x6e; x2f])] (* signatures.rs:28 {......version.:..https://jsonfeed.org/version/ *);
    [(0%N, [x7b; x0d; x0a; x20; x20; x22; x76; x65; x72; x73; x69; x6f; x6e; x22; x3a; x20; x22; x68; x74; x74; x70; x73; x3a; x2f; x2f; x6a; x73; x6f; x6e; x66; x65; x65; x64; x2e; x6f; x72; x67; x2f; x76; x65; x72; x73; x69; x6f; x6e; x2f])] (* signatures.rs:29 {.....version.:..https://jsonfeed.org/version/ *);
    [(0%N, [x7b; x0d; x0a; x09; x22; x76; x65; x72; x73; x69; x6f; x6e; x22; x3a; x20; x22; x68; x74; x74; x70; x73; x3a; x2f; x2f; x6a; x73; x6f; x6e; x66; x65; x65; x64; x2e; x6f; x72; x67; x2f; x76; x65; x72; x73; x69; x6f; x6e; x2f])] (* signatures.rs:30 {....version.:..https://jsonfeed.org/version/ *);
    [(0%N, [x7b; x0a; x20; x20; x22; x76; x65; x72; x73; x69; x6f; x6e; x22; x3a; x20; x22; x68; x74; x74; x70; x73; x3a; x2f; x2f; x6a; x73; x6f; x6e; x66; x65; x65; x64; x2e; x6f; x72; x67; x2f; x76; x65; x72; x73; x69; x6f; x6e; x2f])] (* signatures.rs:31 {....version.:..https://jsonfeed.org/version/ *);
    [(0%N, [x7b; x0a; x09; x22; x76; x65; x72; x73; x69; x6f; x6e; x22; x3a; x20; x22; x68; x74; x74; x70; x73; x3a; x2f; x2f; x6a; x73; x6f; x6e; x66; x65; x65; x64; x2e; x6f; x72; x67; x2f; x76; x65; x72; x73; x69; x6f; x6e; x2f])] (* signatures.rs:32 {...version.:..https://jsonfeed.org/version/ *);
    [(0%N, [x7b; x0d; x20; x20; x22; x76; x65; x72; x73; x69; x6f; x6e; x22; x3a; x20; x22; x68; x74; x74; x70; x73; x3a; x2f; x2f; x6a; x73; x6f; x6e; x66; x65; x65; x64; x2e; x6f; x72; x67; x2f; x76; x65; x72; x73; x69; x6f; x6e; x2f])] (* signatures.rs:33 {....version.:..https://jsonfeed.org/version/ *);
    [(0%N, [x7b; x0d; x09; x22; x76; x65; x72; x73; x69; x6f; x6e; x22; x3a; x20; x22; x68; x74; x74; x70; x73; x3a; x2f; x2f; x6a; x73; x6f; x6e; x66; x65; x65; x64; x2e; x6f; x72; x67; x2f; x76; x65; x72; x73; x69; x6f; x6e; x2f])] (* signatures.rs:34 {...version.:..https://jsonfeed.org/version/ *);
    [(0%N, [x7b; x22; x76; x65; x72; x73; x69; x6f; x6e; x22; x3a; x22; x68; x74; x74; x70; x73; x3a; x2f; x2f; x6a; x73; x6f; x6e; x66; x65; x65; x64; x2e; x6f; x72; x67; x2f; x76; x65; x72; x73; x69; x6f; x6e; x2f])] (* signatures.rs:35 {.version.:.https://jsonfeed.org/version/ *)
   ]);
  (TimedTextMarkupLanguage, (* signatures.rs:38 *)
   [
    [(0%N, [xef; xbb; xbf; x3c; x74; x74; x20; x78; x6d; x6c; x6e; x73; x3d; x22; x68; x74; x74; x70; x3a; x2f; x2f; x77; x77; x77; x2e; x77; x33; x2e; x6f; x72; x67; x2f; x6e; x73; x2f; x74; x74; x6d; x6c; x22])] (* signatures.rs:39 ...<tt.xmlns=.http://www.w3.org/ns/ttml. *);
    [(0%N, [x3c; x74; x74; x20; x78; x6d; x6c; x6e; x73; x3d; x22; x68; x74; x74; x70; x3a; x2f; x2f; x77; x77; x77; x2e; x77; x33; x2e; x6f; x72; x67; x2f; x6e; x73; x2f; x74; x74; x6d; x6c; x22])] (* signatures.rs:40 <tt.xmlns=.http://www.w3.org/ns/ttml. *)
   ]);
  (VirtualboxVirtualDiskImage, (* signatures.rs:43 *)
   [
    [(0%N, [x3c; x3c; x3c; x20; x4f; x72; x61; x63; x6c; x65; x20; x56; x4d; x20; x56; x69; x72; x74; x75; x61; x6c; x42; x6f; x78; x20; x44; x69; x73; x6b; x20; x49; x6d; x61; x67; x65; x20; x3e; x3e; x3e])] (* signatures.rs:44 <<<.Oracle.VM.VirtualBox.Disk.Image.>>> *)
   ]);
  (PemPrivateKey, (* signatures.rs:47 *)
   [
    [(0%N, [x2d; x2d; x2d; x2d; x2d; x42; x45; x47; x49; x4e; x20; x45; x4e; x43; x52; x59; x50; x54; x45; x44; x20; x50; x52; x49; x56; x41; x54; x45; x20; x4b; x45; x59; x2d; x2d; x2d; x2d; x2d])] (* signatures.rs:48 -----BEGIN.ENCRYPTED.PRIVATE.KEY----- *);
    [(0%N, [x2d; x2d; x2d; x2d; x2d; x42; x45; x47; x49; x4e; x20; x45; x43; x44; x53; x41; x20; x50; x52; x49; x56; x41; x54; x45; x20; x4b; x45; x59; x2d; x2d; x2d; x2d; x2d])] (* signatures.rs:49 -----BEGIN.ECDSA.PRIVATE.KEY----- *);
    [(0%N, [x2d; x2d; x2d; x2d; x2d; x42; x45; x47; x49; x4e; x20; x44; x53; x41; x20; x50; x52; x49; x56; x41; x54; x45; x20; x4b; x45; x59; x2d; x2d; x2d; x2d; x2d])] (* signatures.rs:50 -----BEGIN.DSA.PRIVATE.KEY----- *);
    [(0%N, [x2d; x2d; x2d; x2d; x2d; x42; x45; x47; x49; x4e; x20; x52; x53; x41; x20; x50; x52; x49; x56; x41; x54; x45; x20; x4b; x45; x59; x2d; x2d; x2d; x2d; x2d])] (* signatures.rs:51 -----BEGIN.RSA.PRIVATE.KEY----- *);
    [(0%N, [x2d; x2d; x2d; x2d; x2d; x42; x45; x47; x49; x4e; x20; x45; x43; x20; x50; x52; x49; x56; x41; x54; x45; x20; x4b; x45; x59; x2d; x2d; x2d; x2d; x2d])] (* signatures.rs:52 -----BEGIN.EC.PRIVATE.KEY----- *);
    [(0%N, [x2d; x2d; x2d; x2d; x2d; x42; x45; x47; x49; x4e; x20; x50; x52; x49; x56; x41; x54; x45; x20; x4b; x45; x59; x2d; x2d; x2d; x2d; x2d])] (* signatures.rs:53 -----BEGIN.PRIVATE.KEY----- *)
   ]);
  (PgpPrivateKeyBlock, (* signatures.rs:55 *)
   [
    [(0%N, [x2d; x2d; x2d; x2d; x2d; x42; x45; x47; x49; x4e; x20; x50; x47; x50; x20; x50; x52; x49; x56; x41; x54; x45; x20; x4b; x45; x59; x20; x42; x4c; x4f; x43; x4b; x2d; x2d; x2d; x2d; x2d])] (* signatures.rs:56 -----BEGIN.PGP.PRIVATE.KEY.BLOCK----- *)
   ]);
  (PgpPublicKeyBlock, (* signatures.rs:59 *)
   [
    [(0%N, [x2d; x2d; x2d; x2d; x2d; x42; x45; x47; x49; x4e; x20; x50; x47; x50; x20; x50; x55; x42; x4c; x49; x43; x20; x4b; x45; x59; x20; x42; x4c; x4f; x43; x4b; x2d; x2d; x2d; x2d; x2d])] (* signatures.rs:60 -----BEGIN.PGP.PUBLIC.KEY.BLOCK----- *)
   ]);
  (PemCertificateSigningRequest, (* signatures.rs:63 *)
   [
    [(0%N, [x2d; x2d; x2d; x2d; x2d; x42; x45; x47; x49; x4e; x20; x43; x45; x52; x54; x49; x46; x49; x43; x41; x54; x45; x20; x52; x45; x51; x55; x45; x53; x54; x2d; x2d; x2d; x2d; x2d])] (* signatures.rs:64 -----BEGIN.CERTIFICATE.REQUEST----- *)
   ]);
  (PgpSignedMessage, (* signatures.rs:67 *)
   [
    [(0%N, [x2d; x2d; x2d; x2d; x2d; x42; x45; x47; x49; x4e; x20; x50; x47; x50; x20; x53; x49; x47; x4e; x45; x44; x20; x4d; x45; x53; x53; x41; x47; x45; x2d; x2d; x2d; x2d; x2d])] (* signatures.rs:68 -----BEGIN.PGP.SIGNED.MESSAGE----- *)
   ]);
  (MicrosoftReader, (* signatures.rs:71 *)
   [
    [(0%N, [x49; x54; x4f; x4c; x49; x54; x4c; x53; x01; x00; x00; x00; x28; x00; x00; x00]); (24%N, [xc1; x07; x90; x0a; x76; x40; xd3; x11; x87; x89; x00; x00; xf8; x10; x57; x54])] (* signatures.rs:72 ITOLITLS........ ....v@........WT *)
   ]);
  (PemPublicKey, (* signatures.rs:74 *)
   [
    [(0%N, [x2d; x2d; x2d; x2d; x2d; x42; x45; x47; x49; x4e; x20; x45; x43; x44; x53; x41; x20; x50; x55; x42; x4c; x49; x43; x20; x4b; x45; x59; x2d; x2d; x2d; x2d; x2d])] (* signatures.rs:75 -----BEGIN.ECDSA.PUBLIC.KEY----- *);
    [(0%N, [x2d; x2d; x2d; x2d; x2d; x42; x45; x47; x49; x4e; x20; x44; x53; x41; x20; x50; x55; x42; x4c; x49; x43; x20; x4b; x45; x59; x2d; x2d; x2d; x2d; x2d])] (* signatures.rs:76 -----BEGIN.DSA.PUBLIC.KEY----- *);
    [(0%N, [x2d; x2d; x2d; x2d; x2d; x42; x45; x47; x49; x4e; x20; x52; x53; x41; x20; x50; x55; x42; x4c; x49; x43; x20; x4b; x45; x59; x2d; x2d; x2d; x2d; x2d])] (* signatures.rs:77 -----BEGIN.RSA.PUBLIC.KEY----- *);
    [(0%N, [x2d; x2d; x2d; x2d; x2d; x42; x45; x47; x49; x4e; x20; x45; x43; x20; x50; x55; x42; x4c; x49; x43; x20; x4b; x45; x59; x2d; x2d; x2d; x2d; x2d])] (* signatures.rs:78 -----BEGIN.EC.PUBLIC.KEY----- *);
    [(0%N, [x2d; x2d; x2d; x2d; x2d; x42; x45; x47; x49; x4e; x20; x50; x55; x42; x4c; x49; x43; x20; x4b; x45; x59; x2d; x2d; x2d; x2d; x2d])] (* signatures.rs:79 -----BEGIN.PUBLIC.KEY----- *)
   ]);
  (PolygonBinary, (* signatures.rs:81 *)
   [
    [(0%N, [x70; x6c; x79; x0d; x0a; x66; x6f; x72; x6d; x61; x74; x20; x62; x69; x6e; x61; x72; x79; x5f; x6c; x69; x74; x74; x6c; x65; x5f; x65; x6e; x64; x69; x61; x6e])] (* signatures.rs:82 ply..format.binary_little_endian *);
    [(0%N, [x70; x6c; x79; x0a; x66; x6f; x72; x6d; x61; x74; x20; x62; x69; x6e; x61; x72; x79; x5f; x6c; x69; x74; x74; x6c; x65; x5f; x65; x6e; x64; x69; x61; x6e])] (* signatures.rs:83 ply.format.binary_little_endian *);
    [(0%N, [x70; x6c; x79; x0d; x66; x6f; x72; x6d; x61; x74; x20; x62; x69; x6e; x61; x72; x79; x5f; x6c; x69; x74; x74; x6c; x65; x5f; x65; x6e; x64; x69; x61; x6e])] (* signatures.rs:84 ply.format.binary_little_endian *);
    [(0%N, [x70; x6c; x79; x0d; x0a; x66; x6f; x72; x6d; x61; x74; x20; x62; x69; x6e; x61; x72; x79; x5f; x62; x69; x67; x5f; x65; x6e; x64; x69; x61; x6e])] (* signatures.rs:85 ply..format.binary_big_endian *);
    [(0%N, [x70; x6c; x79; x0a; x66; x6f; x72; x6d; x61; x74; x20; x62; x69; x6e; x61; x72; x79; x5f; x62; x69; x67; x5f; x65; x6e; x64; x69; x61; x6e])] (* signatures.rs:86 ply.format.binary_big_endian *);
    [(0%N, [x70; x6c; x79; x0d; x66; x6f; x72; x6d; x61; x74; x20; x62; x69; x6e; x61; x72; x79; x5f; x62; x69; x67; x5f; x65; x6e; x64; x69; x61; x6e])] (* signatures.rs:87 ply.format.binary_big_endian *)
   ]);
  (Sketchup, (* signatures.rs:89 *)
   [
    [(0%N, [xff; xfe; xff; x0e; x53; x00; x6b; x00; x65; x00; x74; x00; x63; x00; x68; x00; x55; x00; x70; x00; x20; x00; x4d; x00; x6f; x00; x64; x00; x65; x00; x6c; x00])] (* signatures.rs:90 ....S.k.e.t.c.h.U.p...M.o.d.e.l. *)
   ]);
  (FlexibleImageTransportSystem, (* signatures.rs:93 *)
   [
    [(0%N, [x53; x49; x4d; x50; x4c; x45; x20; x20; x3d; x20; x20; x20; x20; x20; x20; x20; x20; x20; x20; x20; x20; x20; x20; x20; x20; x20; x20; x20; x20; x54])] (* signatures.rs:94 SIMPLE..=....................T *)
   ]);
  (NeoGeoPocketColorRom, (* signatures.rs:97 *)
   [
    [(0%N, [x20; x4c; x49; x43; x45; x4e; x53; x45; x44; x20; x42; x59; x20; x53; x4e; x4b; x20; x43; x4f; x52; x50; x4f; x52; x41; x54; x49; x4f; x4e]); (35%N, [x10])] (* signatures.rs:98 .LICENSED.BY.SNK.CORPORATION . *);
    [(0%N, [x43; x4f; x50; x59; x52; x49; x47; x48; x54; x20; x42; x59; x20; x53; x4e; x4b; x20; x43; x4f; x52; x50; x4f; x52; x41; x54; x49; x4f; x4e]); (35%N, [x10])] (* signatures.rs:99 COPYRIGHT.BY.SNK.CORPORATION . *)
   ]);
  (PgpSignature, (* signatures.rs:101 *)
   [
    [(0%N, [x2d; x2d; x2d; x2d; x2d; x42; x45; x47; x49; x4e; x20; x50; x47; x50; x20; x53; x49; x47; x4e; x41; x54; x55; x52; x45; x2d; x2d; x2d; x2d; x2d])] (* signatures.rs:102 -----BEGIN.PGP.SIGNATURE----- *)
   ]);
  (NeoGeoPocketRom, (* signatures.rs:105 *)
   [
    [(0%N, [x20; x4c; x49; x43; x45; x4e; x53; x45; x44; x20; x42; x59; x20; x53; x4e; x4b; x20; x43; x4f; x52; x50; x4f; x52; x41; x54; x49; x4f; x4e])] (* signatures.rs:106 .LICENSED.BY.SNK.CORPORATION *);
    [(0%N, [x43; x4f; x50; x59; x52; x49; x47; x48; x54; x20; x42; x59; x20; x53; x4e; x4b; x20; x43; x4f; x52; x50; x4f; x52; x41; x54; x49; x4f; x4e])] (* signatures.rs:107 COPYRIGHT.BY.SNK.CORPORATION *)
   ]);
  (Vcalendar, (* signatures.rs:109 *)
   [
    [(0%N, [x42; x45; x47; x49; x4e; x3a; x56; x43; x41; x4c; x45; x4e; x44; x41; x52; x0d; x0a; x56; x45; x52; x53; x49; x4f; x4e; x3a; x31; x2e; x30])] (* signatures.rs:110 BEGIN:VCALENDAR..VERSION:1.0 *);
    [(0%N, [x42; x45; x47; x49; x4e; x3a; x56; x43; x41; x4c; x45; x4e; x44; x41; x52; x0a; x56; x45; x52; x53; x49; x4f; x4e; x3a; x31; x2e; x30])] (* signatures.rs:111 BEGIN:VCALENDAR.VERSION:1.0 *);
    [(0%N, [x42; x45; x47; x49; x4e; x3a; x56; x43; x41; x4c; x45; x4e; x44; x41; x52; x0d; x56; x45; x52; x53; x49; x4f; x4e; x3a; x31; x2e; x30])] (* signatures.rs:112 BEGIN:VCALENDAR.VERSION:1.0 *)
   ]);
  (PemCertificate, (* signatures.rs:115 *)
   [
    [(0%N, [x2d; x2d; x2d; x2d; x2d; x42; x45; x47; x49; x4e; x20; x43; x45; x52; x54; x49; x46; x49; x43; x41; x54; x45; x2d; x2d; x2d; x2d; x2d])] (* signatures.rs:116 -----BEGIN.CERTIFICATE----- *)
   ]);
  (PgpMessage, (* signatures.rs:118 *)
   [
    [(0%N, [x2d; x2d; x2d; x2d; x2d; x42; x45; x47; x49; x4e; x20; x50; x47; x50; x20; x4d; x45; x53; x53; x41; x47; x45; x2d; x2d; x2d; x2d; x2d])] (* signatures.rs:119 -----BEGIN.PGP.MESSAGE----- *)
   ]);
  (TrainingCenterXml, (* signatures.rs:122 *)
   [
    [(0%N, [xef; xbb; xbf; x3c; x54; x72; x61; x69; x6e; x69; x6e; x67; x43; x65; x6e; x74; x65; x72; x44; x61; x74; x61; x62; x61; x73; x65])] (* signatures.rs:123 ...<TrainingCenterDatabase *);
    [(0%N, [x3c; x54; x72; x61; x69; x6e; x69; x6e; x67; x43; x65; x6e; x74; x65; x72; x44; x61; x74; x61; x62; x61; x73; x65])] (* signatures.rs:124 <TrainingCenterDatabase *)
   ]);
  (ClojureScript, (* signatures.rs:127 *)
   [
    [(0%N, [x23; x21; x2f; x75; x73; x72; x2f; x6c; x6f; x63; x61; x6c; x2f; x62; x69; x6e; x2f; x63; x6c; x6f; x6a; x75; x72; x65])] (* signatures.rs:128 #!/usr/local/bin/clojure *);
    [(0%N, [x23; x21; x2f; x75; x73; x72; x2f; x62; x69; x6e; x2f; x65; x6e; x76; x20; x63; x6c; x6f; x6a; x75; x72; x65])] (* signatures.rs:129 #!/usr/bin/env.clojure *);
    [(0%N, [x23; x21; x2f; x75; x73; x72; x2f; x6c; x6f; x63; x61; x6c; x2f; x62; x69; x6e; x2f; x63; x6c; x6a])] (* signatures.rs:130 #!/usr/local/bin/clj *);
    [(0%N, [x23; x21; x2f; x75; x73; x72; x2f; x62; x69; x6e; x2f; x63; x6c; x6f; x6a; x75; x72; x65])] (* signatures.rs:131 #!/usr/bin/clojure *);
    [(0%N, [x23; x21; x2f; x75; x73; x72; x2f; x62; x69; x6e; x2f; x65; x6e; x76; x20; x63; x6c; x6a])] (* signatures.rs:132 #!/usr/bin/env.clj *);
    [(0%N, [x23; x21; x2f; x75; x73; x72; x2f; x62; x69; x6e; x2f; x63; x6c; x6a])] (* signatures.rs:133 #!/usr/bin/clj *)
   ]);
  (MathematicalMarkupLanguage, (* signatures.rs:135 *)
   [
    [(0%N, [xef; xbb; xbf; x3c; x21; x44; x4f; x43; x54; x59; x50; x45; x20; x6d; x61; x74; x68; x20; x50; x55; x42; x4c; x49; x43])] (* signatures.rs:136 ...<!DOCTYPE.math.PUBLIC *);
    [(0%N, [x3c; x21; x44; x4f; x43; x54; x59; x50; x45; x20; x6d; x61; x74; x68; x20; x50; x55; x42; x4c; x49; x43])] (* signatures.rs:137 <!DOCTYPE.math.PUBLIC *);
    [(0%N, [xef; xbb; xbf; x3c; x6d; x61; x74; x68])] (* signatures.rs:138 ...<math *);
    [(0%N, [x3c; x6d; x61; x74; x68])] (* signatures.rs:139 <math *)
   ]);
  (Extensible3d, (* signatures.rs:142 *)
   [
    [(0%N, [xef; xbb; xbf; x3c; x21; x44; x4f; x43; x54; x59; x50; x45; x20; x58; x33; x44; x20; x50; x55; x42; x4c; x49; x43])] (* signatures.rs:143 ...<!DOCTYPE.X3D.PUBLIC *);
    [(0%N, [x3c; x21; x44; x4f; x43; x54; x59; x50; x45; x20; x58; x33; x44; x20; x50; x55; x42; x4c; x49; x43])] (* signatures.rs:144 <!DOCTYPE.X3D.PUBLIC *);
    [(0%N, [xef; xbb; xbf; x3c; x58; x33; x44])] (* signatures.rs:145 ...<X3D *);
    [(0%N, [xef; xbb; xbf; x3c; x78; x33; x64])] (* signatures.rs:146 ...<x3d *);
    [(0%N, [x3c; x58; x33; x44])] (* signatures.rs:147 <X3D *);
    [(0%N, [x3c; x78; x33; x64])] (* signatures.rs:148 <x3d *)
   ]);
  (Opennurbs, (* signatures.rs:150 *)
   [
    [(0%N, [x33; x44; x20; x47; x65; x6f; x6d; x65; x74; x72; x79; x20; x46; x69; x6c; x65; x20; x46; x6f; x72; x6d; x61; x74])] (* signatures.rs:151 3D.Geometry.File.Format *)
   ]);
  (PythonScript, (* signatures.rs:153 *)
   [
    [(0%N, [x23; x21; x2f; x75; x73; x72; x2f; x6c; x6f; x63; x61; x6c; x2f; x62; x69; x6e; x2f; x70; x79; x74; x68; x6f; x6e])] (* signatures.rs:154 #!/usr/local/bin/python *);
    [(0%N, [x23; x21; x2f; x75; x73; x72; x2f; x62; x69; x6e; x2f; x65; x6e; x76; x20; x70; x79; x74; x68; x6f; x6e])] (* signatures.rs:155 #!/usr/bin/env.python *);
    [(0%N, [x23; x21; x2f; x75; x73; x72; x2f; x62; x69; x6e; x2f; x70; x79; x74; x68; x6f; x6e])] (* signatures.rs:156 #!/usr/bin/python *)
   ]);
  (CreativeVoice, (* signatures.rs:159 *)
   [
    [(0%N, [x43; x72; x65; x61; x74; x69; x76; x65; x20; x56; x6f; x69; x63; x65; x20; x46; x69; x6c; x65; x1a; x1a; x00])] (* signatures.rs:160 Creative.Voice.File... *)
   ]);
  (ToolCommandLanguageScript, (* signatures.rs:162 *)
   [
    [(0%N, [x23; x21; x2f; x75; x73; x72; x2f; x6c; x6f; x63; x61; x6c; x2f; x62; x69; x6e; x2f; x74; x63; x6c; x73; x68])] (* signatures.rs:163 #!/usr/local/bin/tclsh *);
    [(0%N, [x23; x21; x2f; x75; x73; x72; x2f; x6c; x6f; x63; x61; x6c; x2f; x62; x69; x6e; x2f; x77; x69; x73; x68])] (* signatures.rs:164 #!/usr/local/bin/wish *);
    [(0%N, [x23; x21; x2f; x75; x73; x72; x2f; x62; x69; x6e; x2f; x65; x6e; x76; x20; x74; x63; x6c; x73; x68])] (* signatures.rs:165 #!/usr/bin/env.tclsh *);
    [(0%N, [x23; x21; x2f; x75; x73; x72; x2f; x6c; x6f; x63; x61; x6c; x2f; x62; x69; x6e; x2f; x74; x63; x6c])] (* signatures.rs:166 #!/usr/local/bin/tcl *);
    [(0%N, [x23; x21; x2f; x75; x73; x72; x2f; x62; x69; x6e; x2f; x65; x6e; x76; x20; x77; x69; x73; x68])] (* signatures.rs:167 #!/usr/bin/env.wish *);
    [(0%N, [x23; x21; x2f; x75; x73; x72; x2f; x62; x69; x6e; x2f; x65; x6e; x76; x20; x74; x63; x6c])] (* signatures.rs:168 #!/usr/bin/env.tcl *);
    [(0%N, [x23; x21; x2f; x75; x73; x72; x2f; x62; x69; x6e; x2f; x74; x63; x6c; x73; x68])] (* signatures.rs:169 #!/usr/bin/tclsh *);
    [(0%N, [x23; x21; x2f; x75; x73; x72; x2f; x62; x69; x6e; x2f; x77; x69; x73; x68])] (* signatures.rs:170 #!/usr/bin/wish *);
    [(0%N, [x23; x21; x2f; x75; x73; x72; x2f; x62; x69; x6e; x2f; x74; x63; x6c])] (* signatures.rs:171 #!/usr/bin/tcl *)
   ]);
  (DebianPackage, (* signatures.rs:174 *)
   [
    [(0%N, [x21; x3c; x61; x72; x63; x68; x3e; x0a; x64; x65; x62; x69; x61; x6e; x2d; x62; x69; x6e; x61; x72; x79])] (* signatures.rs:175 !<arch>.debian-binary *)
   ]);
  (Filmbox, (* signatures.rs:177 *)
   [
    [(0%N, [x4b; x61; x79; x64; x61; x72; x61; x20; x46; x42; x58; x20; x42; x69; x6e; x61; x72; x79; x20; x20; x00])] (* signatures.rs:178 Kaydara.FBX.Binary... *)
   ]);
  (RubyScript, (* signatures.rs:180 *)
   [
    [(0%N, [x23; x21; x2f; x75; x73; x72; x2f; x6c; x6f; x63; x61; x6c; x2f; x62; x69; x6e; x2f; x72; x75; x62; x79])] (* signatures.rs:181 #!/usr/local/bin/ruby *);
    [(0%N, [x23; x21; x2f; x75; x73; x72; x2f; x62; x69; x6e; x2f; x65; x6e; x76; x20; x72; x75; x62; x79])] (* signatures.rs:182 #!/usr/bin/env.ruby *);
    [(0%N, [x23; x21; x2f; x75; x73; x72; x2f; x62; x69; x6e; x2f; x72; x75; x62; x79])] (* signatures.rs:183 #!/usr/bin/ruby *)
   ]);
  (ShellScript, (* signatures.rs:185 *)
   [
    [(0%N, [x23; x21; x2f; x75; x73; x72; x2f; x6c; x6f; x63; x61; x6c; x2f; x62; x69; x6e; x2f; x62; x61; x73; x68])] (* signatures.rs:186 #!/usr/local/bin/bash *);
    [(0%N, [x23; x21; x2f; x75; x73; x72; x2f; x6c; x6f; x63; x61; x6c; x2f; x62; x69; x6e; x2f; x66; x69; x73; x68])] (* signatures.rs:187 #!/usr/local/bin/fish *);
    [(0%N, [x23; x21; x2f; x75; x73; x72; x2f; x6c; x6f; x63; x61; x6c; x2f; x62; x69; x6e; x2f; x74; x63; x73; x68])] (* signatures.rs:188 #!/usr/local/bin/tcsh *);
    [(0%N, [x23; x21; x2f; x75; x73; x72; x2f; x6c; x6f; x63; x61; x6c; x2f; x62; x69; x6e; x2f; x61; x73; x68])] (* signatures.rs:189 #!/usr/local/bin/ash *);
    [(0%N, [x23; x21; x2f; x75; x73; x72; x2f; x6c; x6f; x63; x61; x6c; x2f; x62; x69; x6e; x2f; x7a; x73; x68])] (* signatures.rs:190 #!/usr/local/bin/zsh *);
    [(0%N, [x23; x21; x2f; x75; x73; x72; x2f; x62; x69; x6e; x2f; x65; x6e; x76; x20; x62; x61; x73; x68])] (* signatures.rs:191 #!/usr/bin/env.bash *);
    [(0%N, [x23; x21; x2f; x75; x73; x72; x2f; x62; x69; x6e; x2f; x65; x6e; x76; x20; x66; x69; x73; x68])] (* signatures.rs:192 #!/usr/bin/env.fish *);
    [(0%N, [x23; x21; x2f; x75; x73; x72; x2f; x62; x69; x6e; x2f; x65; x6e; x76; x20; x7a; x73; x68])] (* signatures.rs:193 #!/usr/bin/env.zsh *);
    [(0%N, [x23; x21; x2f; x75; x73; x72; x2f; x6c; x6f; x63; x61; x6c; x2f; x62; x61; x73; x68])] (* signatures.rs:194 #!/usr/local/bash *);
    [(0%N, [x23; x21; x2f; x75; x73; x72; x2f; x6c; x6f; x63; x61; x6c; x2f; x74; x63; x73; x68])] (* signatures.rs:195 #!/usr/local/tcsh *);
    [(0%N, [x23; x21; x2f; x75; x73; x72; x2f; x62; x69; x6e; x2f; x62; x61; x73; x68])] (* signatures.rs:196 #!/usr/bin/bash *);
    [(0%N, [x23; x21; x2f; x75; x73; x72; x2f; x62; x69; x6e; x2f; x66; x69; x73; x68])] (* signatures.rs:197 #!/usr/bin/fish *);
    [(0%N, [x23; x21; x2f; x75; x73; x72; x2f; x62; x69; x6e; x2f; x74; x63; x73; x68])] (* signatures.rs:198 #!/usr/bin/tcsh *);
    [(0%N, [x23; x21; x2f; x75; x73; x72; x2f; x62; x69; x6e; x2f; x7a; x73; x68])] (* signatures.rs:199 #!/usr/bin/zsh *);
    [(0%N, [x23; x21; x2f; x62; x69; x6e; x2f; x62; x61; x73; x68])] (* signatures.rs:200 #!/bin/bash *);
    [(0%N, [x23; x21; x2f; x62; x69; x6e; x2f; x74; x63; x73; x68])] (* signatures.rs:201 #!/bin/tcsh *);
    [(0%N, [x23; x21; x2f; x62; x69; x6e; x2f; x61; x73; x68])] (* signatures.rs:202 #!/bin/ash *);
    [(0%N, [x23; x21; x2f; x62; x69; x6e; x2f; x63; x73; x68])] (* signatures.rs:203 #!/bin/csh *);
    [(0%N, [x23; x21; x2f; x62; x69; x6e; x2f; x6b; x73; x68])] (* signatures.rs:204 #!/bin/ksh *);
    [(0%N, [x23; x21; x2f; x62; x69; x6e; x2f; x7a; x73; x68])] (* signatures.rs:205 #!/bin/zsh *);
    [(0%N, [x23; x21; x2f; x62; x69; x6e; x2f; x73; x68])] (* signatures.rs:206 #!/bin/sh *)
   ]);
  (WindowsMediaPlaylist, (* signatures.rs:208 *)
   [
    [(0%N, [x3c; x3f; x77; x70; x6c; x20; x76; x65; x72; x73; x69; x6f; x6e; x3d; x22; x31; x2e; x30; x22; x3f; x3e])] (* signatures.rs:209 <?wpl.version=.1.0.?> *)
   ]);
  (InterQuakeExport, (* signatures.rs:212 *)
   [
    [(0%N, [x23; x20; x49; x6e; x74; x65; x72; x2d; x51; x75; x61; x6b; x65; x20; x45; x78; x70; x6f; x72; x74])] (* signatures.rs:213 #.Inter-Quake.Export *)
   ]);
  (LuaScript, (* signatures.rs:215 *)
   [
    [(0%N, [x23; x21; x2f; x75; x73; x72; x2f; x6c; x6f; x63; x61; x6c; x2f; x62; x69; x6e; x2f; x6c; x75; x61])] (* signatures.rs:216 #!/usr/local/bin/lua *);
    [(0%N, [x23; x21; x2f; x75; x73; x72; x2f; x62; x69; x6e; x2f; x65; x6e; x76; x20; x6c; x75; x61])] (* signatures.rs:217 #!/usr/bin/env.lua *);
    [(0%N, [x23; x21; x2f; x75; x73; x72; x2f; x62; x69; x6e; x2f; x6c; x75; x61])] (* signatures.rs:218 #!/usr/bin/lua *)
   ]);
  (WindowsShortcut, (* signatures.rs:220 *)
   [
    [(0%N, [x4c; x00; x00; x00; x01; x14; x02; x00; x00; x00; x00; x00; xc0; x00; x00; x00; x00; x00; x00; x46])] (* signatures.rs:221 L..................F *)
   ]);
  (AgeEncryption, (* signatures.rs:224 *)
   [
    [(0%N, [x61; x67; x65; x2d; x65; x6e; x63; x72; x79; x70; x74; x69; x6f; x6e; x2e; x6f; x72; x67; x2f])] (* signatures.rs:225 age-encryption.org/ *)
   ]);
  (PerlScript, (* signatures.rs:227 *)
   [
    [(0%N, [x23; x21; x2f; x75; x73; x72; x2f; x62; x69; x6e; x2f; x65; x6e; x76; x20; x70; x65; x72; x6c])] (* signatures.rs:228 #!/usr/bin/env.perl *);
    [(0%N, [x23; x21; x2f; x75; x73; x72; x2f; x62; x69; x6e; x2f; x70; x65; x72; x6c])] (* signatures.rs:229 #!/usr/bin/perl *)
   ]);
  (DrawingExchangeFormatBinary, (* signatures.rs:232 *)
   [
    [(0%N, [x41; x75; x74; x6f; x43; x41; x44; x20; x42; x69; x6e; x61; x72; x79; x20; x44; x58; x46])] (* signatures.rs:233 AutoCAD.Binary.DXF *)
   ]);
  (Glyphs, (* signatures.rs:235 *)
   [
    [(0%N, [x7b; x0d; x0a; x2e; x61; x70; x70; x56; x65; x72; x73; x69; x6f; x6e; x20; x3d; x20; x22])] (* signatures.rs:236 {...appVersion.=.. *);
    [(0%N, [x7b; x0a; x2e; x61; x70; x70; x56; x65; x72; x73; x69; x6f; x6e; x20; x3d; x20; x22])] (* signatures.rs:237 {..appVersion.=.. *);
    [(0%N, [x7b; x0d; x2e; x61; x70; x70; x56; x65; x72; x73; x69; x6f; x6e; x20; x3d; x20; x22])] (* signatures.rs:238 {..appVersion.=.. *)
   ]);
  (Musicxml, (* signatures.rs:240 *)
   [
    [(0%N, [xef; xbb; xbf; x3c; x73; x63; x6f; x72; x65; x2d; x70; x61; x72; x74; x77; x69; x73; x65])] (* signatures.rs:241 ...<score-partwise *);
    [(0%N, [x3c; x73; x63; x6f; x72; x65; x2d; x70; x61; x72; x74; x77; x69; x73; x65])] (* signatures.rs:242 <score-partwise *)
   ]);
  (AutodeskAlias, (* signatures.rs:245 *)
   [
    [(0%N, [x8f; x53; x74; x75; x64; x69; x6f; x50; x61; x63; x6b; x65; x74; x46; x69; x6c; x65])] (* signatures.rs:246 .StudioPacketFile *)
   ]);
  (EncapsulatedPostscript, (* signatures.rs:248 *)
   [
    [(0%N, [x25; x21; x50; x53; x2d; x41; x64; x6f; x62; x65; x2d]); (14%N, [x20; x45; x50; x53; x46; x2d])] (* signatures.rs:249 %!PS-Adobe- .EPSF- *);
    [(0%N, [xc5; xd0; xd3; xc6])] (* signatures.rs:250 .... *)
   ]);
  (HypertextMarkupLanguage, (* signatures.rs:252 *)
   [
    [(0%N, [xef; xbb; xbf; x3c; x21; x44; x4f; x43; x54; x59; x50; x45; x20; x48; x54; x4d; x4c])] (* signatures.rs:253 ...<!DOCTYPE.HTML *);
    [(0%N, [xef; xbb; xbf; x3c; x21; x44; x4f; x43; x54; x59; x50; x45; x20; x68; x74; x6d; x6c])] (* signatures.rs:254 ...<!DOCTYPE.html *);
    [(0%N, [xef; xbb; xbf; x3c; x21; x64; x6f; x63; x74; x79; x70; x65; x20; x48; x54; x4d; x4c])] (* signatures.rs:255 ...<!doctype.HTML *);
    [(0%N, [xef; xbb; xbf; x3c; x21; x64; x6f; x63; x74; x79; x70; x65; x20; x68; x74; x6d; x6c])] (* signatures.rs:256 ...<!doctype.html *);
    [(0%N, [x3c; x21; x44; x4f; x43; x54; x59; x50; x45; x20; x48; x54; x4d; x4c])] (* signatures.rs:257 <!DOCTYPE.HTML *);
    [(0%N, [x3c; x21; x44; x4f; x43; x54; x59; x50; x45; x20; x68; x74; x6d; x6c])] (* signatures.rs:258 <!DOCTYPE.html *);
    [(0%N, [x3c; x21; x64; x6f; x63; x74; x79; x70; x65; x20; x48; x54; x4d; x4c])] (* signatures.rs:259 <!doctype.HTML *);
    [(0%N, [x3c; x21; x64; x6f; x63; x74; x79; x70; x65; x20; x68; x74; x6d; x6c])] (* signatures.rs:260 <!doctype.html *)
   ]);
  (PolygonAscii, (* signatures.rs:262 *)
   [
    [(0%N, [x70; x6c; x79; x0d; x0a; x66; x6f; x72; x6d; x61; x74; x20; x61; x73; x63; x69; x69])] (* signatures.rs:263 ply..format.ascii *);
    [(0%N, [x70; x6c; x79; x0a; x66; x6f; x72; x6d; x61; x74; x20; x61; x73; x63; x69; x69])] (* signatures.rs:264 ply.format.ascii *);
    [(0%N, [x70; x6c; x79; x0d; x66; x6f; x72; x6d; x61; x74; x20; x61; x73; x63; x69; x69])] (* signatures.rs:265 ply.format.ascii *)
   ]);
  (AdobeIndesignDocument, (* signatures.rs:268 *)
   [
    [(0%N, [x06; x06; xed; xf5; xd8; x1d; x46; xe5; xbd; x31; xef; xe7; xfe; x74; xb7; x1d])] (* signatures.rs:269 ......F..1...t.. *)
   ]);
  (AdvancedSystemsFormat, (* signatures.rs:271 *)
   [
    [(0%N, [x30; x26; xb2; x75; x8e; x66; xcf; x11; xa6; xd9; x00; xaa; x00; x62; xce; x6c])] (* signatures.rs:272 0&.u.f.......b.l *)
   ]);
  (Fasttracker2ExtendedModule, (* signatures.rs:274 *)
   [
    [(0%N, [x45; x78; x74; x65; x6e; x64; x65; x64; x20; x4d; x6f; x64; x75; x6c; x65; x3a])] (* signatures.rs:275 Extended.Module: *)
   ]);
  (InterQuakeModel, (* signatures.rs:277 *)
   [
    [(0%N, [x49; x4e; x54; x45; x52; x51; x55; x41; x4b; x45; x4d; x4f; x44; x45; x4c; x00])] (* signatures.rs:278 INTERQUAKEMODEL. *)
   ]);
  (MacosAlias, (* signatures.rs:280 *)
   [
    [(0%N, [x62; x6f; x6f; x6b; x00; x00; x00; x00; x6d; x61; x72; x6b; x00; x00; x00; x00])] (* signatures.rs:281 book....mark.... *)
   ]);
  (Sqlite3, (* signatures.rs:283 *)
   [
    [(0%N, [x53; x51; x4c; x69; x74; x65; x20; x66; x6f; x72; x6d; x61; x74; x20; x33; x00])] (* signatures.rs:284 SQLite.format.3. *)
   ]);
  (Stuffit, (* signatures.rs:286 *)
   [
    [(0%N, [x53; x74; x75; x66; x66; x49; x74; x20; x28; x63; x29; x31; x39; x39; x37]); (82%N, [x05])] (* signatures.rs:287 StuffIt..c.1997 . *);
    [(128%N, [x53; x49; x54; x21]); (138%N, [x72; x4c; x61; x75])] (* signatures.rs:288 SIT! rLau *);
    [(0%N, [x53; x49; x54; x21]); (10%N, [x72; x4c; x61; x75])] (* signatures.rs:289 SIT! rLau *)
   ]);
  (UniversalSubtitleFormat, (* signatures.rs:291 *)
   [
    [(0%N, [xef; xbb; xbf; x3c; x55; x53; x46; x53; x75; x62; x74; x69; x74; x6c; x65; x73])] (* signatures.rs:292 ...<USFSubtitles *);
    [(0%N, [x3c; x55; x53; x46; x53; x75; x62; x74; x69; x74; x6c; x65; x73])] (* signatures.rs:293 <USFSubtitles *)
   ]);
  (VirtualRealityModelingLanguage, (* signatures.rs:295 *)
   [
    [(0%N, [x23; x56; x52; x4d; x4c; x20; x56; x31; x2e; x30; x20; x61; x73; x63; x69; x69])] (* signatures.rs:296 #VRML.V1.0.ascii *);
    [(0%N, [x23; x56; x52; x4d; x4c; x20; x56; x32; x2e; x30; x20; x75; x74; x66; x38])] (* signatures.rs:297 #VRML.V2.0.utf8 *)
   ]);
  (WindowsRecordedTvShow, (* signatures.rs:299 *)
   [
    [(0%N, [xb7; xd8; x00; x20; x37; x49; xda; x11; xa6; x4e; x00; x07; xe9; x5e; xad; x8d])] (* signatures.rs:300 ....7I...N...^.. *)
   ]);
  (Fictionbook, (* signatures.rs:303 *)
   [
    [(0%N, [xef; xbb; xbf; x3c; x46; x69; x63; x74; x69; x6f; x6e; x42; x6f; x6f; x6b])] (* signatures.rs:304 ...<FictionBook *);
    [(0%N, [x3c; x46; x69; x63; x74; x69; x6f; x6e; x42; x6f; x6f; x6b])] (* signatures.rs:305 <FictionBook *)
   ]);
  (FujifilmRaw, (* signatures.rs:307 *)
   [
    [(0%N, [x46; x55; x4a; x49; x46; x49; x4c; x4d; x43; x43; x44; x2d; x52; x41; x57])] (* signatures.rs:308 FUJIFILMCCD-RAW *)
   ]);
  (Icalendar, (* signatures.rs:310 *)
   [
    [(0%N, [x42; x45; x47; x49; x4e; x3a; x56; x43; x41; x4c; x45; x4e; x44; x41; x52])] (* signatures.rs:311 BEGIN:VCALENDAR *)
   ]);
  (MegaDriveRom, (* signatures.rs:313 *)
   [
    [(256%N, [x53; x45; x47; x41; x20; x4d; x45; x47; x41; x20; x44; x52; x49; x56; x45])] (* signatures.rs:314 SEGA.MEGA.DRIVE *);
    [(256%N, [x53; x45; x47; x41; x20; x47; x45; x4e; x45; x53; x49; x53])] (* signatures.rs:315 SEGA.GENESIS *)
   ]);
  (MicrosoftAccess2007Database, (* signatures.rs:317 *)
   [
    [(4%N, [x53; x74; x61; x6e; x64; x61; x72; x64; x20; x41; x43; x45; x20; x44; x42])] (* signatures.rs:318 Standard.ACE.DB *)
   ]);
  (MicrosoftAccessDatabase, (* signatures.rs:320 *)
   [
    [(4%N, [x53; x74; x61; x6e; x64; x61; x72; x64; x20; x4a; x65; x74; x20; x44; x42])] (* signatures.rs:321 Standard.Jet.DB *)
   ]);
  (CanonRaw, (* signatures.rs:324 *)
   [
    [(0%N, [x49; x49; x1a; x00; x00; x00; x48; x45; x41; x50; x43; x43; x44; x52])] (* signatures.rs:325 II....HEAPCCDR *)
   ]);
  (Latex, (* signatures.rs:327 *)
   [
    [(0%N, [x5c; x64; x6f; x63; x75; x6d; x65; x6e; x74; x63; x6c; x61; x73; x73])] (* signatures.rs:328 \documentclass *);
    [(0%N, [x5c; x64; x6f; x63; x75; x6d; x65; x6e; x74; x73; x74; x79; x6c; x65])] (* signatures.rs:329 \documentstyle *)
   ]);
  (MagickImageFileFormat, (* signatures.rs:331 *)
   [
    [(0%N, [x69; x64; x3d; x49; x6d; x61; x67; x65; x4d; x61; x67; x69; x63; x6b])] (* signatures.rs:332 id=ImageMagick *)
   ]);
  (MaterialExchangeFormat, (* signatures.rs:334 *)
   [
    [(0%N, [x06; x0e; x2b; x34; x02; x05; x01; x01; x0d; x01; x02; x01; x01; x02])] (* signatures.rs:335 ..+4.......... *)
   ]);
  (WordperfectGraphics, (* signatures.rs:337 *)
   [
    [(0%N, [xff; x57; x50; x43; x10; x00; x00; x00; x01; x16; x01; x00]); (14%N, [x00; x00])] (* signatures.rs:338 .WPC........ .. *)
   ]);
  (Commodore64Cartridge, (* signatures.rs:341 *)
   [
    [(0%N, [x43; x36; x34; x20; x43; x41; x52; x54; x52; x49; x44; x47; x45])] (* signatures.rs:342 C64.CARTRIDGE *)
   ]);
  (StandardForTheExchangeOfProductModelData, (* signatures.rs:344 *)
   [
    [(0%N, [x49; x53; x4f; x2d; x31; x30; x33; x30; x33; x2d; x32; x31; x3b])] (* signatures.rs:345 ISO-10303-21; *)
   ]);
  (Activemime, (* signatures.rs:348 *)
   [
    [(0%N, [x41; x63; x74; x69; x76; x65; x4d; x69; x6d; x65; x00; x00])] (* signatures.rs:349 ActiveMime.. *)
   ]);
  (AnimatedPortableNetworkGraphics, (* signatures.rs:351 *)
   [
    [(0%N, [x89; x50; x4e; x47; x0d; x0a; x1a; x0a]); (37%N, [x61; x63; x54; x4c])] (* signatures.rs:352 .PNG.... acTL *)
   ]);
  (Appimage, (* signatures.rs:354 *)
   [
    [(0%N, [x7f; x45; x4c; x46]); (8%N, [x41; x49; x02; x00; x00; x00; x00; x00])] (* signatures.rs:355 .ELF AI...... *)
   ]);
  (CdAudio, (* signatures.rs:357 *)
   [
    [(0%N, [x52; x49; x46; x46]); (8%N, [x43; x44; x44; x41; x66; x6d; x74; x20])] (* signatures.rs:358 RIFF CDDAfmt. *)
   ]);
  (Djvu, (* signatures.rs:360 *)
   [
    [(0%N, [x41; x54; x26; x54; x46; x4f; x52; x4d]); (12%N, [x44; x4a; x56; x49])] (* signatures.rs:361 AT&TFORM DJVI *);
    [(0%N, [x41; x54; x26; x54; x46; x4f; x52; x4d]); (12%N, [x44; x4a; x56; x4d])] (* signatures.rs:362 AT&TFORM DJVM *);
    [(0%N, [x41; x54; x26; x54; x46; x4f; x52; x4d]); (12%N, [x44; x4a; x56; x55])] (* signatures.rs:363 AT&TFORM DJVU *);
    [(0%N, [x41; x54; x26; x54; x46; x4f; x52; x4d]); (12%N, [x54; x48; x55; x4d])] (* signatures.rs:364 AT&TFORM THUM *)
   ]);
  (DrawingExchangeFormatAscii, (* signatures.rs:366 *)
   [
    [(0%N, [x20; x20; x30; x0d; x0a; x53; x45; x43; x54; x49; x4f; x4e])] (* signatures.rs:367 ..0..SECTION *);
    [(0%N, [x20; x20; x30; x0a; x53; x45; x43; x54; x49; x4f; x4e])] (* signatures.rs:368 ..0.SECTION *)
   ]);
  (JpegXl, (* signatures.rs:370 *)
   [
    [(0%N, [x00; x00; x00; x0c; x4a; x58; x4c; x20; x0d; x0a; x87; x0a])] (* signatures.rs:371 ....JXL..... *);
    [(0%N, [xff; x0a])] (* signatures.rs:372 .. *)
   ]);
  (KhronosTexture, (* signatures.rs:374 *)
   [
    [(0%N, [xab; x4b; x54; x58; x20; x31; x31; xbb; x0d; x0a; x1a; x0a])] (* signatures.rs:375 .KTX.11..... *)
   ]);
  (KhronosTexture2, (* signatures.rs:377 *)
   [
    [(0%N, [xab; x4b; x54; x58; x20; x32; x30; xbb; x0d; x0a; x1a; x0a])] (* signatures.rs:378 .KTX.20..... *)
   ]);
  (MayaAscii, (* signatures.rs:380 *)
   [
    [(0%N, [x2f; x2f; x4d; x61; x79; x61; x20; x41; x53; x43; x49; x49])] (* signatures.rs:381 //Maya.ASCII *)
   ]);
  (OggOpus, (* signatures.rs:383 *)
   [
    [(0%N, [x4f; x67; x67; x53]); (28%N, [x4f; x70; x75; x73; x48; x65; x61; x64])] (* signatures.rs:384 OggS OpusHead *)
   ]);
  (PanasonicRaw, (* signatures.rs:386 *)
   [
    [(0%N, [x49; x49; x55; x00; x18; x00; x00; x00; x88; xe7; x74; xd8])] (* signatures.rs:387 IIU.......t. *)
   ]);
  (ShoutcastPlaylist, (* signatures.rs:389 *)
   [
    [(0%N, [x5b; x70; x6c; x61; x79; x6c; x69; x73; x74; x5d; x0d; x0a])] (* signatures.rs:390 [playlist].. *);
    [(0%N, [x5b; x70; x6c; x61; x79; x6c; x69; x73; x74; x5d; x0a])] (* signatures.rs:391 [playlist]. *);
    [(0%N, [x5b; x70; x6c; x61; x79; x6c; x69; x73; x74; x5d; x0d])] (* signatures.rs:392 [playlist]. *)
   ]);
  (XmlShareablePlaylistFormat, (* signatures.rs:394 *)
   [
    [(0%N, [xef; xbb; xbf; x3c; x70; x6c; x61; x79; x6c; x69; x73; x74])] (* signatures.rs:395 ...<playlist *);
    [(0%N, [x3c; x70; x6c; x61; x79; x6c; x69; x73; x74])] (* signatures.rs:396 <playlist *)
   ]);
  (Bittorrent, (* signatures.rs:399 *)
   [
    [(0%N, [x64; x38; x3a; x61; x6e; x6e; x6f; x75; x6e; x63; x65])] (* signatures.rs:400 d8:announce *)
   ]);
  (CollaborativeDesignActivity, (* signatures.rs:402 *)
   [
    [(0%N, [xef; xbb; xbf; x3c; x43; x4f; x4c; x4c; x41; x44; x41])] (* signatures.rs:403 ...<COLLADA *);
    [(0%N, [xef; xbb; xbf; x3c; x63; x6f; x6c; x6c; x61; x64; x61])] (* signatures.rs:404 ...<collada *);
    [(0%N, [x3c; x43; x4f; x4c; x4c; x41; x44; x41])] (* signatures.rs:405 <COLLADA *);
    [(0%N, [x3c; x63; x6f; x6c; x6c; x61; x64; x61])] (* signatures.rs:406 <collada *)
   ]);
  (OggSpeex, (* signatures.rs:408 *)
   [
    [(0%N, [x4f; x67; x67; x53]); (28%N, [x53; x70; x65; x65; x78; x20; x20])] (* signatures.rs:409 OggS Speex.. *)
   ]);
  (OggTheora, (* signatures.rs:411 *)
   [
    [(0%N, [x4f; x67; x67; x53]); (28%N, [x80; x74; x68; x65; x6f; x72; x61])] (* signatures.rs:412 OggS .theora *)
   ]);
  (OggVorbis, (* signatures.rs:414 *)
   [
    [(0%N, [x4f; x67; x67; x53]); (28%N, [x01; x76; x6f; x72; x62; x69; x73])] (* signatures.rs:415 OggS .vorbis *)
   ]);
  (RadianceHdr, (* signatures.rs:417 *)
   [
    [(0%N, [x23; x3f; x52; x41; x44; x49; x41; x4e; x43; x45; x0a])] (* signatures.rs:418 #?RADIANCE. *)
   ]);
  (TiledTilesetXml, (* signatures.rs:420 *)
   [
    [(0%N, [xef; xbb; xbf; x3c; x74; x69; x6c; x65; x73; x65; x74])] (* signatures.rs:421 ...<tileset *);
    [(0%N, [x3c; x74; x69; x6c; x65; x73; x65; x74])] (* signatures.rs:422 <tileset *)
   ]);
  (Vcard, (* signatures.rs:424 *)
   [
    [(0%N, [x42; x45; x47; x49; x4e; x3a; x56; x43; x41; x52; x44])] (* signatures.rs:425 BEGIN:VCARD *)
   ]);
  (Atari7800Rom, (* signatures.rs:428 *)
   [
    [(0%N, [x01; x41; x54; x41; x52; x49; x37; x38; x30; x30])] (* signatures.rs:429 .ATARI7800 *)
   ]);
  (BmfontAscii, (* signatures.rs:431 *)
   [
    [(0%N, [x69; x6e; x66; x6f; x20; x66; x61; x63; x65; x3d])] (* signatures.rs:432 info.face= *)
   ]);
  (Drawio, (* signatures.rs:434 *)
   [
    [(0%N, [xef; xbb; xbf; x3c; x6d; x78; x66; x69; x6c; x65])] (* signatures.rs:435 ...<mxfile *);
    [(0%N, [x3c; x6d; x78; x66; x69; x6c; x65])] (* signatures.rs:436 <mxfile *)
   ]);
  (InitialGraphicsExchangeSpecification, (* signatures.rs:438 *)
   [
    [(72%N, [x53; x20; x20; x20; x20; x20; x20; x31; x0d; x0a])] (* signatures.rs:439 S......1.. *);
    [(72%N, [x53; x30; x30; x30; x30; x30; x30; x31; x0d; x0a])] (* signatures.rs:440 S0000001.. *);
    [(72%N, [x53; x20; x20; x20; x20; x20; x20; x31; x0a])] (* signatures.rs:441 S......1. *);
    [(72%N, [x53; x20; x20; x20; x20; x20; x20; x31; x0d])] (* signatures.rs:442 S......1. *);
    [(72%N, [x53; x30; x30; x30; x30; x30; x30; x31; x0a])] (* signatures.rs:443 S0000001. *);
    [(72%N, [x53; x30; x30; x30; x30; x30; x30; x31; x0d])] (* signatures.rs:444 S0000001. *)
   ]);
  (MicrosoftWorksDatabase, (* signatures.rs:446 *)
   [
    [(0%N, [x20; x54; x02; x00; x00; x00; x05; x54; x02; x00])] (* signatures.rs:447 .T.....T.. *)
   ]);
  (MicrosoftWorksSpreadsheet, (* signatures.rs:449 *)
   [
    [(0%N, [x00; x00; x02; x00; x04; x04; x05; x54; x02; x00])] (* signatures.rs:450 .......T.. *);
    [(0%N, [xff; x00; x02; x00; x04; x04; x05; x54; x02; x00])] (* signatures.rs:451 .......T.. *)
   ]);
  (OggMedia, (* signatures.rs:453 *)
   [
    [(0%N, [x4f; x67; x67; x53]); (28%N, [x01; x76; x69; x64; x65; x6f])] (* signatures.rs:454 OggS .video *)
   ]);
  (Snappy, (* signatures.rs:456 *)
   [
    [(0%N, [xff; x06; x00; x00; x73; x4e; x61; x50; x70; x59])] (* signatures.rs:457 ....sNaPpY *)
   ]);
  (GameBoyColorRom, (* signatures.rs:460 *)
   [
    [(260%N, [xce; xed; x66; x66; xcc; x0d; x00; x0b]); (323%N, [x80])] (* signatures.rs:461 ..ff.... . *);
    [(260%N, [xce; xed; x66; x66; xcc; x0d; x00; x0b]); (323%N, [xc0])] (* signatures.rs:462 ..ff.... . *)
   ]);
  (GameGearRom, (* signatures.rs:464 *)
   [
    [(32752%N, [x54; x4d; x52; x20; x53; x45; x47; x41]); (32767%N, [x50])] (* signatures.rs:465 TMR.SEGA P *);
    [(32752%N, [x54; x4d; x52; x20; x53; x45; x47; x41]); (32767%N, [x51])] (* signatures.rs:466 TMR.SEGA Q *);
    [(32752%N, [x54; x4d; x52; x20; x53; x45; x47; x41]); (32767%N, [x5c])] (* signatures.rs:467 TMR.SEGA \ *);
    [(32752%N, [x54; x4d; x52; x20; x53; x45; x47; x41]); (32767%N, [x5e])] (* signatures.rs:468 TMR.SEGA ^ *);
    [(32752%N, [x54; x4d; x52; x20; x53; x45; x47; x41]); (32767%N, [x5f])] (* signatures.rs:469 TMR.SEGA _ *);
    [(32752%N, [x54; x4d; x52; x20; x53; x45; x47; x41]); (32767%N, [x60])] (* signatures.rs:470 TMR.SEGA ` *);
    [(32752%N, [x54; x4d; x52; x20; x53; x45; x47; x41]); (32767%N, [x61])] (* signatures.rs:471 TMR.SEGA a *);
    [(32752%N, [x54; x4d; x52; x20; x53; x45; x47; x41]); (32767%N, [x6c])] (* signatures.rs:472 TMR.SEGA l *);
    [(32752%N, [x54; x4d; x52; x20; x53; x45; x47; x41]); (32767%N, [x6e])] (* signatures.rs:473 TMR.SEGA n *);
    [(32752%N, [x54; x4d; x52; x20; x53; x45; x47; x41]); (32767%N, [x6f])] (* signatures.rs:474 TMR.SEGA o *);
    [(32752%N, [x54; x4d; x52; x20; x53; x45; x47; x41]); (32767%N, [x70])] (* signatures.rs:475 TMR.SEGA p *);
    [(32752%N, [x54; x4d; x52; x20; x53; x45; x47; x41]); (32767%N, [x71])] (* signatures.rs:476 TMR.SEGA q *);
    [(32752%N, [x54; x4d; x52; x20; x53; x45; x47; x41]); (32767%N, [x7c])] (* signatures.rs:477 TMR.SEGA | *);
    [(32752%N, [x54; x4d; x52; x20; x53; x45; x47; x41]); (32767%N, [x7e])] (* signatures.rs:478 TMR.SEGA ~ *);
    [(32752%N, [x54; x4d; x52; x20; x53; x45; x47; x41]); (32767%N, [x7f])] (* signatures.rs:479 TMR.SEGA . *)
   ]);
  (Lzop, (* signatures.rs:481 *)
   [
    [(0%N, [x89; x4c; x5a; x4f; x00; x0d; x0a; x1a; x0a])] (* signatures.rs:482 .LZO..... *)
   ]);
  (MicrosoftVirtualHardDisk, (* signatures.rs:484 *)
   [
    [(0%N, [x63; x6f; x6e; x6e; x65; x63; x74; x69; x78])] (* signatures.rs:485 connectix *)
   ]);
  (MsDosBatch, (* signatures.rs:487 *)
   [
    [(0%N, [x40; x45; x43; x48; x4f; x20; x4f; x46; x46])] (* signatures.rs:488 @ECHO.OFF *);
    [(0%N, [x40; x65; x63; x68; x6f; x20; x6f; x66; x66])] (* signatures.rs:489 @echo.off *)
   ]);
  (OggFlac, (* signatures.rs:491 *)
   [
    [(0%N, [x4f; x67; x67; x53]); (28%N, [x7f; x46; x4c; x41; x43])] (* signatures.rs:492 OggS .FLAC *)
   ]);
  (OlympusRawFormat, (* signatures.rs:494 *)
   [
    [(0%N, [x49; x49; x52; x4f; x08; x00; x00; x00; x18])] (* signatures.rs:495 IIRO..... *)
   ]);
  (SegaMasterSystemRom, (* signatures.rs:497 *)
   [
    [(32752%N, [x54; x4d; x52; x20; x53; x45; x47; x41]); (32767%N, [x30])] (* signatures.rs:498 TMR.SEGA 0 *);
    [(32752%N, [x54; x4d; x52; x20; x53; x45; x47; x41]); (32767%N, [x31])] (* signatures.rs:499 TMR.SEGA 1 *);
    [(32752%N, [x54; x4d; x52; x20; x53; x45; x47; x41]); (32767%N, [x3c])] (* signatures.rs:500 TMR.SEGA < *);
    [(32752%N, [x54; x4d; x52; x20; x53; x45; x47; x41]); (32767%N, [x3e])] (* signatures.rs:501 TMR.SEGA > *);
    [(32752%N, [x54; x4d; x52; x20; x53; x45; x47; x41]); (32767%N, [x3f])] (* signatures.rs:502 TMR.SEGA ? *);
    [(32752%N, [x54; x4d; x52; x20; x53; x45; x47; x41]); (32767%N, [x40])] (* signatures.rs:503 TMR.SEGA @ *);
    [(32752%N, [x54; x4d; x52; x20; x53; x45; x47; x41]); (32767%N, [x41])] (* signatures.rs:504 TMR.SEGA A *);
    [(32752%N, [x54; x4d; x52; x20; x53; x45; x47; x41]); (32767%N, [x4c])] (* signatures.rs:505 TMR.SEGA L *);
    [(32752%N, [x54; x4d; x52; x20; x53; x45; x47; x41]); (32767%N, [x4e])] (* signatures.rs:506 TMR.SEGA N *);
    [(32752%N, [x54; x4d; x52; x20; x53; x45; x47; x41]); (32767%N, [x4f])] (* signatures.rs:507 TMR.SEGA O *)
   ]);
  (SubripText, (* signatures.rs:509 *)
   [
    [(0%N, [xef; xbb; xbf; x31; x0d; x0a; x30; x30; x3a])] (* signatures.rs:510 ...1..00: *);
    [(0%N, [xef; xbb; xbf; x31; x0a; x30; x30; x3a])] (* signatures.rs:511 ...1.00: *);
    [(0%N, [x31; x0d; x0a; x30; x30; x3a])] (* signatures.rs:512 1..00: *);
    [(0%N, [x31; x0a; x30; x30; x3a])] (* signatures.rs:513 1.00: *)
   ]);
  (UniversalSceneDescriptionAscii, (* signatures.rs:515 *)
   [
    [(0%N, [x23; x75; x73; x64; x61; x20; x31; x2e; x30])] (* signatures.rs:516 #usda.1.0 *)
   ]);
  (WebVideoTextTracks, (* signatures.rs:518 *)
   [
    [(0%N, [xef; xbb; xbf; x57; x45; x42; x56; x54; x54])] (* signatures.rs:519 ...WEBVTT *);
    [(0%N, [x57; x45; x42; x56; x54; x54])] (* signatures.rs:520 WEBVTT *)
   ]);
  (WindowsBitmap, (* signatures.rs:522 *)
   [
    [(0%N, [x42; x4d]); (12%N, [x00; x00]); (15%N, [x00; x00; x00]); (26%N, [x01; x00])] (* signatures.rs:523 BM .. ... .. *)
   ]);
  (XPixmap, (* signatures.rs:525 *)
   [
    [(0%N, [x2f; x2a; x20; x58; x50; x4d; x20; x2a; x2f])] (* signatures.rs:526 /..XPM../ *)
   ]);
  (XmlLocalizationInterchangeFileFormat, (* signatures.rs:528 *)
   [
    [(0%N, [xef; xbb; xbf; x3c; x78; x6c; x69; x66; x66])] (* signatures.rs:529 ...<xliff *);
    [(0%N, [x3c; x78; x6c; x69; x66; x66])] (* signatures.rs:530 <xliff *)
   ]);
  (ActionsMediaVideo, (* signatures.rs:533 *)
   [
    [(0%N, [x52; x49; x46; x46]); (8%N, [x41; x4d; x56; x20])] (* signatures.rs:534 RIFF AMV. *)
   ]);
  (Atom, (* signatures.rs:536 *)
   [
    [(0%N, [xef; xbb; xbf; x3c; x66; x65; x65; x64])] (* signatures.rs:537 ...<feed *);
    [(0%N, [x3c; x66; x65; x65; x64])] (* signatures.rs:538 <feed *)
   ]);
  (AudioInterchangeFileFormat, (* signatures.rs:540 *)
   [
    [(0%N, [x46; x4f; x52; x4d]); (8%N, [x41; x49; x46; x43])] (* signatures.rs:541 FORM AIFC *);
    [(0%N, [x46; x4f; x52; x4d]); (8%N, [x41; x49; x46; x46])] (* signatures.rs:542 FORM AIFF *)
   ]);
  (AudioVideoInterleave, (* signatures.rs:544 *)
   [
    [(0%N, [x52; x49; x46; x46]); (8%N, [x41; x56; x49; x20])] (* signatures.rs:545 RIFF AVI. *)
   ]);
  (Av1ImageFileFormat, (* signatures.rs:547 *)
   [
    [(4%N, [x66; x74; x79; x70; x61; x76; x69; x66])] (* signatures.rs:548 ftypavif *)
   ]);
  (Av1ImageFileFormatSequence, (* signatures.rs:550 *)
   [
    [(4%N, [x66; x74; x79; x70; x61; x76; x69; x73])] (* signatures.rs:551 ftypavis *)
   ]);
  (BroadBandEbook, (* signatures.rs:553 *)
   [
    [(0%N, [x4c; x00; x52; x00; x46; x00; x00; x00])] (* signatures.rs:554 L.R.F... *)
   ]);
  (CompoundFileBinary, (* signatures.rs:556 *)
   [
    [(0%N, [xd0; xcf; x11; xe0; xa1; xb1; x1a; xe1])] (* signatures.rs:557 ........ *)
   ]);
  (EightBitSampledVoice, (* signatures.rs:559 *)
   [
    [(0%N, [x46; x4f; x52; x4d]); (8%N, [x38; x53; x56; x58])] (* signatures.rs:560 FORM 8SVX *)
   ]);
  (EnhancedMetafile, (* signatures.rs:562 *)
   [
    [(0%N, [x01; x00; x00; x00]); (40%N, [x20; x45; x4d; x46])] (* signatures.rs:563 .... .EMF *)
   ]);
  (ExperimentalComputingFacility, (* signatures.rs:565 *)
   [
    [(0%N, [x67; x69; x6d; x70; x20; x78; x63; x66])] (* signatures.rs:566 gimp.xcf *)
   ]);
  (ExtensibleMarkupLanguage, (* signatures.rs:568 *)
   [
    [(0%N, [xef; xbb; xbf; x3c; x3f; x78; x6d; x6c])] (* signatures.rs:569 ...<?xml *);
    [(0%N, [x3c; x3f; x78; x6d; x6c])] (* signatures.rs:570 <?xml *)
   ]);
  (Farbfeld, (* signatures.rs:572 *)
   [
    [(0%N, [x66; x61; x72; x62; x66; x65; x6c; x64])] (* signatures.rs:573 farbfeld *)
   ]);
  (GameBoyAdvanceRom, (* signatures.rs:575 *)
   [
    [(4%N, [x24; xff; xae; x51; x69; x9a; xa2; x21])] (* signatures.rs:576 $..Qi..! *)
   ]);
  (GameBoyRom, (* signatures.rs:578 *)
   [
    [(260%N, [xce; xed; x66; x66; xcc; x0d; x00; x0b])] (* signatures.rs:579 ..ff.... *)
   ]);
  (HighEfficiencyImageCoding, (* signatures.rs:581 *)
   [
    [(4%N, [x66; x74; x79; x70; x68; x65; x69; x63])] (* signatures.rs:582 ftypheic *);
    [(4%N, [x66; x74; x79; x70; x68; x65; x69; x78])] (* signatures.rs:583 ftypheix *)
   ]);
  (HighEfficiencyImageCodingSequence, (* signatures.rs:585 *)
   [
    [(4%N, [x66; x74; x79; x70; x68; x65; x76; x63])] (* signatures.rs:586 ftyphevc *);
    [(4%N, [x66; x74; x79; x70; x68; x65; x76; x78])] (* signatures.rs:587 ftyphevx *)
   ]);
  (HighEfficiencyImageFileFormat, (* signatures.rs:589 *)
   [
    [(4%N, [x66; x74; x79; x70; x61; x76; x69; x63])] (* signatures.rs:590 ftypavic *);
    [(4%N, [x66; x74; x79; x70; x68; x65; x69; x6d])] (* signatures.rs:591 ftypheim *);
    [(4%N, [x66; x74; x79; x70; x68; x65; x69; x73])] (* signatures.rs:592 ftypheis *);
    [(4%N, [x66; x74; x79; x70; x6d; x69; x66; x31])] (* signatures.rs:593 ftypmif1 *)
   ]);
  (HighEfficiencyImageFileFormatSequence, (* signatures.rs:595 *)
   [
    [(4%N, [x66; x74; x79; x70; x61; x76; x63; x73])] (* signatures.rs:596 ftypavcs *);
    [(4%N, [x66; x74; x79; x70; x68; x65; x76; x6d])] (* signatures.rs:597 ftyphevm *);
    [(4%N, [x66; x74; x79; x70; x68; x65; x76; x73])] (* signatures.rs:598 ftyphevs *);
    [(4%N, [x66; x74; x79; x70; x6d; x73; x66; x31])] (* signatures.rs:599 ftypmsf1 *)
   ]);
  (Jpeg2000Part1, (* signatures.rs:601 *)
   [
    [(16%N, [x66; x74; x79; x70; x4a; x50; x32; x20])] (* signatures.rs:602 ftypJP2. *);
    [(16%N, [x66; x74; x79; x70; x6a; x70; x32; x20])] (* signatures.rs:603 ftypjp2. *)
   ]);
  (Jpeg2000Part2, (* signatures.rs:605 *)
   [
    [(16%N, [x66; x74; x79; x70; x6a; x70; x78; x20])] (* signatures.rs:606 ftypjpx. *)
   ]);
  (Jpeg2000Part3, (* signatures.rs:608 *)
   [
    [(16%N, [x66; x74; x79; x70; x6d; x6a; x70; x32])] (* signatures.rs:609 ftypmjp2 *)
   ]);
  (Jpeg2000Part6, (* signatures.rs:611 *)
   [
    [(16%N, [x66; x74; x79; x70; x6a; x70; x6d; x20])] (* signatures.rs:612 ftypjpm. *)
   ]);
  (JpegNetworkGraphics, (* signatures.rs:614 *)
   [
    [(0%N, [x8b; x4a; x4e; x47; x0d; x0a; x1a; x0a])] (* signatures.rs:615 .JNG.... *)
   ]);
  (MayaBinary, (* signatures.rs:617 *)
   [
    [(0%N, [x46; x4f; x52; x34]); (8%N, [x4d; x41; x59; x41])] (* signatures.rs:618 FOR4 MAYA *);
    [(0%N, [x46; x4f; x52; x34]); (8%N, [x4d; x61; x79; x61])] (* signatures.rs:619 FOR4 Maya *);
    [(0%N, [x46; x4f; x52; x38]); (16%N, [x4d; x41; x59; x41])] (* signatures.rs:620 FOR8 MAYA *);
    [(0%N, [x46; x4f; x52; x38]); (16%N, [x4d; x61; x79; x61])] (* signatures.rs:621 FOR8 Maya *)
   ]);
  (MicrosoftVirtualHardDisk2, (* signatures.rs:623 *)
   [
    [(0%N, [x76; x68; x64; x78; x66; x69; x6c; x65])] (* signatures.rs:624 vhdxfile *)
   ]);
  (Mobipocket, (* signatures.rs:626 *)
   [
    [(60%N, [x42; x4f; x4f; x4b; x4d; x4f; x42; x49])] (* signatures.rs:627 BOOKMOBI *)
   ]);
  (Mpeg4Part14, (* signatures.rs:629 *)
   [
    [(4%N, [x66; x74; x79; x70; x41; x52; x52; x49])] (* signatures.rs:630 ftypARRI *);
    [(4%N, [x66; x74; x79; x70; x4d; x53; x4e; x56])] (* signatures.rs:631 ftypMSNV *);
    [(4%N, [x66; x74; x79; x70; x4e; x44; x41; x53])] (* signatures.rs:632 ftypNDAS *);
    [(4%N, [x66; x74; x79; x70; x4e; x44; x53; x43])] (* signatures.rs:633 ftypNDSC *);
    [(4%N, [x66; x74; x79; x70; x4e; x44; x53; x48])] (* signatures.rs:634 ftypNDSH *);
    [(4%N, [x66; x74; x79; x70; x4e; x44; x53; x4d])] (* signatures.rs:635 ftypNDSM *);
    [(4%N, [x66; x74; x79; x70; x4e; x44; x53; x50])] (* signatures.rs:636 ftypNDSP *);
    [(4%N, [x66; x74; x79; x70; x4e; x44; x53; x53])] (* signatures.rs:637 ftypNDSS *);
    [(4%N, [x66; x74; x79; x70; x4e; x44; x58; x43])] (* signatures.rs:638 ftypNDXC *);
    [(4%N, [x66; x74; x79; x70; x4e; x44; x58; x48])] (* signatures.rs:639 ftypNDXH *);
    [(4%N, [x66; x74; x79; x70; x4e; x44; x58; x4d])] (* signatures.rs:640 ftypNDXM *);
    [(4%N, [x66; x74; x79; x70; x4e; x44; x58; x50])] (* signatures.rs:641 ftypNDXP *);
    [(4%N, [x66; x74; x79; x70; x4e; x44; x58; x53])] (* signatures.rs:642 ftypNDXS *);
    [(4%N, [x66; x74; x79; x70; x58; x41; x56; x43])] (* signatures.rs:643 ftypXAVC *);
    [(4%N, [x66; x74; x79; x70; x61; x76; x63; x31])] (* signatures.rs:644 ftypavc1 *);
    [(4%N, [x66; x74; x79; x70; x64; x61; x73; x68])] (* signatures.rs:645 ftypdash *);
    [(4%N, [x66; x74; x79; x70; x69; x73; x6f; x32])] (* signatures.rs:646 ftypiso2 *);
    [(4%N, [x66; x74; x79; x70; x69; x73; x6f; x33])] (* signatures.rs:647 ftypiso3 *);
    [(4%N, [x66; x74; x79; x70; x69; x73; x6f; x34])] (* signatures.rs:648 ftypiso4 *);
    [(4%N, [x66; x74; x79; x70; x69; x73; x6f; x35])] (* signatures.rs:649 ftypiso5 *);
    [(4%N, [x66; x74; x79; x70; x69; x73; x6f; x36])] (* signatures.rs:650 ftypiso6 *);
    [(4%N, [x66; x74; x79; x70; x69; x73; x6f; x6d])] (* signatures.rs:651 ftypisom *);
    [(4%N, [x66; x74; x79; x70; x6d; x6d; x70; x34])] (* signatures.rs:652 ftypmmp4 *);
    [(4%N, [x66; x74; x79; x70; x6d; x6f; x62; x69])] (* signatures.rs:653 ftypmobi *);
    [(4%N, [x66; x74; x79; x70; x6d; x70; x32; x31])] (* signatures.rs:654 ftypmp21 *);
    [(4%N, [x66; x74; x79; x70; x6d; x70; x34; x31])] (* signatures.rs:655 ftypmp41 *);
    [(4%N, [x66; x74; x79; x70; x6d; x70; x34; x32])] (* signatures.rs:656 ftypmp42 *);
    [(4%N, [x66; x74; x79; x70; x6d; x70; x34; x76])] (* signatures.rs:657 ftypmp4v *);
    [(4%N, [x66; x74; x79; x70; x6d; x70; x37; x31])] (* signatures.rs:658 ftypmp71 *)
   ]);
  (MultipleImageNetworkGraphics, (* signatures.rs:660 *)
   [
    [(0%N, [x8a; x4d; x4e; x47; x0d; x0a; x1a; x0a])] (* signatures.rs:661 .MNG.... *)
   ]);
  (NikonElectronicFile, (* signatures.rs:663 *)
   [
    [(0%N, [x49; x49; x2a; x00]); (8%N, [x1c; x00; xfe; x00])] (* signatures.rs:664 II.. .... *);
    [(0%N, [x49; x49; x2a; x00]); (8%N, [x1f; x00; x0b; x00])] (* signatures.rs:665 II.. .... *);
    [(0%N, [x4d; x4d; x00; x2a]); (8%N, [x1c; x00; xfe; x00])] (* signatures.rs:666 MM.. .... *);
    [(0%N, [x4d; x4d; x00; x2a]); (8%N, [x1f; x00; x0b; x00])] (* signatures.rs:667 MM.. .... *)
   ]);
  (Nintendo64Rom, (* signatures.rs:669 *)
   [
    [(0%N, [x12; x40; x80; x37; x00; x0f; x00; x00])] (* signatures.rs:670 .@.7.... *);
    [(0%N, [x37; x80; x40; x12; x00; x00; x0f; x00])] (* signatures.rs:671 7.@..... *);
    [(0%N, [x40; x12; x37; x80; x0f; x00; x00; x00])] (* signatures.rs:672 @.7..... *);
    [(0%N, [x80; x37; x12; x40; x00; x00; x00; x0f])] (* signatures.rs:673 .7.@.... *)
   ]);
  (NintendoDsRom, (* signatures.rs:675 *)
   [
    [(192%N, [x24; xff; xae; x51; x69; x9a; xa2; x21])] (* signatures.rs:676 $..Qi..! *);
    [(192%N, [xc8; x60; x4f; xe2; x01; x70; x8f; xe2])] (* signatures.rs:677 .`O..p.. *)
   ]);
  (PortableNetworkGraphics, (* signatures.rs:679 *)
   [
    [(0%N, [x89; x50; x4e; x47; x0d; x0a; x1a; x0a])] (* signatures.rs:680 .PNG.... *)
   ]);
  (QualcommPurevoice, (* signatures.rs:682 *)
   [
    [(0%N, [x52; x49; x46; x46]); (8%N, [x51; x4c; x43; x4d])] (* signatures.rs:683 RIFF QLCM *)
   ]);
  (Realmedia, (* signatures.rs:685 *)
   [
    [(0%N, [x2e; x52; x4d; x46; x00; x00; x00; x12])] (* signatures.rs:686 .RMF.... *)
   ]);
  (RoshalArchive, (* signatures.rs:688 *)
   [
    [(0%N, [x52; x61; x72; x21; x1a; x07; x01; x00])] (* signatures.rs:689 Rar!.... *);
    [(0%N, [x52; x61; x72; x21; x1a; x07; x00])] (* signatures.rs:690 Rar!... *)
   ]);
  (SimpleObjectAccessProtocol, (* signatures.rs:692 *)
   [
    [(0%N, [xef; xbb; xbf; x3c; x73; x6f; x61; x70])] (* signatures.rs:693 ...<soap *);
    [(0%N, [x3c; x73; x6f; x61; x70])] (* signatures.rs:694 <soap *)
   ]);
  (Soundfont2, (* signatures.rs:696 *)
   [
    [(0%N, [x52; x49; x46; x46]); (8%N, [x73; x66; x62; x6b])] (* signatures.rs:697 RIFF sfbk *)
   ]);
  (StuffitX, (* signatures.rs:699 *)
   [
    [(0%N, [x53; x74; x75; x66; x66; x49; x74; x21])] (* signatures.rs:700 StuffIt! *);
    [(0%N, [x53; x74; x75; x66; x66; x49; x74; x3f])] (* signatures.rs:701 StuffIt? *)
   ]);
  (TapeArchive, (* signatures.rs:703 *)
   [
    [(257%N, [x75; x73; x74; x61; x72; x00; x30; x30])] (* signatures.rs:704 ustar.00 *);
    [(257%N, [x75; x73; x74; x61; x72; x20; x20; x00])] (* signatures.rs:705 ustar... *)
   ]);
  (ThirdGenerationPartnershipProject2, (* signatures.rs:707 *)
   [
    [(4%N, [x66; x74; x79; x70; x4b; x44; x44; x49])] (* signatures.rs:708 ftypKDDI *);
    [(4%N, [x66; x74; x79; x70; x33; x67; x32])] (* signatures.rs:709 ftyp3g2 *)
   ]);
  (UniversalSceneDescriptionBinary, (* signatures.rs:711 *)
   [
    [(0%N, [x50; x58; x52; x2d; x55; x53; x44; x43])] (* signatures.rs:712 PXR-USDC *)
   ]);
  (WaveformAudio, (* signatures.rs:714 *)
   [
    [(0%N, [x52; x49; x46; x46]); (8%N, [x57; x41; x56; x45])] (* signatures.rs:715 RIFF WAVE *)
   ]);
  (Webp, (* signatures.rs:717 *)
   [
    [(0%N, [x52; x49; x46; x46]); (8%N, [x57; x45; x42; x50])] (* signatures.rs:718 RIFF WEBP *)
   ]);
  (WindowsAnimatedCursor, (* signatures.rs:720 *)
   [
    [(0%N, [x52; x49; x46; x46]); (8%N, [x41; x43; x4f; x4e])] (* signatures.rs:721 RIFF ACON *)
   ]);
  (WindowsImagingFormat, (* signatures.rs:723 *)
   [
    [(0%N, [x4d; x53; x57; x49; x4d; x00; x00; x00])] (* signatures.rs:724 MSWIM... *);
    [(0%N, [x57; x4c; x50; x57; x4d; x00; x00; x00])] (* signatures.rs:725 WLPWM... *)
   ]);
  (Ace, (* signatures.rs:728 *)
   [
    [(7%N, [x2a; x2a; x41; x43; x45; x2a; x2a])] (* signatures.rs:729 ..ACE.. *)
   ]);
  (AdditiveManufacturingFormat, (* signatures.rs:731 *)
   [
    [(0%N, [xef; xbb; xbf; x3c; x61; x6d; x66])] (* signatures.rs:732 ...<amf *);
    [(0%N, [x3c; x61; x6d; x66])] (* signatures.rs:733 <amf *)
   ]);
  (AdvancedStreamRedirector, (* signatures.rs:735 *)
   [
    [(0%N, [xef; xbb; xbf; x3c; x41; x53; x58])] (* signatures.rs:736 ...<ASX *);
    [(0%N, [xef; xbb; xbf; x3c; x61; x73; x78])] (* signatures.rs:737 ...<asx *);
    [(0%N, [x3c; x41; x53; x58])] (* signatures.rs:738 <ASX *);
    [(0%N, [x3c; x61; x73; x78])] (* signatures.rs:739 <asx *)
   ]);
  (AppleItunesAudio, (* signatures.rs:741 *)
   [
    [(4%N, [x66; x74; x79; x70; x4d; x34; x41])] (* signatures.rs:742 ftypM4A *)
   ]);
  (AppleItunesAudiobook, (* signatures.rs:744 *)
   [
    [(4%N, [x66; x74; x79; x70; x4d; x34; x42])] (* signatures.rs:745 ftypM4B *)
   ]);
  (AppleItunesProtectedAudio, (* signatures.rs:747 *)
   [
    [(4%N, [x66; x74; x79; x70; x4d; x34; x50])] (* signatures.rs:748 ftypM4P *)
   ]);
  (AppleItunesVideo, (* signatures.rs:750 *)
   [
    [(4%N, [x66; x74; x79; x70; x4d; x34; x56])] (* signatures.rs:751 ftypM4V *)
   ]);
  (Blender, (* signatures.rs:753 *)
   [
    [(0%N, [x42; x4c; x45; x4e; x44; x45; x52])] (* signatures.rs:754 BLENDER *)
   ]);
  (CanonRaw3, (* signatures.rs:756 *)
   [
    [(4%N, [x66; x74; x79; x70; x63; x72; x78])] (* signatures.rs:757 ftypcrx *)
   ]);
  (Cinema4d, (* signatures.rs:759 *)
   [
    [(1%N, [x43; x34; x44; x43; x34; x44; x36])] (* signatures.rs:760 C4DC4D6 *)
   ]);
  (ExtensibleStylesheetLanguageTransformations, (* signatures.rs:762 *)
   [
    [(0%N, [xef; xbb; xbf; x3c; x78; x73; x6c])] (* signatures.rs:763 ...<xsl *);
    [(0%N, [x3c; x78; x73; x6c])] (* signatures.rs:764 <xsl *)
   ]);
  (FlashMp4Audio, (* signatures.rs:766 *)
   [
    [(4%N, [x66; x74; x79; x70; x46; x34; x41])] (* signatures.rs:767 ftypF4A *);
    [(4%N, [x66; x74; x79; x70; x66; x34; x61])] (* signatures.rs:768 ftypf4a *)
   ]);
  (FlashMp4Audiobook, (* signatures.rs:770 *)
   [
    [(4%N, [x66; x74; x79; x70; x46; x34; x42])] (* signatures.rs:771 ftypF4B *);
    [(4%N, [x66; x74; x79; x70; x66; x34; x62])] (* signatures.rs:772 ftypf4b *)
   ]);
  (FlashMp4ProtectedVideo, (* signatures.rs:774 *)
   [
    [(4%N, [x66; x74; x79; x70; x46; x34; x50])] (* signatures.rs:775 ftypF4P *);
    [(4%N, [x66; x74; x79; x70; x66; x34; x70])] (* signatures.rs:776 ftypf4p *)
   ]);
  (FlashMp4Video, (* signatures.rs:778 *)
   [
    [(4%N, [x66; x74; x79; x70; x46; x34; x56])] (* signatures.rs:779 ftypF4V *);
    [(4%N, [x66; x74; x79; x70; x66; x34; x76])] (* signatures.rs:780 ftypf4v *)
   ]);
  (GeographyMarkupLanguage, (* signatures.rs:782 *)
   [
    [(0%N, [xef; xbb; xbf; x3c; x67; x6d; x6c])] (* signatures.rs:783 ...<gml *);
    [(0%N, [x3c; x67; x6d; x6c])] (* signatures.rs:784 <gml *)
   ]);
  (GpsExchangeFormat, (* signatures.rs:786 *)
   [
    [(0%N, [xef; xbb; xbf; x3c; x67; x70; x78])] (* signatures.rs:787 ...<gpx *);
    [(0%N, [x3c; x67; x70; x78])] (* signatures.rs:788 <gpx *)
   ]);
  (KeyholeMarkupLanguage, (* signatures.rs:790 *)
   [
    [(0%N, [xef; xbb; xbf; x3c; x6b; x6d; x6c])] (* signatures.rs:791 ...<kml *);
    [(0%N, [x3c; x6b; x6d; x6c])] (* signatures.rs:792 <kml *)
   ]);
  (MetaInformationEncapsulation, (* signatures.rs:794 *)
   [
    [(0%N, [x7e; x10; x04]); (4%N, [x30; x4d; x49; x45])] (* signatures.rs:795 ~.. 0MIE *);
    [(0%N, [x7e; x18; x04]); (4%N, [x30; x4d; x49; x45])] (* signatures.rs:796 ~.. 0MIE *)
   ]);
  (Model3dAscii, (* signatures.rs:798 *)
   [
    [(0%N, [x33; x64; x6d; x6f; x64; x65; x6c])] (* signatures.rs:799 3dmodel *)
   ]);
  (Mp3Url, (* signatures.rs:801 *)
   [
    [(0%N, [x23; x45; x58; x54; x4d; x33; x55])] (* signatures.rs:802 #EXTM3U *)
   ]);
  (MpegDashMpd, (* signatures.rs:804 *)
   [
    [(0%N, [xef; xbb; xbf; x3c; x4d; x50; x44])] (* signatures.rs:805 ...<MPD *);
    [(0%N, [x3c; x4d; x50; x44])] (* signatures.rs:806 <MPD *)
   ]);
  (MultiLayerArchive, (* signatures.rs:808 *)
   [
    [(0%N, [x4d; x4c; x41; x01; x00; x00; x00])] (* signatures.rs:809 MLA.... *)
   ]);
  (ReallySimpleSyndication, (* signatures.rs:811 *)
   [
    [(0%N, [xef; xbb; xbf; x3c; x72; x73; x73])] (* signatures.rs:812 ...<rss *);
    [(0%N, [x3c; x72; x73; x73])] (* signatures.rs:813 <rss *)
   ]);
  (ScalableVectorGraphics, (* signatures.rs:815 *)
   [
    [(0%N, [xef; xbb; xbf; x3c; x53; x56; x47])] (* signatures.rs:816 ...<SVG *);
    [(0%N, [xef; xbb; xbf; x3c; x73; x76; x67])] (* signatures.rs:817 ...<svg *);
    [(0%N, [x3c; x53; x56; x47])] (* signatures.rs:818 <SVG *);
    [(0%N, [x3c; x73; x76; x67])] (* signatures.rs:819 <svg *)
   ]);
  (SonyMovie, (* signatures.rs:821 *)
   [
    [(4%N, [x66; x74; x79; x70; x6d; x71; x74])] (* signatures.rs:822 ftypmqt *)
   ]);
  (ThirdGenerationPartnershipProject, (* signatures.rs:824 *)
   [
    [(4%N, [x66; x74; x79; x70; x33; x67; x65])] (* signatures.rs:825 ftyp3ge *);
    [(4%N, [x66; x74; x79; x70; x33; x67; x66])] (* signatures.rs:826 ftyp3gf *);
    [(4%N, [x66; x74; x79; x70; x33; x67; x67])] (* signatures.rs:827 ftyp3gg *);
    [(4%N, [x66; x74; x79; x70; x33; x67; x68])] (* signatures.rs:828 ftyp3gh *);
    [(4%N, [x66; x74; x79; x70; x33; x67; x6d])] (* signatures.rs:829 ftyp3gm *);
    [(4%N, [x66; x74; x79; x70; x33; x67; x70])] (* signatures.rs:830 ftyp3gp *);
    [(4%N, [x66; x74; x79; x70; x33; x67; x72])] (* signatures.rs:831 ftyp3gr *);
    [(4%N, [x66; x74; x79; x70; x33; x67; x73])] (* signatures.rs:832 ftyp3gs *);
    [(4%N, [x66; x74; x79; x70; x33; x67; x74])] (* signatures.rs:833 ftyp3gt *)
   ]);
  (TiledMapXml, (* signatures.rs:835 *)
   [
    [(0%N, [xef; xbb; xbf; x3c; x6d; x61; x70])] (* signatures.rs:836 ...<map *);
    [(0%N, [x3c; x6d; x61; x70])] (* signatures.rs:837 <map *)
   ]);
  (UnixArchiver, (* signatures.rs:839 *)
   [
    [(0%N, [x21; x3c; x61; x72; x63; x68; x3e])] (* signatures.rs:840 !<arch> *)
   ]);
  (WebassemblyText, (* signatures.rs:842 *)
   [
    [(0%N, [x28; x6d; x6f; x64; x75; x6c; x65])] (* signatures.rs:843 .module *)
   ]);
  (ApacheArrowColumnar, (* signatures.rs:846 *)
   [
    [(0%N, [x41; x52; x52; x4f; x57; x31])] (* signatures.rs:847 ARROW1 *)
   ]);
  (AppleQuicktime, (* signatures.rs:849 *)
   [
    [(4%N, [x66; x74; x79; x70; x71; x74])] (* signatures.rs:850 ftypqt *);
    [(4%N, [x66; x72; x65; x65])] (* signatures.rs:851 free *);
    [(4%N, [x6d; x64; x61; x74])] (* signatures.rs:852 mdat *);
    [(4%N, [x6d; x6f; x6f; x76])] (* signatures.rs:853 moov *);
    [(4%N, [x73; x6b; x69; x70])] (* signatures.rs:854 skip *);
    [(4%N, [x77; x69; x64; x65])] (* signatures.rs:855 wide *)
   ]);
  (CanonRaw2, (* signatures.rs:857 *)
   [
    [(0%N, [x49; x49; x2a; x00]); (8%N, [x43; x52])] (* signatures.rs:858 II.. CR *);
    [(0%N, [x4d; x4d; x00; x2a]); (8%N, [x43; x52])] (* signatures.rs:859 MM.. CR *)
   ]);
  (DesignWebFormat, (* signatures.rs:861 *)
   [
    [(0%N, [x28; x44; x57; x46; x20; x56])] (* signatures.rs:862 .DWF.V *)
   ]);
  (GraphicsInterchangeFormat, (* signatures.rs:864 *)
   [
    [(0%N, [x47; x49; x46; x38; x37; x61])] (* signatures.rs:865 GIF87a *);
    [(0%N, [x47; x49; x46; x38; x39; x61])] (* signatures.rs:866 GIF89a *)
   ]);
  (MicrosoftWrite, (* signatures.rs:868 *)
   [
    [(0%N, [x31; xbe; x00; x00; x00; xab])] (* signatures.rs:869 1..... *);
    [(0%N, [x32; xbe; x00; x00; x00; xab])] (* signatures.rs:870 2..... *)
   ]);
  (SevenZip, (* signatures.rs:872 *)
   [
    [(0%N, [x37; x7a; xbc; xaf; x27; x1c])] (* signatures.rs:873 7z..'. *)
   ]);
  (StereolithographyAscii, (* signatures.rs:875 *)
   [
    [(0%N, [x73; x6f; x6c; x69; x64; x20])] (* signatures.rs:876 solid. *)
   ]);
  (ThreeDimensionalStudio, (* signatures.rs:878 *)
   [
    [(0%N, [x4d; x4d]); (6%N, [x02]); (8%N, [x0a]); (16%N, [x3d; x3d])] (* signatures.rs:879 MM . . == *)
   ]);
  (WordperfectMacro, (* signatures.rs:881 *)
   [
    [(0%N, [xff; x57; x50; x43]); (8%N, [x01; x01])] (* signatures.rs:882 .WPC .. *)
   ]);
  (Xz, (* signatures.rs:884 *)
   [
    [(0%N, [xfd; x37; x7a; x58; x5a; x00])] (* signatures.rs:885 .7zXZ. *)
   ]);
  (AdaptiveMultiRate, (* signatures.rs:888 *)
   [
    [(0%N, [x23; x21; x41; x4d; x52])] (* signatures.rs:889 #!AMR *)
   ]);
  (Bzip3, (* signatures.rs:891 *)
   [
    [(0%N, [x42; x5a; x33; x76; x31])] (* signatures.rs:892 BZ3v1 *)
   ]);
  (CorelPresentations, (* signatures.rs:894 *)
   [
    [(0%N, [xff; x57; x50; x43]); (9%N, [x0f])] (* signatures.rs:895 .WPC . *);
    [(0%N, [xff; x57; x50; x43]); (9%N, [x10])] (* signatures.rs:896 .WPC . *)
   ]);
  (DalvikExecutable, (* signatures.rs:898 *)
   [
    [(0%N, [x64; x65; x78; x0a]); (7%N, [x00])] (* signatures.rs:899 dex. . *)
   ]);
  (EmbeddedOpentype, (* signatures.rs:901 *)
   [
    [(8%N, [x00; x00; x01]); (34%N, [x4c; x50])] (* signatures.rs:902 ... LP *);
    [(8%N, [x01; x00; x02]); (34%N, [x4c; x50])] (* signatures.rs:903 ... LP *);
    [(8%N, [x02; x00; x02]); (34%N, [x4c; x50])] (* signatures.rs:904 ... LP *)
   ]);
  (FigletFont, (* signatures.rs:906 *)
   [
    [(0%N, [x66; x6c; x66; x32; x61])] (* signatures.rs:907 flf2a *)
   ]);
  (GoogleDraco, (* signatures.rs:909 *)
   [
    [(0%N, [x44; x52; x41; x43; x4f])] (* signatures.rs:910 DRACO *)
   ]);
  (Iso9660, (* signatures.rs:912 *)
   [
    [(32769%N, [x43; x44; x30; x30; x31])] (* signatures.rs:913 CD001 *);
    [(34817%N, [x43; x44; x30; x30; x31])] (* signatures.rs:914 CD001 *);
    [(36865%N, [x43; x44; x30; x30; x31])] (* signatures.rs:915 CD001 *)
   ]);
  (Larc, (* signatures.rs:917 *)
   [
    [(2%N, [x2d; x6c; x7a; x32; x2d])] (* signatures.rs:918 -lz2- *);
    [(2%N, [x2d; x6c; x7a; x33; x2d])] (* signatures.rs:919 -lz3- *);
    [(2%N, [x2d; x6c; x7a; x34; x2d])] (* signatures.rs:920 -lz4- *);
    [(2%N, [x2d; x6c; x7a; x35; x2d])] (* signatures.rs:921 -lz5- *);
    [(2%N, [x2d; x6c; x7a; x37; x2d])] (* signatures.rs:922 -lz7- *);
    [(2%N, [x2d; x6c; x7a; x38; x2d])] (* signatures.rs:923 -lz8- *);
    [(2%N, [x2d; x6c; x7a; x73; x2d])] (* signatures.rs:924 -lzs- *)
   ]);
  (LempelZivMarkovChainAlgorithm, (* signatures.rs:926 *)
   [
    [(0%N, [x5d; x00; x00; x80; x00])] (* signatures.rs:927 ].... *)
   ]);
  (Lha, (* signatures.rs:929 *)
   [
    [(2%N, [x2d; x6c; x68; x30; x2d])] (* signatures.rs:930 -lh0- *);
    [(2%N, [x2d; x6c; x68; x31; x2d])] (* signatures.rs:931 -lh1- *);
    [(2%N, [x2d; x6c; x68; x32; x2d])] (* signatures.rs:932 -lh2- *);
    [(2%N, [x2d; x6c; x68; x33; x2d])] (* signatures.rs:933 -lh3- *);
    [(2%N, [x2d; x6c; x68; x34; x2d])] (* signatures.rs:934 -lh4- *);
    [(2%N, [x2d; x6c; x68; x35; x2d])] (* signatures.rs:935 -lh5- *);
    [(2%N, [x2d; x6c; x68; x36; x2d])] (* signatures.rs:936 -lh6- *);
    [(2%N, [x2d; x6c; x68; x37; x2d])] (* signatures.rs:937 -lh7- *);
    [(2%N, [x2d; x6c; x68; x38; x2d])] (* signatures.rs:938 -lh8- *);
    [(2%N, [x2d; x6c; x68; x64; x2d])] (* signatures.rs:939 -lhd- *)
   ]);
  (MachO, (* signatures.rs:941 *)
   [
    [(0%N, [xca; xfe; xba; xbe]); (7%N, [x01])] (* signatures.rs:942 .... . *);
    [(0%N, [xca; xfe; xba; xbe]); (7%N, [x02])] (* signatures.rs:943 .... . *);
    [(0%N, [xca; xfe; xba; xbe]); (7%N, [x03])] (* signatures.rs:944 .... . *);
    [(0%N, [xca; xfe; xba; xbe]); (7%N, [x04])] (* signatures.rs:945 .... . *);
    [(0%N, [xca; xfe; xba; xbe]); (7%N, [x05])] (* signatures.rs:946 .... . *);
    [(0%N, [xca; xfe; xba; xbe]); (7%N, [x06])] (* signatures.rs:947 .... . *);
    [(0%N, [xca; xfe; xba; xbe]); (7%N, [x07])] (* signatures.rs:948 .... . *);
    [(0%N, [xca; xfe; xba; xbe]); (7%N, [x08])] (* signatures.rs:949 .... . *);
    [(0%N, [xca; xfe; xba; xbe]); (7%N, [x09])] (* signatures.rs:950 .... . *);
    [(0%N, [xca; xfe; xba; xbe]); (7%N, [x0a])] (* signatures.rs:951 .... . *);
    [(0%N, [xca; xfe; xba; xbe]); (7%N, [x0b])] (* signatures.rs:952 .... . *);
    [(0%N, [xca; xfe; xba; xbe]); (7%N, [x0c])] (* signatures.rs:953 .... . *);
    [(0%N, [xca; xfe; xba; xbe]); (7%N, [x0d])] (* signatures.rs:954 .... . *);
    [(0%N, [xca; xfe; xba; xbe]); (7%N, [x0e])] (* signatures.rs:955 .... . *);
    [(0%N, [xca; xfe; xba; xbe]); (7%N, [x0f])] (* signatures.rs:956 .... . *);
    [(0%N, [xca; xfe; xba; xbe]); (7%N, [x10])] (* signatures.rs:957 .... . *);
    [(0%N, [xca; xfe; xba; xbe]); (7%N, [x11])] (* signatures.rs:958 .... . *);
    [(0%N, [xca; xfe; xba; xbe]); (7%N, [x12])] (* signatures.rs:959 .... . *);
    [(0%N, [xca; xfe; xba; xbe]); (7%N, [xff])] (* signatures.rs:960 .... . *);
    [(0%N, [xce; xfa; xed; xfe])] (* signatures.rs:961 .... *);
    [(0%N, [xcf; xfa; xed; xfe])] (* signatures.rs:962 .... *);
    [(0%N, [xfe; xed; xfa; xce])] (* signatures.rs:963 .... *);
    [(0%N, [xfe; xed; xfa; xcf])] (* signatures.rs:964 .... *)
   ]);
  (NintendoSwitchRom, (* signatures.rs:966 *)
   [
    [(256%N, [x48; x45; x41; x44]); (269%N, [xe0])] (* signatures.rs:967 HEAD . *);
    [(256%N, [x48; x45; x41; x44]); (269%N, [xe1])] (* signatures.rs:968 HEAD . *);
    [(256%N, [x48; x45; x41; x44]); (269%N, [xe2])] (* signatures.rs:969 HEAD . *);
    [(256%N, [x48; x45; x41; x44]); (269%N, [xf0])] (* signatures.rs:970 HEAD . *);
    [(256%N, [x48; x45; x41; x44]); (269%N, [xf8])] (* signatures.rs:971 HEAD . *);
    [(256%N, [x48; x45; x41; x44]); (269%N, [xfa])] (* signatures.rs:972 HEAD . *)
   ]);
  (Opentype, (* signatures.rs:974 *)
   [
    [(0%N, [x4f; x54; x54; x4f; x00])] (* signatures.rs:975 OTTO. *)
   ]);
  (Pmarc, (* signatures.rs:977 *)
   [
    [(2%N, [x2d; x70; x63; x31; x2d])] (* signatures.rs:978 -pc1- *);
    [(2%N, [x2d; x70; x6d; x30; x2d])] (* signatures.rs:979 -pm0- *);
    [(2%N, [x2d; x70; x6d; x31; x2d])] (* signatures.rs:980 -pm1- *);
    [(2%N, [x2d; x70; x6d; x32; x2d])] (* signatures.rs:981 -pm2- *);
    [(2%N, [x2d; x70; x6d; x73; x2d])] (* signatures.rs:982 -pms- *)
   ]);
  (PortableDocumentFormat, (* signatures.rs:984 *)
   [
    [(0%N, [x25; x50; x44; x46; x2d])] (* signatures.rs:985 %PDF- *)
   ]);
  (RichTextFormat, (* signatures.rs:987 *)
   [
    [(0%N, [x7b; x5c; x72; x74; x66])] (* signatures.rs:988 {\rtf *)
   ]);
  (Truetype, (* signatures.rs:990 *)
   [
    [(0%N, [x00; x01; x00; x00; x00])] (* signatures.rs:991 ..... *)
   ]);
  (TruetypeCollection, (* signatures.rs:993 *)
   [
    [(0%N, [x74; x74; x63; x66; x00])] (* signatures.rs:994 ttcf. *)
   ]);
  (VirtualMachineDisk, (* signatures.rs:996 *)
   [
    [(0%N, [x43; x4f; x57; x44; x01])] (* signatures.rs:997 COWD. *);
    [(0%N, [x4b; x44; x4d; x56; x01])] (* signatures.rs:998 KDMV. *);
    [(0%N, [x4b; x44; x4d; x56; x02])] (* signatures.rs:999 KDMV. *);
    [(0%N, [x4b; x44; x4d; x56; x03])] (* signatures.rs:1000 KDMV. *)
   ]);
  (WordperfectPresentations, (* signatures.rs:1002 *)
   [
    [(0%N, [xff; x57; x50; x43]); (9%N, [x0a])] (* signatures.rs:1003 .WPC . *)
   ]);
  (AdaptableScalableTextureCompression, (* signatures.rs:1006 *)
   [
    [(0%N, [x13; xab; xa1; x5c])] (* signatures.rs:1007 ...\ *)
   ]);
  (AdobePhotoshopDocument, (* signatures.rs:1009 *)
   [
    [(0%N, [x38; x42; x50; x53])] (* signatures.rs:1010 8BPS *)
   ]);
  (Alz, (* signatures.rs:1012 *)
   [
    [(0%N, [x41; x4c; x5a; x01])] (* signatures.rs:1013 ALZ. *)
   ]);
  (AmigaDiskFile, (* signatures.rs:1015 *)
   [
    [(0%N, [x44; x4f; x53; x00])] (* signatures.rs:1016 DOS. *);
    [(0%N, [x44; x4f; x53; x01])] (* signatures.rs:1017 DOS. *);
    [(0%N, [x44; x4f; x53; x02])] (* signatures.rs:1018 DOS. *);
    [(0%N, [x44; x4f; x53; x03])] (* signatures.rs:1019 DOS. *);
    [(0%N, [x44; x4f; x53; x04])] (* signatures.rs:1020 DOS. *);
    [(0%N, [x44; x4f; x53; x05])] (* signatures.rs:1021 DOS. *)
   ]);
  (AndroidBinaryXml, (* signatures.rs:1023 *)
   [
    [(0%N, [x03; x00; x08; x00])] (* signatures.rs:1024 .... *)
   ]);
  (AndroidResourceStorageContainer, (* signatures.rs:1026 *)
   [
    [(0%N, [x02; x00; x0c; x00])] (* signatures.rs:1027 .... *)
   ]);
  (ApacheAvro, (* signatures.rs:1029 *)
   [
    [(0%N, [x4f; x62; x6a; x01])] (* signatures.rs:1030 Obj. *)
   ]);
  (ApacheParquet, (* signatures.rs:1032 *)
   [
    [(0%N, [x50; x41; x52; x31])] (* signatures.rs:1033 PAR1 *)
   ]);
  (AppleIconImage, (* signatures.rs:1035 *)
   [
    [(0%N, [x69; x63; x6e; x73])] (* signatures.rs:1036 icns *)
   ]);
  (Au, (* signatures.rs:1038 *)
   [
    [(0%N, [x2e; x73; x6e; x64])] (* signatures.rs:1039 .snd *)
   ]);
  (AudioVisualResearch, (* signatures.rs:1041 *)
   [
    [(0%N, [x32; x42; x49; x54])] (* signatures.rs:1042 2BIT *)
   ]);
  (AutocadDrawing, (* signatures.rs:1044 *)
   [
    [(0%N, [x41; x43; x31; x2e])] (* signatures.rs:1045 AC1. *);
    [(0%N, [x41; x43; x31; x30])] (* signatures.rs:1046 AC10 *);
    [(0%N, [x41; x43; x32; x2e])] (* signatures.rs:1047 AC2. *);
    [(0%N, [x4d; x43; x30; x2e])] (* signatures.rs:1048 MC0. *)
   ]);
  (BetterPortableGraphics, (* signatures.rs:1050 *)
   [
    [(0%N, [x42; x50; x47; xfb])] (* signatures.rs:1051 BPG. *)
   ]);
  (BmfontBinary, (* signatures.rs:1053 *)
   [
    [(0%N, [x42; x4d; x46; x03])] (* signatures.rs:1054 BMF. *)
   ]);
  (Cabinet, (* signatures.rs:1056 *)
   [
    [(0%N, [x49; x53; x63; x28])] (* signatures.rs:1057 ISc. *);
    [(0%N, [x4d; x53; x43; x46])] (* signatures.rs:1058 MSCF *)
   ]);
  (Cineon, (* signatures.rs:1060 *)
   [
    [(0%N, [x80; x2a; x5f; xd7])] (* signatures.rs:1061 .._. *)
   ]);
  (Cpio, (* signatures.rs:1063 *)
   [
    [(0%N, [x30; x37; x30; x37])] (* signatures.rs:1064 0707 *);
    [(0%N, [x71; xc7])] (* signatures.rs:1065 q. *);
    [(0%N, [xc7; x71])] (* signatures.rs:1066 .q *)
   ]);
  (DigitalImagingAndCommunicationsInMedicine, (* signatures.rs:1068 *)
   [
    [(128%N, [x44; x49; x43; x4d])] (* signatures.rs:1069 DICM *)
   ]);
  (DigitalPictureExchange, (* signatures.rs:1071 *)
   [
    [(0%N, [x53; x44; x50; x58])] (* signatures.rs:1072 SDPX *);
    [(0%N, [x58; x50; x44; x53])] (* signatures.rs:1073 XPDS *)
   ]);
  (ExecutableAndLinkableFormat, (* signatures.rs:1075 *)
   [
    [(0%N, [x7f; x45; x4c; x46])] (* signatures.rs:1076 .ELF *)
   ]);
  (ExtensibleArchive, (* signatures.rs:1078 *)
   [
    [(0%N, [x78; x61; x72; x21])] (* signatures.rs:1079 xar! *)
   ]);
  (ExtensibleBinaryMetaLanguage, (* signatures.rs:1081 *)
   [
    [(0%N, [x1a; x45; xdf; xa3])] (* signatures.rs:1082 .E.. *)
   ]);
  (FlashVideo, (* signatures.rs:1084 *)
   [
    [(0%N, [x46; x4c; x56; x01])] (* signatures.rs:1085 FLV. *)
   ]);
  (FlexibleAndInteroperableDataTransfer, (* signatures.rs:1087 *)
   [
    [(8%N, [x2e; x46; x49; x54])] (* signatures.rs:1088 .FIT *)
   ]);
  (FreeLosslessAudioCodec, (* signatures.rs:1090 *)
   [
    [(0%N, [x66; x4c; x61; x43])] (* signatures.rs:1091 fLaC *)
   ]);
  (FreeLosslessImageFormat, (* signatures.rs:1093 *)
   [
    [(0%N, [x46; x4c; x49; x46])] (* signatures.rs:1094 FLIF *)
   ]);
  (GettextMachineObject, (* signatures.rs:1096 *)
   [
    [(0%N, [x95; x04; x12; xde])] (* signatures.rs:1097 .... *);
    [(0%N, [xde; x12; x04; x95])] (* signatures.rs:1098 .... *)
   ]);
  (GlTransmissionFormatBinary, (* signatures.rs:1100 *)
   [
    [(0%N, [x67; x6c; x54; x46])] (* signatures.rs:1101 glTF *)
   ]);
  (GoogleChromeExtension, (* signatures.rs:1103 *)
   [
    [(0%N, [x43; x72; x32; x34])] (* signatures.rs:1104 Cr24 *)
   ]);
  (IccProfile, (* signatures.rs:1106 *)
   [
    [(36%N, [x61; x63; x73; x70])] (* signatures.rs:1107 acsp *)
   ]);
  (Id3v2, (* signatures.rs:1109 *)
   [
    [(0%N, [x49; x44; x33; x02])] (* signatures.rs:1110 ID3. *);
    [(0%N, [x49; x44; x33; x03])] (* signatures.rs:1111 ID3. *);
    [(0%N, [x49; x44; x33; x04])] (* signatures.rs:1112 ID3. *)
   ]);
  (ImpulseTrackerModule, (* signatures.rs:1114 *)
   [
    [(0%N, [x49; x4d; x50; x4d])] (* signatures.rs:1115 IMPM *)
   ]);
  (JavaClass, (* signatures.rs:1117 *)
   [
    [(0%N, [xca; xfe; xba; xbe])] (* signatures.rs:1118 .... *)
   ]);
  (JavaKeystore, (* signatures.rs:1120 *)
   [
    [(0%N, [xfe; xed; xfe; xed])] (* signatures.rs:1121 .... *)
   ]);
  (Jpeg2000Codestream, (* signatures.rs:1123 *)
   [
    [(0%N, [xff; x4f; xff; x51])] (* signatures.rs:1124 .O.Q *)
   ]);
  (JpegLs, (* signatures.rs:1126 *)
   [
    [(0%N, [xff; xd8; xff; xf7])] (* signatures.rs:1127 .... *)
   ]);
  (LempelZivFiniteStateEntropy, (* signatures.rs:1129 *)
   [
    [(0%N, [x62; x76; x78; x2d])] (* signatures.rs:1130 bvx- *);
    [(0%N, [x62; x76; x78; x31])] (* signatures.rs:1131 bvx1 *);
    [(0%N, [x62; x76; x78; x32])] (* signatures.rs:1132 bvx2 *);
    [(0%N, [x62; x76; x78; x6e])] (* signatures.rs:1133 bvxn *)
   ]);
  (LlvmBitcode, (* signatures.rs:1135 *)
   [
    [(0%N, [x42; x43; xc0; xde])] (* signatures.rs:1136 BC.. *)
   ]);
  (LongRangeZip, (* signatures.rs:1138 *)
   [
    [(0%N, [x4c; x52; x5a; x49])] (* signatures.rs:1139 LRZI *)
   ]);
  (LuaBytecode, (* signatures.rs:1141 *)
   [
    [(0%N, [x1b; x4c; x75; x61])] (* signatures.rs:1142 .Lua *)
   ]);
  (Lz4, (* signatures.rs:1144 *)
   [
    [(0%N, [x04; x22; x4d; x18])] (* signatures.rs:1145 ..M. *)
   ]);
  (Lzip, (* signatures.rs:1147 *)
   [
    [(0%N, [x4c; x5a; x49; x50])] (* signatures.rs:1148 LZIP *)
   ]);
  (Magicavoxel, (* signatures.rs:1150 *)
   [
    [(0%N, [x56; x4f; x58; x20])] (* signatures.rs:1151 VOX. *)
   ]);
  (MicrosoftCompiledHtmlHelp, (* signatures.rs:1153 *)
   [
    [(0%N, [x49; x54; x53; x46])] (* signatures.rs:1154 ITSF *)
   ]);
  (MicrosoftDirectdrawSurface, (* signatures.rs:1156 *)
   [
    [(0%N, [x44; x44; x53; x20])] (* signatures.rs:1157 DDS. *)
   ]);
  (MicrosoftWorksWordProcessor, (* signatures.rs:1159 *)
   [
    [(0%N, [x01; xfe]); (112%N, [x01; x00])] (* signatures.rs:1160 .. .. *)
   ]);
  (Model3dBinary, (* signatures.rs:1162 *)
   [
    [(0%N, [x33; x44; x4d; x4f])] (* signatures.rs:1163 3DMO *)
   ]);
  (MonkeysAudio, (* signatures.rs:1165 *)
   [
    [(0%N, [x4d; x41; x43; x20])] (* signatures.rs:1166 MAC. *)
   ]);
  (MozillaArchive, (* signatures.rs:1168 *)
   [
    [(0%N, [x4d; x41; x52; x31])] (* signatures.rs:1169 MAR1 *)
   ]);
  (Mpeg12Video, (* signatures.rs:1171 *)
   [
    [(0%N, [x00; x00; x01; xb3])] (* signatures.rs:1172 .... *);
    [(0%N, [x00; x00; x01; xba])] (* signatures.rs:1173 .... *)
   ]);
  (Musepack, (* signatures.rs:1175 *)
   [
    [(0%N, [x4d; x50; x43; x4b])] (* signatures.rs:1176 MPCK *);
    [(0%N, [x4d; x50; x2b])] (* signatures.rs:1177 MP+ *)
   ]);
  (MusicalInstrumentDigitalInterface, (* signatures.rs:1179 *)
   [
    [(0%N, [x4d; x54; x68; x64])] (* signatures.rs:1180 MThd *)
   ]);
  (NintendoEntertainmentSystemRom, (* signatures.rs:1182 *)
   [
    [(0%N, [x4e; x45; x53; x1a])] (* signatures.rs:1183 NES. *)
   ]);
  (NintendoSwitchExecutable, (* signatures.rs:1185 *)
   [
    [(0%N, [x4e; x53; x4f; x30])] (* signatures.rs:1186 NSO0 *)
   ]);
  (NintendoSwitchPackage, (* signatures.rs:1188 *)
   [
    [(0%N, [x50; x46; x53; x30])] (* signatures.rs:1189 PFS0 *)
   ]);
  (OggMultiplexedMedia, (* signatures.rs:1191 *)
   [
    [(0%N, [x4f; x67; x67; x53])] (* signatures.rs:1192 OggS *)
   ]);
  (Openexr, (* signatures.rs:1194 *)
   [
    [(0%N, [x76; x2f; x31; x01])] (* signatures.rs:1195 v/1. *)
   ]);
  (OptimizedDalvikExecutable, (* signatures.rs:1197 *)
   [
    [(0%N, [x64; x65; x79; x0a])] (* signatures.rs:1198 dey. *)
   ]);
  (PcapDump, (* signatures.rs:1200 *)
   [
    [(0%N, [xa1; xb2; xc3; xd4])] (* signatures.rs:1201 .... *);
    [(0%N, [xd4; xc3; xb2; xa1])] (* signatures.rs:1202 .... *)
   ]);
  (PcapNextGenerationDump, (* signatures.rs:1204 *)
   [
    [(0%N, [x0a; x0d; x0d; x0a])] (* signatures.rs:1205 .... *)
   ]);
  (PersonalStorageTable, (* signatures.rs:1207 *)
   [
    [(0%N, [x21; x42; x44; x4e])] (* signatures.rs:1208 !BDN *)
   ]);
  (PictureExchange, (* signatures.rs:1210 *)
   [
    [(0%N, [x0a; x00; x00]); (64%N, [x00])] (* signatures.rs:1211 ... . *);
    [(0%N, [x0a; x00; x01]); (64%N, [x00])] (* signatures.rs:1212 ... . *);
    [(0%N, [x0a; x02; x00]); (64%N, [x00])] (* signatures.rs:1213 ... . *);
    [(0%N, [x0a; x02; x01]); (64%N, [x00])] (* signatures.rs:1214 ... . *);
    [(0%N, [x0a; x03; x00]); (64%N, [x00])] (* signatures.rs:1215 ... . *);
    [(0%N, [x0a; x03; x01]); (64%N, [x00])] (* signatures.rs:1216 ... . *);
    [(0%N, [x0a; x04; x00]); (64%N, [x00])] (* signatures.rs:1217 ... . *);
    [(0%N, [x0a; x04; x01]); (64%N, [x00])] (* signatures.rs:1218 ... . *);
    [(0%N, [x0a; x05; x00]); (64%N, [x00])] (* signatures.rs:1219 ... . *);
    [(0%N, [x0a; x05; x01]); (64%N, [x00])] (* signatures.rs:1220 ... . *)
   ]);
  (QemuCopyOnWrite, (* signatures.rs:1222 *)
   [
    [(0%N, [x51; x46; x49; xfb])] (* signatures.rs:1223 QFI. *)
   ]);
  (QuiteOkAudio, (* signatures.rs:1225 *)
   [
    [(0%N, [x71; x6f; x61; x66])] (* signatures.rs:1226 qoaf *)
   ]);
  (QuiteOkImage, (* signatures.rs:1228 *)
   [
    [(0%N, [x71; x6f; x69; x66])] (* signatures.rs:1229 qoif *)
   ]);
  (Realaudio, (* signatures.rs:1231 *)
   [
    [(0%N, [x2e; x72; x61; xfd])] (* signatures.rs:1232 .ra. *)
   ]);
  (RedHatPackageManager, (* signatures.rs:1234 *)
   [
    [(0%N, [xed; xab; xee; xdb])] (* signatures.rs:1235 .... *)
   ]);
  (Rzip, (* signatures.rs:1237 *)
   [
    [(0%N, [x52; x5a; x49; x50])] (* signatures.rs:1238 RZIP *)
   ]);
  (ScreamTracker3Module, (* signatures.rs:1240 *)
   [
    [(44%N, [x53; x43; x52; x4d])] (* signatures.rs:1241 SCRM *)
   ]);
  (Shapefile, (* signatures.rs:1243 *)
   [
    [(0%N, [x00; x00; x27; x0a])] (* signatures.rs:1244 ..'. *)
   ]);
  (SiliconGraphicsMovie, (* signatures.rs:1246 *)
   [
    [(0%N, [x4d; x4f; x56; x49])] (* signatures.rs:1247 MOVI *)
   ]);
  (SonyDsdStreamFile, (* signatures.rs:1249 *)
   [
    [(0%N, [x44; x53; x44; x20])] (* signatures.rs:1250 DSD. *)
   ]);
  (Squashfs, (* signatures.rs:1252 *)
   [
    [(0%N, [x68; x73; x71; x73])] (* signatures.rs:1253 hsqs *)
   ]);
  (TagImageFileFormat, (* signatures.rs:1255 *)
   [
    [(0%N, [x49; x49; x2a; x00])] (* signatures.rs:1256 II.. *);
    [(0%N, [x49; x49; x2b; x00])] (* signatures.rs:1257 II+. *);
    [(0%N, [x4d; x4d; x00; x2a])] (* signatures.rs:1258 MM.. *);
    [(0%N, [x4d; x4d; x00; x2b])] (* signatures.rs:1259 MM.+ *)
   ]);
  (Tasty, (* signatures.rs:1261 *)
   [
    [(0%N, [x5c; xa1; xab; x1f])] (* signatures.rs:1262 \... *)
   ]);
  (UltimateSoundtrackerModule, (* signatures.rs:1264 *)
   [
    [(1080%N, [x4d; x2e; x4b; x2e])] (* signatures.rs:1265 M.K. *)
   ]);
  (Universal3d, (* signatures.rs:1267 *)
   [
    [(0%N, [x55; x33; x44; x00])] (* signatures.rs:1268 U3D. *)
   ]);
  (Wavpack, (* signatures.rs:1270 *)
   [
    [(0%N, [x77; x76; x70; x6b])] (* signatures.rs:1271 wvpk *)
   ]);
  (WebOpenFontFormat, (* signatures.rs:1273 *)
   [
    [(0%N, [x77; x4f; x46; x46])] (* signatures.rs:1274 wOFF *)
   ]);
  (WebOpenFontFormat2, (* signatures.rs:1276 *)
   [
    [(0%N, [x77; x4f; x46; x32])] (* signatures.rs:1277 wOF2 *)
   ]);
  (WebassemblyBinary, (* signatures.rs:1279 *)
   [
    [(0%N, [x00; x61; x73; x6d])] (* signatures.rs:1280 .asm *)
   ]);
  (WindowsCursor, (* signatures.rs:1282 *)
   [
    [(0%N, [x00; x00; x02; x00])] (* signatures.rs:1283 .... *)
   ]);
  (WindowsIcon, (* signatures.rs:1285 *)
   [
    [(0%N, [x00; x00; x01; x00])] (* signatures.rs:1286 .... *)
   ]);
  (WindowsMetafile, (* signatures.rs:1288 *)
   [
    [(0%N, [x01; x00; x09; x00])] (* signatures.rs:1289 .... *);
    [(0%N, [x02; x00; x09; x00])] (* signatures.rs:1290 .... *);
    [(0%N, [xd7; xcd; xc6; x9a])] (* signatures.rs:1291 .... *)
   ]);
  (WordperfectDocument, (* signatures.rs:1293 *)
   [
    [(0%N, [xff; x57; x50; x43])] (* signatures.rs:1294 .WPC *)
   ]);
  (Xbox360Executable, (* signatures.rs:1296 *)
   [
    [(0%N, [x58; x45; x58; x31])] (* signatures.rs:1297 XEX1 *);
    [(0%N, [x58; x45; x58; x32])] (* signatures.rs:1298 XEX2 *)
   ]);
  (XboxExecutable, (* signatures.rs:1300 *)
   [
    [(0%N, [x58; x42; x45; x48])] (* signatures.rs:1301 XBEH *)
   ]);
  (Zip, (* signatures.rs:1303 *)
   [
    [(0%N, [x50; x4b; x03; x04])] (* signatures.rs:1304 PK.. *);
    [(0%N, [x50; x4b; x05; x06])] (* signatures.rs:1305 PK.. *)
   ]);
  (Zpaq, (* signatures.rs:1307 *)
   [
    [(0%N, [x37; x6b; x53; x74])] (* signatures.rs:1308 7kSt *);
    [(0%N, [x7a; x50; x51])] (* signatures.rs:1309 zPQ *)
   ]);
  (Zstandard, (* signatures.rs:1311 *)
   [
    [(0%N, [x28; xb5; x2f; xfd])] (* signatures.rs:1312 ../. *)
   ]);
  (ArchivedByRobertJung, (* signatures.rs:1315 *)
   [
    [(0%N, [x60; xea]); (10%N, [x02])] (* signatures.rs:1316 `. . *)
   ]);
  (Bzip, (* signatures.rs:1318 *)
   [
    [(0%N, [x42; x5a; x30])] (* signatures.rs:1319 BZ0 *)
   ]);
  (Bzip2, (* signatures.rs:1321 *)
   [
    [(0%N, [x42; x5a; x68])] (* signatures.rs:1322 BZh *)
   ]);
  (Commodore64Program, (* signatures.rs:1324 *)
   [
    [(0%N, [x01; x08]); (6%N, [x9e])] (* signatures.rs:1325 .. . *)
   ]);
  (JointPhotographicExpertsGroup, (* signatures.rs:1327 *)
   [
    [(0%N, [xff; xd8; xff])] (* signatures.rs:1328 ... *)
   ]);
  (JpegExtendedRange, (* signatures.rs:1330 *)
   [
    [(0%N, [x49; x49; xbc])] (* signatures.rs:1331 II. *)
   ]);
  (Mtv, (* signatures.rs:1333 *)
   [
    [(0%N, [x41; x4d; x56])] (* signatures.rs:1334 AMV *)
   ]);
  (PortableArbitraryMap, (* signatures.rs:1336 *)
   [
    [(0%N, [x50; x37; x20])] (* signatures.rs:1337 P7. *);
    [(0%N, [x50; x37; x0a])] (* signatures.rs:1338 P7. *);
    [(0%N, [x50; x37; x0d])] (* signatures.rs:1339 P7. *);
    [(0%N, [x50; x37; x09])] (* signatures.rs:1340 P7. *)
   ]);
  (PortableBitmap, (* signatures.rs:1342 *)
   [
    [(0%N, [x50; x31; x20])] (* signatures.rs:1343 P1. *);
    [(0%N, [x50; x31; x0a])] (* signatures.rs:1344 P1. *);
    [(0%N, [x50; x31; x0d])] (* signatures.rs:1345 P1. *);
    [(0%N, [x50; x31; x09])] (* signatures.rs:1346 P1. *);
    [(0%N, [x50; x34; x20])] (* signatures.rs:1347 P4. *);
    [(0%N, [x50; x34; x0a])] (* signatures.rs:1348 P4. *);
    [(0%N, [x50; x34; x0d])] (* signatures.rs:1349 P4. *);
    [(0%N, [x50; x34; x09])] (* signatures.rs:1350 P4. *)
   ]);
  (PortableFloatmap, (* signatures.rs:1352 *)
   [
    [(0%N, [x50; x46; x20])] (* signatures.rs:1353 PF. *);
    [(0%N, [x50; x46; x0a])] (* signatures.rs:1354 PF. *);
    [(0%N, [x50; x46; x0d])] (* signatures.rs:1355 PF. *);
    [(0%N, [x50; x46; x09])] (* signatures.rs:1356 PF. *);
    [(0%N, [x50; x66; x20])] (* signatures.rs:1357 Pf. *);
    [(0%N, [x50; x66; x0a])] (* signatures.rs:1358 Pf. *);
    [(0%N, [x50; x66; x0d])] (* signatures.rs:1359 Pf. *);
    [(0%N, [x50; x66; x09])] (* signatures.rs:1360 Pf. *)
   ]);
  (PortableGraymap, (* signatures.rs:1362 *)
   [
    [(0%N, [x50; x32; x20])] (* signatures.rs:1363 P2. *);
    [(0%N, [x50; x32; x0a])] (* signatures.rs:1364 P2. *);
    [(0%N, [x50; x32; x0d])] (* signatures.rs:1365 P2. *);
    [(0%N, [x50; x32; x09])] (* signatures.rs:1366 P2. *);
    [(0%N, [x50; x35; x20])] (* signatures.rs:1367 P5. *);
    [(0%N, [x50; x35; x0a])] (* signatures.rs:1368 P5. *);
    [(0%N, [x50; x35; x0d])] (* signatures.rs:1369 P5. *);
    [(0%N, [x50; x35; x09])] (* signatures.rs:1370 P5. *)
   ]);
  (PortablePixmap, (* signatures.rs:1372 *)
   [
    [(0%N, [x50; x33; x20])] (* signatures.rs:1373 P3. *);
    [(0%N, [x50; x33; x0a])] (* signatures.rs:1374 P3. *);
    [(0%N, [x50; x33; x0d])] (* signatures.rs:1375 P3. *);
    [(0%N, [x50; x33; x09])] (* signatures.rs:1376 P3. *);
    [(0%N, [x50; x36; x20])] (* signatures.rs:1377 P6. *);
    [(0%N, [x50; x36; x0a])] (* signatures.rs:1378 P6. *);
    [(0%N, [x50; x36; x0d])] (* signatures.rs:1379 P6. *);
    [(0%N, [x50; x36; x09])] (* signatures.rs:1380 P6. *)
   ]);
  (Seqbox, (* signatures.rs:1382 *)
   [
    [(0%N, [x53; x42; x78])] (* signatures.rs:1383 SBx *)
   ]);
  (SmallWebFormat, (* signatures.rs:1385 *)
   [
    [(0%N, [x43; x57; x53])] (* signatures.rs:1386 CWS *);
    [(0%N, [x46; x57; x53])] (* signatures.rs:1387 FWS *);
    [(0%N, [x5a; x57; x53])] (* signatures.rs:1388 ZWS *)
   ]);
  (Zoo, (* signatures.rs:1390 *)
   [
    [(0%N, [x5a; x4f; x4f])] (* signatures.rs:1391 ZOO *)
   ]);
  (AdvancedAudioCoding, (* signatures.rs:1394 *)
   [
    [(0%N, [xff; xf1])] (* signatures.rs:1395 .. *);
    [(0%N, [xff; xf9])] (* signatures.rs:1396 .. *)
   ]);
  (AppleDiskImage, (* signatures.rs:1398 *)
   [
    [(0%N, [x78; x01])] (* signatures.rs:1399 x. *)
   ]);
  (AudioCodec3, (* signatures.rs:1401 *)
   [
    [(0%N, [x0b; x77])] (* signatures.rs:1402 .w *)
   ]);
  (AutodeskAnimator, (* signatures.rs:1404 *)
   [
    [(4%N, [x11; xaf])] (* signatures.rs:1405 .. *)
   ]);
  (AutodeskAnimatorPro, (* signatures.rs:1407 *)
   [
    [(4%N, [x12; xaf])] (* signatures.rs:1408 .. *)
   ]);
  (BdavMpeg2TransportStream, (* signatures.rs:1410 *)
   [
    [(4%N, [x47]); (196%N, [x47])] (* signatures.rs:1411 G G *)
   ]);
  (CommonObjectFileFormat, (* signatures.rs:1413 *)
   [
    [(0%N, [x00; x02])] (* signatures.rs:1414 .. *);
    [(0%N, [x4c; x01])] (* signatures.rs:1415 L. *);
    [(0%N, [x64; x86])] (* signatures.rs:1416 d. *)
   ]);
  (DerCertificate, (* signatures.rs:1418 *)
   [
    [(0%N, [x30; x82])] (* signatures.rs:1419 0. *)
   ]);
  (Gzip, (* signatures.rs:1421 *)
   [
    [(0%N, [x1f; x8b])] (* signatures.rs:1422 .. *)
   ]);
  (Mpeg12AudioLayer2, (* signatures.rs:1424 *)
   [
    [(0%N, [xff; xf4])] (* signatures.rs:1425 .. *);
    [(0%N, [xff; xf5])] (* signatures.rs:1426 .. *);
    [(0%N, [xff; xfc])] (* signatures.rs:1427 .. *);
    [(0%N, [xff; xfd])] (* signatures.rs:1428 .. *)
   ]);
  (Mpeg12AudioLayer3, (* signatures.rs:1430 *)
   [
    [(0%N, [xff; xe2])] (* signatures.rs:1431 .. *);
    [(0%N, [xff; xe3])] (* signatures.rs:1432 .. *);
    [(0%N, [xff; xf2])] (* signatures.rs:1433 .. *);
    [(0%N, [xff; xf3])] (* signatures.rs:1434 .. *);
    [(0%N, [xff; xfa])] (* signatures.rs:1435 .. *);
    [(0%N, [xff; xfb])] (* signatures.rs:1436 .. *)
   ]);
  (Mpeg2TransportStream, (* signatures.rs:1438 *)
   [
    [(0%N, [x47]); (188%N, [x47])] (* signatures.rs:1439 G G *)
   ]);
  (MsDosExecutable, (* signatures.rs:1441 *)
   [
    [(0%N, [x4d; x5a])] (* signatures.rs:1442 MZ *);
    [(0%N, [x5a; x4d])] (* signatures.rs:1443 ZM *)
   ]);
  (Postscript, (* signatures.rs:1445 *)
   [
    [(0%N, [x25; x21])] (* signatures.rs:1446 %! *)
   ]);
  (SiliconGraphicsImage, (* signatures.rs:1448 *)
   [
    [(0%N, [x01; xda])] (* signatures.rs:1449 .. *)
   ]);
  (UnixCompress, (* signatures.rs:1451 *)
   [
    [(0%N, [x1f; x9d])] (* signatures.rs:1452 .. *);
    [(0%N, [x1f; xa0])] (* signatures.rs:1453 .. *)
   ])
].
