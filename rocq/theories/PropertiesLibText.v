(** C71: the entry points of the library do what their text says. *)
From Coq Require Import List NArith Bool String Lia.
From Verif Require Import Base BaseProofs Formats FormatsProofs Derive Signatures IO Readers Lib SigProofs AnyReader SpecAny SpecApi PropertiesAny AnyHom RustAst RustSem LibSem
  Source SourceProofs SpecSource PropertiesSource SpecLibText PropertiesMacro PropertiesNames Conf.
From Verif Require RustEval.
Import ListNotations.
Local Open Scope N_scope.

Definition lib_fns : list fn := Eval vm_compute in functions (lib_rs ++ lib_from_rs)%list.
Lemma lib_fns_eq : functions (lib_rs ++ lib_from_rs)%list = lib_fns.
Proof. vm_cast_no_check (eq_refl lib_fns). Qed.

Section Eval.
Variables (S : Type) (rd : N -> S -> result bytes * S) (new_cursor : bytes -> S) (opened : result S).
Variable signature : bytes -> exec (option (option FileFormat)).
Variable by_format : FileFormat -> S -> exec (option (result FileFormat)) * S.
Variable generic : S -> exec (option FileFormat) * S.
Notation run := (call S rd new_cursor opened signature by_format generic lib_fns).

Definition generic_part (s : S) : exec (option value) * S :=
  match generic s with
  | (Done o, s1) => (Done (option_map (fun f => VOk (VFmt f)) o), s1)
  | (Panicked, s1) => (Panicked, s1)
  | (OutOfFuel, s1) => (OutOfFuel, s1)
  end.

Definition reader_part (s : S) : exec (option value) * S :=
  match rd 36870 s with
  | (Ok l, s1) =>
      if lenN l =? 0 then (Done (Some (VOk (VFmt Empty))), s1)
      else if lenN l <=? lenN (l ++ dropN (lenN l) (repeat x00 (N.to_nat 36870))) then
        match signature (takeN (lenN l) (l ++ dropN (lenN l) (repeat x00 (N.to_nat 36870)))) with
        | Done (Some (Some f)) =>
            match by_format f s1 with
            | (Done (Some (Ok g)), s2) => (Done (Some (VOk (VFmt g))), s2)
            | (Done (Some (Err _)), s2) => generic_part s2
            | (Done None, s2) => (Done None, s2)
            | (Panicked, s2) => (Panicked, s2)
            | (OutOfFuel, s2) => (OutOfFuel, s2)
            end
        | Done (Some None) => generic_part s1
        | Done None => (Done None, s1)
        | Panicked => (Panicked, s1)
        | OutOfFuel => (OutOfFuel, s1)
        end
      else (Panicked, s1)
  | (Err e, s1) => (Done (Some (VErr e)), s1)
  end.

Ltac work := lazy beta iota zeta delta [call ev outside name_eqb Ascii.eqb Bool.eqb lib_fns find_fn f_name f_params f_body bind_params
  seq follow norm give unknown panic read_into lookup assign trunc edrop esub elen of_format of_result fst snd].
Lemma run_from_reader n s : run (15 + n)%nat "from_reader" [VReader false] s = reader_part s.
Proof.
  cbn [Nat.add]. work. unfold reader_part, generic_part. rewrite lenN_repeat.
  destruct (rd 36870 s) as [[l|e] s1]; [|reflexivity].
  destruct (lenN l =? 0); [reflexivity|].
  destruct (lenN l <=? _); [|reflexivity].
  destruct (signature _) as [[[f|]|]| |]; try reflexivity.
  - destruct (by_format f s1) as [[[[g|e]|]| |] s2]; try reflexivity.
    destruct (generic s2) as [[[g|]| |] s3]; reflexivity.
  - destruct (generic s1) as [[[g|]| |] s3]; reflexivity.
Qed.

(** [unwrap_or_default] *)
Definition or_default (r : exec (option value) * S) : exec (option value) * S :=
  match r with
  | (Done (Some (VOk w)), s1) => (Done (Some w), s1)
  | (Done (Some (VErr _)), s1) => (Done (Some (VFmt ArbitraryBinaryData)), s1)
  | (Done _, s1) => (Done None, s1)
  | (Panicked, s1) => (Panicked, s1)
  | (OutOfFuel, s1) => (OutOfFuel, s1)
  end.
Ltac cases :=
  unfold reader_part, generic_part; rewrite lenN_repeat;
  match goal with |- context [rd 36870 ?x] => destruct (rd 36870 x) as [[?|?] ?] end; [|reflexivity];
  match goal with |- context [?x =? 0] => destruct (x =? 0) end; [reflexivity|];
  match goal with |- context [?x <=? ?y] => destruct (x <=? y) end; [|reflexivity];
  match goal with |- context [signature ?x] => destruct (signature x) as [[[?|]|]| |] end; try reflexivity;
  [ match goal with |- context [by_format ?f ?s] => destruct (by_format f s) as [[[[?|?]|]| |] ?] end; try reflexivity | ];
  match goal with |- context [generic ?s] => destruct (generic s) as [[[?|]| |] ?]; reflexivity end.
Lemma run_from n l s : run (20 + n)%nat "from" [VBytes l] s = or_default (reader_part (new_cursor l)).
Proof. cbn [Nat.add]. work. unfold or_default. cases. Qed.
Lemma run_from_bytes n l s : run (25 + n)%nat "from_bytes" [VBytes l] s = or_default (reader_part (new_cursor l)).
Proof. cbn [Nat.add]. work. unfold or_default. cases. Qed.
Lemma run_from_file n path s : run (25 + n)%nat "from_file" [path] s =
  match opened with Ok s1 => reader_part s1 | Err e => (Done (Some (VErr e)), s) end.
Proof. cbn [Nat.add]. work. destruct opened as [s0|e]; [|reflexivity]. cases. Qed.
Lemma run_default n s : run (5 + n)%nat "default" [] s = (Done (Some (VFmt ArbitraryBinaryData)), s).
Proof. reflexivity. Qed.
End Eval.

(** ** The pieces *)
Lemma format_of_debug f : format_of (str_of (bs (debug f))) = Some f.
Proof.
  unfold format_of, str_of. change (bs (debug f)) with (list_byte_of_string (debug f)). rewrite string_of_list_byte_of_string.
  destruct (List.find (fun g => String.eqb (debug g) (debug f)) all_formats) as [g|] eqn:E.
  - apply List.find_some in E. destruct E as [_ E]. apply String.eqb_eq in E. apply C67_equality in E. now subst.
  - exfalso. pose proof (List.find_none _ _ E f (all_formats_complete f)) as K. cbv beta in K. rewrite String.eqb_refl in K. discriminate.
Qed.
Lemma text_signature_ok (c : cfg) l : 16 <= usize_bits c -> text_signature c l = Done (Some (from_signature l)).
Proof.
  intros H. unfold text_signature. change [bs "crate"; bs "FileFormat"] with file_format.
  rewrite C69_signature_scan by exact H. destruct (from_signature l) as [f|]; [|reflexivity].
  unfold as_option_format. now rewrite format_of_debug.
Qed.

Section Linked.
Variables (S : Type) (rd : N -> S -> result bytes * S) (sk : whence -> S -> result N * S).
Variables (fuel : nat) (c : cfg).
Variable signature : bytes -> exec (option (option FileFormat)).
Variable by_format : FileFormat -> S -> exec (option (result FileFormat)) * S.
Variable generic : S -> exec (option FileFormat) * S.
Hypothesis Hsig : forall l, signature l = Done (Some (from_signature l)).
Hypothesis Hfmt : forall f s, by_format f s = defined (a_from_fmt_reader S rd sk fuel c f s).
Hypothesis Hgen : forall s, generic s = defined (a_from_generic_reader S rd sk fuel c s).
Lemma reader_part_linked s : reader_part S rd signature by_format generic s =
  (gives_result (fst (a_from_reader S rd sk fuel c s)), snd (a_from_reader S rd sk fuel c s)).
Proof using Hsig Hfmt Hgen.
  assert (G : forall s1, generic_part S generic s1 =
    let r := match a_from_generic_reader S rd sk fuel c s1 with
      | (Done f, s3) => (Done (Ok f), s3) | (Panicked, s3) => (Panicked, s3) | (OutOfFuel, s3) => (OutOfFuel, s3) end in
    (gives_result (fst r), snd r)).
  { intros s1. unfold generic_part. rewrite Hgen. unfold defined.
    destruct (a_from_generic_reader S rd sk fuel c s1) as [[g| |] s3]; reflexivity. }
  unfold reader_part, a_from_reader. change window with 36870. generalize (repeat x00 (N.to_nat 36870)). intros buf.
  destruct (rd 36870 s) as [[l|e] s1]; [|reflexivity].
  destruct l as [|b l]; [reflexivity|].
  generalize (dropN (lenN (b :: l)) buf). intros z.
  destruct (N.eqb_spec (lenN (b :: l)) 0) as [E0|_]; [rewrite lenN_cons in E0; lia|].
  destruct (N.leb_spec (lenN (b :: l)) (lenN ((b :: l) ++ z))) as [_|K]; [|rewrite lenN_app in K; lia].
  rewrite takeN_app_len by reflexivity. rewrite Hsig.
  destruct (from_signature (b :: l)) as [f|]; [|now rewrite G].
  rewrite Hfmt. unfold defined.
  destruct (a_from_fmt_reader S rd sk fuel c f s1) as [[[g|e]| |] s2]; cbn [fst snd]; try reflexivity. now rewrite G.
Qed.
End Linked.
Lemma reader_part_ok S rd sk (Hrd : read_contract rd) (Hsk : seek_contract sk) fuel (c : cfg) (Hbits : 32 <= usize_bits c) (Hfuel : (256 <= fuel)%nat) s :
  reader_part S rd (text_signature c) (text_from_fmt_reader S rd sk fuel c) (text_from_generic_reader S rd sk fuel c) s =
  (gives_result (fst (a_from_reader S rd sk fuel c s)), snd (a_from_reader S rd sk fuel c s)).
Proof.
  apply reader_part_linked.
  - intros l. apply text_signature_ok. lia.
  - intros f s1. now apply C70_format_readers.
  - intros s1. now apply C70_generic_reader.
Qed.

(** ** C71: the entry points do what their text says

    The texts of lib.rs (the entry points), macros.rs and signatures.rs (the function that the macro generates)
    and readers.rs, parsed and evaluated together, against the model: for every implementation of [Read + Seek]
    that keeps the contracts of the traits, from every state. *)
Theorem C71_from_reader : forall S rd sk new_cursor opened fuel (c : cfg) (s : S),
  read_contract rd -> seek_contract sk -> 32 <= usize_bits c -> (256 <= fuel)%nat ->
  call_lib S rd sk new_cursor opened fuel c "from_reader" [VReader false] s =
  (gives_result (fst (a_from_reader S rd sk fuel c s)), snd (a_from_reader S rd sk fuel c s)).
Proof.
  intros S rd sk nc op fuel c s H1 H2 H3 H4. unfold call_lib. rewrite lib_fns_eq.
  change 40%nat with (15 + 25)%nat. rewrite run_from_reader. now apply reader_part_ok.
Qed.

(** [from_file]: the error of [File::open], or [from_reader] on the file. *)
Theorem C71_from_file : forall S rd sk new_cursor opened fuel (c : cfg) path (s : S),
  read_contract rd -> seek_contract sk -> 32 <= usize_bits c -> (256 <= fuel)%nat ->
  fst (call_lib S rd sk new_cursor opened fuel c "from_file" [path] s) =
  match opened with
  | Err e => Done (Some (VErr e))
  | Ok file => gives_result (fst (a_from_reader S rd sk fuel c file))
  end.
Proof.
  intros S rd sk nc op fuel c path s H1 H2 H3 H4. unfold call_lib. rewrite lib_fns_eq.
  change 40%nat with (25 + 15)%nat. rewrite run_from_file. destruct op as [s1|e]; [|reflexivity].
  rewrite (reader_part_ok S rd sk H1 H2 fuel c H3 H4). reflexivity.
Qed.

(** [from_bytes] and the conversion from slices: [from_reader] on a cursor, any error becomes the default. *)
Theorem C71_from_bytes : forall S rd sk new_cursor opened fuel (c : cfg) l (s : S) g,
  read_contract rd -> seek_contract sk -> 32 <= usize_bits c -> (256 <= fuel)%nat -> In g ["from_bytes"; "from"]%string ->
  fst (call_lib S rd sk new_cursor opened fuel c g [VBytes l] s) =
  match fst (a_from_reader S rd sk fuel c (new_cursor l)) with
  | Done (Ok f) => Done (Some (VFmt f))
  | Done (Err _) => Done (Some (VFmt ArbitraryBinaryData))
  | Panicked => Panicked
  | OutOfFuel => OutOfFuel
  end.
Proof.
  intros S rd sk nc op fuel c l s g H1 H2 H3 H4 Hg. unfold call_lib. rewrite lib_fns_eq.
  assert (E : call S rd nc op (text_signature c) (text_from_fmt_reader S rd sk fuel c) (text_from_generic_reader S rd sk fuel c) lib_fns 40 g [VBytes l] s
    = or_default S (reader_part S rd (text_signature c) (text_from_fmt_reader S rd sk fuel c) (text_from_generic_reader S rd sk fuel c) (nc l))).
  { destruct Hg as [<-|[<-|[]]].
    - change 40%nat with (25 + 15)%nat. apply run_from_bytes.
    - change 40%nat with (20 + 20)%nat. apply run_from. }
  rewrite E, (reader_part_ok S rd sk H1 H2 fuel c H3 H4). unfold or_default, gives_result.
  destruct (a_from_reader S rd sk fuel c (nc l)) as [[[f|e]| |] s2]; reflexivity.
Qed.

(** ** Slices *)
Definition as_dev (s : slice_cursor) : dev := mkdev (sc_slice s) (sc_at s) [] [] (u64_max1 - 1).
Lemma slice_reads : read_contract slice_read.
Proof. intros n s l s'. unfold slice_read. cbv zeta. intros E. apply (f_equal fst) in E. cbn [fst] in E. injection E as <-. rewrite lenN_takeN. lia. Qed.
Lemma max_lt : u64_max1 - 1 < 2 ^ 64.
Proof. reflexivity. Qed.
Lemma slice_seeks : seek_contract slice_seek.
Proof.
  intros w s p s'. unfold slice_seek. generalize (seek_target (lenN (sc_slice s)) (sc_at s) w). intros z. cbv zeta.
  pose proof max_lt as M. revert M. generalize (2 ^ 64). generalize (u64_max1 - 1). intros m q M.
  destruct (_ || _) eqn:E; [discriminate|]. intros [= <- <-]. lia.
Qed.
Lemma slice_from_reader fuel c s : a_from_reader dev dev_read dev_seek fuel c (as_dev s) =
  under as_dev (a_from_reader slice_cursor slice_read slice_seek fuel c s).
Proof.
  apply from_reader_hom.
  - intros n [l p]. reflexivity.
  - intros w [l p]. unfold dev_seek, slice_seek, as_dev. cbn [d_seeks d_content d_pos d_max d_reads sc_slice sc_at tl].
    destruct (_ || _); reflexivity.
Qed.

(** The whole chain, on slices: the text of the entry point, on the text of the readers and of what the macro
    generates, gives what the model's [from_bytes] gives, so that what the other theorems say of [from_bytes]
    they say of the text. *)
Theorem C71_slices : forall opened fuel (c : cfg) l s g,
  supported c -> rust_slice l -> (256 <= fuel)%nat -> (List.length l + 6 <= fuel)%nat -> In g ["from_bytes"; "from"]%string ->
  fst (call_lib slice_cursor slice_read slice_seek slice_new opened fuel c g [VBytes l] s) = gives_format (from_bytes c l).
Proof.
  intros op fuel c l s g Hc Hl Hf Hf' Hg.
  rewrite C71_from_bytes; [|exact slice_reads|exact slice_seeks|destruct Hc as [->| ->]; lia|exact Hf|exact Hg].
  pose proof (slice_from_reader fuel c (slice_new l)) as E. change (as_dev (slice_new l)) with (cursor l) in E.
  rewrite C53_agrees_with_from_reader in E; [|exact Hc|exact Hl|exact max_lt|exact Hf'].
  apply (f_equal fst) in E. unfold from_bytes. unfold under in E. cbn [fst] in E. rewrite E.
  destruct (fst (a_from_reader slice_cursor slice_read slice_seek fuel c (slice_new l))) as [[f|e]| |]; reflexivity.
Qed.
Print Assumptions C71_slices.

(** [Default]. *)
Theorem C71_default : forall S rd sk new_cursor opened fuel (c : cfg) (s : S),
  call_lib S rd sk new_cursor opened fuel c "default" [] s = (Done (Some (VFmt ArbitraryBinaryData)), s).
Proof. intros. unfold call_lib. rewrite lib_fns_eq. change 40%nat with (5 + 35)%nat. apply run_default. Qed.

(** The functions that were read from the text. *)
Example C71_witness_functions : map (fun g => (f_name g, f_params g)) (functions (lib_rs ++ lib_from_rs)%list) =
  [("from_bytes", ["bytes"]); ("from_file", ["path"]); ("from_reader", ["reader"]); ("default", []); ("from", ["value"])]%string.
Proof. rewrite lib_fns_eq. reflexivity. Qed.

(** Non-vacuity: a library of Windows as a file that is read in pieces of at most three bytes, and as a slice. *)
Example C71_witness_file : fst (call_lib N dll_read dll_seek (fun _ => 0) (Ok 0) 256%nat cfg_all "from_file" [VUnit] 5) = Done (Some (VOk (VFmt DynamicLinkLibrary))).
Proof. rewrite C71_from_file; [|exact dll_reads|exact dll_seeks|vm_compute; discriminate|lia]. vm_compute. reflexivity. Qed.
Example C71_witness_slice opened s :
  fst (call_lib slice_cursor slice_read slice_seek slice_new opened 256%nat cfg_all "from_bytes" [VBytes dll] s) = Done (Some (VFmt DynamicLinkLibrary)).
Proof.
  rewrite C71_slices; [vm_compute; reflexivity|right; reflexivity|vm_compute; reflexivity|lia| |now left].
  apply PeanoNat.Nat.leb_le. vm_compute. reflexivity.
Qed.
(** A path that cannot be opened gives the error of [File::open]. *)
Example C71_witness_error fuel (c : cfg) path s : 32 <= usize_bits c -> (256 <= fuel)%nat ->
  fst (call_lib N dll_read dll_seek (fun _ => 0) (Err (EOther 2)) fuel c "from_file" [path] s) = Done (Some (VErr (EOther 2))).
Proof. intros H1 H2. now rewrite C71_from_file by auto using dll_reads, dll_seeks. Qed.
