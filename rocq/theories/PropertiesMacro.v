(** C69: what the macros generate from the source texts is what the tables say. *)
From Coq Require Import List NArith Bool String Lia.
From Verif Require Import Base BaseProofs Formats FormatsProofs Derive Signatures Lib SigProofs Rust Macro RustEval Source SpecMacro SpecSig
  MacroProofs MacroStages.
Import ListNotations.
Local Open Scope N_scope.

Definition file_format : list bytes := [bs "crate"; bs "FileFormat"].

(** ** signatures!, for every table *)
Lemma part_ok_matches l p : part_ok l p = part_matches l (part_of p).
Proof. destruct p as [[n|] v]; reflexivity. Qed.
Lemma alts_ok l alts : existsb (forallb (part_ok l)) alts = existsb (forallb (part_matches l)) (map (map part_of) alts).
Proof.
  induction alts as [|a alts IH]; [reflexivity|]. cbn [existsb map]. rewrite IH. f_equal.
  induction a as [|p a IHa]; [reflexivity|]. cbn [forallb map]. now rewrite part_ok_matches, IHa.
Qed.
Lemma scan_some t l f : scan t l = Some f -> first_match (table_of t) l f.
Proof.
  unfold first_match. induction t as [|[g galts] t IH]; cbn [scan table_of map fst snd]; [discriminate|]. fold (table_of t).
  rewrite alts_ok. destruct (existsb _ _) eqn:E; intros H.
  - injection H as <-. exists [], (map (map part_of) galts), (table_of t). split; [reflexivity|]. split; [now apply sig_matches_iff|intros ? ? []].
  - destruct (IH H) as (before & alts & after & Ht & Hm & Hb). rewrite Ht.
    exists ((g, map (map part_of) galts) :: before), alts, after. split; [reflexivity|]. split; [exact Hm|].
    intros g' galts' [He|Hi]; [injection He as <- <-; now apply sig_matches_false|now apply (Hb g')].
Qed.
Lemma scan_none t l : scan t l = None -> no_match (table_of t) l.
Proof.
  unfold no_match. induction t as [|[g galts] t IH]; cbn [scan table_of map fst snd]; [intros _ ? ? []|]. fold (table_of t).
  rewrite alts_ok. destruct (existsb _ _) eqn:E; [discriminate|]. intros H g' galts' [He|Hi].
  - injection He as <- <-. now apply sig_matches_false.
  - now apply (IH H g').
Qed.
Lemma first_match_fun {F} (t : list (F * list (list (N * bytes)))) l f g : first_match t l f -> first_match t l g -> f = g.
Proof.
  unfold first_match. induction t as [|[h alts] t IH]; intros (b1 & a1 & r1 & E1 & M1 & N1) (b2 & a2 & r2 & E2 & M2 & N2).
  - destruct b1; discriminate.
  - destruct b1 as [|x1 b1], b2 as [|x2 b2]; cbn [app] in E1, E2.
    + congruence.
    + exfalso. apply (N2 f a1); [left; congruence|exact M1].
    + exfalso. apply (N1 g a2); [left; congruence|exact M2].
    + injection E1 as _ E1. injection E2 as _ E2. apply IH.
      * exists b1, a1, r1. split; [exact E1|]. split; [exact M1|]. intros g' ga Hi. apply (N1 g'). now right.
      * exists b2, a2, r2. split; [exact E2|]. split; [exact M2|]. intros g' ga Hi. apply (N2 g'). now right.
Qed.
Lemma first_match_no {F} (t : list (F * list (list (N * bytes)))) l f : first_match t l f -> no_match t l -> False.
Proof.
  intros (b & a & r & E & M & _) H. apply (H f a); [rewrite E; apply in_or_app; right; now left|exact M].
Qed.

(** For every table that can be written, and every input: the function that [signatures!] of
    macros.rs generates from the table returns the format of the first entry that matches, [None] if there is
    none; it neither panics (all its slices are in bounds) nor is it ill-typed. *)
Theorem C69_any_table : forall macros rule m t l,
  trees_of macros_rs = Some macros -> rule_of "signatures" macros = Some rule ->
  writable (2 ^ width m) t ->
  let result := call m file_format (compiled rule (write_table t)) "from_signature" (VBytes l) in
  (forall f, first_match (table_of t) l f <-> result = Value (VSome (VVariant file_format f))) /\
  (no_match (table_of t) l <-> result = Value VNone) /\
  (result = Value VNone \/ exists f, result = Value (VSome (VVariant file_format f))).
Proof.
  intros macros rule m t l Hm Hr Hw result.
  pose proof sig_rule_eq as E. rewrite Hm, Hr in E. injection E as ->.
  unfold result. rewrite (run_table m (2 ^ width m)) by (assumption || reflexivity).
  change crate_file_format with file_format. destruct (scan t l) as [f|] eqn:Es.
  - apply scan_some in Es. split; [|split].
    + intros g. split; intros H; [now rewrite (first_match_fun _ _ _ _ H Es)|congruence].
    + split; [intros H; exfalso; now apply (first_match_no _ _ _ Es)|discriminate].
    + right. now exists f.
  - apply scan_none in Es. split; [|split].
    + intros g. split; intros H; [exfalso; now apply (first_match_no _ _ _ H)|discriminate].
    + split; auto.
    + now left.
Qed.
Print Assumptions C69_any_table.

(** ** The table of the crate *)
(** [signatures] as written: no offset for 0. *)
Definition written : list wentry :=
  map (fun e => (bs (debug (fst e)), map (map (fun p => ((if fst p =? 0 then None else Some (fst p)), snd p))) (snd e))) signatures.
Lemma part_of_written p : part_of ((if fst p =? 0 then None else Some (fst p)), snd p) = p.
Proof. destruct p as [o v]. cbn [fst snd part_of]. destruct (o =? 0) eqn:E; [|reflexivity]. apply N.eqb_eq in E. now subst. Qed.
Lemma table_of_written : table_of written = map (fun e => (bs (debug (fst e)), snd e)) signatures.
Proof.
  unfold table_of, written. rewrite map_map. apply map_ext. intros [f alts]. cbn [fst snd]. f_equal.
  rewrite map_map. rewrite <- (map_id alts) at 2. apply map_ext. intros a. rewrite map_map. rewrite <- (map_id a) at 2.
  apply map_ext. intros p. apply part_of_written.
Qed.
Lemma source_written : match trees_of signatures_rs with Some l => invocation_of "signatures" l | None => None end = Some (write_table written).
Proof. rewrite signatures_trees_eq. vm_compute. reflexivity. Qed.
Definition writableb (bound : N) (t : list wentry) : bool :=
  forallb (fun e => negb (beqb (fst e) (bs "_")) && (match snd e with [] => false | _ => true end) &&
    forallb (fun a => (match a with [] => false | _ => true end) &&
      forallb (fun p => fst (part_of p) + lenN (snd p) <? bound) a) (snd e)) t.
Lemma writableb_ok bound t : writableb bound t = true -> writable bound t.
Proof.
  unfold writableb, writable. rewrite forallb_forall. intros H f alts Hi. apply H in Hi. cbn [fst snd] in Hi.
  apply andb_true_iff in Hi. destruct Hi as [Hi H3]. apply andb_true_iff in Hi. destruct Hi as [H1 H2].
  apply negb_true_iff, beqb_neq in H1. split; [exact H1|]. split; [destruct alts; discriminate|].
  rewrite forallb_forall in H3. intros a Ha. apply H3 in Ha. apply andb_true_iff in Ha. destruct Ha as [H4 H5].
  split; [destruct a; discriminate|]. rewrite forallb_forall in H5. intros p Hp. apply N.ltb_lt. now apply H5.
Qed.
Lemma written_writable : writable 65536 written.
Proof. apply writableb_ok. vm_compute. reflexivity. Qed.

Lemma scan_written l : scan written l = match from_signature l with Some f => Some (bs (debug f)) | None => None end.
Proof.
  unfold from_signature, written. induction signatures as [|[f alts] t IH]; [reflexivity|].
  cbn [map scan fst snd from_signature_in]. rewrite alts_ok, map_map.
  replace (map (fun x => map part_of (map (fun p => (if fst p =? 0 then None else Some (fst p), snd p)) x)) alts) with alts.
  - destruct (existsb (forallb (part_matches l)) alts); [reflexivity|]. exact IH.
  - rewrite <- (map_id alts) at 1. apply map_ext. intros a. rewrite map_map. rewrite <- (map_id a) at 1.
    apply map_ext. intros p. symmetry. apply part_of_written.
Qed.
Lemma compile_written : compile "signatures" macros_rs signatures_rs = compiled sig_rule (write_table written).
Proof.
  unfold compile, expand_file, compiled. pose proof sig_rule_eq as E1. pose proof source_written as E2.
  destruct (trees_of macros_rs); [|discriminate E1]. destruct (trees_of signatures_rs); [|discriminate E2].
  rewrite E1, E2. reflexivity.
Qed.

(** The texts of macros.rs and signatures.rs, compiled: the function is the model's. *)
Theorem C69_signature_scan : forall m l, 16 <= width m ->
  call m file_format (compile "signatures" macros_rs signatures_rs) "from_signature" (VBytes l) =
  Value (match from_signature l with Some f => VSome (VVariant file_format (bs (debug f))) | None => VNone end).
Proof.
  intros m l H. rewrite compile_written. change file_format with crate_file_format. rewrite (run_table m 65536).
  - rewrite scan_written. destruct (from_signature l); reflexivity.
  - exact written_writable.
  - change 65536 with (2 ^ 16). now apply N.pow_le_mono_r.
Qed.
Print Assumptions C69_signature_scan.

(** ** The metadata *)
Definition formats_items : list item := compile "formats" macros_rs formats_rs.
Definition this (f : FileFormat) : value := VVariant file_format (bs (debug f)).

Fixpoint value_eqb (a b : value) : bool :=
  match a, b with
  | VInt x, VInt y => x =? y
  | VBool x, VBool y => Bool.eqb x y
  | VBytes x, VBytes y | VStr x, VStr y => beqb x y
  | VVariant t x, VVariant u y => paths_eqb t u && beqb x y
  | VNone, VNone => true
  | VSome x, VSome y => value_eqb x y
  | _, _ => false
  end.
Lemma paths_eqb_ok a : forall b, paths_eqb a b = true -> a = b.
Proof.
  induction a as [|x a IH]; intros [|y b] H; try discriminate; [reflexivity|]. cbn in H. apply andb_true_iff in H.
  destruct H as [H1 H2]. apply beqb_eq in H1. apply IH in H2. now subst.
Qed.
Lemma value_eqb_ok a : forall b, value_eqb a b = true -> a = b.
Proof.
  induction a; intros [| | | | | |] H; cbn in H; try discriminate; try reflexivity.
  - apply N.eqb_eq in H. now subst.
  - apply Bool.eqb_prop in H. now subst.
  - apply beqb_eq in H. now subst.
  - apply beqb_eq in H. now subst.
  - apply andb_true_iff in H. destruct H as [H1 H2]. apply paths_eqb_ok in H1. apply beqb_eq in H2. now subst.
  - f_equal. now apply IHa.
Qed.
Definition is_value (o : outcome) (v : value) : bool := match o with Value w => value_eqb w v | _ => false end.
Lemma is_value_ok o v : is_value o v = true -> o = Value v.
Proof. destruct o; try discriminate. cbn. intros H. apply value_eqb_ok in H. now subst. Qed.

Definition metadata_ok (m : target) (is : list item) (f : FileFormat) : bool :=
  is_value (call m file_format is "name" (this f)) (VStr (bs (name f))) &&
  is_value (call m file_format is "short_name" (this f))
    (match short_name f with Some s => VSome (VStr (bs s)) | None => VNone end) &&
  is_value (call m file_format is "media_type" (this f)) (VStr (bs (media_type f))) &&
  is_value (call m file_format is "extension" (this f)) (VStr (bs (extension f))) &&
  is_value (call m file_format is "kind" (this f)) (VVariant [bs "crate"; bs "Kind"] (bs (debug_kind (kind f)))).
Lemma metadata_ok_spec m is f : metadata_ok m is f = true ->
  call m file_format is "name" (this f) = Value (VStr (bs (name f))) /\
  call m file_format is "short_name" (this f) =
    Value (match short_name f with Some s => VSome (VStr (bs s)) | None => VNone end) /\
  call m file_format is "media_type" (this f) = Value (VStr (bs (media_type f))) /\
  call m file_format is "extension" (this f) = Value (VStr (bs (extension f))) /\
  call m file_format is "kind" (this f) = Value (VVariant [bs "crate"; bs "Kind"] (bs (debug_kind (kind f)))).
Proof.
  unfold metadata_ok. intros H.
  apply andb_true_iff in H. destruct H as [H H5]. apply andb_true_iff in H. destruct H as [H H4].
  apply andb_true_iff in H. destruct H as [H H3]. apply andb_true_iff in H. destruct H as [H1 H2].
  split; [|split; [|split; [|split]]]; apply is_value_ok; assumption.
Qed.
Lemma metadata_check m : forallb (metadata_ok m formats_items) all_formats = true.
Proof. unfold formats_items. rewrite formats_compiled. vm_compute. reflexivity. Qed.

(** The methods that [formats!] generates from formats.rs, for every format. *)
Theorem C69_metadata : forall m f,
  call m file_format formats_items "name" (this f) = Value (VStr (bs (name f))) /\
  call m file_format formats_items "short_name" (this f) =
    Value (match short_name f with Some s => VSome (VStr (bs s)) | None => VNone end) /\
  call m file_format formats_items "media_type" (this f) = Value (VStr (bs (media_type f))) /\
  call m file_format formats_items "extension" (this f) = Value (VStr (bs (extension f))) /\
  call m file_format formats_items "kind" (this f) = Value (VVariant [bs "crate"; bs "Kind"] (bs (debug_kind (kind f)))).
Proof.
  intros m f. apply metadata_ok_spec. pose proof (metadata_check m) as H. rewrite forallb_forall in H.
  exact (H f (all_formats_complete f)).
Qed.
Print Assumptions C69_metadata.

(** The enum: the variants in the order of the model, the derived traits, the documentation. *)
Definition documentation (f : FileFormat) : list bytes :=
  [bs (name f) ++ match short_name f with Some s => bs " (" ++ bs s ++ bs ")" | None => [] end ++ bs ".";
   bs "- Media type: `" ++ bs (media_type f) ++ bs "`";
   bs "- Extension: `." ++ bs (extension f) ++ bs "`";
   bs "- Kind: [" ++ bs (debug_kind (kind f)) ++ bs "](crate::Kind::" ++ bs (debug_kind (kind f)) ++ bs ")"].
Theorem C69_variants : exists attrs vs,
  find_enum "FileFormat" formats_items = Some (attrs, vs) /\
  derives_of attrs = map bs ["Clone"; "Copy"; "Debug"; "Eq"; "PartialEq"]%string /\
  map v_name vs = map (fun f => bs (debug f)) all_formats /\
  map (fun v => map doc_of (v_attrs v)) vs = map (fun f => map Some (documentation f)) all_formats.
Proof.
  assert (E : match find_enum "FileFormat" formats_items with
    | Some (attrs, vs) => (derives_of attrs, map v_name vs, map (fun v => map doc_of (v_attrs v)) vs)
    | None => ([], [], []) end =
    (map bs ["Clone"; "Copy"; "Debug"; "Eq"; "PartialEq"]%string, map (fun f => bs (debug f)) all_formats,
     map (fun f => map Some (documentation f)) all_formats))
    by (unfold formats_items; rewrite formats_compiled; vm_compute; reflexivity).
  destruct (find_enum "FileFormat" formats_items) as [[attrs vs]|]; [|discriminate E].
  injection E as E1 E2 E3. exists attrs, vs. split; [reflexivity|]. split; [exact E1|]. split; [exact E2|exact E3].
Qed.
Print Assumptions C69_variants.

(** [Kind], from the text of lib.rs. *)
Theorem C69_kinds : exists ts attrs vs,
  trees_of kind_rs = Some ts /\ items_of (S (List.length ts)) ts = Some [Enum attrs (bs "Kind") vs] /\
  derives_of attrs = map bs ["Clone"; "Copy"; "Debug"; "Eq"; "PartialEq"]%string /\
  map v_name vs = map (fun k => bs (debug_kind k)) all_kinds.
Proof.
  assert (E : match trees_of kind_rs with
    | Some ts => match items_of (S (List.length ts)) ts with
      | Some [Enum attrs x vs] => (x, derives_of attrs, map v_name vs) | _ => ([], [], []) end
    | None => ([], [], []) end =
    (bs "Kind", map bs ["Clone"; "Copy"; "Debug"; "Eq"; "PartialEq"]%string, map (fun k => bs (debug_kind k)) all_kinds))
    by (vm_compute; reflexivity).
  destruct (trees_of kind_rs) as [ts|]; [|discriminate E]. exists ts.
  destruct (items_of (S (List.length ts)) ts) as [[|[attrs x vs|s fs] [|? ?]]|]; try discriminate E.
  injection E as -> E1 E2. exists attrs, vs. split; [reflexivity|]. split; [reflexivity|]. split; [exact E1|exact E2].
Qed.
Print Assumptions C69_kinds.

(** A table, an input that the second entry matches, an input that is too short for every slice. *)
Definition small : list wentry :=
  [(bs "First", [[(None, bs "abc")]; [(Some 4, bs "x"); (Some 2, bs "yz")]]); (bs "Second", [[(Some 1, bs "b")]])].
Example C69_witness :
  exists macros rule, trees_of macros_rs = Some macros /\ rule_of "signatures" macros = Some rule /\
  let m := mktarget true 64 in
  writable (2 ^ width m) small /\
  call m file_format (compiled rule (write_table small)) "from_signature" (VBytes (bs "abd")) = Value (VSome (VVariant file_format (bs "Second"))) /\
  call m file_format (compiled rule (write_table small)) "from_signature" (VBytes (bs "..yzx")) = Value (VSome (VVariant file_format (bs "First"))) /\
  call m file_format (compiled rule (write_table small)) "from_signature" (VBytes []) = Value VNone /\
  call m file_format (compile "signatures" macros_rs signatures_rs) "from_signature" (VBytes (bs "%PDF-1.7")) =
    Value (VSome (VVariant file_format (bs "PortableDocumentFormat"))) /\
  call m file_format formats_items "short_name" (VVariant file_format (bs "PortableDocumentFormat")) = Value (VSome (VStr (bs "PDF"))) /\
  call m file_format formats_items "short_name" (VVariant file_format (bs "Zip")) = Value VNone /\
  (* without the test of the length a slice panics *)
  eval m file_format [(bs "bytes", VBytes (bs "ab"))] (eq_ast (Some 1, bs "bc")) = Panic.
Proof.
  destruct (trees_of macros_rs) as [macros|] eqn:E; [|now exfalso; vm_compute in E].
  assert (Er : rule_of "signatures" macros = Some sig_rule) by (pose proof sig_rule_eq as H; rewrite E in H; exact H).
  exists macros, sig_rule. split; [reflexivity|]. split; [exact Er|]. cbn zeta. split; [apply writableb_ok; vm_compute; reflexivity|].
  split; [vm_compute; reflexivity|]. split; [vm_compute; reflexivity|]. split; [vm_compute; reflexivity|].
  split; [rewrite C69_signature_scan by (vm_compute; discriminate); vm_compute; reflexivity|].
  unfold formats_items. rewrite formats_compiled.
  split; [vm_compute; reflexivity|]. split; [vm_compute; reflexivity|]. vm_compute; reflexivity.
Qed.
