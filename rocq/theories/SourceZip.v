(** from_zip_reader: the text of /repo/src/readers.rs against the model. *)
From Coq Require Import NArith ZArith Bool String List Lia ZifyBool ZifyNat ZifyN.
From Verif Require Import Base BaseProofs Formats IO Find Utf8 Readers RustAst RustSem Source SourceProofs.
Import ListNotations.
Local Open Scope N_scope.
(** Addition and subtraction ask nothing of the reader. *)
Definition calm {A} (p : prog A) : Prop := p = PPanic \/ exists v, p = Ret v.
Lemma calm_add c x y : calm (u64_add c x y).
Proof. unfold calm, u64_add. destruct (_ <? _); [eauto|]. destruct (ovf c); eauto. Qed.
Lemma calm_sub c x y : calm (u64_sub c x y).
Proof. unfold calm, u64_sub. destruct (_ <=? _); [eauto|]. destruct (ovf c); eauto. Qed.
Lemma bind2 {A B C} (p : prog A) (f : A -> prog B) (g : B -> prog C) : calm p ->
  bindp (bindp p f) g = bindp p (fun v => bindp (f v) g).
Proof. intros [->|[v ->]]; reflexivity. Qed.
Lemma bind3 {A B C D} (p : prog A) (f : A -> prog B) (g : B -> prog C) (h : C -> prog D) : calm p ->
  bindp (bindp (bindp p f) g) h = bindp p (fun v => bindp (bindp (f v) g) h).
Proof. intros [->|[v ->]]; reflexivity. Qed.
Lemma bind4 {A B C D E} (p : prog A) (f : A -> prog B) (g : B -> prog C) (h : C -> prog D) (i : D -> prog E) : calm p ->
  bindp (bindp (bindp (bindp p f) g) h) i = bindp p (fun v => bindp (bindp (bindp (f v) g) h) i).
Proof. intros [->|[v ->]]; reflexivity. Qed.
Ltac prim p := lazymatch p with u64_add ?c ?x ?y => constr:(calm_add c x y) | u64_sub ?c ?x ?y => constr:(calm_sub c x y) end.
Ltac assoc :=
  lazymatch goal with
  | |- sc ?l (bindp (bindp (bindp (bindp ?p ?f) ?g) ?h) ?i) => let H := prim p in
      refine (eq_ind_r (fun q => sc l q) _ (bind4 p f g h i H))
  | |- sc ?l (bindp (bindp (bindp ?p ?f) ?g) ?h) => let H := prim p in
      refine (eq_ind_r (fun q => sc l q) _ (bind3 p f g h H))
  | |- sc ?l (bindp (bindp ?p ?f) ?g) => let H := prim p in
      refine (eq_ind_r (fun q => sc l q) _ (bind2 p f g H))
  end.
Lemma ustr_eqb_true a : forall b, ustr_eqb a b = true -> a = b.
Proof.
  induction a as [|x a IH]; intros [|y b] H; cbn in H; try discriminate H; [reflexivity|].
  apply andb_true_iff in H. destruct H as [H1 H2]. apply N.eqb_eq in H1. f_equal; [exact H1|now apply IH].
Qed.
(** The arms of the match on the file name, in the order of the text. *)
Lemma arms_eq {T} fn (f : FileFormat -> T) (manifest mimetype rest : T) (stored : bool) :
  match lookup_ustr fn zip_name_table with
  | Some x => f x
  | None => if ustr_eqb fn (us "META-INF/MANIFEST.MF") then manifest
            else if ustr_eqb fn (us "mimetype") && stored then mimetype else rest
  end
  = if ustr_eqb fn (us "AndroidManifest.xml") then f AndroidPackage
    else if ustr_eqb fn (us "AppManifest.xaml") then f Xap
    else if ustr_eqb fn (us "AppxManifest.xml") then f WindowsAppPackage
    else if ustr_eqb fn (us "AppxMetadata/AppxBundleManifest.xml") then f WindowsAppBundle
    else if ustr_eqb fn (us "BundleConfig.pb") then f AndroidAppBundle
    else if ustr_eqb fn (us "DOMDocument.xml") then f FlashCs5Project
    else if ustr_eqb fn (us "META-INF/AIR/application.xml") then f AdobeIntegratedRuntime
    else if ustr_eqb fn (us "META-INF/MANIFEST.MF") then manifest
    else if ustr_eqb fn (us "META-INF/application.xml") then f EnterpriseApplicationArchive
    else if ustr_eqb fn (us "META-INF/mozilla.rsa") then f Xpinstall
    else if ustr_eqb fn (us "WEB-INF/web.xml") then f WebApplicationArchive
    else if ustr_eqb fn (us "canvas.fig") then f FigmaDesign
    else if ustr_eqb fn (us "doc.kml") then f KeyholeMarkupLanguageZip
    else if ustr_eqb fn (us "document.json") then f Sketch43
    else if ustr_eqb fn (us "extension.vsixmanifest") then f MicrosoftVisualStudioExtension
    else if ustr_eqb fn (us "mimetype") && stored then mimetype else rest.
Proof.
  destruct (ustr_eqb fn (us "META-INF/MANIFEST.MF")) eqn:E.
  - apply ustr_eqb_true in E. subst fn. reflexivity.
  - unfold zip_name_table. cbn [lookup_ustr]. repeat match goal with |- match (if ?b then _ else _) with _ => _ end = _ => destruct b; [reflexivity|] end. reflexivity.
Qed.
Ltac drive_zip :=
  lazymatch goal with
  | |- sc (_ (N.pos _) _) (match lookup_ustr ?fn zip_name_table with
      | Some x => @?F x
      | None => if _ then ?M else if _ && ?S then ?T else ?R
      end) =>
      lazymatch goal with |- sc ?l _ => refine (eq_ind_r (fun q => sc l q) _ (arms_eq fn F M T R S)) end; rhs
  | |- sc ?l (zip_mimetype ?c ?o ?n) => let q := eval cbv beta zeta delta [zip_mimetype] in (zip_mimetype c o n) in change (sc l q); rhs
  | |- sc (_ (N.pos _) _) (match zip_name_rules ?fn with _ => _ end) =>
      let q := eval cbv beta zeta delta [zip_name_rules] in (zip_name_rules fn) in change (zip_name_rules fn) with q
  | |- sc (_ (N.pos _) _) (ok (zip_mime_result ?d)) =>
      let q := eval cbv beta iota zeta delta [zip_mime_result zip_mime_table lookup_ustr] in (zip_mime_result d) in change (zip_mime_result d) with q
  | |- sc (match ?a with Some _ => _ | None => _ end) _ => destruct a as [?|]; rhs
  | |- sc (arith _ 64 _ _) (bindp (bindp _ _) _) => assoc; arithmetic
  | |- sc (arith_sub _ 64 _ _ _) (bindp (bindp _ _) _) => assoc; arithmetic
  | |- sc (arith _ _ (22 + 65535) _) _ => change (22 + 65535) with 65557; apply sc_arith; [lia|lbeta]
  | |- sc (fits _ USize _ _) _ => apply sc_fits; [cbn [width]; lia|]
  | _ => drive
  end.
(** The body of the loop over the central directory. *)
Definition zip_body : block := Eval vm_compute in
  match find_fn "from_zip_reader" readers_fns with
  | Some d =>
      match f_body d with
      | Block _ ss _ => match last ss (SExpr RBreak) with SExpr (RFor _ _ b) => b | _ => Block [] [] None end
      end
  | None => Block [] [] None
  end.
Section Reader.
Variables (c : plat) (on : string -> bool) (rounds : nat).
Variable X : N -> task (B := result FileFormat) -> prog (option (result FileFormat)).
Hypothesis HX : forall n i t, n = N.succ i -> X n t = go c on rounds true readers_fns (X i) t 60.
Hypothesis Hbits : 32 <= usize_bits c.
Definition zip_consts : env :=
  [("ENTRY_LIMIT"%string, VConst (Some USize) (RInt 1024));
   ("EOCD64_LOCATOR_SIGNATURE"%string, VConst None (RBytes ["P"%byte; "K"%byte; "006"%byte; "007"%byte]));
   ("EOCD_SIGNATURE"%string, VConst None (RBytes ["P"%byte; "K"%byte; "005"%byte; "006"%byte]));
   ("EOCD64_LOCATOR_SIZE"%string, VConst (Some USize) (RInt 20));
   ("EOCD_MAX_SIZE"%string, VConst (Some USize) (RBin OAdd (RVar "EOCD_MIN_SIZE") (RCast (RMax U16) USize)));
   ("EOCD_MIN_SIZE"%string, VConst (Some USize) (RInt 22));
   ("reader"%string, VReader false)].
Lemma zip_entries_ok kb k vs vn vz ve vb vo vl :
  (forall v s, k (("fmt"%string, VFmt v) :: s) = Ret (Some (Ok v))) -> forall n f,
  sc (for_n n (fun s2 kk => X 188 (TBlock zip_body s2 finish kb (fun _ s3 => kk s3)))
       (("fmt"%string, VFmt f) :: ("socd_offset"%string, vs) :: ("number_of_entries"%string, vn) :: ("zip64"%string, vz) ::
        ("eocd_offset"%string, ve) :: ("buf_index"%string, vb) :: ("offset"%string, VU U64 vo) :: ("len"%string, vl) ::
        ("reader"%string, VReader true) :: zip_consts) k)
     (zip_entries c n f).
Proof using HX Hbits.
  intros Hk.
  assert (Hbits16 : 16 <= usize_bits c) by lia.
  assert (Hpow : 4294967296 <= 2 ^ usize_bits c).
  { change 4294967296 with (2 ^ 32). apply N.pow_le_mono_r; lia. }
  unfold zip_consts, zip_body. cbv delta [finish].
  lazymatch goal with |- forall n f, sc (for_n _ ?body _ _) _ => abstract_env_fun body Hbody end.
  induction n as [|n IH]; intros f; [cbn [for_n zip_entries]; rewrite Hk; apply sc_ret|rewrite for_n_S; cbn [zip_entries]].
  repeat drive_zip.
Qed.
Lemma zip_ok : sc (X 200 (TCall "from_zip_reader" [VReader false] finish)) (from_zip_reader c).
Proof using HX Hbits.
  assert (Hbits16 : 16 <= usize_bits c) by lia.
  assert (Hpow : 4294967296 <= 2 ^ usize_bits c).
  { change 4294967296 with (2 ^ 32). apply N.pow_le_mono_r; lia. }
  enter. unfold from_zip_reader, zip_find_eocd, zip_is_zip64, zip_directory. change EOCD_MAX_SIZE with 65557. change EOCD_MIN_SIZE with 22.
  change EOCD64_LOCATOR_SIZE with 20. change ENTRY_LIMIT with 1024. unfold EOCD_SIGNATURE, EOCD64_LOCATOR_SIGNATURE. 
  repeat drive_zip.
  all: rewrite N.sub_0_r.
  all: lazymatch goal with |- sc (for_n _ _ _ ?k) _ =>
      assert (Hk : forall v s, k (("fmt"%string, VFmt v) :: s) = Ret (Some (Ok v)));
        [intros v s; cbv beta; rewrite (HX 188 187) by reflexivity; reflexivity|] end.
  all: revert Hk; apply (fun kb k vs vn vz ve vb vo vl Hk => zip_entries_ok kb k vs vn vz ve vb vo vl Hk _ Zip).
Qed.
End Reader.
