(** For every reader and every behaviour of the underlying reader: which formats it can return,
    which panics and fuel exhaustions are possible, which buffer sizes are requested. *)
From Coq Require Import List NArith ZArith Bool String Lia ZifyBool ZifyNat ZifyN.
From Verif Require Import Base BaseProofs Formats FormatsProofs IO Find FindProofs Utf8 Readers
  Documented Static.
Local Open Scope N_scope.

(** The formats a reader may give according to the documentation. *)
Definition family (x : feature) (f : FileFormat) : Prop := f = container x \/ In f (documented x).
Definition familyb (x : feature) (f : FileFormat) : bool :=
  feqb f (container x) || fmem f (documented x).
Lemma familyb_ok x f : familyb x f = true <-> family x f.
Proof. unfold familyb, family. rewrite orb_true_iff, feqb_eq, fmem_in. reflexivity. Qed.

(** A platform: [usize] has 32 or 64 bits. *)
Definition wf_cfg (c : plat) : Prop := usize_bits c = 32 \/ usize_bits c = 64.

Lemma isize_max_ge c : wf_cfg c -> 2147483647 <= isize_max c.
Proof. intros [H|H]; unfold isize_max; rewrite H; vm_compute; discriminate. Qed.

Definition max_alloc (x : feature) : N :=
  match x with
  | FAsf | FCfb | FEbml => 64
  | FExe | FMp4 => 4
  | FId3v2 => 10
  | FRm => 255
  | FZip => 4294967295
  | FPdf | FSqlite3 | FTxt | FXml => 0
  end.

(** Overflow-check panics are possible in these four readers, and an allocation that exceeds
    [isize::MAX] in the ZIP reader on a 32-bit platform. *)
Definition may_panic (c : plat) (x : feature) : Prop :=
  match x with
  | FAsf | FMp4 | FId3v2 => ovf c = true
  | FZip => ovf c = true \/ usize_bits c = 32
  | _ => False
  end.
Definition uses_fuel (x : feature) : Prop := match x with FId3v2 | FPdf => True | _ => False end.
Definition uses_read (x : feature) : Prop :=
  match x with FPdf | FSqlite3 | FXml => True | _ => False end.
Definition uses_line (x : feature) : Prop := match x with FTxt => True | _ => False end.

Definition sp (c : plat) (x : feature) : sparams :=
  mksparams (may_panic c x) (uses_fuel x) (fun n => n <= max_alloc x) (uses_read x) (uses_line x).

Ltac fam := apply familyb_ok; vm_compute; reflexivity.
Ltac famif :=
  repeat match goal with |- family _ (if ?b then _ else _) => destruct b end; fam.

Section Readers.
Variable c : plat.
Hypothesis Hc : wf_cfg c.

Lemma small_alloc x n (F : bytes -> Prop) : n <= max_alloc x -> max_alloc x <= 2147483647 ->
  (forall l, lenN l = n -> F l) -> wpio (sp c x) (read_bytes c n) F.
Proof.
  intros Hn Hm HF. pose proof (isize_max_ge c Hc). apply wpio_read_bytes; [|auto|exact HF].
  intros H1. lia.
Qed.

Ltac bytes_ := apply small_alloc; [cbn; lia|cbn; lia|intros].
Ltac step :=
  match goal with
  | |- wpio _ (bindio _ _) _ => apply wpio_bind
  | |- wpio _ (bindp _ _) _ => apply wpio_bindp
  | |- wpio _ (ok _) _ => apply wpio_ok
  | |- wpio _ (err _) _ => apply wpio_err
  | |- wpio _ (seek _) _ => apply wpio_seek; intros
  | |- wpio _ rewind _ => apply wpio_rewind; intros
  | |- wpio _ tell _ => apply wpio_tell; intros
  | |- wpio _ read_u8 _ => apply wpio_read_u8; intros
  | |- wpio _ read_u16_le _ => apply wpio_read_u16_le; intros
  | |- wpio _ read_u32_le _ => apply wpio_read_u32_le; intros
  | |- wpio _ read_u32_be _ => apply wpio_read_u32_be; intros
  | |- wpio _ read_u64_le _ => apply wpio_read_u64_le; intros
  | |- wpio _ read_u64_be _ => apply wpio_read_u64_be; intros
  | |- wpio _ (if ?b then _ else _) _ => destruct b
  | |- wpio _ (read_bytes _ _) _ => bytes_
  | |- wpio _ (read_guid _) _ => unfold read_guid
  end.

Lemma asf_descriptors_static : forall n, wpio (sp c FAsf) (asf_descriptors c n) (fun _ => True).
Proof.
  induction n as [|n IH]; cbn [asf_descriptors]; repeat step; auto.
Qed.

Lemma asf_objects_static : forall n a v,
  wpio (sp c FAsf) (asf_objects c n a v) (family FAsf).
Proof.
  induction n as [|n IH]; intros a v; cbn [asf_objects].
  - apply wpio_ok. famif.
  - repeat step.
    + destruct (if String.eqb _ AUDIO_MEDIA_GUID then _ else _) as [a' v'].
      repeat step. apply wp_i64_sub; [auto|]. intros d. repeat step. apply IH.
    + eapply wpio_mono; [|apply asf_descriptors_static]. intros dvr _.
      repeat step; [fam|]. apply wp_u64_add; [auto|]. intros t Ht _. repeat step.
      apply wp_u64_sub; [auto|]. intros t2 _ _. repeat step. apply IH.
    + apply wp_i64_sub; [auto|]. intros d. repeat step. apply IH.
Qed.
Lemma asf_static : wpio (sp c FAsf) (from_asf_reader c) (family FAsf).
Proof. unfold from_asf_reader. repeat step. apply asf_objects_static. Qed.

Lemma lookup_str_in {B} s (t : list (string * B)) v : lookup_str s t = Some v ->
  In v (map snd t).
Proof.
  induction t as [|[k w] t IH]; cbn [lookup_str]; [discriminate|].
  destruct (String.eqb s k); [|intros H; right; auto].
  intros H. injection H as ->. now left.
Qed.
Lemma lookup_ustr_in {B} s (t : list (string * B)) v : lookup_ustr s t = Some v ->
  In v (map snd t).
Proof.
  induction t as [|[k w] t IH]; cbn [lookup_ustr]; [discriminate|].
  destruct (ustr_eqb s (us k)); [|intros H; right; auto].
  intros H. injection H as ->. now left.
Qed.
Lemma table_family x {B} (t : list (B * FileFormat)) :
  forallb (familyb x) (map snd t) = true -> forall f, In f (map snd t) -> family x f.
Proof. intros H f Hf. apply familyb_ok. eapply forallb_forall in H; eauto. Qed.

Lemma cfb_static : wpio (sp c FCfb) (from_cfb_reader c) (family FCfb).
Proof.
  unfold from_cfb_reader. repeat step.
  destruct (lookup_str _ clsid_table) as [f|] eqn:E.
  - apply wpio_ok. apply lookup_str_in in E.
    revert E. apply (table_family FCfb clsid_table). vm_compute. reflexivity.
  - repeat step; fam.
Qed.

Lemma read_shift_static m : forall n v, wpio (sp c FEbml) (read_shift_bytes m n v) (fun _ => True).
Proof.
  induction n as [|n IH]; intros v; cbn [read_shift_bytes]; repeat step; auto.
Qed.
Lemma ebml_elements_static len : forall n a v s,
  wpio (sp c FEbml) (ebml_elements c len n a v s) (family FEbml).
Proof.
  assert (Hres : forall a v s, family FEbml (ebml_result a v s))
    by (intros [|] [|] [|]; fam).
  induction n as [|n IH]; intros a v s; cbn [ebml_elements].
  - apply wpio_ok. apply Hres.
  - do 2 step. step; [|apply wpio_ok; apply Hres].
    step. unfold read_ebml_id. repeat step.
    eapply wpio_mono; [|apply read_shift_static]. intros id _.
    step. unfold read_ebml_size. repeat step.
    eapply wpio_mono; [|apply read_shift_static]. intros size _.
    step; [apply IH|].
    step; [repeat step; try fam; apply IH|].
    step.
    { step. step. destruct (if bstarts_with _ (bs "A_") then _ else _) as [[a' v'] s'].
      repeat step. apply IH. }
    step; [repeat step; try fam; apply IH|].
    step; [apply wpio_ok; apply Hres|].
    repeat step. apply IH.
Qed.
Lemma ebml_static : wpio (sp c FEbml) (from_ebml_reader c) (family FEbml).
Proof. unfold from_ebml_reader. repeat step. apply ebml_elements_static. Qed.

Lemma exe_static : wpio (sp c FExe) (from_exe_reader c) (family FExe).
Proof. unfold from_exe_reader. repeat step; try fam. famif. Qed.

Lemma id3v2_loop_static : forall fuel offset,
  wpio (sp c FId3v2) (id3v2_loop c fuel offset) (fun _ => True).
Proof.
  induction fuel as [|fuel IH]; intros offset; cbn [id3v2_loop].
  - do 5 step; [step; exact I|]. step. apply wp_u64_add; [auto|]. intros a Ha _.
    step. apply wp_u64_add; [auto|]. intros b Hb _. step. step.
    + repeat step. apply wp_u64_add; [auto|]. intros e He _. repeat step.
      destruct (negb _); [apply wp_u64_add; [auto|intros; exact I]|exact I].
    + repeat step. destruct (negb _); [apply wp_u64_add; [auto|intros; exact I]|exact I].
  - do 5 step; [step; exact I|]. step. apply wp_u64_add; [auto|]. intros a Ha _.
    step. apply wp_u64_add; [auto|]. intros b Hb _. step. step.
    + repeat step. apply wp_u64_add; [auto|]. intros e He _. repeat step.
      destruct (negb _); [apply wp_u64_add; [auto|intros; apply IH]|apply IH].
    + repeat step. destruct (negb _); [apply wp_u64_add; [auto|intros; apply IH]|apply IH].
Qed.
Lemma id3v2_static fuel : wpio (sp c FId3v2) (from_id3v2_reader c fuel) (family FId3v2).
Proof.
  unfold from_id3v2_reader. step. eapply wpio_mono; [|apply id3v2_loop_static].
  intros off _. repeat step; fam.
Qed.

Lemma mp4_boxes_static len : forall n a v s,
  wpio (sp c FMp4) (mp4_boxes c len n a v s) (family FMp4).
Proof.
  assert (Hres : forall a v s, family FMp4 (mp4_result a v s))
    by (intros [|] [|] [|]; fam).
  induction n as [|n IH]; intros a v s; cbn [mp4_boxes].
  - apply wpio_ok. apply Hres.
  - do 2 step. step; [|apply wpio_ok; apply Hres].
    step. step. step. step. step.
    assert (Hsz : forall (k : N -> io FileFormat),
       (forall z, wpio (sp c FMp4) (k z) (family FMp4)) ->
       forall b : bool, wpio (sp c FMp4) (if b then read_u64_be else ok v0)
         (fun size => wpio (sp c FMp4) (k size) (family FMp4))).
    { intros k Hk [|]; repeat step; apply Hk. }
    apply Hsz. intros size.
    step; [apply IH|]. step.
    + repeat step. destruct (if beqb _ (bs "vide") then _ else _) as [[a' v'] s'].
      repeat step. apply wp_i64_sub; [auto|]. intros d. repeat step. apply IH.
    + repeat step. apply wp_i64_sub; [auto|]. intros d. repeat step. apply IH.
Qed.
Lemma mp4_static : wpio (sp c FMp4) (from_mp4_reader c) (family FMp4).
Proof. unfold from_mp4_reader. repeat step. apply mp4_boxes_static. Qed.

Lemma pdf_loop_static : forall fuel total buf,
  wpio (sp c FPdf) (pdf_loop fuel total buf) (family FPdf).
Proof.
  induction fuel as [|fuel IH]; intros total buf; cbn [pdf_loop]; step; try (apply wpio_ok; fam);
    step; apply wpio_read; try exact I; intros chunk _; step; try (apply wpio_ok; fam);
    step; (apply wp_lift_exec; [apply holds_total|]); intros found _; step; try (apply wpio_ok; fam).
  - exact I.
  - apply IH.
Qed.
Lemma pdf_static fuel : wpio (sp c FPdf) (from_pdf_reader fuel) (family FPdf).
Proof. unfold from_pdf_reader. repeat step. apply pdf_loop_static. Qed.

Lemma rm_chunks_static : forall n a v,
  wpio (sp c FRm) (rm_chunks c n a v) (family FRm).
Proof.
  induction n as [|n IH]; intros a v; cbn [rm_chunks].
  - apply wpio_ok. famif.
  - do 5 step. step.
    + repeat step. match goal with |- context [if bstarts_with ?x ?y then _ else _] =>
        destruct (if bstarts_with x y then (true, v) else if bstarts_with x (bs "video/") then (a, true) else (a, v)) as [a' v'] end.
      repeat step. apply IH.
    + repeat step. apply IH.
Qed.
Lemma rm_static : wpio (sp c FRm) (from_rm_reader c) (family FRm).
Proof. unfold from_rm_reader. repeat step. apply rm_chunks_static. Qed.

Lemma sqlite3_static : wpio (sp c FSqlite3) from_sqlite3_reader (family FSqlite3).
Proof.
  unfold from_sqlite3_reader. repeat step. apply wpio_read; [exact I|]. intros buf _.
  step. apply wp_lift_exec; [apply holds_total|]. intros found _. repeat step; fam.
Qed.

Lemma txt_lines_static : forall n lim, wpio (sp c FTxt) (txt_lines n lim) (family FTxt).
Proof.
  induction n as [|n IH]; intros lim; cbn [txt_lines]; [apply wpio_ok; fam|].
  step. apply wpio_read_line; [exact I|]. intros line _.
  destruct line as [|b line]; [apply wpio_ok; fam|].
  destruct (utf8_strict (b :: line)); [|step].
  step; [step|apply IH].
Qed.
Lemma txt_static : wpio (sp c FTxt) from_txt_reader (family FTxt).
Proof. unfold from_txt_reader. repeat step. apply txt_lines_static. Qed.

Lemma xeval_total buf x : exists b, xeval buf x = Done b.
Proof.
  induction x as [s|a [ba IHa] b [bb IHb]|a [ba IHa] b [bb IHb]]; cbn [xeval].
  - apply holds_total.
  - rewrite IHa. cbn. destruct ba; eauto.
  - rewrite IHa. cbn. destruct ba; eauto.
Qed.
Lemma xml_chain_total buf rules : exists f, xml_chain buf rules = Done f /\
  (f = ExtensibleMarkupLanguage \/ In f (map snd rules)).
Proof.
  induction rules as [|[x f] rules IH]; cbn [xml_chain]; [eauto|].
  destruct (xeval_total buf x) as [[|] ->]; cbn [bind_exec].
  - exists f. split; [reflexivity|]. right. now left.
  - destruct IH as (g & -> & [H|H]); exists g; (split; [reflexivity|]); [now left|].
    right. now right.
Qed.
Lemma xml_static : wpio (sp c FXml) from_xml_reader (family FXml).
Proof.
  unfold from_xml_reader. repeat step. apply wpio_read; [exact I|]. intros buf _.
  step. destruct (xml_chain_total buf xml_rules) as (f & E & Hf). rewrite E.
  apply wp_lift_exec; [eauto|]. intros g Hg. injection Hg as <-. step.
  destruct Hf as [->|Hf]; [fam|]. revert Hf. apply (table_family FXml xml_rules).
  vm_compute. reflexivity.
Qed.

(** ** ZIP *)
Lemma zip_name_rules_family name f : zip_name_rules name = Some f -> family FZip f.
Proof.
  unfold zip_name_rules.
  repeat match goal with
         | |- context [if ?b then Some _ else _] => destruct b; [intros H; injection H as <-; fam|]
         end.
  discriminate.
Qed.
Lemma zip_mime_result_family data : family FZip (zip_mime_result data).
Proof.
  unfold zip_mime_result. destruct (lookup_ustr _ zip_mime_table) as [f|] eqn:E; [|fam].
  apply lookup_ustr_in in E. revert E. apply (table_family FZip zip_mime_table).
  vm_compute. reflexivity.
Qed.
Lemma as_usize_le n : as_usize c n <= n.
Proof.
  unfold as_usize. apply N.mod_le. apply N.pow_nonzero. discriminate.
Qed.
Lemma zip_alloc n (F : bytes -> Prop) : n <= 4294967295 ->
  (forall l, lenN l = n -> F l) -> wpio (sp c FZip) (read_bytes c n) F.
Proof.
  intros Hn HF. apply wpio_read_bytes; [|auto|exact HF].
  intros H1. cbn. right. destruct Hc as [H|H]; [exact H|].
  exfalso. assert (Hi : isize_max c = 9223372036854775807) by (unfold isize_max; now rewrite H).
  lia.
Qed.
Lemma zip_mimetype_static offset size : size < u32_max1 ->
  wpio (sp c FZip) (zip_mimetype c offset size) (family FZip).
Proof.
  intros Hs. unfold zip_mimetype. step. apply wp_u64_add; [cbn; auto|]. intros t _ _.
  repeat step. unfold read_string. step. apply zip_alloc.
  { pose proof (as_usize_le size). unfold u32_max1 in Hs. change (2 ^ 32) with 4294967296 in Hs. lia. }
  intros l _. repeat step. apply zip_mime_result_family.
Qed.
Lemma zip_entries_static : forall n fmt, family FZip fmt ->
  wpio (sp c FZip) (zip_entries c n fmt) (family FZip).
Proof.
  induction n as [|n IH]; intros fmt Hfmt; cbn [zip_entries]; [apply wpio_ok; exact Hfmt|].
  repeat match goal with |- wpio _ (bindio (read_string _ _) _) _ => fail 1 | _ => step end.
  apply wpio_bind. unfold read_string. step. apply zip_alloc; [lia|]. intros l _. step.
  destruct (lookup_ustr _ zip_name_table) as [f|] eqn:E.
  { step. apply lookup_ustr_in in E. revert E. apply (table_family FZip zip_name_table).
    vm_compute. reflexivity. }
  step; [repeat step; apply IH; fam|].
  step; [now apply zip_mimetype_static|].
  destruct (zip_name_rules _) as [f|] eqn:Er.
  - step. now apply zip_name_rules_family in Er.
  - repeat step. now apply IH.
Qed.
Lemma zip_static : wpio (sp c FZip) (from_zip_reader c) (family FZip).
Proof.
  unfold from_zip_reader. step. step. step. unfold zip_find_eocd. step. step. step.
  apply zip_alloc; [unfold EOCD_MAX_SIZE, EOCD_MIN_SIZE; lia|]. intros buf Hbuf.
  step. destruct (rfind_total buf EOCD_SIGNATURE) as (r & Hr).
  apply wp_lift_exec; [eauto|]. intros r' Hr'. destruct r' as [i|]; [|step].
  step. apply wp_u64_add; [cbn; auto|]. intros e He _. repeat step.
  unfold zip_is_zip64. step.
  - (* zip64 locator looked at *)
    step. apply wp_u64_sub; [cbn; auto|]. intros t _ _. repeat step.
    apply zip_alloc; [lia|]. intros sg _. repeat step.
    unfold zip_directory. step.
    + repeat step. apply wp_u64_add; [cbn; auto|]. intros t1 _ _. repeat step.
      apply zip_entries_static. fam.
    + repeat step. apply wp_u64_add; [cbn; auto|]. intros t1 _ _. repeat step.
      apply zip_entries_static. fam.
  - repeat step. unfold zip_directory. repeat step.
    apply wp_u64_add; [cbn; auto|]. intros t1 _ _. repeat step.
    apply zip_entries_static. fam.
Qed.
End Readers.
