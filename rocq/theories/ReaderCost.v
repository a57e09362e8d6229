(** How many calls each reader makes. *)
From Coq Require Import NArith ZArith Bool String List Lia ZifyBool ZifyNat ZifyN.
From Verif Require Import Base BaseProofs Formats FormatsProofs IO Find FindProofs Utf8 Readers Lib Mem IOProofs
  Documented Static ReaderStatic Lawful LibProofs SpecIo Cost.
Local Open Scope N_scope.

Definition okc {A} (F : A -> N -> N -> N -> Prop) (r : result A) (s f g : N) : Prop :=
  match r with Ok a => F a s f g | Err _ => True end.
Definition wpcio {A} (m : io A) (s f g : N) (F : A -> N -> N -> N -> Prop) : Prop := wpc m s f g (okc F).

Lemma wpcio_bind {A B} (m : io A) (h : A -> io B) s f g F :
  wpcio m s f g (fun a s f g => wpcio (h a) s f g F) -> wpcio (bindio m h) s f g F.
Proof.
  intros H. unfold wpcio, bindio in *. apply wpc_bindp. eapply wpc_mono; [|exact H].
  intros [a|e] s' f' g' Ha; [exact Ha|exact I].
Qed.
Lemma wpcio_bindp {A B} (m : prog A) (h : A -> io B) s f g F :
  wpc m s f g (fun a s f g => wpcio (h a) s f g F) -> wpcio (bindp m h) s f g F.
Proof. intros H. unfold wpcio in *. now apply wpc_bindp. Qed.
Lemma wpcio_ok {A} (a : A) s f g (F : A -> N -> N -> N -> Prop) : F a s f g -> wpcio (ok a) s f g F.
Proof. auto. Qed.
Lemma wpcio_err {A} e s f g (F : A -> N -> N -> N -> Prop) : wpcio (err e) s f g F.
Proof. exact I. Qed.
Lemma wpcio_mono {A} (m : io A) s f g (F F' : A -> N -> N -> N -> Prop) :
  (forall a s f g, F a s f g -> F' a s f g) -> wpcio m s f g F -> wpcio m s f g F'.
Proof. intros HF. unfold wpcio. apply wpc_mono. intros [a|e]; cbn; auto. Qed.
Lemma wpcio_read_exact n s f g (F : bytes -> N -> N -> N -> Prop) : 2 <= f -> n <= g ->
  (forall l, lenN l = n -> F l s (f - 2) (g - n)) -> wpcio (read_exact n) s f g F.
Proof. intros H1 H2 H. split; [exact H1|]. split; [exact H2|]. intros [l|e] Hr; cbn in *; auto. Qed.
Lemma wpcio_read n s f g (F : bytes -> N -> N -> N -> Prop) : 1 <= f -> 1 <= g ->
  (forall l, lenN l <= n -> F l s (f - 1) (g - 1)) -> wpcio (read n) s f g F.
Proof. intros H1 H2 H. split; [exact H1|]. split; [exact H2|]. intros [l|e] Hr; cbn in *; auto. Qed.
Lemma wpcio_read_line n s f g (F : bytes -> N -> N -> N -> Prop) : n / 8192 + 2 <= f -> n <= g ->
  (forall l, lenN l <= n -> F l s (f - (n / 8192 + 2)) (g - n)) -> wpcio (read_line n) s f g F.
Proof. intros H1 H2 H. split; [exact H1|]. split; [exact H2|]. intros [l|e] Hr; cbn in *; auto. Qed.
Lemma wpcio_seek w s f g (F : N -> N -> N -> N -> Prop) : 1 <= s -> (forall p, F p (s - 1) f g) -> wpcio (seek w) s f g F.
Proof. intros H1 H. split; [exact H1|]. intros [p|e] Hr; cbn in *; auto. Qed.
Lemma wpcio_rewind s f g (F : N -> N -> N -> N -> Prop) : 1 <= s -> (forall p, F p (s - 1) f g) -> wpcio rewind s f g F.
Proof. apply wpcio_seek. Qed.
Lemma wpcio_tell s f g (F : N -> N -> N -> N -> Prop) : 1 <= s -> (forall p, F p (s - 1) f g) -> wpcio tell s f g F.
Proof. intros H1 H. split; [exact H1|]. intros [p|e] Hr; cbn in *; auto. Qed.
Lemma wpcio_read_bytes c n s f g (F : bytes -> N -> N -> N -> Prop) : 2 <= f -> n <= g ->
  (forall l, lenN l = n -> F l s (f - 2) (g - n)) -> wpcio (read_bytes c n) s f g F.
Proof.
  intros H1 H2 H. unfold read_bytes. apply wpcio_bindp. unfold alloc.
  destruct (isize_max c <? n); [exact I|]. cbn [wpc]. now apply wpcio_read_exact.
Qed.
Lemma wpcio_read_val (val : bytes -> N) n s f g (F : N -> N -> N -> N -> Prop) : 
  (forall l, val l < 256 ^ lenN l) -> 2 <= f -> n <= g ->
  (forall v, v < 256 ^ n -> F v s (f - 2) (g - n)) ->
  wpcio (let! buf := read_exact n in ok (val buf)) s f g F.
Proof.
  intros Hv H1 H2 H. apply wpcio_bind, wpcio_read_exact; auto. intros l Hl. apply wpcio_ok, H.
  rewrite <- Hl. apply Hv.
Qed.
Lemma wpc_u64_add c a b s f g (Q : N -> N -> N -> N -> Prop) : (forall v, Q v s f g) -> wpc (u64_add c a b) s f g Q.
Proof.
  intros H. unfold u64_add. destruct (a + b <? u64_max1); [apply H|]. destruct (ovf c); [exact I|apply H].
Qed.
Lemma wpc_u64_sub c a b s f g (Q : N -> N -> N -> N -> Prop) : (forall v, Q v s f g) -> wpc (u64_sub c a b) s f g Q.
Proof.
  intros H. unfold u64_sub. destruct (b <=? a); [apply H|]. destruct (ovf c); [exact I|apply H].
Qed.
Lemma wpc_i64_sub c a b s f g (Q : Z -> N -> N -> N -> Prop) : (forall v, Q v s f g) -> wpc (i64_sub c a b) s f g Q.
Proof.
  intros H. unfold i64_sub. cbn zeta. destruct (_ && _); [apply H|]. destruct (ovf c); [exact I|apply H].
Qed.
Lemma wpc_lift {A} (e : exec A) s f g (Q : A -> N -> N -> N -> Prop) : (forall v, Q v s f g) -> wpc (lift_exec e) s f g Q.
Proof. intros H. destruct e; cbn; auto. Qed.

Ltac cstep :=
  match goal with
  | |- wpcio (bindio _ _) _ _ _ _ => apply wpcio_bind
  | |- wpcio (bindp _ _) _ _ _ _ => apply wpcio_bindp
  | |- wpcio (ok _) _ _ _ _ => apply wpcio_ok; try exact I
  | |- wpcio (err _) _ _ _ _ => apply wpcio_err
  | |- wpcio (seek _) _ _ _ _ => apply wpcio_seek; [lia|intros]
  | |- wpcio rewind _ _ _ _ => apply wpcio_rewind; [lia|intros]
  | |- wpcio tell _ _ _ _ => apply wpcio_tell; [lia|intros]
  | |- wpcio read_u8 _ _ _ _ => apply (wpcio_read_val le_val 1); [apply le_val_lt|lia|lia|intros]
  | |- wpcio read_u16_le _ _ _ _ => apply (wpcio_read_val le_val 2); [apply le_val_lt|lia|lia|intros]
  | |- wpcio read_u32_le _ _ _ _ => apply (wpcio_read_val le_val 4); [apply le_val_lt|lia|lia|intros]
  | |- wpcio read_u64_le _ _ _ _ => apply (wpcio_read_val le_val 8); [apply le_val_lt|lia|lia|intros]
  | |- wpcio read_u32_be _ _ _ _ => apply (wpcio_read_val be_val 4); [apply be_val_lt|lia|lia|intros]
  | |- wpcio read_u64_be _ _ _ _ => apply (wpcio_read_val be_val 8); [apply be_val_lt|lia|lia|intros]
  | |- wpcio (if ?b then _ else _) _ _ _ _ => destruct b
  | |- wpcio (read_bytes _ _) _ _ _ _ => apply wpcio_read_bytes; [lia|lia|intros]
  | |- wpcio (read_guid _) _ _ _ _ => unfold read_guid
  | |- wpc (u64_add _ _ _) _ _ _ _ => apply wpc_u64_add; intros
  | |- wpc (u64_sub _ _ _) _ _ _ _ => apply wpc_u64_sub; intros
  | |- wpc (i64_sub _ _ _) _ _ _ _ => apply wpc_i64_sub; intros
  | |- wpc (lift_exec _) _ _ _ _ => apply wpc_lift; intros
  | |- wpc (Ret _) _ _ _ _ => cbn [wpc]
  end.
Notation anyc := (fun _ _ _ _ => True).

Section Readers.
Variable c : plat.

(** Leaves of the budget are given to the continuation. *)
Definition leaves {A} (s f g : N) : A -> N -> N -> N -> Prop := fun _ s' f' g' => s <= s' /\ f <= f' /\ g <= g'.

Lemma asf_descriptors_cost : forall n s f g s0 f0 g0,
  s0 + 2 * N.of_nat n <= s -> f0 + 6 * N.of_nat n <= f -> g0 + 68 * N.of_nat n <= g ->
  wpcio (asf_descriptors c n) s f g (leaves s0 f0 g0).
Proof.
  induction n as [|n IH]; intros s f g s0 f0 g0 Hs Hf Hg; cbn [asf_descriptors].
  - cstep. repeat split; lia.
  - repeat cstep; [repeat split; lia|]. apply IH; lia.
Qed.
Lemma asf_objects_cost : forall n a v s f g,
  66 * N.of_nat n <= s -> 198 * N.of_nat n <= f -> 2202 * N.of_nat n <= g ->
  wpcio (asf_objects c n a v) s f g anyc.
Proof.
  induction n as [|n IH]; intros a v s f g Hs Hf Hg; cbn [asf_objects].
  - cstep.
  - cstep. cstep. cstep. cstep. cstep. cstep. cstep. cstep.
    + cstep. cstep. cstep. cstep.
      destruct (if String.eqb _ AUDIO_MEDIA_GUID then _ else _) as [a' v'].
      repeat cstep. apply IH; lia.
    + cstep; [|repeat cstep; apply IH; lia].
      cstep. cstep. cstep. cstep. cstep.
      eapply wpcio_mono; [|apply (asf_descriptors_cost _ _ _ _ (66 * N.of_nat n + 1) (198 * N.of_nat n) (2202 * N.of_nat n)); lia].
      intros dvr s' f' g' (Q1 & Q2 & Q3). repeat cstep. apply IH; lia.
Qed.
Lemma asf_cost s f g : 16898 <= s -> 50690 <= f -> 563716 <= g -> wpcio (from_asf_reader c) s f g anyc.
Proof. intros Hs Hf Hg. unfold from_asf_reader. repeat cstep. apply asf_objects_cost; lia. Qed.

Lemma cfb_cost s f g : 5 <= s -> 10 <= f -> 150 <= g -> wpcio (from_cfb_reader c) s f g anyc.
Proof.
  intros Hs Hf Hg. unfold from_cfb_reader. repeat cstep.
  destruct (lookup_str _ clsid_table) as [ff|]; repeat cstep.
Qed.

Lemma read_shift_cost m : forall n v s f g s0 f0 g0,
  s0 <= s -> f0 + 2 * N.of_nat n <= f -> g0 + N.of_nat n <= g ->
  wpcio (read_shift_bytes m n v) s f g (leaves s0 f0 g0).
Proof.
  induction n as [|n IH]; intros v s f g s0 f0 g0 Hs Hf Hg; cbn [read_shift_bytes].
  - cstep. repeat split; lia.
  - repeat cstep. apply IH; lia.
Qed.
Lemma ebml_id_cost s f g s0 f0 g0 : s0 <= s -> f0 + 8 <= f -> g0 + 4 <= g ->
  wpcio read_ebml_id s f g (leaves s0 f0 g0).
Proof.
  intros Hs Hf Hg. unfold read_ebml_id. cstep. cstep. cbn zeta.
  match goal with |- context [if ?b then _ else _] => destruct b eqn:E end; [cstep|].
  apply read_shift_cost; lia.
Qed.
Lemma ebml_size_cost s f g s0 f0 g0 : s0 <= s -> f0 + 16 <= f -> g0 + 8 <= g ->
  wpcio read_ebml_size s f g (leaves s0 f0 g0).
Proof.
  intros Hs Hf Hg. unfold read_ebml_size. cstep. cstep. cbn zeta.
  match goal with |- context [if ?b then _ else _] => destruct b eqn:E end; [cstep|].
  apply read_shift_cost; lia.
Qed.
Lemma ebml_elements_cost len : forall n a v sb s f g,
  2 * N.of_nat n <= s -> 26 * N.of_nat n <= f -> 76 * N.of_nat n <= g ->
  wpcio (ebml_elements c len n a v sb) s f g anyc.
Proof.
  induction n as [|n IH]; intros a v sb s f g Hs Hf Hg; cbn [ebml_elements]; [cstep|].
  cstep. cstep. cstep; [|cstep].
  cstep. eapply wpcio_mono; [|apply (ebml_id_cost _ _ _ (2 * N.of_nat n + 1) (26 * N.of_nat n + 18) (76 * N.of_nat n + 72)); lia].
  intros id s1 f1 g1 (Q1 & Q2 & Q3). cstep.
  eapply wpcio_mono; [|apply (ebml_size_cost _ _ _ (2 * N.of_nat n + 1) (26 * N.of_nat n + 2) (76 * N.of_nat n + 64)); lia].
  intros size s2 f2 g2 (Q4 & Q5 & Q6).
  cstep; [apply IH; lia|]. cstep; [repeat cstep; apply IH; lia|]. cstep.
  { cstep. cstep. destruct (if bstarts_with _ (bs "A_") then _ else _) as [[a' v'] s'].
    repeat cstep. apply IH; lia. }
  cstep; [repeat cstep; apply IH; lia|]. cstep; [cstep|].
  repeat cstep. apply IH; lia.
Qed.
Lemma ebml_cost s f g : 514 <= s -> 6656 <= f -> 19456 <= g -> wpcio (from_ebml_reader c) s f g anyc.
Proof. intros Hs Hf Hg. unfold from_ebml_reader. repeat cstep. apply ebml_elements_cost; lia. Qed.

Lemma exe_cost s f g : 4 <= s -> 6 <= f -> 10 <= g -> wpcio (from_exe_reader c) s f g anyc.
Proof. intros Hs Hf Hg. unfold from_exe_reader. repeat cstep. Qed.

Lemma id3v2_loop_cost : forall fuel offset s f g s0 f0 g0,
  s0 + (N.of_nat fuel + 1) <= s -> f0 + 4 * (N.of_nat fuel + 1) <= f -> g0 + 14 * (N.of_nat fuel + 1) <= g ->
  wpcio (id3v2_loop c fuel offset) s f g (leaves s0 f0 g0).
Proof.
  induction fuel as [|fuel IH]; intros offset s f g s0 f0 g0 Hs Hf Hg; cbn [id3v2_loop].
  - cstep. cstep. cstep. cstep. cstep; [cstep; repeat split; lia|]. cstep. cstep. cstep. cstep. cstep. cstep.
    + repeat cstep. destruct (negb _); [repeat cstep|]; exact I.
    + repeat cstep. destruct (negb _); [repeat cstep|]; exact I.
  - cstep. cstep. cstep. cstep. cstep; [cstep; repeat split; lia|]. cstep. cstep. cstep. cstep. cstep. cstep.
    + repeat cstep. destruct (negb _); [cstep|cbn [wpc]]; apply IH; lia.
    + repeat cstep. destruct (negb _); [cstep|cbn [wpc]]; apply IH; lia.
Qed.
Lemma id3v2_cost fuel s f g : N.of_nat fuel + 2 <= s -> 4 * (N.of_nat fuel + 1) + 2 <= f -> 14 * (N.of_nat fuel + 1) + 4 <= g ->
  wpcio (from_id3v2_reader c fuel) s f g anyc.
Proof.
  intros Hs Hf Hg. unfold from_id3v2_reader. cstep.
  eapply wpcio_mono; [|apply (id3v2_loop_cost fuel 0 _ _ _ 1 2 4); lia].
  intros off s1 f1 g1 (Q1 & Q2 & Q3). repeat cstep.
Qed.

Lemma mp4_boxes_cost len : forall n a v sb s f g,
  3 * N.of_nat n <= s -> 8 * N.of_nat n <= f -> 20 * N.of_nat n <= g ->
  wpcio (mp4_boxes c len n a v sb) s f g anyc.
Proof.
  induction n as [|n IH]; intros a v sb s f g Hs Hf Hg; cbn [mp4_boxes]; [cstep|].
  cstep. cstep. cstep; [|cstep]. cstep. cstep. cstep. cstep. cstep.
  match goal with |- wpcio (if ?b then read_u64_be else ok ?z) ?s0 ?f0 ?g0 ?F =>
    assert (Hz : forall k : N -> io FileFormat, (forall zz s1 f1 g1, s0 <= s1 -> f0 - 2 <= f1 -> g0 - 8 <= g1 ->
        wpcio (k zz) s1 f1 g1 anyc) -> wpcio (if b then read_u64_be else ok z) s0 f0 g0 (fun a s f g => wpcio (k a) s f g anyc)) end.
  { intros k Hk. destruct (_ =? 1); repeat cstep; apply Hk; lia. }
  apply Hz. clear Hz. intros size s1 f1 g1 H1 H2 H3.
  cstep; [apply IH; lia|]. cstep.
  - cstep. cstep. cstep. cstep. destruct (if beqb _ (bs "vide") then _ else _) as [[a' v'] s'].
    repeat cstep. apply IH; lia.
  - repeat cstep. apply IH; lia.
Qed.
Lemma mp4_cost s f g : 770 <= s -> 2048 <= f -> 5120 <= g -> wpcio (from_mp4_reader c) s f g anyc.
Proof. intros Hs Hf Hg. unfold from_mp4_reader. repeat cstep. apply mp4_boxes_cost; lia. Qed.

(** Every read of the PDF loop that does not end it makes progress. *)
Lemma pdf_loop_cost : forall fuel total buf s f g,
  PDF_READ_LIMIT - total <= f -> PDF_READ_LIMIT - total <= g ->
  wpcio (pdf_loop fuel total buf) s f g anyc.
Proof.
  induction fuel as [|fuel IH]; intros total buf s f g Hf Hg; cbn [pdf_loop];
    (destruct (N.ltb_spec total PDF_READ_LIMIT) as [Hlt|Hlt]; [|cstep]);
    cstep; (apply wpcio_read; [lia|lia|]); intros chunk Hch; cbn zeta;
    (destruct (N.eqb_spec (lenN chunk) 0) as [|Hne]; [cstep|]); cstep; cstep;
    (match goal with |- wpcio (if ?b then _ else _) _ _ _ _ => destruct b; [cstep|] end).
  - exact I.
  - apply IH; lia.
Qed.
Lemma pdf_cost fuel s f g : 1 <= s -> PDF_READ_LIMIT <= f -> PDF_READ_LIMIT <= g ->
  wpcio (from_pdf_reader fuel) s f g anyc.
Proof. intros Hs Hf Hg. unfold from_pdf_reader. cstep. cstep. apply pdf_loop_cost; lia. Qed.

Lemma rm_chunks_cost : forall n a v s f g,
  5 * N.of_nat n <= s -> 10 * N.of_nat n <= f -> 265 * N.of_nat n <= g ->
  wpcio (rm_chunks c n a v) s f g anyc.
Proof.
  induction n as [|n IH]; intros a v s f g Hs Hf Hg; cbn [rm_chunks]; [cstep|].
  cstep. cstep. cstep. cstep. cstep. cstep.
  - cstep. cstep. cstep. cstep. cstep. cstep. cstep. cstep. cstep. cstep. cstep.
    change (256 ^ 1) with 256 in *. cstep. cstep. cstep. cstep.
    match goal with |- context [if bstarts_with ?x ?y then _ else _] =>
        destruct (if bstarts_with x y then (true, v) else if bstarts_with x (bs "video/") then (a, true) else (a, v)) as [a' v'] end.
    repeat cstep. apply IH; lia.
  - repeat cstep. apply IH; lia.
Qed.
Lemma rm_cost s f g : 321 <= s -> 642 <= f -> 16964 <= g -> wpcio (from_rm_reader c) s f g anyc.
Proof. intros Hs Hf Hg. unfold from_rm_reader. repeat cstep. apply rm_chunks_cost; lia. Qed.

Lemma sqlite3_cost s f g : 1 <= s -> 1 <= f -> 1 <= g -> wpcio from_sqlite3_reader s f g anyc.
Proof.
  intros Hs Hf Hg. unfold from_sqlite3_reader. cstep. cstep. cstep. apply wpcio_read; [lia|lia|]. intros. repeat cstep.
Qed.
Lemma xml_cost s f g : 1 <= s -> 1 <= f -> 1 <= g -> wpcio from_xml_reader s f g anyc.
Proof.
  intros Hs Hf Hg. unfold from_xml_reader. cstep. cstep. cstep. apply wpcio_read; [lia|lia|]. intros. repeat cstep.
Qed.

Lemma txt_lines_cost : forall n lim s f g, lim <= 65536 ->
  10 * N.of_nat n <= f -> lim * N.of_nat n <= g ->
  wpcio (txt_lines n lim) s f g anyc.
Proof.
  induction n as [|n IH]; intros lim s f g Hl Hf Hg; cbn [txt_lines]; [cstep|].
  assert (lim / 8192 <= 65536 / 8192) by (apply N.div_le_mono; [discriminate|lia]).
  change (65536 / 8192) with 8 in *.
  cstep. apply wpcio_read_line; [lia|lia|]. intros line Hline.
  destruct line as [|b line]; [cstep|]. destruct (utf8_strict (b :: line)); [|cstep].
  cstep; [cstep|]. apply IH; [lia|lia|nia].
Qed.
Lemma txt_cost s f g : 1 <= s -> 160 <= f -> 1048576 <= g -> wpcio from_txt_reader s f g anyc.
Proof. intros Hs Hf Hg. unfold from_txt_reader. cstep. cstep. apply txt_lines_cost; lia. Qed.

Lemma zip_mimetype_cost offset size s f g : size < 4294967296 -> 2 <= s -> 6 <= f -> 4294967299 <= g ->
  wpcio (zip_mimetype c offset size) s f g anyc.
Proof.
  intros Hsz Hs Hf Hg. unfold zip_mimetype, read_string. pose proof (as_usize_le c size). repeat cstep.
Qed.
Lemma zip_entries_cost : forall n fmt s f g,
  2 + 3 * N.of_nat n <= s -> 6 + 14 * N.of_nat n <= f -> 4294967299 + 65553 * N.of_nat n <= g ->
  wpcio (zip_entries c n fmt) s f g anyc.
Proof.
  induction n as [|n IH]; intros fmt s f g Hs Hf Hg; cbn [zip_entries]; [cstep|].
  do 16 cstep. change (256 ^ 2) with 65536 in *. change (256 ^ 4) with 4294967296 in *.
  cstep. unfold read_string. cstep. cstep. cstep.
  destruct (lookup_ustr _ zip_name_table) as [ff|]; [cstep|].
  cstep; [repeat cstep; apply IH; lia|].
  cstep; [apply zip_mimetype_cost; lia|].
  destruct (zip_name_rules _) as [ff|]; repeat cstep. apply IH; lia.
Qed.
Lemma zip_cost s f g : 3081 <= s -> 14352 <= f -> 4362159156 <= g -> wpcio (from_zip_reader c) s f g anyc.
Proof.
  intros Hs Hf Hg. unfold from_zip_reader. cstep. cstep. cstep. unfold zip_find_eocd, EOCD_MAX_SIZE, EOCD_MIN_SIZE.
  cstep. cstep. cstep. cstep. cstep. cstep. destruct v as [i|]; [|cstep].
  cstep. cstep. cstep. cstep. unfold zip_is_zip64. cstep.
  - cstep. cstep. cstep. cstep. cstep. cstep. cstep. cstep. unfold zip_directory. repeat cstep; apply zip_entries_cost; unfold ENTRY_LIMIT; lia.
  - cstep. cstep. unfold zip_directory. repeat cstep. apply zip_entries_cost; unfold ENTRY_LIMIT; lia.
Qed.
End Readers.
