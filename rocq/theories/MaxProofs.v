(** How the largest offset a seek accepts influences a reader (C17). *)
From Coq Require Import NArith ZArith Bool String List Lia ZifyBool ZifyNat ZifyN.
From Verif Require Import Base BaseProofs Formats IO Find Utf8 Readers Mem LibProofs Ideal Static ReaderStatic
  Spec SpecExe ScanProofs ExeProofs TextProofs.
Local Open Scope N_scope.

(** ** Programs that give up when a call fails *)
Fixpoint strict {A} (p : prog (result A)) : Prop :=
  match p with
  | Ret _ | PPanic | PFuel => True
  | PRead _ k | PReadExact _ k | PReadLine _ k =>
      (forall e, exists e', k (Err e) = Ret (Err e')) /\ forall r, strict (k r)
  | PSeek _ k | PTell k => (forall e, exists e', k (Err e) = Ret (Err e')) /\ forall r, strict (k r)
  | PAlloc _ k => strict k
  end.

Lemma strict_bindio {A B} (m : io A) (f : A -> io B) :
  strict m -> (forall a, strict (f a)) -> strict (bindio m f).
Proof.
  intros Hm Hf. unfold bindio.
  induction m as [r| | |n k IH|n k IH|n k IH|w k IH|k IH|n k IH]; cbn [bindp strict] in *; auto.
  - destruct r; [apply Hf|exact I].
  - destruct Hm as [H1 H2]. split; [|auto]. intros e. destruct (H1 e) as [e' ->]. now exists e'.
  - destruct Hm as [H1 H2]. split; [|auto]. intros e. destruct (H1 e) as [e' ->]. now exists e'.
  - destruct Hm as [H1 H2]. split; [|auto]. intros e. destruct (H1 e) as [e' ->]. now exists e'.
  - destruct Hm as [H1 H2]. split; [|auto]. intros e. destruct (H1 e) as [e' ->]. now exists e'.
  - destruct Hm as [H1 H2]. split; [|auto]. intros e. destruct (H1 e) as [e' ->]. now exists e'.
Qed.

(** Computations that do no I/O. *)
Fixpoint silent {A} (p : prog A) : Prop :=
  match p with Ret _ | PPanic | PFuel => True | PAlloc _ k => silent k | _ => False end.
Lemma strict_silent {A B} (p : prog A) (f : A -> prog (result B)) :
  silent p -> (forall a, strict (f a)) -> strict (bindp p f).
Proof.
  intros Hp Hf. induction p as [a| | |n k IH|n k IH|n k IH|w k IH|k IH|n k IH]; cbn in *; auto; contradiction.
Qed.
Lemma silent_lift {A} (e : exec A) : silent (lift_exec e). Proof. destruct e; exact I. Qed.
Lemma silent_alloc c n : silent (alloc c n). Proof. unfold alloc. destruct (_ <? n); exact I. Qed.
Lemma silent_u64_add c a b : silent (u64_add c a b).
Proof. unfold u64_add. destruct (_ <? _); [exact I|]. destruct (ovf c); exact I. Qed.
Lemma silent_u64_sub c a b : silent (u64_sub c a b).
Proof. unfold u64_sub. destruct (_ <=? _); [exact I|]. destruct (ovf c); exact I. Qed.
Lemma silent_i64_sub c a b : silent (i64_sub c a b).
Proof. unfold i64_sub. cbn zeta. destruct (_ && _); [exact I|]. destruct (ovf c); exact I. Qed.
Lemma strict_read_exact n : strict (read_exact n).
Proof. split; [|intros r; exact I]. intros e. now exists e. Qed.
Lemma strict_read n : strict (read n).
Proof. split; [|intros r; exact I]. intros e. now exists e. Qed.
Lemma strict_read_line n : strict (read_line n).
Proof. split; [|intros r; exact I]. intros e. now exists e. Qed.
Lemma strict_seek w : strict (seek w).
Proof. split; [|intros r; exact I]. intros e. now exists e. Qed.
Lemma strict_tell : strict tell.
Proof. split; [|intros r; exact I]. intros e. now exists e. Qed.
Lemma strict_read_bytes c n : strict (read_bytes c n).
Proof. apply strict_silent; [apply silent_alloc|intros []; apply strict_read_exact]. Qed.
Lemma strict_ok {A} (a : A) : strict (ok a). Proof. exact I. Qed.
Lemma strict_err {A} e : strict (@err A e). Proof. exact I. Qed.

Ltac stricts :=
  repeat match goal with
  | |- forall _, _ => intro
  | |- strict (bindio _ _) => apply strict_bindio
  | |- strict (read_exact _) => apply strict_read_exact
  | |- strict (read _) => apply strict_read
  | |- strict (read_line _) => apply strict_read_line
  | |- strict (seek _) => apply strict_seek
  | |- strict rewind => apply strict_seek
  | |- strict tell => apply strict_tell
  | |- strict (read_bytes _ _) => apply strict_read_bytes
  | |- strict (read_string _ _) => unfold read_string
  | |- strict (read_guid _) => unfold read_guid
  | |- strict read_u8 => unfold read_u8
  | |- strict read_u16_le => unfold read_u16_le
  | |- strict read_u32_le => unfold read_u32_le
  | |- strict read_u32_be => unfold read_u32_be
  | |- strict read_u64_le => unfold read_u64_le
  | |- strict read_u64_be => unfold read_u64_be
  | |- strict (ok _) => exact I
  | |- strict (err _) => exact I
  | |- strict (Ret _) => exact I
  | |- strict PFuel => exact I
  | |- strict (bindp (lift_exec _) _) => apply strict_silent; [apply silent_lift|]
  | |- strict (bindp (u64_add _ _ _) _) => apply strict_silent; [apply silent_u64_add|]
  | |- strict (bindp (u64_sub _ _ _) _) => apply strict_silent; [apply silent_u64_sub|]
  | |- strict (bindp (i64_sub _ _ _) _) => apply strict_silent; [apply silent_i64_sub|]
  | |- strict (if ?b then _ else _) => destruct b
  | |- strict (match ?x with _ => _ end) => destruct x
  | |- strict (let _ := _ in _) => cbv zeta
  | |- strict _ => solve [auto]
  end.

Lemma strict_asf_descriptors c n : strict (asf_descriptors c n).
Proof. induction n; cbn [asf_descriptors]; stricts. Qed.
Lemma strict_asf c : strict (from_asf_reader c).
Proof.
  assert (H : forall n a v, strict (asf_objects c n a v)).
  { pose proof (strict_asf_descriptors c). induction n; intros; cbn [asf_objects]; stricts. }
  unfold from_asf_reader. stricts.
Qed.
Lemma strict_cfb c : strict (from_cfb_reader c).
Proof. unfold from_cfb_reader. stricts. Qed.
Lemma strict_shift m n : forall v, strict (read_shift_bytes m n v).
Proof. induction n; intros; cbn [read_shift_bytes]; stricts. Qed.
Lemma strict_ebml c : strict (from_ebml_reader c).
Proof.
  pose proof strict_shift.
  assert (strict read_ebml_id) by (unfold read_ebml_id; stricts).
  assert (strict read_ebml_size) by (unfold read_ebml_size; stricts).
  assert (Hl : forall len n a v s, strict (ebml_elements c len n a v s)).
  { intros len. induction n; intros; cbn [ebml_elements]; stricts. }
  unfold from_ebml_reader. stricts.
Qed.
Lemma strict_exe c : strict (from_exe_reader c).
Proof. unfold from_exe_reader. stricts. Qed.
Lemma strict_id3 c fuel : strict (from_id3v2_reader c fuel).
Proof.
  assert (H : forall fuel o, strict (id3v2_loop c fuel o)).
  { clear fuel. induction fuel; intros; cbn [id3v2_loop]; stricts;
      (apply strict_silent; [destruct (negb (N.land (bval (nth 5 a0 x00)) 16 =? 0)); [apply silent_u64_add|exact I]|stricts]). }
  unfold from_id3v2_reader. stricts.
Qed.
Lemma strict_mp4 c : strict (from_mp4_reader c).
Proof.
  assert (Hl : forall len n a v s, strict (mp4_boxes c len n a v s)).
  { intros len. induction n; intros; cbn [mp4_boxes]; stricts. }
  unfold from_mp4_reader. stricts.
Qed.
Lemma strict_pdf fuel : strict (from_pdf_reader fuel).
Proof.
  assert (H : forall fuel t b, strict (pdf_loop fuel t b)).
  { clear fuel. induction fuel; intros; cbn [pdf_loop]; stricts. }
  unfold from_pdf_reader. stricts.
Qed.
Lemma strict_rm c : strict (from_rm_reader c).
Proof.
  assert (H : forall n a v, strict (rm_chunks c n a v)).
  { induction n; intros; cbn [rm_chunks]; stricts. }
  unfold from_rm_reader. stricts.
Qed.
Lemma strict_txt : strict from_txt_reader.
Proof.
  assert (H : forall n l, strict (txt_lines n l)).
  { induction n; intros; cbn [txt_lines]; stricts. }
  unfold from_txt_reader. stricts.
Qed.
Lemma strict_xml : strict from_xml_reader.
Proof. unfold from_xml_reader. stricts. Qed.
Lemma strict_sqlite : strict from_sqlite3_reader.
Proof. unfold from_sqlite3_reader. stricts. Qed.
Lemma strict_zip c : strict (from_zip_reader c).
Proof.
  assert (H : forall n f, strict (zip_entries c n f)).
  { induction n; intros; cbn [zip_entries]; stricts; unfold zip_mimetype; stricts. }
  unfold from_zip_reader, zip_find_eocd, zip_is_zip64, zip_directory. stricts.
Qed.
Lemma reader_strict c fuel x : strict (reader_of c fuel x).
Proof.
  destruct x; cbn [reader_of];
    auto using strict_asf, strict_cfb, strict_ebml, strict_exe, strict_id3, strict_mp4, strict_pdf, strict_rm,
      strict_txt, strict_xml, strict_sqlite, strict_zip.
Qed.

(** What a reader finds with a small limit it also finds with a larger one. *)
Lemma strict_max {A} content max max' (p : prog (result A)) : strict p -> max <= max' ->
  forall pos, (exists e, fst (mrun content max p pos) = Done (Err e)) \/
              mrun content max' p pos = mrun content max p pos.
Proof.
  intros Hp Hm. unfold mrun.
  induction p as [a| | |n k IH|n k IH|n k IH|w k IH|k IH|n k IH]; intros pos; cbn [strict run] in *;
    try (right; reflexivity).
  - cbn [mem_machine m_read mem_read]. apply IH, (proj2 Hp).
  - cbn [mem_machine m_read_exact]. unfold mem_read_exact. apply IH, (proj2 Hp).
  - cbn [mem_machine m_read_line]. unfold mem_read_line. apply IH, (proj2 Hp).
  - cbn [mem_machine m_seek]. unfold mem_seek. destruct Hp as [H1 H2].
    set (t := seek_target (lenN content) pos w).
    destruct ((t <? 0)%Z || (Z.of_N max <? t)%Z) eqn:E.
    + left. destruct (H1 EInvalidInput) as [e' ->]. now exists e'.
    + replace ((t <? 0)%Z || (Z.of_N max' <? t)%Z) with false by lia. apply IH, H2.
  - cbn [mem_machine m_tell]. apply IH, (proj2 Hp).
  - apply IH, Hp.
Qed.

Lemma mreader_max c content max max' x : max <= max' ->
  (exists e, mreader c content max x = Done (Err e)) \/
  mreader c content max' x = mreader c content max x.
Proof.
  intros Hm. unfold mreader.
  destruct (strict_max content max max' (reader_of c (S (List.length content)) x) (reader_strict c _ x) Hm 0)
    as [H|H]; [left; exact H|right; now rewrite H].
Qed.

(** ** Programs whose seeks stay below a bound *)
Fixpoint below {A} (content : bytes) (max : N) (p : prog A) (pos : N) : Prop :=
  match p with
  | Ret _ | PPanic | PFuel => True
  | PRead n k => let '(r, pos') := mem_read content n pos in below content max (k r) pos'
  | PReadExact n k =>
      match mem_read_exact content n pos with
      | (Done r, pos') => below content max (k r) pos'
      | _ => True
      end
  | PReadLine n k =>
      match mem_read_line content n pos with
      | (Done r, pos') => below content max (k r) pos'
      | _ => True
      end
  | PSeek w k =>
      let t := seek_target (lenN content) pos w in
      (t <= Z.of_N max)%Z /\
      (if (t <? 0)%Z then below content max (k (Err EInvalidInput)) pos
       else below content max (k (Ok (Z.to_N t))) (Z.to_N t))
  | PTell k => below content max (k (Ok pos)) pos
  | PAlloc _ k => below content max k pos
  end.

Lemma below_max {A} content max max' (p : prog A) : max <= max' ->
  forall pos, below content max p pos -> mrun content max' p pos = mrun content max p pos.
Proof.
  intros Hm. unfold mrun.
  induction p as [a| | |n k IH|n k IH|n k IH|w k IH|k IH|n k IH]; intros pos Hp; cbn [below run] in *;
    try reflexivity.
  - cbn [mem_machine m_read]. destruct (mem_read content n pos) as [r pos']. auto.
  - cbn [mem_machine m_read_exact]. destruct (mem_read_exact content n pos) as [[r| |] pos']; auto.
  - cbn [mem_machine m_read_line]. destruct (mem_read_line content n pos) as [[r| |] pos']; auto.
  - cbn [mem_machine m_seek]. unfold mem_seek.
    set (t := seek_target (lenN content) pos w) in *. destruct Hp as [H1 H2].
    destruct (Z.ltb_spec t 0) as [Hn|Hn]; cbn [orb].
    + apply IH. exact H2.
    + replace (Z.of_N max <? t)%Z with false by lia. replace (Z.of_N max' <? t)%Z with false by lia.
      apply IH. exact H2.
  - cbn [mem_machine m_tell]. auto.
  - auto.
Qed.

Section Below.
Variables (content : bytes) (max : N).
Notation bel := (below content max).

Lemma below_exact {B} n (k : bytes -> io B) pos :
  (forall l, lenN l = n -> n = 0 \/ pos + n <= lenN content -> bel (k l) (pos + n)) ->
  bel (bindio (read_exact n) k) pos.
Proof.
  intros H. unfold bindio, read_exact. cbn [bindp below]. unfold mem_read_exact.
  destruct (N.eqb_spec (lenN (takeN n (dropN pos content))) n) as [E|E]; [|exact I].
  rewrite E. apply H; [exact E|]. rewrite lenN_takeN, lenN_dropN in E. lia.
Qed.
Lemma below_int {B} (f : bytes -> N) n (k : N -> io B) pos :
  (forall l, lenN l = n -> n = 0 \/ pos + n <= lenN content -> bel (k (f l)) (pos + n)) ->
  bel (bindio (let! buf := read_exact n in ok (f buf)) k) pos.
Proof.
  intros H. unfold bindio, read_exact, ok. cbn [bindp below]. unfold mem_read_exact.
  destruct (N.eqb_spec (lenN (takeN n (dropN pos content))) n) as [E|E]; [|exact I].
  rewrite E. apply H; [exact E|]. rewrite lenN_takeN, lenN_dropN in E. lia.
Qed.
Lemma below_bytes {B} c n (k : bytes -> io B) pos :
  (forall l, lenN l = n -> n = 0 \/ pos + n <= lenN content -> bel (k l) (pos + n)) ->
  bel (bindio (read_bytes c n) k) pos.
Proof.
  intros H. unfold read_bytes, alloc. destruct (_ <? n); [exact I|].
  apply (below_exact n k pos H).
Qed.
Lemma below_seek {B} w (k : N -> io B) pos :
  (seek_target (lenN content) pos w <= Z.of_N max)%Z ->
  ((0 <= seek_target (lenN content) pos w)%Z -> bel (k (Z.to_N (seek_target (lenN content) pos w))) (Z.to_N (seek_target (lenN content) pos w))) ->
  bel (bindio (seek w) k) pos.
Proof.
  intros H1 H2. unfold bindio, seek. cbn [bindp below]. split; [exact H1|].
  destruct (Z.ltb_spec (seek_target (lenN content) pos w) 0); [exact I|]. now apply H2.
Qed.
Lemma below_goto {B} n (k : N -> io B) pos : n <= max -> bel (k n) n -> bel (bindio (seek (FromStart n)) k) pos.
Proof.
  intros H1 H2. apply below_seek; cbn [seek_target]; [lia|]. intros _. now replace (Z.to_N (Z.of_N n)) with n by lia.
Qed.
Lemma below_skip {B} z (k : N -> io B) pos : (0 <= z)%Z -> (Z.of_N pos + z <= Z.of_N max)%Z ->
  bel (k (pos + Z.to_N z)) (pos + Z.to_N z) -> bel (bindio (seek (FromCurrent z)) k) pos.
Proof.
  intros H0 H1 H2. apply below_seek; cbn [seek_target]; [lia|]. intros _.
  now replace (Z.to_N (Z.of_N pos + z)) with (pos + Z.to_N z) by lia.
Qed.
Lemma below_end {B} (k : N -> io B) pos : lenN content <= max ->
  bel (k (lenN content)) (lenN content) -> bel (bindio (seek (FromEnd 0)) k) pos.
Proof.
  intros H1 H2. apply below_seek; cbn [seek_target]; [lia|]. intros _.
  now replace (Z.to_N (Z.of_N (lenN content) + 0)) with (lenN content) by lia.
Qed.
Lemma below_tell {B} (k : N -> io B) pos : bel (k pos) pos -> bel (bindio tell k) pos.
Proof. exact id. Qed.
Lemma below_assoc {A B C} (m : io A) (f : A -> io B) (g : B -> io C) pos :
  bel (bindio m (fun x => bindio (f x) g)) pos -> bel (bindio (bindio m f) g) pos.
Proof.
  unfold bindio. revert pos.
  induction m as [r| | |n k IH|n k IH|n k IH|w k IH|k IH|n k IH]; intros pos; cbn [bindp below]; auto.
  - destruct r; exact id.
  - destruct (mem_read content n pos). apply IH.
  - destruct (mem_read_exact content n pos) as [[r| |] p]; auto.
  - destruct (mem_read_line content n pos) as [[r| |] p]; auto.
  - intros [H1 H2]. split; [exact H1|]. destruct (_ <? 0)%Z; apply IH; exact H2.
Qed.
Lemma below_silent {A B} (p : prog A) (f : A -> prog B) pos : silent p ->
  (forall a, bel (f a) pos) -> bel (bindp p f) pos.
Proof.
  intros Hp Hf. induction p as [a| | |n k IH|n k IH|n k IH|w k IH|k IH|n k IH]; cbn in *; auto; contradiction.
Qed.

(** *** EBML *)
Lemma below_shift {B} m n b : forall v (k : N -> io B) pos, v < 2 ^ b ->
  (forall w, w < 2 ^ (b + 8 * N.of_nat n) -> n = O \/ pos + N.of_nat n <= lenN content -> bel (k w) (pos + N.of_nat n)) ->
  bel (bindio (read_shift_bytes m n v) k) pos.
Proof.
  revert b. induction n as [|n IH]; intros b v k pos Hv H; cbn [read_shift_bytes].
  - change (bel (k v) pos). replace pos with (pos + N.of_nat 0) by lia. apply H; [|now left].
    now replace (b + 8 * N.of_nat 0) with b by lia.
  - apply below_assoc. apply below_int. intros l Hl Hpos.
    assert (Hlv : le_val l < 256) by (pose proof (le_val_lt l) as Hlt; rewrite Hl in Hlt; exact Hlt).
    apply (IH (b + 8)).
    + set (x := N.shiftl v 8 mod m). apply N.lt_le_trans with (2 ^ (b + 8)); [|lia].
      assert (Hx : x < 2 ^ (b + 8)).
      { eapply N.le_lt_trans with (N.shiftl v 8).
        { unfold x. destruct (N.eq_dec m 0) as [->|]; [destruct (N.shiftl v 8); cbn; lia|now apply N.mod_le]. } rewrite N.shiftl_mul_pow2, N.pow_add_r.
        apply N.mul_lt_mono_pos_r; [reflexivity|exact Hv]. }
      assert (Hl2 : le_val l < 2 ^ (b + 8)).
      { eapply N.lt_le_trans; [exact Hlv|]. change 256 with (2 ^ 8). apply N.pow_le_mono_r; lia. }
      destruct (N.eq_dec (N.lor x (le_val l)) 0) as [->|Hne]; [lia|].
      apply N.log2_lt_pow2; [lia|]. rewrite N.log2_lor.
      apply N.max_lub_lt.
      * destruct (N.eq_dec x 0) as [->|Hx0]; [cbn; lia|]. apply N.log2_lt_pow2; lia.
      * destruct (N.eq_dec (le_val l) 0) as [->|Hx0]; [cbn; lia|]. apply N.log2_lt_pow2; lia.
    + intros w Hw Hp. replace (pos + 1 + N.of_nat n) with (pos + N.of_nat (S n)) by lia.
      apply H; [|right; lia]. now replace (b + 8 * N.of_nat (S n)) with (b + 8 + 8 * N.of_nat n) by lia.
Qed.

Lemma below_ebml_id {B} (k : N -> io B) pos :
  (forall w n, pos + n <= lenN content -> n <= 4 -> bel (k w) (pos + n)) -> bel (bindio read_ebml_id k) pos.
Proof.
  intros H. unfold read_ebml_id. apply below_assoc. apply below_int. intros l Hl Hp.
  cbv zeta. destruct (N.ltb_spec 4 (leading_zeros8 (le_val l) + 1)) as [H4|H4]; [exact I|].
  apply (below_shift _ _ (N.size (le_val l))); [apply N.size_gt|].
  intros w _ Hp2. replace (pos + 1 + N.of_nat (N.to_nat (leading_zeros8 (le_val l) + 1 - 1)))
    with (pos + (1 + leading_zeros8 (le_val l))) by lia. apply H; lia.
Qed.
Lemma below_ebml_size {B} (k : N -> io B) pos :
  (forall w n, w < 2 ^ 56 -> pos + n <= lenN content -> n <= 8 -> bel (k w) (pos + n)) ->
  bel (bindio read_ebml_size k) pos.
Proof.
  intros H. unfold read_ebml_size. apply below_assoc. apply below_int. intros l Hl Hp.
  cbv zeta. set (z := leading_zeros8 (le_val l)).
  destruct (N.ltb_spec 8 (z + 1)) as [H4|H4]; [exact I|].
  apply (below_shift _ _ (7 - z)).
  - replace (N.shiftr 128 z - 1) with (N.ones (7 - z)).
    + rewrite N.land_ones. apply N.mod_lt. apply N.pow_nonzero. lia.
    + rewrite N.shiftr_div_pow2, N.ones_equiv, <- N.sub_1_r. f_equal. change 128 with (2 ^ 7).
      rewrite <- N.pow_sub_r by lia. reflexivity.
  - intros w Hw Hp2. replace (pos + 1 + N.of_nat (N.to_nat (z + 1 - 1))) with (pos + (1 + z)) by lia.
    apply H; [|lia|lia]. eapply N.lt_le_trans; [exact Hw|]. apply N.pow_le_mono_r; lia.
Qed.

Lemma below_ebml c : lenN content + 2 ^ 57 <= max -> forall n a v s pos,
  pos <= lenN content + 2 ^ 57 -> bel (ebml_elements c (lenN content) n a v s) pos.
Proof.
  change (2 ^ 57) with 144115188075855872.
  intros Hm. induction n as [|n IH]; intros a v s pos Hpos; [exact I|]. cbn [ebml_elements].
  apply below_tell. destruct (N.ltb_spec pos (lenN content)) as [Hlt|]; [|exact I].
  apply below_ebml_id. intros id n1 Hp1 Hn1. apply below_ebml_size. intros size n2 Hs Hp2 Hn2.
  change (2 ^ 56) with 72057594037927936 in Hs.
  assert (Hskip : forall x q (k : N -> io FileFormat), x <= size -> q <= lenN content ->
            (forall r q', q' <= lenN content + 144115188075855872 -> bel (k r) q') ->
            bel (bindio (seek (FromCurrent (as_i64 x))) k) q).
  { intros x q k Hx Hq Hk.
    unfold as_i64. replace (x <? 2 ^ 63) with true by (change (2 ^ 63) with 9223372036854775808; lia).
    apply below_skip; [lia|lia|]. apply Hk. lia. }
  destruct (_ || _); [apply IH; lia|].
  destruct (id =? DOC_TYPE_ELEMENT_ID).
  { apply below_bytes. intros l Hl Hp3. destruct (bstarts_with l _); [exact I|].
    destruct (negb _); [exact I|]. apply Hskip; [unfold sat_sub; lia|lia|]. intros _ q' Hq'. now apply IH. }
  destruct (id =? CODEC_ID_ELEMENT_ID).
  { apply below_bytes. intros l Hl Hp3. destruct (if bstarts_with l (bs "A_") then _ else _) as [[a' v'] s'].
    apply Hskip; [unfold sat_sub; lia|lia|]. intros _ q' Hq'. now apply IH. }
  destruct (id =? STEREO_MODE_ELEMENT_ID).
  { apply below_int. intros l Hl Hp3. destruct (0 <? _); [exact I|]. apply IH. lia. }
  destruct (id =? CLUSTER_ELEMENT_ID); [exact I|].
  apply Hskip; [lia|lia|]. intros _ q' Hq'. now apply IH.
Qed.

(** *** RealMedia *)
Lemma below_rm c : forall n a v pos,
  pos + (N.of_nat n + 1) * 4294967296 <= max -> lenN content + 4294967296 <= max -> bel (rm_chunks c n a v) pos.
Proof.
  induction n as [|n IH]; intros a v pos Hpos Hlen; [exact I|]. cbn [rm_chunks].
  apply below_bytes. intros ty Hty Hp1. apply below_int. intros sz Hsz Hp2.
  pose proof (be_val_lt sz) as Hv. rewrite Hsz in Hv. change (256 ^ 4) with 4294967296 in Hv.
  assert (Hnext : forall a' v', bel (let! _ := seek (FromCurrent (Z.of_N (be_val sz) - 8)) in rm_chunks c n a' v') (pos + 4 + 4)).
  { intros a' v'. apply below_seek; cbn [seek_target]; [lia|]. intros H0.
    replace (Z.to_N (Z.of_N (pos + 4 + 4) + (Z.of_N (be_val sz) - 8))) with (pos + be_val sz) by lia.
    apply IH; lia. }
  destruct (beqb ty (bs "MDPR")).
  - apply below_assoc. apply below_tell. apply below_assoc.
    apply below_skip; [lia|lia|]. change (Z.to_N 32) with 32. apply below_assoc. apply below_int. intros x Hx Hp3.
    pose proof (le_val_lt x) as Hxv. rewrite Hx in Hxv. change (256 ^ 1) with 256 in Hxv.
    apply below_assoc. apply below_skip; [lia|lia|]. apply below_assoc. apply below_int. intros y Hy Hp4.
    apply below_assoc. apply below_bytes. intros m Hm Hp5. apply below_assoc. apply below_goto; [lia|].
    change (bel (let '(a0, v0) := if bstarts_with m (bs "audio/") then (true, v)
              else if bstarts_with m (bs "video/") then (a, true) else (a, v) in
              let! _ := seek (FromCurrent (Z.of_N (be_val sz) - 8)) in rm_chunks c n a0 v0) (pos + 4 + 4)).
    destruct (if bstarts_with m (bs "audio/") then _ else _) as [a' v']. apply Hnext.
  - apply Hnext.
Qed.

(** *** ID3v2 *)
Lemma below_add {B} c a b (k : N -> io B) pos : a + b < u64_max1 -> bel (k (a + b)) pos ->
  bel (bindp (u64_add c a b) k) pos.
Proof. intros H Hk. unfold u64_add. replace (a + b <? u64_max1) with true by lia. exact Hk. Qed.

Lemma below_bindp_assoc {A B C} (p : prog A) (f : A -> io B) (g : B -> io C) pos : 
  bel (bindp p (fun x => bindio (f x) g)) pos -> bel (bindio (bindp p f) g) pos.
Proof.
  unfold bindio. revert pos.
  induction p as [r| | |n k IH|n k IH|n k IH|w k IH|k IH|n k IH]; intros pos; cbn [bindp below]; auto.
  - destruct (mem_read content n pos). apply IH.
  - destruct (mem_read_exact content n pos) as [[r| |] p]; auto.
  - destruct (mem_read_line content n pos) as [[r| |] p]; auto.
  - intros [H1 H2]. split; [exact H1|]. destruct (_ <? 0)%Z; apply IH; exact H2.
Qed.

Lemma below_id3 c (k : N -> io FileFormat) : lenN content < 2 ^ 63 ->
  lenN content + 8589934592 <= max ->
  (forall o q, o <= lenN content -> bel (k o) q) -> forall fuel offset pos,
  offset <= lenN content + 8589934592 -> bel (bindio (id3v2_loop c fuel offset) k) pos.
Proof.
  intros H63 Hm Hk. change (2 ^ 63) with 9223372036854775808 in H63.
  assert (Hbig : u64_max1 = 18446744073709551616) by reflexivity.
  induction fuel as [|fuel IH]; intros offset pos Ho; cbn [id3v2_loop];
    apply below_assoc; (apply below_goto; [lia|]); apply below_assoc; apply below_bytes; intros buf Hb Hp;
    (destruct (negb (beqb (takeN 3 buf) (bs "ID3"))); [apply (Hk offset); lia|]); cbv zeta;
    pose proof (tag_size_lt buf) as Hts;
    apply below_bindp_assoc; (apply below_add; [lia|]);
    apply below_bindp_assoc; (apply below_add; [lia|]);
    apply below_assoc.
  - destruct (negb (N.land (bval (nth 5 buf x00)) 64 =? 0)).
    + apply below_assoc. apply below_int. intros l Hl _.
      pose proof (be_val_lt l) as Hv. rewrite Hl in Hv. change (256 ^ 4) with 4294967296 in Hv.
      apply below_bindp_assoc. apply below_add; [lia|].
      cbn [ok]. unfold bindio at 1. cbn [bindp].
      apply below_bindp_assoc. destruct (negb (N.land (bval (nth 5 buf x00)) 16 =? 0)); [apply below_add; [lia|]|]; exact I.
    + unfold bindio at 1. cbn [ok bindp].
      apply below_bindp_assoc. destruct (negb (N.land (bval (nth 5 buf x00)) 16 =? 0)); [apply below_add; [lia|]|]; exact I.
  - destruct (negb (N.land (bval (nth 5 buf x00)) 64 =? 0)).
    + apply below_assoc. apply below_int. intros l Hl _.
      pose proof (be_val_lt l) as Hv. rewrite Hl in Hv. change (256 ^ 4) with 4294967296 in Hv.
      apply below_bindp_assoc. apply below_add; [lia|].
      cbn [ok]. unfold bindio at 1. cbn [bindp].
      apply below_bindp_assoc. destruct (negb (N.land (bval (nth 5 buf x00)) 16 =? 0)); [apply below_add; [lia|]; apply IH; lia|cbn [bindp]; apply IH; lia].
    + unfold bindio at 1. cbn [ok bindp].
      apply below_bindp_assoc. destruct (negb (N.land (bval (nth 5 buf x00)) 16 =? 0)); [apply below_add; [lia|]; apply IH; lia|cbn [bindp]; apply IH; lia].
Qed.
End Below.

(** ** The readers as wholes *)
Fixpoint seekless {A} (p : prog A) : Prop :=
  match p with
  | Ret _ | PPanic | PFuel => True
  | PRead _ k | PReadExact _ k | PReadLine _ k => forall r, seekless (k r)
  | PSeek _ _ => False
  | PTell k => forall r, seekless (k r)
  | PAlloc _ k => seekless k
  end.
Lemma below_seekless {A} content max (p : prog A) : seekless p -> forall pos, below content max p pos.
Proof.
  induction p as [r| | |n k IH|n k IH|n k IH|w k IH|k IH|n k IH]; intros H pos; cbn [seekless below] in *; auto.
  - destruct (mem_read content n pos). auto.
  - destruct (mem_read_exact content n pos) as [[r| |] p]; auto.
  - destruct (mem_read_line content n pos) as [[r| |] p]; auto.
  - contradiction.
Qed.
Lemma seekless_txt n : forall l, seekless (txt_lines n l).
Proof.
  induction n as [|n IH]; intros l; [exact I|]. cbn [txt_lines]. intros [line|e]; [|exact I]. cbn.
  destruct line; [exact I|]. destruct (utf8_strict _); [|exact I]. destruct (existsb _ _); [exact I|]. apply IH.
Qed.
Lemma seekless_lift {A B} (e : exec A) (k : A -> prog B) : (forall a, seekless (k a)) -> seekless (bindp (lift_exec e) k).
Proof. intros H. destruct e; cbn; auto. Qed.
Lemma seekless_pdf : forall fuel t b, seekless (pdf_loop fuel t b).
Proof.
  induction fuel as [|fuel IH]; intros t b; cbn [pdf_loop]; (destruct (_ <? _); [|exact I]);
    (intros [r|e]; [|exact I]); cbn [bindio bindp]; (destruct (_ =? _); [exact I|]); apply seekless_lift;
    intros []; try exact I; apply IH.
Qed.

Definition seek_bound (x : feature) : N :=
  match x with
  | FEbml => 2 ^ 57
  | _ => 2 ^ 45
  end.
(** The readers that never seek further than [seek_bound] beyond the end of the stream. *)
Definition near (x : feature) : Prop :=
  match x with FAsf | FMp4 | FZip => False | _ => True end.

Lemma reader_below c content max fuel x : near x -> lenN content < 2 ^ 63 ->
  lenN content + seek_bound x <= max -> below content max (reader_of c fuel x) 0.
Proof.
  intros Hn H63 Hm.
  destruct x; cbn [near seek_bound reader_of] in *; try contradiction;
    try (change (2 ^ 45) with 35184372088832 in Hm).
  - (* cfb *)
    unfold from_cfb_reader. apply below_goto; [lia|]. apply below_int. intros v _ _. cbv zeta.
    apply below_skip; [lia|lia|]. apply below_int. intros l Hl _.
    pose proof (le_val_lt l) as Hv. rewrite Hl in Hv. change (256 ^ 4) with 4294967296 in Hv.
    set (sz := if le_val v =? 3 then 512 else 4096).
    assert (Hsz : sz <= 4096) by (subst sz; destruct (_ =? _); lia).
    assert (Ho : sz * (1 + le_val l) + 80 <= 4096 * 4294967296 + 80)
      by (apply N.add_le_mono_r, N.mul_le_mono; lia).
    remember (sz * (1 + le_val l) + 80) as o eqn:Eo. clear Eo sz Hsz.
    apply below_goto; [lia|]. unfold read_guid. apply below_assoc. apply below_bytes. intros g _ _.
    change (bindio (ok (guid_string g)) ?k) with (k (guid_string g)). cbv beta.
    destruct (lookup_str _ _); [exact I|]. apply below_skip; [lia|lia|].
    apply below_bytes. intros e _ _. destruct (bstarts_with _ _); [exact I|].
    apply below_skip; [lia|lia|]. apply below_bytes. intros e' _ _. destruct (bstarts_with _ _); exact I.
  - (* ebml *)
    unfold from_ebml_reader. apply below_end; [lia|]. apply below_goto; [lia|].
    apply below_ebml; [exact Hm|lia].
  - (* exe *)
    unfold from_exe_reader. apply below_end; [lia|]. apply below_goto; [lia|]. apply below_int.
    intros l Hl _. pose proof (le_val_lt l) as Hv. rewrite Hl in Hv. change (256 ^ 4) with 4294967296 in Hv.
    destruct (N.ltb_spec (le_val l + 4) (lenN content)); [|exact I].
    apply below_goto; [lia|]. apply below_bytes. intros s _ _. destruct (beqb s _).
    + apply below_skip; [lia|lia|]. apply below_int. intros ch _ _. exact I.
    + destruct (_ || _); [exact I|]. destruct (beqb _ _); exact I.
  - (* id3v2 *)
    unfold from_id3v2_reader. apply below_id3; [exact H63|lia| |lia].
    intros o q Ho. apply below_goto; [lia|]. apply below_bytes. intros b _ _.
    destruct (beqb b _); [exact I|]. destruct (existsb _ _); exact I.
  - (* pdf *)
    unfold from_pdf_reader. apply below_goto; [lia|]. apply below_seekless, seekless_pdf.
  - (* rm *)
    unfold from_rm_reader. apply below_goto; [lia|]. apply below_int. intros l _ _.
    apply below_rm; [|lia].
    set (n := N.to_nat _). assert (N.of_nat n <= 64) by (unfold n; lia). lia.
  - (* sqlite *)
    unfold from_sqlite3_reader. apply below_goto; [lia|]. apply below_seekless. intros [b|e]; [|exact I].
    cbn [bindio bindp]. apply seekless_lift. intros []; exact I.
  - (* txt *)
    unfold from_txt_reader. apply below_goto; [lia|]. apply below_seekless, seekless_txt.
  - (* xml *)
    unfold from_xml_reader. apply below_goto; [lia|]. apply below_seekless. intros [b|e]; [|exact I].
    cbn [bindio bindp]. apply seekless_lift. intros f; exact I.
Qed.

Lemma mreader_same c content max max' x : near x -> lenN content < 2 ^ 63 ->
  lenN content + seek_bound x <= max -> max <= max' ->
  mreader c content max' x = mreader c content max x.
Proof.
  intros Hn H63 Hm Hmm. unfold mreader. f_equal. apply below_max; [exact Hmm|]. now apply reader_below.
Qed.
