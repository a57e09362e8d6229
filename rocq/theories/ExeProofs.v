(** Executables and compound files: the readers compute the specifications of SpecExe.v. *)
From Coq Require Import NArith ZArith Bool String List Lia ZifyBool ZifyNat ZifyN.
From Verif Require Import Base BaseProofs Formats FormatsProofs IO Readers Mem LibProofs Ideal Spec SpecBin SpecExe Documented
  BinProofs Exec Static ReaderStatic.
Local Open Scope N_scope.

(** A reader gives [Some f]: it returns [f]; [None]: it fails. *)
Definition gives (e : exec (result FileFormat)) (r : option FileFormat) : Prop :=
  match r with Some f => e = Done (Ok f) | None => exists x, e = Done (Err x) end.

Lemma slice_take from n m (l : bytes) : n <= m -> takeN n (slice from m l) = slice from n l.
Proof. intros H. unfold slice. rewrite takeN_takeN. f_equal. lia. Qed.
Lemma slice_bound from n l : le_val (slice from n l) < 256 ^ n.
Proof.
  eapply N.lt_le_trans; [apply le_val_lt|]. apply N.pow_le_mono_r; [lia|].
  unfold slice. rewrite lenN_takeN. lia.
Qed.

Lemma exe_reader_spec c content max : wf_cfg c -> lenN content + 400 <= max ->
  gives (mreader c content max FExe) (exe_class content).
Proof.
  intros Hc Hmax2. assert (Hmax : lenN content <= max) by lia.
  pose proof (isize_max_ge c Hc) as Hi. unfold mreader. cbn [reader_of].
  change (fst (mrun content max (from_exe_reader c) 0)) with (ex content max (from_exe_reader c) 0).
  unfold exe_class, from_exe_reader.
  destruct (N.ltb_spec (lenN content) 64) as [Hs|Hs].
  { exists EUnexpectedEof. apply ex_end; [exact Hmax|]. apply ex_goto; [lia|].
    apply ex_int_eof. apply eof_at; lia. }
  pose proof (slice_bound 60 4 content) as Hoff. change (256 ^ 4) with 4294967296 in Hoff.
  set (off := le_val (slice 60 4 content)) in *.
  destruct (N.leb_spec (lenN content) (off + 4)) as [H4|H4].
  { apply ex_end; [exact Hmax|]. apply ex_goto; [lia|]. apply exs_int; [lia|]. fold off.
    replace (off + 4 <? lenN content) with false by lia. reflexivity. }
  assert (Hstart : forall X,
    ex content max
      (if beqb (slice off 4 content) [x50; x45; x00; x00] then
      let! _ := seek (FromCurrent 18) in
      let! characteristics := read_u16_le in
      ok (if N.land characteristics 0x2000 =? 0x2000 then DynamicLinkLibrary
          else PortableExecutable)
    else if beqb (takeN 2 (slice off 4 content)) (bs "LE") || beqb (takeN 2 (slice off 4 content)) (bs "LX")
    then ok LinearExecutable
    else if beqb (takeN 2 (slice off 4 content)) (bs "NE") then ok NewExecutable
    else ok MsDosExecutable) (off + 4) = X -> ex content max (from_exe_reader c) 0 = X).
  { intros X HX. apply ex_end; [exact Hmax|]. apply ex_goto; [lia|]. apply exs_int; [lia|]. fold off.
    replace (off + 4 <? lenN content) with true by lia.
    apply ex_goto; [lia|]. apply exs_bytes; [lia|lia|]. exact HX. }
  fold (from_exe_reader c).
  rewrite slice_take in Hstart by lia.
  destruct (beqb (slice off 4 content) [x50; x45; x00; x00]).
  - destruct (N.ltb_spec (lenN content) (off + 24)) as [H24|H24].
    + exists EUnexpectedEof. apply Hstart.
      destruct (N.le_gt_cases (off + 22) max) as [Hle|Hgt].
      * apply (ex_seek _ _ _ (off + 22)); [cbn; lia|exact Hle|]. apply ex_int_eof. apply eof_at; lia.
      * exfalso. lia.
    + assert (E : ex content max (from_exe_reader c) 0 =
        Done (Ok (if N.land (le_val (slice (off + 22) 2 content)) 0x2000 =? 0x2000
                  then DynamicLinkLibrary else PortableExecutable))).
      { apply Hstart. apply (ex_seek _ _ _ (off + 22)); [cbn; lia|lia|]. apply exs_int; [lia|]. reflexivity. }
      set (v := le_val (slice (off + 22) 2 content)) in *.
      assert (Hb : (N.land v 0x2000 =? 0x2000) = N.testbit v 13).
      { change 0x2000 with (2 ^ 13). destruct (N.testbit v 13) eqn:Et.
        - apply N.eqb_eq. apply N.bits_inj. intros i. rewrite N.land_spec.
          destruct (N.eq_dec i 13) as [->|Hne]; [now rewrite Et|].
          rewrite N.pow2_bits_false by congruence. apply andb_false_r.
        - apply N.eqb_neq. intros H. pose proof (f_equal (fun x => N.testbit x 13) H) as H'.
          cbn beta in H'. rewrite N.land_spec, Et in H'. discriminate H'. }
      rewrite Hb in E. destruct (N.testbit v 13); exact E.
  - destruct (beqb (slice off 2 content) (bs "LE")); [apply Hstart; reflexivity|].
    destruct (beqb (slice off 2 content) (bs "LX")); [apply Hstart; reflexivity|].
    destruct (beqb (slice off 2 content) (bs "NE")); apply Hstart; reflexivity.
Qed.

(** ** CFB *)

Lemma lookup_str_some {B} (t : list (string * B)) s v : lookup_str s t = Some v -> In (s, v) t.
Proof.
  induction t as [|[k w] t IH]; [discriminate|]. cbn [lookup_str].
  destruct (String.eqb_spec s k) as [->|]; [intros [= ->]; now left|right; auto].
Qed.
Lemma lookup_str_none {B} (t : list (string * B)) s : lookup_str s t = None -> forall v, ~ In (s, v) t.
Proof.
  induction t as [|[k w] t IH]; [intros _ v []|]. cbn [lookup_str].
  destruct (String.eqb_spec s k) as [->|Hn]; [discriminate|]. intros H v [[= -> ->]|Hin].
  - contradiction.
  - exact (IH H v Hin).
Qed.

Definition subtable (a b : list (string * FileFormat)) : bool :=
  forallb (fun e => match lookup_str (fst e) b with Some f => feqb f (snd e) | None => false end) a.
Lemma clsid_sub1 : subtable clsid_table cfb_classes = true.
Proof. vm_compute. reflexivity. Qed.
Lemma clsid_sub2 : subtable cfb_classes clsid_table = true.
Proof. vm_compute. reflexivity. Qed.
Lemma subtable_lookup a b s f : subtable a b = true -> In (s, f) a -> lookup_str s b = Some f.
Proof.
  unfold subtable. rewrite forallb_forall. intros H Hin. specialize (H _ Hin). cbn [fst snd] in H.
  destruct (lookup_str s b) as [g|]; [|discriminate]. apply FormatsProofs.feqb_eq in H. now subst.
Qed.

Lemma known_class_iff b f : lenN b = 16 -> known_class b f <-> lookup_str (guid_string b) clsid_table = Some f.
Proof.
  intros Hl. destruct (guid_of_ok b Hl) as [Hw Hb]. split.
  - intros (g & Hg & <- & Hin). rewrite guid_string_text by exact Hg.
    exact (subtable_lookup _ _ _ _ clsid_sub2 Hin).
  - intros H. apply lookup_str_some in H. exists (guid_of b). split; [exact Hw|]. split; [exact Hb|].
    rewrite <- guid_string_text, Hb by exact Hw.
    apply lookup_str_some. exact (subtable_lookup _ _ _ _ clsid_sub1 H).
Qed.

Lemma entry_named_iff e s : entry_named e s <-> bstarts_with e (bs0 s) = true.
Proof. unfold entry_named. now rewrite bstarts_with_iff. Qed.

Lemma cfb_reader_spec c content max : wf_cfg c -> lenN content + 400 <= max ->
  exists r, cfb_class content r /\ gives (mreader c content max FCfb) r.
Proof.
  intros Hc Hmax2. assert (Hmax : lenN content <= max) by lia.
  pose proof (isize_max_ge c Hc) as Hi. unfold mreader. cbn [reader_of].
  change (fst (mrun content max (from_cfb_reader c) 0)) with (ex content max (from_cfb_reader c) 0).
  destruct (N.lt_ge_cases (lenN content) 52) as [Hs|Hs].
  { exists None. split; [now apply cfb_no_header|]. exists EUnexpectedEof. unfold from_cfb_reader.
    apply ex_goto; [lia|]. destruct (N.lt_ge_cases (lenN content) 28).
    - apply ex_int_eof. apply eof_at; lia.
    - apply exs_int; [lia|]. apply (ex_seek _ _ _ 48); [reflexivity|lia|]. apply ex_int_eof. apply eof_at; lia. }
  pose proof (slice_bound 48 4 content) as Hloc. change (256 ^ 4) with 4294967296 in Hloc.
  remember (cfb_directory content) as dir eqn:Edir.
  assert (Hdir : dir <= 4096 * 4294967296 /\ 512 <= dir).
  { subst dir. unfold cfb_directory. destruct (_ =? 3); lia. }
  set (rest := fun clsid : string =>
     match lookup_str clsid clsid_table with
     | Some f => ok f
     | None =>
         let! _ := seek (FromCurrent 32) in
         let! directory_entry_name := read_bytes c 64 in
         if bstarts_with directory_entry_name (bs0 "MatOST") then ok MicrosoftWorksWordProcessor
         else
           let! _ := seek (FromCurrent 64) in
           let! directory_entry_name2 := read_bytes c 64 in
           if bstarts_with directory_entry_name2 (bs0 "WksSSWorkBook")
           then ok MicrosoftWorks6Spreadsheet
           else ok CompoundFileBinary
     end).
  assert (Hstart0 : forall X, ex content max (let! _ := seek (FromStart (dir + 80)) in
              let! clsid := read_guid c in rest clsid) 52 = X ->
            ex content max (from_cfb_reader c) 0 = X).
  { intros X HX. unfold from_cfb_reader. apply ex_goto; [lia|].
    apply exs_int; [lia|]. change (26 + 2) with 28.
    apply (ex_seek _ _ _ 48); [reflexivity|lia|]. apply exs_int; [lia|]. cbn zeta.
    fold rest. subst dir. exact HX. }
  assert (Hstart : dir + 80 <= max -> forall X, ex content max (let! clsid := read_guid c in rest clsid) (dir + 80) = X ->
            ex content max (from_cfb_reader c) 0 = X).
  { intros Hm X HX. apply Hstart0. apply ex_goto; [exact Hm|exact HX]. }
  destruct (N.lt_ge_cases (lenN content) (dir + 96)) as [H96|H96].
  { exists None. split; [apply cfb_no_root; lia|].
    destruct (N.le_gt_cases (dir + 80) max) as [Hm|Hm].
    - exists EUnexpectedEof. apply Hstart; [exact Hm|]. apply ex_guid_eof; [exact Hc|]. apply eof_at; lia.
    - exists EInvalidInput. apply Hstart0. apply ex_seek_bad. right. cbn. lia. }
  specialize (Hstart ltac:(lia)).
  assert (Hstart2 : forall X, ex content max (rest (guid_string (slice (dir + 80) 16 content))) (dir + 96) = X ->
            ex content max (from_cfb_reader c) 0 = X).
  { intros X HX. apply Hstart. apply exs_guid; [exact Hc|lia|].
    replace (dir + 80 + 16) with (dir + 96) by lia. exact HX. }
  assert (Hl16 : lenN (slice (dir + 80) 16 content) = 16).
  { unfold slice. rewrite lenN_takeN, lenN_dropN. lia. }
  unfold rest in Hstart2. 
  destruct (lookup_str (guid_string (slice (dir + 80) 16 content)) clsid_table) as [f|] eqn:Ecl.
  { exists (Some f). split; [|apply Hstart2; reflexivity].
    apply cfb_known; rewrite <- ?Edir; [lia|lia|]. now apply known_class_iff. }
  assert (Hunk : forall f, ~ known_class (slice (dir + 80) 16 content) f).
  { intros f Hf. apply known_class_iff in Hf; [|exact Hl16]. congruence. }
  clear Hstart0 Hstart rest.
  destruct (N.lt_ge_cases (lenN content) (dir + 192)) as [H192|H192].
  { exists None. split; [apply cfb_no_entry1; rewrite <- ?Edir; auto; lia|]. exists EUnexpectedEof.
    apply Hstart2. apply (ex_seek _ _ _ (dir + 128)); [cbn; lia|lia|].
    apply ex_bytes_eof; [lia|]. apply eof_at; lia. }
  assert (Hstart3 : forall X, ex content max
      (if bstarts_with (slice (dir + 128) 64 content) (bs0 "MatOST") then ok MicrosoftWorksWordProcessor
         else
           let! _ := seek (FromCurrent 64) in
           let! directory_entry_name2 := read_bytes c 64 in
           if bstarts_with directory_entry_name2 (bs0 "WksSSWorkBook")
           then ok MicrosoftWorks6Spreadsheet
           else ok CompoundFileBinary) (dir + 192) = X -> ex content max (from_cfb_reader c) 0 = X).
  { intros X HX. apply Hstart2. apply (ex_seek _ _ _ (dir + 128)); [cbn; lia|lia|].
    apply exs_bytes; [lia|lia|]. replace (dir + 128 + 64) with (dir + 192) by lia. exact HX. }
  clear Hstart2.
  destruct (bstarts_with (slice (dir + 128) 64 content) (bs0 "MatOST")) eqn:Em.
  { exists (Some MicrosoftWorksWordProcessor). split; [|apply Hstart3; reflexivity].
    apply cfb_works; rewrite <- ?Edir; auto. now apply entry_named_iff. }
  assert (Hm : ~ entry_named (slice (dir + 128) 64 content) "MatOST")
    by (rewrite entry_named_iff; congruence).
  destruct (N.lt_ge_cases (lenN content) (dir + 320)) as [H320|H320].
  { exists None. split; [apply cfb_no_entry2; rewrite <- ?Edir; auto; lia|]. exists EUnexpectedEof.
    apply Hstart3. apply (ex_seek _ _ _ (dir + 256)); [cbn; lia|lia|].
    apply ex_bytes_eof; [lia|]. apply eof_at; lia. }
  assert (Hstart4 : forall X, ex content max
      (if bstarts_with (slice (dir + 256) 64 content) (bs0 "WksSSWorkBook") then ok MicrosoftWorks6Spreadsheet
         else ok CompoundFileBinary) (dir + 320) = X -> ex content max (from_cfb_reader c) 0 = X).
  { intros X HX. apply Hstart3. apply (ex_seek _ _ _ (dir + 256)); [cbn; lia|lia|].
    apply exs_bytes; [lia|lia|]. replace (dir + 256 + 64) with (dir + 320) by lia. exact HX. }
  destruct (bstarts_with (slice (dir + 256) 64 content) (bs0 "WksSSWorkBook")) eqn:E6.
  - exists (Some MicrosoftWorks6Spreadsheet). split; [|apply Hstart4; reflexivity].
    apply cfb_works6; rewrite <- ?Edir; auto. now apply entry_named_iff.
  - exists (Some CompoundFileBinary). split; [|apply Hstart4; reflexivity].
    apply cfb_other; rewrite <- ?Edir; auto. rewrite entry_named_iff. congruence.
Qed.

(** The specification is a function. *)
Lemma known_class_fun b f g : known_class b f -> known_class b g -> f = g.
Proof.
  intros (x & Hx & <- & H1) (y & Hy & Hb & H2).
  assert (Ht : guid_text y = guid_text x) by (rewrite <- !guid_string_text, Hb by assumption; reflexivity).
  rewrite Ht in H2. apply (subtable_lookup _ _ _ _ clsid_sub2) in H1.
  apply (subtable_lookup _ _ _ _ clsid_sub2) in H2. congruence.
Qed.
Lemma cfb_class_fun l r r' : cfb_class l r -> cfb_class l r' -> r = r'.
Proof.
  assert (Hd : 512 <= cfb_directory l) by (unfold cfb_directory; destruct (_ =? 3); lia).
  intros H H'; destruct H; destruct H'; try reflexivity; try lia;
    try (exfalso; match goal with H : forall f, ~ known_class _ f, K : known_class _ ?g |- _ => exact (H g K) end);
    try (exfalso; contradiction).
  f_equal. eapply known_class_fun; eassumption.
Qed.
