(** C47: the readers compute the walks of SpecWalk.v on every content. *)
From Coq Require Import NArith ZArith Bool String List Lia ZifyBool ZifyNat ZifyN.
From Verif Require Import Base BaseProofs Formats IO Readers Mem LibProofs Ideal Spec SpecText SpecBin SpecId3 SpecMp4
  SpecEbml SpecMedia SpecZip BinProofs Exec ExeProofs Static ReaderStatic Mp4Proofs SpecWalk.
From Verif Require MediaProofs EbmlProofs.
Ltac Zify.zify_post_hook ::= idtac.
Local Open Scope N_scope.

(** ** Steps *)
Section Have.
Variable content : bytes.
Local Notation have := (have content).
Lemma have_split {A} off m n (r : option A) : 0 < m -> 0 < n -> have off m (have (off + m) n r) = have off (m + n) r.
Proof.
  intros Hm Hn. unfold SpecWalk.have.
  replace (m =? 0) with false by lia. replace (n =? 0) with false by lia. replace (m + n =? 0) with false by lia.
  cbn [orb]. destruct (N.leb_spec (off + (m + n)) (lenN content)).
  - replace (off + m <=? lenN content) with true by lia. replace (off + m + n <=? lenN content) with true by lia. reflexivity.
  - replace (off + m + n <=? lenN content) with false by lia. now destruct (_ <=? _).
Qed.
End Have.
Section Steps.
Variables (content : bytes) (max : N).
Local Notation have := (have content).
Local Notation jump := (jump max).

Lemma map_have {A B} (f : A -> B) off n r : option_map f (have off n r) = have off n (option_map f r).
Proof. unfold SpecWalk.have. now destruct (_ || _). Qed.
Lemma map_jump {A B} (f : A -> B) z r : option_map f (jump z r) = jump z (fun p => option_map f (r p)).
Proof. unfold SpecWalk.jump. now destruct (_ && _). Qed.
Lemma have_none {A} off n (r : option A) : lenN content <= max -> 0 < n -> max < off + n -> have off n r = None.
Proof.
  intros Hl H1 H2. unfold SpecWalk.have. replace (n =? 0) with false by lia.
  replace (off + n <=? lenN content) with false by lia. reflexivity.
Qed.

Lemma g_int (f : bytes -> N) n pos (k : N -> io FileFormat) r : 0 < n ->
  (pos + n <= lenN content -> gives (ex content max (k (f (slice pos n content))) (pos + n)) r) ->
  gives (ex content max (bindio (let! buf := read_exact n in ok (f buf)) k) pos) (have pos n r).
Proof.
  intros Hn H. unfold SpecWalk.have. replace (n =? 0) with false by lia. cbn [orb].
  destruct (N.leb_spec (pos + n) (lenN content)) as [Hle|Hgt].
  - erewrite exs_int; [apply H; exact Hle|exact Hle|reflexivity].
  - exists EUnexpectedEof. apply ex_int_eof. apply eof_at; lia.
Qed.
Lemma ex_bytes_zero {B} c pos (k : bytes -> io B) X : 0 <= isize_max c ->
  ex content max (k []) pos = X -> ex content max (bindio (read_bytes c 0) k) pos = X.
Proof.
  intros Hc <-. unfold ex, mrun. rewrite run_bindio, run_read_bytes by exact Hc.
  cbn [read_exact run mem_machine m_read_exact]. unfold mem_read_exact.
  rewrite takeN_0, lenN_nil. cbn. now rewrite N.add_0_r.
Qed.
Lemma g_bytes c n pos (k : bytes -> io FileFormat) r : n <= isize_max c ->
  (n = 0 \/ pos + n <= lenN content -> gives (ex content max (k (slice pos n content)) (pos + n)) r) ->
  gives (ex content max (bindio (read_bytes c n) k) pos) (have pos n r).
Proof.
  intros Hc H. unfold SpecWalk.have. destruct (N.eqb_spec n 0) as [->|Hn].
  - cbn [orb]. rewrite (ex_bytes_zero c pos k _ ltac:(lia) eq_refl).
    specialize (H (or_introl eq_refl)). unfold slice in H. now rewrite takeN_0, N.add_0_r in H.
  - cbn [orb]. destruct (N.leb_spec (pos + n) (lenN content)) as [Hle|Hgt].
    + erewrite exs_bytes; [apply H; right; exact Hle|exact Hc|exact Hle|reflexivity].
    + exists EUnexpectedEof. apply ex_bytes_eof; [exact Hc|]. apply eof_at; lia.
Qed.
Lemma g_guid c pos (k : string -> io FileFormat) r : wf_cfg c ->
  (pos + 16 <= lenN content -> gives (ex content max (k (guid_string (slice pos 16 content))) (pos + 16)) r) ->
  gives (ex content max (bindio (read_guid c) k) pos) (have pos 16 r).
Proof.
  intros Hc H. unfold SpecWalk.have. change (16 =? 0) with false. cbn [orb].
  destruct (N.leb_spec (pos + 16) (lenN content)) as [Hle|Hgt].
  - erewrite exs_guid; [apply H; exact Hle|exact Hc|exact Hle|reflexivity].
  - exists EUnexpectedEof. apply ex_guid_eof; [exact Hc|]. apply eof_at; lia.
Qed.
Lemma g_seek w z pos (k : N -> io FileFormat) r : seek_target (lenN content) pos w = z ->
  (forall t, t <= max -> z = Z.of_N t -> gives (ex content max (k t) t) (r t)) ->
  gives (ex content max (bindio (seek w) k) pos) (jump z r).
Proof.
  intros Ht H. unfold SpecWalk.jump. destruct (Z.leb_spec 0 z) as [H1|H1]; cbn [andb].
  - destruct (Z.leb_spec z (Z.of_N max)) as [H2|H2].
    + erewrite (ex_seek _ _ _ (Z.to_N z)); [apply H; lia|lia|lia|reflexivity].
    + exists EInvalidInput. apply ex_seek_bad. lia.
  - exists EInvalidInput. apply ex_seek_bad. lia.
Qed.
(** A skip that the specification does not mention: what follows fails anyway when it is too far. *)
Lemma g_skip n z pos (k : N -> io FileFormat) r : z = Z.of_N n -> (max < pos + n -> r = None) ->
  (pos + n <= max -> gives (ex content max (k (pos + n)) (pos + n)) r) ->
  gives (ex content max (bindio (seek (FromCurrent z)) k) pos) r.
Proof.
  intros -> Hr H. destruct (N.le_gt_cases (pos + n) max) as [Hle|Hgt].
  - erewrite (ex_seek _ _ _ (pos + n)); [apply H; exact Hle|cbn; lia|lia|reflexivity].
  - rewrite (Hr Hgt). exists EInvalidInput. apply ex_seek_bad. cbn. lia.
Qed.
Lemma g_goto n pos (k : N -> io FileFormat) r : (max < n -> r = None) ->
  (n <= max -> gives (ex content max (k n) n) r) ->
  gives (ex content max (bindio (seek (FromStart n)) k) pos) r.
Proof.
  intros Hr H. destruct (N.le_gt_cases n max) as [Hle|Hgt].
  - erewrite ex_goto; [apply H; exact Hle|exact Hle|reflexivity].
  - rewrite (Hr Hgt). exists EInvalidInput. apply ex_seek_bad. cbn. lia.
Qed.
Lemma g_tell pos (k : N -> io FileFormat) r : gives (ex content max (k pos) pos) r ->
  gives (ex content max (bindio tell k) pos) r.
Proof. intros H. erewrite ex_tell; [exact H|reflexivity]. Qed.
Lemma g_bind_ok {A} (a : A) (k : A -> io FileFormat) pos r : gives (ex content max (k a) pos) r ->
  gives (ex content max (bindio (ok a) k) pos) r.
Proof. exact id. Qed.
Lemma g_assoc {A B} (m : io A) (f : A -> io B) (g : B -> io FileFormat) pos r :
  gives (ex content max (bindio m (fun x => bindio (f x) g)) pos) r ->
  gives (ex content max (bindio (bindio m f) g) pos) r.
Proof. intros H. erewrite ex_bind_assoc; [exact H|reflexivity]. Qed.
End Steps.

(** ** Wrapping arithmetic *)
Lemma signed64_id z : (- 2 ^ 63 <= z < 2 ^ 63)%Z -> signed64 z = z.
Proof.
  intros H. unfold signed64. change (2 ^ 63)%Z with 9223372036854775808%Z in *.
  change (2 ^ 64)%Z with 18446744073709551616%Z. rewrite Z.mod_small by lia. lia.
Qed.
Lemma signed64_shift z : signed64 (z - 2 ^ 64) = signed64 z.
Proof.
  unfold signed64. replace (z - 2 ^ 64 + 2 ^ 63)%Z with (z + 2 ^ 63 + (-1) * 2 ^ 64)%Z by lia.
  rewrite Z.mod_add by (change (2 ^ 64)%Z with 18446744073709551616%Z; lia). reflexivity.
Qed.
Lemma i64_min_eq : i64_min = (-9223372036854775808)%Z. Proof. reflexivity. Qed.
Lemma i64_max_eq : i64_max = 9223372036854775807%Z. Proof. reflexivity. Qed.
Lemma p63_eq : 2 ^ 63 = 9223372036854775808. Proof. reflexivity. Qed.
Lemma p64z_eq : (2 ^ 64)%Z = 18446744073709551616%Z. Proof. reflexivity. Qed.
Lemma as_i64_cases n : (n < 9223372036854775808 /\ as_i64 n = Z.of_N n) \/
  (9223372036854775808 <= n /\ as_i64 n = (Z.of_N n - 18446744073709551616)%Z).
Proof.
  unfold as_i64. rewrite p63_eq, p64z_eq. destruct (N.ltb_spec n 9223372036854775808); [left|right]; split; trivial.
Qed.
Lemma run_i64_sub {B} c content max n b (k : Z -> prog B) pos X : (0 <= b < 100)%Z -> n < 18446744073709551616 ->
  ovf c = false \/ ~ (2 ^ 63 <= n < 2 ^ 63 + Z.to_N b) ->
  ex content max (k (signed64 (Z.of_N n - b))) pos = X ->
  ex content max (bindp (i64_sub c (as_i64 n) b) k) pos = X.
Proof.
  intros Hb Hn Hc <-. unfold i64_sub. cbn zeta.
  assert (E : signed64 (as_i64 n - b) = signed64 (Z.of_N n - b)).
  { unfold as_i64. destruct (n <? 2 ^ 63); [reflexivity|].
    replace (Z.of_N n - 2 ^ 64 - b)%Z with (Z.of_N n - b - 2 ^ 64)%Z by lia. apply signed64_shift. }
  rewrite <- E. clear E.
  destruct ((i64_min <=? as_i64 n - b)%Z && (as_i64 n - b <=? i64_max)%Z) eqn:Er.
  - rewrite signed64_id; [reflexivity|]. unfold i64_min, i64_max in Er. lia.
  - destruct Hc as [-> |Hc]; [reflexivity|]. exfalso. apply Hc. clear Hc.
    apply andb_false_iff in Er. rewrite !Z.leb_gt, i64_min_eq, i64_max_eq in Er. rewrite p63_eq.
    destruct (as_i64_cases n) as [[E1 E2]|[E1 E2]]; rewrite E2 in Er; clear E2; lia.
Qed.

(** ** MP4 *)
Lemma be_slice_bound from n l : be_val (slice from n l) < 256 ^ n.
Proof.
  eapply N.lt_le_trans; [apply be_val_lt|]. apply N.pow_le_mono_r; [lia|].
  unfold slice. rewrite lenN_takeN. lia.
Qed.
Section Mp4.
Variables (c : plat) (content : bytes) (max : N).
Hypothesis Hc : wf_cfg c.
Hypothesis Hov : ovf c = false \/ mp4_tame content.
Hypothesis Hlen : lenN content <= max.

Definition mp4_outcome (a v s : bool) (seen : list (option bytes)) : FileFormat :=
  Readers.mp4_result (a || has_handler ["soun"%string] seen) (v || has_handler ["vide"%string] seen)
    (s || has_handler ["sbtl"; "subt"; "text"]%string seen).
Lemma mp4_outcome_none a v s seen : mp4_outcome a v s (None :: seen) = mp4_outcome a v s seen.
Proof. reflexivity. Qed.
Lemma mp4_outcome_nil a v s : mp4_outcome a v s [] = Readers.mp4_result a v s.
Proof. unfold mp4_outcome. cbn [has_handler existsb]. now rewrite !orb_false_r. Qed.
Lemma mp4_outcome_some a v s h seen :
  mp4_outcome a v s (Some h :: seen) =
  mp4_outcome (a || has_handler ["soun"%string] [Some h]) (v || has_handler ["vide"%string] [Some h])
    (s || has_handler ["sbtl"; "subt"; "text"]%string [Some h]) seen.
Proof. unfold mp4_outcome, has_handler. cbn [existsb]. rewrite !orb_false_r, !orb_assoc. reflexivity. Qed.
Lemma map_after {A B} (f g : list A -> B) x r : (forall seen, f (x :: seen) = g seen) ->
  option_map f (after x r) = option_map g r.
Proof. intros H. destruct r; cbn; [now rewrite H|reflexivity]. Qed.
Lemma is_node kind : is_kind kind node_kinds = beqb kind (bs "moov") || beqb kind (bs "trak") || beqb kind (bs "mdia").
Proof. unfold is_kind. cbn [existsb node_kinds]. now rewrite orb_false_r, orb_assoc. Qed.

Lemma mp4_walk_spec : forall n pos a v s,
  gives (ex content max (mp4_boxes c (lenN content) n a v s) pos)
        (option_map (mp4_outcome a v s) (mp4_walk content max n pos)).
Proof.
  pose proof (isize_max_ge c Hc) as Hi.
  induction n as [|n IH]; intros pos a v s.
  { cbn [mp4_walk option_map]. rewrite mp4_outcome_nil. reflexivity. }
  cbn [mp4_boxes mp4_walk]. apply g_tell.
  destruct (N.leb_spec (lenN content) pos) as [Hp|Hp].
  { replace (pos <? lenN content) with false by lia. cbn [option_map]. rewrite mp4_outcome_nil. reflexivity. }
  replace (pos <? lenN content) with true by lia.
  rewrite map_have. change 8 with (4 + 4) at 1. rewrite <- have_split by lia.
  apply (g_int _ _ be_val 4); [lia|]. intros H4.
  apply g_bytes; [lia|]. intros H8. cbn zeta.
  set (size32 := be_val (slice pos 4 content)). set (kind := slice (pos + 4) 4 content).
  replace (pos + 4 + 4) with (pos + 8) by lia.
  assert (Hvisit : forall body size, size < 18446744073709551616 -> (ovf c = false \/ ~ (2 ^ 63 <= size < 2 ^ 63 + 20)) ->
    gives (ex content max
      (if beqb kind (bs "moov") || beqb kind (bs "trak") || beqb kind (bs "mdia")
        then mp4_boxes c (lenN content) n a v s
        else if beqb kind (bs "hdlr") then
          let! _ := seek (FromCurrent 8) in
          let! handler_type := read_bytes c 4 in
          let '(a, v, s) :=
            if beqb handler_type (bs "vide") then (a, true, s)
            else if beqb handler_type (bs "soun") then (true, v, s)
            else if beqb handler_type (bs "sbtl") || beqb handler_type (bs "subt")
                    || beqb handler_type (bs "text")
            then (a, v, true)
            else (a, v, s) in
          let* delta := i64_sub c (as_i64 size) 20 in
          let! _ := seek (FromCurrent delta) in
          mp4_boxes c (lenN content) n a v s
        else
          let* delta := i64_sub c (as_i64 size) 8 in
          let! _ := seek (FromCurrent delta) in
          mp4_boxes c (lenN content) n a v s) body)
      (option_map (mp4_outcome a v s)
        (if is_kind kind node_kinds then after None (mp4_walk content max n body)
             else if beqb kind (bs "hdlr") then
               have content (body + 8) 4
                 (jump max (Z.of_N body + 12 + signed64 (Z.of_N size - 20))
                    (fun p => after (Some (slice (body + 8) 4 content)) (mp4_walk content max n p)))
             else jump max (Z.of_N body + signed64 (Z.of_N size - 8)) (fun p => after None (mp4_walk content max n p))))).
  { intros body size Hsz Hsize. rewrite is_node.
    destruct (beqb kind (bs "moov") || beqb kind (bs "trak") || beqb kind (bs "mdia")).
    { rewrite (map_after _ (mp4_outcome a v s)) by reflexivity. apply IH. }
    destruct (beqb kind (bs "hdlr")).
    - rewrite map_have. eapply (g_skip _ _ 8); [reflexivity| |].
      { intros H. apply (have_none content max); lia. }
      intros _. apply g_bytes; [lia|]. intros _. rewrite map_jump.
      rewrite handler_update. set (h := slice (body + 8) 4 content).
      erewrite run_i64_sub; [|lia|exact Hsz| |reflexivity].
      2:{ destruct Hsize as [Hsize|Hsize]; [now left|right]. clear -Hsize. change (Z.to_N 20) with 20. change (Z.to_N 8) with 8. change (2 ^ 63) with 9223372036854775808 in *. lia. }
      apply g_seek; [cbn; lia|]. intros t Ht Hz.
      erewrite map_after; [apply IH|]. intros seen. apply mp4_outcome_some.
    - rewrite map_jump. erewrite run_i64_sub; [|lia|exact Hsz| |reflexivity].
      2:{ destruct Hsize as [Hsize|Hsize]; [now left|right]. clear -Hsize. change (Z.to_N 20) with 20. change (Z.to_N 8) with 8. change (2 ^ 63) with 9223372036854775808 in *. lia. }
      apply g_seek; [cbn; lia|]. intros t Ht Hz.
      rewrite (map_after _ (mp4_outcome a v s)) by reflexivity. apply IH. }
  destruct (size32 =? 1) eqn:E1.
  - rewrite map_have. apply (g_int _ _ be_val 8); [lia|]. intros H16. replace (pos + 8 + 8) with (pos + 16) by lia. apply Hvisit.
    + exact (be_slice_bound (pos + 8) 8 content).
    + destruct Hov as [H|H]; [now left|right; apply H].
  - pose proof (be_slice_bound pos 4 content) as Hb4. fold size32 in Hb4. change (256 ^ 4) with 4294967296 in Hb4.
    apply g_bind_ok. apply Hvisit; [lia|]. right. change (2 ^ 63) with 9223372036854775808. lia.
Qed.
Lemma mp4_reader_walk : gives (mreader c content max FMp4) (SpecWalk.mp4_result content max).
Proof.
  unfold mreader. cbn [reader_of].
  change (fst (mrun content max (from_mp4_reader c) 0)) with (ex content max (from_mp4_reader c) 0).
  unfold from_mp4_reader. erewrite ex_end; [|exact Hlen|reflexivity].
  unfold rewind. erewrite ex_goto; [|lia|reflexivity].
  unfold SpecWalk.mp4_result. pose proof (mp4_walk_spec 256 0 false false false) as H.
  destruct (mp4_walk content max 256 0); exact H.
Qed.
End Mp4.

(** ** RealMedia *)
Lemma u8_le content off : le_val (slice off 1 content) = u8_at content off.
Proof.
  unfold u8_at, be_val. set (l := slice off 1 content).
  assert (H : lenN l <= 1) by (unfold l, slice; rewrite lenN_takeN; lia).
  destruct l as [|b [|b' l']]; [reflexivity| |rewrite !lenN_cons in H; lia].
  cbn [le_val be_acc]. lia.
Qed.
Lemma u8_lt content off : u8_at content off < 256.
Proof. rewrite <- u8_le. apply (slice_bound off 1 content). Qed.

Section Rm.
Variables (c : plat) (content : bytes) (max : N).
Hypothesis Hc : wf_cfg c.
Hypothesis Hlen : lenN content <= max.

Definition rm_outcome (a v : bool) (seen : list (option bytes)) : FileFormat :=
  if v || has_mime "video/" seen then Realvideo
  else if a || has_mime "audio/" seen then Realaudio else Realmedia.

Lemma rm_walk_spec : forall n pos a v,
  gives (ex content max (rm_chunks c n a v) pos) (option_map (rm_outcome a v) (rm_walk content max n pos)).
Proof.
  pose proof (isize_max_ge c Hc) as Hi.
  induction n as [|n IH]; intros pos a v.
  { cbn [rm_walk option_map]. unfold rm_outcome. cbn [has_mime existsb]. rewrite !orb_false_r. reflexivity. }
  cbn [rm_chunks rm_walk]. rewrite map_have. change 8 with (4 + 4) at 1. rewrite <- have_split by lia.
  apply g_bytes; [lia|]. intros H4. apply (g_int _ _ be_val 4); [lia|]. intros H8. cbn zeta.
  replace (pos + 4 + 4) with (pos + 8) in * by lia.
  set (size := be_val (slice (pos + 4) 4 content)).
  assert (Hstep : forall a' v' m, (forall seen, rm_outcome a v (m :: seen) = rm_outcome a' v' seen) ->
    gives (ex content max (let! _ := seek (FromCurrent (Z.of_N size - 8)) in rm_chunks c n a' v') (pos + 8))
      (option_map (rm_outcome a v)
         (jump max (Z.of_N (pos + size)) (fun p => after m (rm_walk content max n p))))).
  { intros a' v' m Hm. rewrite map_jump. apply g_seek; [cbn; lia|]. intros t Ht Hz.
    erewrite map_after; [apply IH|exact Hm]. }
  destruct (beqb (slice pos 4 content) (bs "MDPR")).
  - rewrite map_have. apply g_assoc. apply g_tell. apply g_assoc.
    eapply (g_skip _ _ 32); [reflexivity| |].
    { intros H. apply (have_none content max); lia. }
    intros _. replace (pos + 8 + 32) with (pos + 40) by lia.
    apply g_assoc. apply (g_int _ _ le_val 1); [lia|]. intros H41. rewrite u8_le.
    pose proof (u8_lt content (pos + 40)) as Hn. set (name_len := u8_at content (pos + 40)) in *.
    replace (pos + 40 + 1) with (pos + 41) by lia. rewrite map_have.
    apply g_assoc. eapply (g_skip _ _ name_len); [reflexivity| |].
    { intros H. apply (have_none content max); lia. }
    intros _. apply g_assoc. apply (g_int _ _ le_val 1); [lia|]. intros H42. rewrite u8_le.
    pose proof (u8_lt content (pos + 41 + name_len)) as Hm. set (mime_len := u8_at content (pos + 41 + name_len)) in *.
    replace (pos + 41 + name_len + 1) with (pos + 42 + name_len) by lia. rewrite map_have.
    apply g_assoc. apply g_bytes; [lia|]. intros _. set (mime := slice (pos + 42 + name_len) mime_len content).
    cbn zeta. apply g_assoc. apply g_goto; [lia|]. intros _. apply g_bind_ok.
    destruct (bstarts_with mime (bs "audio/")) eqn:EA; [|destruct (bstarts_with mime (bs "video/")) eqn:EV];
      cbn match; apply Hstep; intros seen; unfold rm_outcome, has_mime; cbn [existsb].
    + rewrite EA. apply bstarts_with_iff in EA as (sub & ->).
      change (bstarts_with (bs "audio/" ++ sub) (bs "video/")) with false. cbn [orb]. now rewrite orb_true_r.
    + rewrite EA, EV. cbn [orb]. now rewrite orb_true_r.
    + rewrite EA, EV. reflexivity.
  - apply g_bind_ok. apply Hstep. reflexivity.
Qed.
Lemma rm_reader_walk : gives (mreader c content max FRm) (SpecWalk.rm_result content max).
Proof.
  unfold mreader. cbn [reader_of].
  change (fst (mrun content max (from_rm_reader c) 0)) with (ex content max (from_rm_reader c) 0).
  unfold from_rm_reader, SpecWalk.rm_result. apply g_goto.
  { intros H. apply (have_none content max); lia. }
  intros _. apply (g_int _ _ be_val 4); [lia|]. intros H18.
  change (14 + 4) with 18. unfold sat_sub. set (n := be_val (slice 14 4 content)).
  rewrite MediaProofs.as_usize_u32; [|exact Hc|].
  2:{ unfold n. pose proof (be_slice_bound 14 4 content) as H. change (256 ^ 4) with 4294967296 in H.
      change (2 ^ 32) with 4294967296. lia. }
  pose proof (rm_walk_spec (N.to_nat (N.min 64 (n - 1))) 18 false false) as H.
  destruct (rm_walk content max (N.to_nat (N.min 64 (n - 1))) 18); exact H.
Qed.
End Rm.

(** ** ASF *)
Lemma guid_eqb b g s : lenN b = 16 -> wf_guid g -> guid_text g = s ->
  String.eqb (guid_string b) s = beqb b (guid_bytes g).
Proof.
  intros Hb Hg <-. rewrite <- guid_string_text by exact Hg.
  destruct (beqb b (guid_bytes g)) eqn:E.
  - apply beqb_eq in E. subst b. apply String.eqb_refl.
  - apply String.eqb_neq. intros H. apply guid_string_inj in H; [|exact Hb|now apply MediaProofs.lenN_guid].
    subst b. now rewrite beqb_refl in E.
Qed.
Lemma lenN_slice off n (l : bytes) : off + n <= lenN l -> lenN (slice off n l) = n.
Proof. intros H. unfold slice. rewrite lenN_takeN, lenN_dropN. lia. Qed.

Section Asf.
Variables (c : plat) (content : bytes) (max : N).
Hypothesis Hc : wf_cfg c.
Hypothesis Hov : ovf c = false \/ asf_tame content.
Hypothesis Hlen : lenN content <= max.
Hypothesis Hmax : max < u64_max1.

Lemma descriptors_walk_spec (k : bool -> io FileFormat) (R : bool -> option FileFormat) :
  (forall b pos, gives (ex content max (k b) pos) (R b)) ->
  forall n pos, gives (ex content max (bindio (asf_descriptors c n) k) pos)
     (match descriptors_walk content max n pos with Some b => R b | None => None end).
Proof.
  intros HR. pose proof (isize_max_ge c Hc) as Hi.
  assert (Hm1 : forall off n (r : option bool), match have content off n r with Some b => R b | None => None end =
     have content off n (match r with Some b => R b | None => None end)).
  { intros off n r. unfold have. now destruct (_ || _). }
  assert (Hm2 : forall z r, match jump max z r with Some b => R b | None => None end =
     jump max z (fun p => match r p with Some b => R b | None => None end)).
  { intros z r. unfold jump. now destruct (_ && _). }
  induction n as [|n IH]; intros pos; [apply HR|].
  cbn [asf_descriptors descriptors_walk]. rewrite Hm1.
  apply g_assoc. apply (g_int _ _ le_val 2); [lia|]. intros H2.
  set (len := le_val (slice pos 2 content)). cbn zeta.
  rewrite Hm1. apply g_assoc. apply g_bytes; [lia|]. intros H64.
  destruct (bstarts_with _ _); [apply HR|].
  rewrite Hm1. apply g_assoc.
  replace (pos + 4 + len) with (pos + 2 + N.min 64 len + (sat_sub len 64 + 2)) by (unfold sat_sub; lia).
  eapply (g_skip _ _ (sat_sub len 64 + 2)); [lia| |].
  { intros H. apply (have_none content max); lia. }
  intros _. apply g_assoc. apply (g_int _ _ le_val 2); [lia|]. intros H6.
  rewrite Hm2. set (len2 := le_val _). apply g_assoc.
  apply g_seek; [cbn; unfold sat_sub; lia|]. intros t Ht Hz. apply IH.
Qed.

Definition asf_is_stream (g : SpecBin.guid) (o : asf_visit) : bool :=
  match o with VStream k => beqb k (guid_bytes g) | _ => false end.
Definition asf_is_dvr (o : asf_visit) : bool := match o with VDvr => true | _ => false end.
Definition asf_outcome (a v : bool) (seen : list asf_visit) : FileFormat :=
  if existsb asf_is_dvr seen then MicrosoftDigitalVideoRecording
  else if v || existsb (asf_is_stream guid_video_media) seen then WindowsMediaVideo
  else if a || existsb (asf_is_stream guid_audio_media) seen then WindowsMediaAudio
  else AdvancedSystemsFormat.

Lemma asf_walk_spec : forall n pos a v,
  gives (ex content max (asf_objects c n a v) pos) (option_map (asf_outcome a v) (asf_walk content max n pos)).
Proof.
  pose proof (isize_max_ge c Hc) as Hi.
  assert (Hsub : forall i (k : Z), (0 <= k <= 40)%Z -> ovf c = false \/ ~ (2 ^ 63 <= le_val (slice i 8 content) < 2 ^ 63 + Z.to_N k)).
  { intros i k Hk. destruct Hov as [H|[H _]]; [now left|right]. specialize (H i). change (2 ^ 63) with 9223372036854775808 in *. clear -H Hk. lia. }
  induction n as [|n IH]; intros pos a v.
  { cbn [asf_walk option_map]. unfold asf_outcome. cbn [existsb]. rewrite !orb_false_r. reflexivity. }
  cbn [asf_objects asf_walk]. rewrite map_have. change 24 with (16 + 8) at 1. rewrite <- have_split by lia.
  apply g_guid; [exact Hc|]. intros H16. apply (g_int _ _ le_val 8); [lia|]. intros H24. cbn zeta.
  replace (pos + 16 + 8) with (pos + 24) in * by lia.
  set (size := le_val (slice (pos + 16) 8 content)).
  pose proof (slice_bound (pos + 16) 8 content) as Hsz. fold size in Hsz.
  change (256 ^ 8) with 18446744073709551616 in Hsz.
  rewrite (guid_eqb _ guid_stream_properties) by (try apply lenN_slice; try apply MediaProofs.guid_stream_properties_ok; lia).
  rewrite (guid_eqb _ guid_extended_content) by (try apply lenN_slice; try apply MediaProofs.guid_extended_content_ok; lia).
  destruct (beqb (slice pos 16 content) (guid_bytes guid_stream_properties)).
  - rewrite map_have. apply g_guid; [exact Hc|]. intros H40.
    rewrite (guid_eqb _ guid_audio_media) by (try apply lenN_slice; try apply MediaProofs.guid_audio_ok; lia).
    rewrite (guid_eqb _ guid_video_media) by (try apply lenN_slice; try apply MediaProofs.guid_video_ok; lia).
    set (kind := slice (pos + 24) 16 content).
    assert (Hstep : forall a' v', (forall seen, asf_outcome a v (VStream kind :: seen) = asf_outcome a' v' seen) ->
      gives (ex content max (let* delta := i64_sub c (as_i64 size) 40 in
        let! _ := seek (FromCurrent delta) in asf_objects c n a' v') (pos + 24 + 16))
       (option_map (asf_outcome a v)
       (jump max (Z.of_N pos + 40 + signed64 (Z.of_N size - 40))
          (fun p : N => after (VStream kind) (asf_walk content max n p))))).
    { intros a' v' Hs. rewrite map_jump. erewrite run_i64_sub; [|lia|exact Hsz|apply Hsub; lia|reflexivity].
      apply g_seek; [cbn; lia|]. intros t Ht Hz. erewrite map_after; [apply IH|exact Hs]. }
    destruct (beqb kind (guid_bytes guid_audio_media)) eqn:EA; [|destruct (beqb kind (guid_bytes guid_video_media)) eqn:EV];
      cbn match; apply Hstep; intros seen; unfold asf_outcome; cbn [existsb asf_is_dvr asf_is_stream orb].
    + rewrite EA. apply beqb_eq in EA. rewrite EA.
      change (beqb (guid_bytes guid_audio_media) (guid_bytes guid_video_media)) with false. cbn [orb]. now rewrite orb_true_r.
    + rewrite EA, EV. cbn [orb]. now rewrite orb_true_r.
    + rewrite EA, EV. reflexivity.
  - destruct (beqb (slice pos 16 content) (guid_bytes guid_extended_content)) eqn:Eext.
    + rewrite map_have. apply (g_int _ _ le_val 2); [lia|]. intros H26.
      apply g_tell. replace (pos + 24 + 2) with (pos + 26) in * by lia.
      set (R := fun b : bool => if b then Some MicrosoftDigitalVideoRecording else
        option_map (asf_outcome a v) (jump max (Z.of_N ((pos + size) mod 2 ^ 64)) (fun p => after VOther (asf_walk content max n p)))).
      match goal with |- gives _ (option_map ?f (match ?d with _ => _ end)) =>
        replace (option_map f (match d with Some true => _ | Some false => _ | None => None end))
          with (match d with Some b => R b | None => None end) by (destruct d as [[|]|]; reflexivity) end.
      apply descriptors_walk_spec. intros b p. unfold R. destruct b; [reflexivity|].
      assert (Hmod : 2 ^ 64 = u64_max1) by reflexivity.
      assert (Hu : u64_max1 = 18446744073709551616) by reflexivity.
      rewrite Hmod, map_jump.
      assert (E : forall (k : N -> io FileFormat) X, ex content max (k ((pos + size) mod u64_max1)) p = X ->
        ex content max (let* t := u64_add c (pos + 26) size in let* t2 := u64_sub c t 26 in k t2) p = X).
      { intros k X <-. unfold u64_add, u64_sub.
        destruct (N.ltb_spec (pos + 26 + size) u64_max1) as [Hlt|Hge].
        2:destruct Hov as [Hov'|[_ Hov']]; [rewrite Hov'|exfalso; apply beqb_eq in Eext; specialize (Hov' pos Eext); fold size in Hov'; rewrite Hu in Hge; change (2 ^ 64) with 18446744073709551616 in Hov'; lia].
        - cbn [bindp]. replace (26 <=? pos + 26 + size) with true by lia. cbn [bindp].
          rewrite N.mod_small by lia. f_equal. f_equal. lia.
        - cbn [bindp].
          assert (Ht : (pos + 26 + size) mod u64_max1 = pos + 26 + size - u64_max1).
          { rewrite Hu in *. symmetry. apply (N.mod_unique _ _ 1); lia. }
          rewrite Ht. destruct (N.leb_spec 26 (pos + 26 + size - u64_max1)) as [H1|H1]; cbn [bindp].
          + f_equal. f_equal. rewrite Hu in *. apply (N.mod_unique _ _ 1); lia.
          + f_equal. f_equal. rewrite Hu in *.
            rewrite N.mod_small by lia. rewrite N.mod_small by lia. lia. }
      erewrite E; [|reflexivity].
      apply g_seek; [reflexivity|]. intros t Ht Hz. erewrite map_after; [apply IH|reflexivity].
    + rewrite map_jump. erewrite run_i64_sub; [|lia|exact Hsz|apply Hsub; lia|reflexivity].
      apply g_seek; [cbn; lia|]. intros t Ht Hz. erewrite map_after; [apply IH|reflexivity].
Qed.
Lemma asf_reader_walk : gives (mreader c content max FAsf) (SpecWalk.asf_result content max).
Proof.
  unfold mreader. cbn [reader_of].
  change (fst (mrun content max (from_asf_reader c) 0)) with (ex content max (from_asf_reader c) 0).
  unfold from_asf_reader, SpecWalk.asf_result. apply g_goto.
  { intros H. apply (have_none content max); lia. }
  intros _. apply (g_int _ _ le_val 4); [lia|]. intros H28.
  change (24 + 4) with 28. set (n := le_val (slice 24 4 content)).
  apply g_seek; [reflexivity|]. intros t Ht Hz.
  rewrite MediaProofs.as_usize_u32; [|exact Hc|].
  2:{ unfold n. pose proof (slice_bound 24 4 content) as H. change (256 ^ 4) with 4294967296 in H.
      change (2 ^ 32) with 4294967296. lia. }
  pose proof (asf_walk_spec (N.to_nat (N.min 256 n)) t false false) as H.
  destruct (asf_walk content max (N.to_nat (N.min 256 n)) t); exact H.
Qed.
End Asf.
