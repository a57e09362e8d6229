(** C47, ID3v2: the reader computes the walk of SpecWalk.v on every content. *)
From Coq Require Import NArith ZArith Bool String List Lia ZifyBool ZifyNat ZifyN.
From Verif Require Import Base BaseProofs Formats IO Readers Mem LibProofs Ideal Spec SpecText SpecBin
  SpecId3 BinProofs Exec ExeProofs Id3Proofs Static ReaderStatic SpecWalk WalkProofs WalkEbml.
Ltac Zify.zify_post_hook ::= idtac.
Local Open Scope N_scope.

Lemma id3_walk_fun l limit : forall pos r r', id3_walk l limit pos r -> id3_walk l limit pos r' -> r = r'.
Proof.
  intros pos r r' H. revert r'.
  assert (Hshort : forall p, id3_class (dropN p l) None -> lenN l < p + 10).
  { intros p K. inversion K as [K1| | |]. rewrite lenN_dropN in K1. lia. }
  assert (Hlong : forall p f, id3_class (dropN p l) (Some f) -> p + 10 <= lenN l).
  { intros p f K. inversion K as [|K1|K1|K1]; rewrite lenN_dropN in K1; lia. }
  assert (Hex : forall a, flac_stream a -> layer3_frame a -> False).
  { intros a (s & ->) (b & r0 & E & _). discriminate E. }
  induction H; intros r' H'; inversion H'; subst; try reflexivity; try congruence; try lia;
    repeat match goal with
    | K : id3_class (dropN _ _) None |- _ => apply Hshort in K
    | K : id3_class (dropN _ _) (Some _) |- _ => pose proof (Hlong _ _ K); revert K
    end; intros; try lia; try auto.
  f_equal. repeat match goal with K : id3_class _ (Some _) |- _ => inversion K; clear K; subst end;
    try reflexivity; exfalso; eauto.
Qed.

Section Id3.
Variables (c : plat) (content : bytes) (max : N).
Hypothesis Hc : wf_cfg c.
Hypothesis Hlen : lenN content <= max.
Hypothesis Hlen2 : lenN content < 2 ^ 63.

Lemma nth_slice i n off d : (N.to_nat n > i)%nat -> off + n <= lenN content ->
  bval (nth i (slice off n content) d) = u8_at content (off + N.of_nat i).
Proof.
  intros Hi H. rewrite <- u8_le. unfold slice. rewrite !takeN_firstn, <- dropN_dropN.
  set (l := dropN off content). 
  assert (Hl : (i < List.length l)%nat).
  { assert (n <= lenN l) by (unfold l; rewrite lenN_dropN; lia). unfold lenN in *. lia. }
  rewrite dropN_skipn, Nat2N.id.
  rewrite <- (firstn_skipn (N.to_nat n) l) at 2.
  assert (E : nth i (firstn (N.to_nat n) l) d = nth i l d).
  { rewrite <- (firstn_skipn (N.to_nat n) l) at 2. rewrite app_nth1; [reflexivity|]. rewrite firstn_length. lia. }
  rewrite E, firstn_skipn. clear E.
  change (N.to_nat 1) with 1%nat. revert Hl. clearbody l. clear. revert l.
  induction i as [|i IH]; intros [|x l] Hl; cbn [List.length] in Hl; try lia.
  - cbn. lia.
  - cbn [nth skipn]. apply IH. lia.
Qed.

Lemma tag_size_walk pos : pos + 10 <= lenN content ->
  id3v2_tag_size (slice pos 10 content) = synchsafe_at content (pos + 6).
Proof.
  intros H. unfold id3v2_tag_size, synchsafe_at.
  rewrite !nth_slice by (try lia; exact H).
  change (N.of_nat 6) with 6. change (N.of_nat 7) with 7. change (N.of_nat 8) with 8. change (N.of_nat 9) with 9.
  rewrite N.add_0_r. replace (pos + 6 + 1) with (pos + 7) by lia. replace (pos + 6 + 2) with (pos + 8) by lia.
  replace (pos + 6 + 3) with (pos + 9) by lia.
  change 127 with (N.ones 7). rewrite !N.land_ones. change (2 ^ 7) with 128.
  assert (Hm : forall x, x mod 128 < 128) by (intros x; apply N.mod_lt; lia).
  pose proof (Hm (u8_at content (pos + 6))). pose proof (Hm (u8_at content (pos + 7))).
  pose proof (Hm (u8_at content (pos + 8))). pose proof (Hm (u8_at content (pos + 9))).
  set (s0 := u8_at content (pos + 6) mod 128) in *. set (s1 := u8_at content (pos + 7) mod 128) in *.
  set (s2 := u8_at content (pos + 8) mod 128) in *. set (s3 := u8_at content (pos + 9) mod 128) in *.
  assert (E1 : N.lor (N.shiftl s0 21) (N.shiftl s1 14) = N.shiftl (s0 * 128 + s1) 14).
  { change 21 with (7 + 14). rewrite <- N.shiftl_shiftl, <- N.shiftl_lor. f_equal. apply (lor_shift _ _ 7). exact H1. }
  rewrite E1.
  assert (E2 : N.lor (N.shiftl (s0 * 128 + s1) 14) (N.shiftl s2 7) = N.shiftl ((s0 * 128 + s1) * 128 + s2) 7).
  { change 14 with (7 + 7). rewrite <- N.shiftl_shiftl, <- N.shiftl_lor. f_equal. apply (lor_shift _ _ 7). exact H2. }
  rewrite E2, (lor_shift _ _ 7) by exact H3. change (2 ^ 7) with 128. change (2 ^ 14) with 16384. change (2 ^ 21) with 2097152. lia.
Qed.

Definition id3_final (offset : N) : io FileFormat :=
  let! _ := seek (FromStart offset) in
  let! buf := read_bytes c 4 in
  if beqb buf (bs "fLaC") then ok FreeLosslessAudioCodec
  else if existsb (beqb (takeN 2 buf)) mp3_magics then ok Mpeg12AudioLayer3
  else ok Id3v2.

Lemma id3_final_spec pos p0 : pos <= max -> pos + 10 <= lenN content ->
  exists f, id3_class (dropN pos content) (Some f) /\ ex content max (id3_final pos) p0 = Done (Ok f).
Proof.
  intros Hm H10. pose proof (isize_max_ge c Hc) as Hi. set (audio := dropN pos content).
  assert (Ha : 10 <= lenN audio) by (unfold audio; rewrite lenN_dropN; lia).
  exists (if beqb (takeN 4 audio) (bs "fLaC") then FreeLosslessAudioCodec
          else if existsb (beqb (takeN 2 audio)) mp3_magics then Mpeg12AudioLayer3 else Id3v2).
  split.
  - destruct (beqb (takeN 4 audio) (bs "fLaC")) eqn:E.
    { apply id3_flac; [exact Ha|]. apply beqb_eq in E. exists (dropN 4 audio). rewrite <- E. symmetry. apply take_dropN. }
    destruct (existsb (beqb (takeN 2 audio)) mp3_magics) eqn:E2.
    { apply id3_mp3; [exact Ha|]. apply layer3_iff; [lia|exact E2]. }
    apply id3_other; [exact Ha| |].
    + intros (s & K). rewrite K in E. rewrite takeN_app_len in E by reflexivity. now rewrite beqb_refl in E.
    + intros K. apply layer3_iff in K; [congruence|lia].
  - unfold id3_final. apply ex_goto; [exact Hm|]. apply exs_bytes; [lia|lia|].
    unfold slice. fold audio. rewrite takeN_takeN. change (N.min 2 4) with 2.
    destruct (beqb (takeN 4 audio) (bs "fLaC")); [reflexivity|].
    destruct (existsb (beqb (takeN 2 audio)) mp3_magics); reflexivity.
Qed.

Lemma id3_walk_spec : forall fuel pos p0, (N.to_nat (lenN content - pos) < fuel)%nat ->
  exists r, id3_walk content max pos r /\
    gives (ex content max (bindio (id3v2_loop c fuel pos) id3_final) p0) r.
Proof.
  pose proof (isize_max_ge c Hc) as Hi. change (2 ^ 63) with 9223372036854775808 in Hlen2.
  assert (Hu : u64_max1 = 18446744073709551616) by reflexivity.
  induction fuel as [|fuel IH]; intros pos p0 Hf; [lia|]. cbn [id3v2_loop].
  destruct (N.le_gt_cases pos max) as [Hm|Hm].
  2:{ exists None. split; [now apply id3_unreachable|]. exists EInvalidInput.
      apply ex_bind_assoc. apply ex_seek_bad. cbn. lia. }
  destruct (N.le_gt_cases (pos + 10) (lenN content)) as [H10|H10].
  2:{ exists None. split.
      - apply id3_end; [exact Hm|]. apply id3_short. rewrite lenN_dropN. lia.
      - exists EUnexpectedEof. apply ex_bind_assoc. apply ex_goto; [exact Hm|].
        apply ex_bind_assoc. apply ex_bytes_eof; [lia|]. apply eof_at; lia. }
  set (buf := slice pos 10 content).
  match goal with |- exists r, _ /\ gives (ex _ _ (bindio (bindio _ (fun _ => bindio _ ?k0)) _) _) _ => set (body := k0) end.
  assert (Hstart : forall X, ex content max (bindio (body buf) id3_final) (pos + 10) = X ->
    ex content max (bindio (let! _ := seek (FromStart pos) in let! buf := read_bytes c 10 in body buf) id3_final) p0 = X).
  { intros X HX. apply ex_bind_assoc. apply ex_goto; [exact Hm|].
    apply ex_bind_assoc. apply exs_bytes; [lia|exact H10|]. exact HX. }
  assert (Hg : forall r, gives (ex content max (bindio (body buf) id3_final) (pos + 10)) r ->
    gives (ex content max (bindio (let! _ := seek (FromStart pos) in let! buf := read_bytes c 10 in body buf) id3_final) p0) r).
  { intros r H. erewrite Hstart; [exact H|reflexivity]. }
  clear Hstart.
  assert (Hid : takeN 3 buf = slice pos 3 content) by (apply slice_take; lia).
  destruct (beqb (slice pos 3 content) (bs "ID3")) eqn:Eid.
  2:{ destruct (id3_final_spec pos (pos + 10) Hm H10) as (f & Hcl & Hf').
      exists (Some f). split.
      - apply id3_audio; [exact Hm| |exact Hcl]. intros E. now rewrite E, beqb_refl in Eid.
      - apply Hg. unfold body. rewrite Hid, Eid. cbn [negb gives]. exact Hf'. }
  apply beqb_eq in Eid.
  set (size := synchsafe_at content (pos + 6)).
  assert (Hsize : size < 268435456).
  { unfold size. rewrite <- tag_size_walk by exact H10. apply tag_size_lt. }
  set (flags := u8_at content (pos + 5)).
  assert (Hbody : forall X,
    ex content max (bindio
      (let! next_offset :=
         if N.testbit flags 6 then
           let! ext := read_u32_be in
           let* x := u64_add c (pos + 10 + size) ext in ok x
         else ok (pos + 10 + size) in
       let* next_offset := if N.testbit flags 4 then u64_add c next_offset 10 else Ret next_offset in
       id3v2_loop c fuel next_offset) id3_final) (pos + 10) = X ->
    ex content max (bindio (body buf) id3_final) (pos + 10) = X).
  { intros X HX. unfold body. rewrite Hid, Eid, beqb_refl. cbn [negb].
    unfold buf. rewrite tag_size_walk by exact H10. fold size.
    rewrite (nth_slice 5 10 pos) by (try lia; exact H10). change (N.of_nat 5) with 5. fold flags.
    cbn zeta. change 64 with (2 ^ 6). change 16 with (2 ^ 4). rewrite !land_bitb.
    apply ex_bindp_assoc, ex_u64_add; [lia|]. apply ex_bindp_assoc, ex_u64_add; [lia|]. exact HX. }
  set (foot := if N.testbit flags 4 then 10 else 0).
  assert (Hnext : forall next p, next < 9223372054034644000 -> pos < next ->
    exists r, id3_walk content max (next + foot) r /\
    gives (ex content max (bindio
      (let* next_offset := if N.testbit flags 4 then u64_add c next 10 else Ret next in
       id3v2_loop c fuel next_offset) id3_final) p) r).
  { intros next p Hn Hn2. destruct (IH (next + foot) p ltac:(lia)) as (r & Hr & Hgr).
    exists r. split; [exact Hr|]. erewrite ex_bindp_assoc; [exact Hgr|].
    unfold foot in *. destruct (N.testbit flags 4).
    - apply ex_u64_add; [lia|reflexivity].
    - rewrite N.add_0_r. reflexivity. }
  destruct (N.testbit flags 6) eqn:E6.
  - destruct (N.le_gt_cases (pos + 14) (lenN content)) as [H14|H14].
    + set (ext := be_val (slice (pos + 10) 4 content)).
      pose proof (be_slice_bound (pos + 10) 4 content) as Hext. fold ext in Hext. change (256 ^ 4) with 4294967296 in Hext.
      destruct (Hnext (pos + 10 + size + ext) (pos + 10 + 4) ltac:(lia) ltac:(lia)) as (r & Hr & Hgr).
      exists r. split; [now apply id3_tag_extended|]. apply Hg. erewrite Hbody; [exact Hgr|].
      apply ex_bind_assoc. apply ex_bind_assoc. apply (exs_int _ _ be_val 4); [lia|]. fold ext.
      apply ex_bindp_assoc, ex_u64_add; [lia|]. apply ex_bind_ok. reflexivity.
    + exists None. split; [now apply id3_tag_cut|]. apply Hg. exists EUnexpectedEof. apply Hbody.
      apply ex_bind_assoc. apply ex_bind_assoc. apply ex_int_eof. apply eof_at; lia.
  - destruct (Hnext (pos + 10 + size) (pos + 10) ltac:(lia) ltac:(lia)) as (r & Hr & Hgr).
    exists r. split; [now apply id3_tag_plain|]. apply Hg. erewrite Hbody; [exact Hgr|]. reflexivity.
Qed.

Lemma id3_reader_walk : exists r, id3_walk content max 0 r /\ gives (mreader c content max FId3v2) r.
Proof.
  unfold mreader. cbn [reader_of].
  set (fuel := S (List.length content)).
  change (fst (mrun content max (from_id3v2_reader c fuel) 0)) with (ex content max (bindio (id3v2_loop c fuel 0) id3_final) 0).
  apply id3_walk_spec. unfold fuel, lenN. lia.
Qed.
End Id3.
