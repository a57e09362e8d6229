(** ID3v2 (C25, C26). *)
From Coq Require Import NArith ZArith Bool String List Lia ZifyBool ZifyNat ZifyN.
From Verif Require Import Base BaseProofs Formats IO Readers Mem LibProofs Ideal Spec SpecText SpecBin SpecId3
  BinProofs Utf8Proofs Exec ExeProofs Static ReaderStatic.
Local Open Scope N_scope.
Ltac Zify.zify_post_hook ::= Z.div_mod_to_equations.

(** Disjoint [lor] is addition. *)
Lemma lor_shift a b k : b < 2 ^ k -> N.lor (N.shiftl a k) b = a * 2 ^ k + b.
Proof.
  intros H. rewrite N.shiftl_mul_pow2.
  assert (Hz : N.land (a * 2 ^ k) b = 0).
  { apply N.bits_inj. intros i. rewrite N.land_spec, N.bits_0.
    destruct (N.lt_ge_cases i k) as [Hi|Hi];
      [rewrite N.mul_pow2_bits_low by exact Hi; reflexivity|].
    destruct (N.eq_dec b 0) as [->|Hb]; [rewrite N.bits_0; apply andb_false_r|].
    rewrite (N.bits_above_log2 b), andb_false_r; [reflexivity|].
    apply N.lt_le_trans with k; [|exact Hi]. apply N.log2_lt_pow2; lia. }
  rewrite N.add_nocarry_lxor by exact Hz. symmetry. now apply N.lxor_lor.
Qed.
Lemma land_7f a : a < 128 -> N.land a 127 = a.
Proof. intros H. change 127 with (N.ones 7). rewrite N.land_ones. apply N.mod_small. exact H. Qed.

Lemma tag_header_10 id t : lenN id = 3 -> lenN (tag_header id t) = 10.
Proof. intros H. unfold tag_header. rewrite !lenN_app, H. reflexivity. Qed.

Lemma tag_size_ok t : wf_tag t -> id3v2_tag_size (tag_header (bs "ID3") t) = lenN (tag_body t).
Proof.
  unfold wf_tag. intros H. change (2 ^ 28) with 268435456 in H.
  unfold id3v2_tag_size, tag_header. change (bs "ID3") with [x49; x44; x33]. unfold synchsafe.
  cbn [app nth]. set (n := lenN (tag_body t)) in *.
  rewrite !bval_byteN by lia. rewrite !land_7f by lia.
  assert (E1 : N.lor (N.shiftl (n / 2097152 mod 128) 21) (N.shiftl (n / 16384 mod 128) 14) =
    N.shiftl ((n / 2097152 mod 128) * 128 + (n / 16384 mod 128)) 14).
  { change 21 with (7 + 14). rewrite <- N.shiftl_shiftl, <- N.shiftl_lor. f_equal.
    apply (lor_shift _ _ 7). lia. }
  rewrite E1.
  assert (E2 : N.lor (N.shiftl ((n / 2097152 mod 128) * 128 + (n / 16384 mod 128)) 14) (N.shiftl (n / 128 mod 128) 7) =
    N.shiftl (((n / 2097152 mod 128) * 128 + (n / 16384 mod 128)) * 128 + n / 128 mod 128) 7).
  { change 14 with (7 + 7). rewrite <- N.shiftl_shiftl, <- N.shiftl_lor. f_equal.
    apply (lor_shift _ _ 7). lia. }
  rewrite E2, (lor_shift _ _ 7) by lia. change (2 ^ 7) with 128. lia.
Qed.

Lemma land_bit v k : N.land v (2 ^ k) = 0 <-> N.testbit v k = false.
Proof.
  split; intros H.
  - pose proof (f_equal (fun x => N.testbit x k) H) as H'. cbn beta in H'.
    rewrite N.land_spec, N.bits_0, N.pow2_bits_true, andb_true_r in H'. exact H'.
  - apply N.bits_inj. intros i. rewrite N.land_spec, N.bits_0.
    destruct (N.eq_dec i k) as [->|Hne]; [now rewrite H|].
    rewrite N.pow2_bits_false by congruence. apply andb_false_r.
Qed.
Lemma land_bitb v k : negb (N.land v (2 ^ k) =? 0) = N.testbit v k.
Proof.
  destruct (N.testbit v k) eqn:E.
  - destruct (N.eqb_spec (N.land v (2 ^ k)) 0) as [H|H]; [|reflexivity]. apply land_bit in H. congruence.
  - apply land_bit in E. rewrite E. reflexivity.
Qed.

Section Loop.
Variables (c : plat) (content : bytes) (max : N).
Hypothesis Hc : wf_cfg c.
Hypothesis Hlen : lenN content <= max.
Hypothesis Hlen2 : lenN content < 2 ^ 63.
Hypothesis Hlen3 : lenN content + 10 <= max.

Lemma id3_loop_spec {B} (k : N -> io B) audio X : 10 <= lenN audio -> (forall r, audio <> bs "ID3" ++ r) ->
  forall items fuel pos p0,
  Forall wf_item items -> (List.length items <= fuel)%nat ->
  at_ content pos (flat_map item_bytes items ++ audio) ->
  (forall p, ex content max (k (pos + lenN (flat_map item_bytes items))) p = X) ->
  ex content max (bindio (id3v2_loop c fuel pos) k) p0 = X.
Proof.
  intros Ha Hn. pose proof (isize_max_ge c Hc) as Hi.
  change (2 ^ 63) with 9223372036854775808 in Hlen2.
  induction items as [|[t fill] items IH]; intros fuel pos p0 Hw Hf Hat HX.
  - cbn [flat_map app] in Hat. cbn [flat_map] in HX. rewrite lenN_nil, N.add_0_r in HX.
    assert (Hp : pos <= lenN content) by (destruct Hat; lia).
    replace (id3v2_loop c fuel pos) with
      (let! _ := seek (FromStart pos) in
       let! buf := read_bytes c 10 in
       if negb (beqb (takeN 3 buf) (bs "ID3")) then ok pos
       else
         let tag_size := id3v2_tag_size buf in
         let flags := bval (nth 5 buf x00) in
         let extended_header_present := negb (N.land flags 0x40 =? 0) in
         let footer_present := negb (N.land flags 0x10 =? 0) in
         let* a := u64_add c pos 10 in
         let* next_offset := u64_add c a tag_size in
         let! next_offset :=
           if extended_header_present then
             let! ext := read_u32_be in
             let* x := u64_add c next_offset ext in ok x
           else ok next_offset in
         let* next_offset :=
           if footer_present then u64_add c next_offset 10 else Ret next_offset in
         match fuel with
         | O => PFuel
         | S f => id3v2_loop c f next_offset
         end) by (destruct fuel; reflexivity).
    apply ex_bind_assoc, ex_goto; [lia|]. apply ex_bind_assoc.
    rewrite <- (take_dropN 10 audio) in Hat.
    assert (H10 : lenN (takeN 10 audio) = 10) by (rewrite lenN_takeN; lia).
    apply (ex_bytes _ _ _ _ (takeN 10 audio) (dropN 10 audio)); [lia|exact Hat|exact H10|].
    intros _. rewrite takeN_takeN. change (N.min 3 10) with 3.
    replace (beqb (takeN 3 audio) (bs "ID3")) with false.
    + apply ex_bind_ok. apply HX.
    + symmetry. apply beqb_neq. intros H. apply (Hn (dropN 3 audio)).
      rewrite <- H. symmetry. apply take_dropN.
  - destruct fuel as [|fuel]; [cbn [List.length] in Hf; lia|].
    inversion Hw as [|? ? (Ht & Hne & He) Hw']; subst. cbn [fst snd] in *.
    cbn [flat_map] in *. unfold item_bytes at 1 in Hat. cbn [fst snd] in Hat.
    assert (Hp : pos <= lenN content) by (destruct Hat; lia).
    cbn [id3v2_loop]. apply ex_bind_assoc, ex_goto; [lia|]. apply ex_bind_assoc.
    pose proof (tag_header_10 (bs "ID3") t eq_refl) as H10.
    unfold tag_bytes in Hat. rewrite <- !app_assoc in Hat.
    apply (ex_bytes _ _ _ _ (tag_header (bs "ID3") t) (tag_body t ++
             (if has_footer t then tag_header (bs "3DI") t else []) ++ fill ++
             flat_map item_bytes items ++ audio)); [lia|exact Hat|exact H10|].
    intros Hat1.
    change (takeN 3 (tag_header (bs "ID3") t)) with (bs "ID3"). rewrite beqb_refl. cbn [negb].
    rewrite tag_size_ok by exact Ht.
    change (nth 5 (tag_header (bs "ID3") t) x00) with (tag_flags t).
    cbv zeta. change 64 with (2 ^ 6). change 16 with (2 ^ 4). rewrite !land_bitb.
    fold (has_extended t). fold (has_footer t).
    set (nb := lenN (tag_body t)).
    set (nf := if has_footer t then 10 else 0).
    assert (Hfl : lenN (if has_footer t then tag_header (bs "3DI") t else []) = nf).
    { unfold nf. destruct (has_footer t); [apply tag_header_10; reflexivity|reflexivity]. }
    assert (Htot : lenN (item_bytes (t, fill)) = 10 + nb + nf + lenN fill).
    { unfold item_bytes, tag_bytes. cbn [fst snd]. rewrite !lenN_app, H10, Hfl. unfold nb. lia. }
    assert (Hend : pos + lenN (item_bytes (t, fill)) + lenN (flat_map item_bytes items ++ audio) = lenN content).
    { destruct Hat as [_ Hat]. rewrite !lenN_app, H10, Hfl in Hat. rewrite lenN_app. unfold nb in *. lia. }
    assert (Hrest : forall p, ex content max (bindio (id3v2_loop c fuel (pos + lenN (item_bytes (t, fill)))) k) p = X).
    { intros p. apply IH.
      - exact Hw'.
      - cbn [List.length] in Hf. lia.
      - apply (at_app _ pos (item_bytes (t, fill))); [|reflexivity].
        unfold item_bytes, tag_bytes. cbn [fst snd]. rewrite <- !app_assoc. exact Hat.
      - intros p'. rewrite <- HX with (p := p'). rewrite lenN_app, N.add_assoc. reflexivity. }
    assert (Hu : u64_max1 = 18446744073709551616) by reflexivity.
    apply ex_bindp_assoc. apply ex_u64_add; [lia|]. apply ex_bindp_assoc.
    apply ex_u64_add; [lia|]. apply ex_bind_assoc.
    assert (Hfoot : forall p, ex content max
       (bindio (let* next_offset :=
          if has_footer t then u64_add c (pos + 10 + nb + lenN fill) 10
          else Ret (pos + 10 + nb + lenN fill) in
        id3v2_loop c fuel next_offset) k) p = X).
    { intros p. apply ex_bindp_assoc. unfold nf in *. destruct (has_footer t).
      - apply ex_u64_add; [lia|].
        replace (pos + 10 + nb + lenN fill + 10) with (pos + lenN (item_bytes (t, fill)))
          by (rewrite Htot; lia). apply Hrest.
      - apply ex_bind_ret.
        replace (pos + 10 + nb + lenN fill) with (pos + lenN (item_bytes (t, fill)))
          by (rewrite Htot; lia). apply Hrest. }
    destruct (has_extended t) eqn:Ex.
    + destruct (He eq_refl) as (r & Hb & Hl32). apply ex_bind_assoc.
      rewrite Hb in Hat1. rewrite <- !app_assoc in Hat1.
      eapply (ex_int _ _ be_val 4); [exact Hat1|apply lenN_be_bytes|apply be_val_be_bytes; exact Hl32|].
      intros _. apply ex_bindp_assoc, ex_u64_add; [lia|]. apply ex_bind_ok. apply Hfoot.
    + apply ex_bind_ok. specialize (Hne eq_refl). subst fill.
      specialize (Hfoot (pos + 10)). rewrite lenN_nil, N.add_0_r in Hfoot. exact Hfoot.
Qed.

(** The data after the last tag is too short for another header. *)
Lemma id3_loop_short {B} (k : N -> io B) audio : lenN audio < 10 ->
  forall items fuel pos p0,
  Forall wf_item items -> (List.length items <= fuel)%nat ->
  at_ content pos (flat_map item_bytes items ++ audio) ->
  ex content max (bindio (id3v2_loop c fuel pos) k) p0 = Done (Err EUnexpectedEof).
Proof.
  intros Ha. pose proof (isize_max_ge c Hc) as Hi.
  change (2 ^ 63) with 9223372036854775808 in Hlen2.
  induction items as [|[t fill] items IH]; intros fuel pos p0 Hw Hf Hat.
  - cbn [flat_map app] in Hat.
    assert (Hp : pos <= lenN content) by (destruct Hat; lia).
    destruct fuel; cbn [id3v2_loop]; (apply ex_bind_assoc, ex_goto; [lia|]; apply ex_bind_assoc;
      apply ex_bytes_eof; [lia|]; destruct Hat as [-> _]; lia).
  - destruct fuel as [|fuel]; [cbn [List.length] in Hf; lia|].
    inversion Hw as [|? ? (Ht & Hne & He) Hw']; subst. cbn [fst snd] in *.
    cbn [flat_map] in *. unfold item_bytes at 1 in Hat. cbn [fst snd] in Hat.
    assert (Hp : pos <= lenN content) by (destruct Hat; lia).
    cbn [id3v2_loop]. apply ex_bind_assoc, ex_goto; [lia|]. apply ex_bind_assoc.
    pose proof (tag_header_10 (bs "ID3") t eq_refl) as H10.
    unfold tag_bytes in Hat. rewrite <- !app_assoc in Hat.
    apply (ex_bytes _ _ _ _ (tag_header (bs "ID3") t) (tag_body t ++
             (if has_footer t then tag_header (bs "3DI") t else []) ++ fill ++
             flat_map item_bytes items ++ audio)); [lia|exact Hat|exact H10|].
    intros Hat1.
    change (takeN 3 (tag_header (bs "ID3") t)) with (bs "ID3"). rewrite beqb_refl. cbn [negb].
    rewrite tag_size_ok by exact Ht.
    change (nth 5 (tag_header (bs "ID3") t) x00) with (tag_flags t).
    cbv zeta. change 64 with (2 ^ 6). change 16 with (2 ^ 4). rewrite !land_bitb.
    fold (has_extended t). fold (has_footer t).
    set (nb := lenN (tag_body t)).
    set (nf := if has_footer t then 10 else 0).
    assert (Hfl : lenN (if has_footer t then tag_header (bs "3DI") t else []) = nf).
    { unfold nf. destruct (has_footer t); [apply tag_header_10; reflexivity|reflexivity]. }
    assert (Htot : lenN (item_bytes (t, fill)) = 10 + nb + nf + lenN fill).
    { unfold item_bytes, tag_bytes. cbn [fst snd]. rewrite !lenN_app, H10, Hfl. unfold nb. lia. }
    assert (Hend : pos + lenN (item_bytes (t, fill)) + lenN (flat_map item_bytes items ++ audio) = lenN content).
    { destruct Hat as [_ Hat]. rewrite !lenN_app, H10, Hfl in Hat. rewrite lenN_app. unfold nb in *. lia. }
    assert (Hrest : forall p, ex content max (bindio (id3v2_loop c fuel (pos + lenN (item_bytes (t, fill)))) k) p
              = Done (Err EUnexpectedEof)).
    { intros p. apply IH.
      - exact Hw'.
      - cbn [List.length] in Hf. lia.
      - apply (at_app _ pos (item_bytes (t, fill))); [|reflexivity].
        unfold item_bytes, tag_bytes. cbn [fst snd]. rewrite <- !app_assoc. exact Hat. }
    assert (Hu : u64_max1 = 18446744073709551616) by reflexivity.
    apply ex_bindp_assoc. apply ex_u64_add; [lia|]. apply ex_bindp_assoc.
    apply ex_u64_add; [lia|]. apply ex_bind_assoc.
    assert (Hfoot : forall p, ex content max
       (bindio (let* next_offset :=
          if has_footer t then u64_add c (pos + 10 + nb + lenN fill) 10
          else Ret (pos + 10 + nb + lenN fill) in
        id3v2_loop c fuel next_offset) k) p = Done (Err EUnexpectedEof)).
    { intros p. apply ex_bindp_assoc. unfold nf in *. destruct (has_footer t).
      - apply ex_u64_add; [lia|].
        replace (pos + 10 + nb + lenN fill + 10) with (pos + lenN (item_bytes (t, fill)))
          by (rewrite Htot; lia). apply Hrest.
      - apply ex_bind_ret.
        replace (pos + 10 + nb + lenN fill) with (pos + lenN (item_bytes (t, fill)))
          by (rewrite Htot; lia). apply Hrest. }
    destruct (has_extended t) eqn:Ex.
    + destruct (He eq_refl) as (r & Hb & Hl32). apply ex_bind_assoc.
      rewrite Hb in Hat1. rewrite <- !app_assoc in Hat1.
      eapply (ex_int _ _ be_val 4); [exact Hat1|apply lenN_be_bytes|apply be_val_be_bytes; exact Hl32|].
      intros _. apply ex_bindp_assoc, ex_u64_add; [lia|]. apply ex_bind_ok. apply Hfoot.
    + apply ex_bind_ok. specialize (Hne eq_refl). subst fill.
      specialize (Hfoot (pos + 10)). rewrite lenN_nil, N.add_0_r in Hfoot. exact Hfoot.
Qed.
End Loop.

Lemma layer3_iff l : 2 <= lenN l -> layer3_frame l <-> existsb (beqb (takeN 2 l)) mp3_magics = true.
Proof.
  intros H. destruct l as [|a [|b r]]; [cbn in H; lia|cbn in H; lia|].
  rewrite takeN_firstn. change (firstn (N.to_nat 2) (a :: b :: r)) with [a; b].
  unfold layer3_frame. split.
  - intros (b' & r' & [= -> -> ->] & H1). destruct b'; cbn in H1; try reflexivity; exfalso;
      intuition discriminate.
  - intros Hm. assert (Ha : a = xff).
    { unfold mp3_magics in Hm. cbn [existsb beqb] in Hm. apply byte_eqb_eq.
      destruct (Byte.eqb a xff); [reflexivity|discriminate Hm]. }
    subst a. exists b, r. split; [reflexivity|].
    destruct b; try discriminate Hm; cbn; intuition discriminate.
Qed.

Lemma length_flat_items items : (List.length items <= List.length (flat_map item_bytes items))%nat.
Proof.
  induction items as [|i items IH]; [reflexivity|]. cbn [flat_map List.length]. rewrite app_length.
  assert (0 < List.length (item_bytes i))%nat; [|lia].
  unfold item_bytes, tag_bytes, tag_header. cbn. lia.
Qed.

Lemma id3_reader_spec c items audio max r : wf_cfg c ->
  let content := flat_map item_bytes items ++ audio in
  lenN content < 2 ^ 63 -> lenN content + 10 <= max -> Forall wf_item items ->
  (forall s, audio <> bs "ID3" ++ s) -> id3_class audio r ->
  gives (mreader c content max FId3v2) r.
Proof.
  intros Hc content Hlen Hmax Hw Hn Hcl. pose proof (isize_max_ge c Hc) as Hi. unfold mreader. cbn [reader_of].
  set (fuel := S (List.length content)).
  change (fst (mrun content max (from_id3v2_reader c fuel) 0))
    with (ex content max (from_id3v2_reader c fuel) 0).
  unfold from_id3v2_reader.
  assert (Hfuel : (List.length items <= fuel)%nat).
  { unfold fuel, content. rewrite app_length. pose proof (length_flat_items items). lia. }
  assert (Hat : at_ content 0 (flat_map item_bytes items ++ audio)) by apply at_start.
  assert (Hend : forall f, 10 <= lenN audio ->
     (if beqb (takeN 4 audio) (bs "fLaC") then FreeLosslessAudioCodec
      else if existsb (beqb (takeN 2 audio)) mp3_magics then Mpeg12AudioLayer3 else Id3v2) = f ->
     ex content max (from_id3v2_reader c fuel) 0 = Done (Ok f)).
  { intros f H10 Hf. unfold from_id3v2_reader.
    eapply (id3_loop_spec c content max Hc ltac:(lia) Hlen ltac:(lia) _ audio _ H10 Hn items fuel 0 0 Hw Hfuel Hat).
    intros p. rewrite N.add_0_l.
    assert (Hle : lenN (flat_map item_bytes items) <= lenN content) by (unfold content; rewrite lenN_app; lia).
    apply ex_goto; [lia|].
    pose proof (at_app content 0 _ _ _ Hat eq_refl) as Hat2. rewrite N.add_0_l in Hat2.
    rewrite <- (take_dropN 4 audio) in Hat2.
    eapply (ex_bytes _ _ c 4); [lia|exact Hat2|rewrite lenN_takeN; lia|]. intros _.
    rewrite takeN_takeN. change (N.min 2 4) with 2. rewrite <- Hf.
    destruct (beqb (takeN 4 audio) (bs "fLaC")); [reflexivity|].
    destruct (existsb (beqb (takeN 2 audio)) mp3_magics); reflexivity. }
  fold (from_id3v2_reader c fuel) in *.
  assert (Hfl : 10 <= lenN audio -> flac_stream audio <-> beqb (takeN 4 audio) (bs "fLaC") = true).
  { intros H10. rewrite beqb_eq. split.
    - intros (s & ->). now apply takeN_app_len.
    - intros E. exists (dropN 4 audio). rewrite <- E. symmetry. apply take_dropN. }
  destruct Hcl as [H10|H10 H1|H10 H1|H10 H1 H2]; cbn [gives].
  - exists EUnexpectedEof. unfold from_id3v2_reader.
    eapply (id3_loop_short c content max Hc ltac:(lia) Hlen ltac:(lia) _ audio H10 items fuel 0 0 Hw Hfuel Hat).
  - apply Hend; [exact H10|]. apply Hfl in H1; [|exact H10]. now rewrite H1.
  - apply Hend; [exact H10|]. rewrite layer3_iff in H1 by lia. rewrite H1.
    destruct (beqb (takeN 4 audio) (bs "fLaC")) eqn:E; [|reflexivity].
    exfalso. apply beqb_eq in E. rewrite <- (take_dropN 4 audio), E in H1. discriminate H1.
  - apply Hend; [exact H10|]. rewrite layer3_iff in H2 by lia. rewrite Hfl in H1 by exact H10.
    destruct (beqb (takeN 4 audio) (bs "fLaC")); [exfalso; now apply H1|].
    destruct (existsb (beqb (takeN 2 audio)) mp3_magics); [exfalso; now apply H2|reflexivity].
Qed.
