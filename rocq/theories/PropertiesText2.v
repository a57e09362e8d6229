(** C23 without a bound on the length of the text.  Statements use SpecText.v, SpecSig.v and
    SpecApi.v. *)
From Coq Require Import NArith ZArith Bool String List Lia ZifyBool ZifyNat ZifyN.
From Verif Require Import Base BaseProofs Formats Signatures IO Utf8 Readers Lib Mem Spec SpecText SpecSig SpecApi
  Utf8Proofs TextProofs LibProofs Ideal SigProofs CoreProofs Glue Conf PropertiesText.
Ltac Zify.zify_post_hook ::= idtac.
Local Open Scope N_scope.

(** Some character of the first 16 lines of the text [cs] has its first byte in front of offset
    [cut] and its last byte behind it. *)
Definition cut_inside_a_character (cut : N) (cs : list N) : Prop :=
  exists before ch after, cs = before ++ ch :: after /\
    lenN (flat_map utf8_encode before) < cut /\
    cut < lenN (flat_map utf8_encode (before ++ [ch])) /\
    (count_occ N.eq_dec before 10%N < 16)%nat.

Notation enc := (flat_map utf8_encode).

Lemma split_prefix {A} (a b : list A) : forall r s, a ++ r = b ++ s -> (exists x, a = b ++ x) \/ (exists x, b = a ++ x).
Proof.
  revert b. induction a as [|x a IH]; intros [|y b] r s E.
  - left. now exists [].
  - right. now exists (y :: b).
  - left. now exists (x :: a).
  - injection E as -> E. destruct (IH b r s E) as [[z ->]|[z ->]]; [left|right]; now exists z.
Qed.
Lemma enc_app a b : enc (a ++ b) = enc a ++ enc b.
Proof. apply flat_map_app. Qed.

(** Where a cut falls. *)
Lemma take_enc : forall cs k,
  (exists a b, cs = a ++ b /\ takeN k (enc cs) = enc a) \/
  (exists a x b p q, cs = a ++ x :: b /\ takeN k (enc cs) = enc a ++ p /\ utf8_encode x = p ++ q /\
     p <> [] /\ q <> [] /\ k = lenN (enc a) + lenN p).
Proof.
  induction cs as [|x cs IH]; intros k.
  { left. exists [], []. split; [reflexivity|]. cbn [flat_map]. apply takeN_all. change (@lenN byte []) with 0. lia. }
  cbn [flat_map]. destruct (N.le_gt_cases (lenN (utf8_encode x)) k) as [H|H].
  - rewrite takeN_app. rewrite takeN_all by exact H.
    destruct (IH (k - lenN (utf8_encode x))) as [(a & b & -> & E)|(a & y & b & p & q & -> & E & Ey & Hp & Hq & Hk)].
    + left. exists (x :: a), b. split; [reflexivity|]. cbn [flat_map]. now rewrite E.
    + right. exists (x :: a), y, b, p, q. split; [reflexivity|]. cbn [flat_map]. rewrite E, app_assoc.
      repeat split; auto. rewrite lenN_app. lia.
  - rewrite takeN_app_le by lia. destruct (N.eq_dec k 0) as [->|Hk].
    + left. exists [], (x :: cs). split; [reflexivity|]. now rewrite takeN_0.
    + right. exists [], x, cs, (takeN k (utf8_encode x)), (dropN k (utf8_encode x)).
      split; [reflexivity|]. split; [reflexivity|]. split; [symmetry; apply take_dropN|].
      assert (L1 : lenN (takeN k (utf8_encode x)) = k) by (rewrite lenN_takeN; lia).
      assert (L2 : lenN (dropN k (utf8_encode x)) <> 0) by (rewrite lenN_dropN; lia).
      split; [intros K; rewrite K in L1; change (@lenN byte []) with 0 in L1; lia|].
      split; [intros K; rewrite K in L2; apply L2; reflexivity|]. cbn [flat_map]. change (@lenN byte []) with 0. lia.
Qed.

(** UTF-8 is a prefix code. *)
Lemma enc_prefix : forall a cs p, Forall scalar a -> Forall scalar cs -> enc cs = enc a ++ p ->
  exists t, cs = a ++ t /\ enc t = p.
Proof.
  induction a as [|x a IH]; intros cs p Ha Hcs E; [exists cs; auto|].
  inversion Ha as [|? ? Hx Ha']; subst. cbn [flat_map] in E. rewrite <- app_assoc in E.
  destruct cs as [|y cs].
  { exfalso. cbn in E. apply (encode_nonempty x). now destruct (utf8_encode x). }
  inversion Hcs as [|? ? Hy Hcs']; subst. cbn [flat_map] in E.
  pose proof (utf8_next_complete y (enc cs) Hy) as E1. rewrite E, utf8_next_complete in E1 by exact Hx.
  injection E1 as -> E1. destruct (IH cs p Ha' Hcs') as (t & -> & Et); [now symmetry|].
  exists t. auto.
Qed.
Lemma half_character x p q : scalar x -> utf8_encode x = p ++ q -> p <> [] -> q <> [] ->
  forall t, Forall scalar t -> enc t <> p.
Proof.
  intros Hx E Hp Hq [|y t] Ht K; [now apply Hp|]. inversion Ht as [|? ? Hy Ht']; subst.
  pose proof (utf8_next_complete x [] Hx) as E1. rewrite app_nil_r, E in E1. cbn [flat_map] in E1.
  rewrite <- app_assoc, utf8_next_complete in E1 by exact Hy. injection E1 as _ E1.
  apply app_eq_nil in E1 as [_ E1]. contradiction.
Qed.
Lemma cut_not_clean a x p q : Forall scalar a -> scalar x -> utf8_encode x = p ++ q -> p <> [] -> q <> [] ->
  ~ clean_text (enc a ++ p).
Proof.
  intros Ha Hx E Hp Hq (cs & H1 & _ & K). symmetry in K.
  destruct (enc_prefix a cs p Ha H1 K) as (t & -> & Et). apply Forall_app in H1 as [_ H1].
  exact (half_character x p q Hx E Hp Hq t H1 Et).
Qed.

(** Lines. *)
Fixpoint lfs (l : bytes) : nat := match l with [] => 0 | b :: t => (if Byte.eqb b x0a then 1 else 0) + lfs t end%nat.
Lemma lfs_app a b : lfs (a ++ b) = (lfs a + lfs b)%nat.
Proof. induction a as [|x a IH]; [reflexivity|]. cbn [app lfs]. rewrite IH. lia. Qed.
Lemma first_lines_few : forall l n, (lfs l < n)%nat -> first_lines n l = l.
Proof.
  induction l as [|b l IH]; intros [|n] H; try reflexivity; [lia|]. cbn [first_lines lfs] in *.
  f_equal. apply IH. destruct (Byte.eqb b x0a); lia.
Qed.
Lemma first_lines_many : forall a b n, (n <= lfs a)%nat -> first_lines n (a ++ b) = first_lines n a.
Proof.
  induction a as [|x a IH]; intros b n H; [cbn in H; replace n with O by lia; now rewrite !first_lines_0|].
  destruct n as [|n]; [reflexivity|]. cbn [app first_lines lfs] in *. f_equal. apply IH.
  destruct (Byte.eqb x x0a); lia.
Qed.
Lemma lfs_high l : (forall b, In b l -> 128 <= bval b) -> lfs l = 0%nat.
Proof.
  induction l as [|b l IH]; intros H; [reflexivity|]. cbn [lfs]. rewrite IH by (intros y Hy; apply H; now right).
  destruct (Byte.eqb b x0a) eqn:E; [|reflexivity]. apply byte_eqb_eq in E. subst.
  specialize (H x0a ltac:(now left)). change (bval x0a) with 10 in H. lia.
Qed.
Lemma lfs_enc a : Forall scalar a -> lfs (enc a) = count_occ N.eq_dec a 10.
Proof.
  induction a as [|x a IH]; intros H; [reflexivity|]. inversion H as [|? ? Hx Ha]; subst.
  cbn [flat_map count_occ]. rewrite lfs_app, IH by exact Ha.
  destruct (N.le_gt_cases 128 x) as [Hh|Hl].
  - rewrite lfs_high by (intros b Hb; now apply (encode_high x)).
    destruct (N.eq_dec x 10); [lia|reflexivity].
  - rewrite encode_ascii by exact Hl. cbn [lfs]. destruct (N.eq_dec x 10) as [->|Hn].
    + reflexivity.
    + replace (Byte.eqb (byteN x) x0a) with false; [reflexivity|]. symmetry. apply byte_eqb_neq.
      intros K. apply Hn. rewrite <- (bval_byteN x) by lia. now rewrite K.
Qed.

Lemma long_encoding x p q : scalar x -> utf8_encode x = p ++ q -> p <> [] -> q <> [] -> 128 <= x.
Proof.
  intros Hx E Hp Hq. destruct (N.le_gt_cases 128 x) as [H|H]; [exact H|]. exfalso.
  rewrite encode_ascii in E by exact H. destruct p as [|a [|b p]]; [now apply Hp| |discriminate E].
  injection E as _ E. now apply Hq.
Qed.

Lemma clean_head cs : Forall scalar cs -> Forall (fun x => ~ forbidden x) cs ->
  (clean_text (text_head (enc cs)) <-> ~ cut_inside_a_character 65536 cs).
Proof.
  intros Hs Hf. unfold text_head.
  destruct (take_enc cs 65536) as [(a & b & E & Et)|(a & x & b & p & q & E & Et & Ex & Hp & Hq & Hk)]; rewrite Et.
  - subst cs. apply Forall_app in Hs as [Ha Hb]. apply Forall_app in Hf as [Hfa Hfb].
    split; [|intros _; apply first_lines_clean; exists a; auto].
    intros _ (a' & x & b' & E & H1 & H2 & _).
    pose proof (f_equal (@lenN byte) Et) as L. rewrite lenN_takeN, enc_app, lenN_app in L.
    destruct (split_prefix a a' b (x :: b') E) as [[z Ez]|[z Ez]].
    + subst a. rewrite <- app_assoc in E. apply app_inv_head in E. destruct z as [|y z].
      * cbn [app] in E. rewrite app_nil_r in *. subst b. cbn [flat_map] in L. rewrite lenN_app in L.
        rewrite enc_app, lenN_app in H2. cbn [flat_map] in H2. rewrite app_nil_r in H2. lia.
      * cbn [app] in E. injection E as <- E. rewrite !enc_app, !lenN_app in *. cbn [flat_map] in *.
        rewrite !lenN_app in *. change (@lenN byte []) with 0 in *. lia.
    + subst a'. rewrite <- app_assoc in E. apply app_inv_head in E. rewrite !enc_app, !lenN_app in *.
      rewrite E, enc_app, lenN_app in L. cbn [flat_map] in *. rewrite lenN_app in L.
      rewrite lenN_app in H2. change (@lenN byte []) with 0 in H2. lia.
  - subst cs. apply Forall_app in Hs as [Ha Hb]. apply Forall_app in Hf as [Hfa Hfb].
    inversion Hb as [|? ? Hx Hb']; subst.
    assert (Lp : forall l : bytes, l <> [] -> 0 < lenN l).
    { intros [|y l] H; [now elim H|]. unfold lenN. cbn [List.length]. lia. }
    destruct (Nat.lt_ge_cases (count_occ N.eq_dec a 10%N) 16%nat) as [Hc|Hc].
    + split.
      * intros H. exfalso. revert H. rewrite first_lines_few; [now apply (cut_not_clean a x p q)|].
        rewrite lfs_app, lfs_enc by exact Ha. rewrite lfs_high; [lia|].
        intros y Hy. apply (encode_high x); [now apply (long_encoding x p q)|exact Hx|rewrite Ex; apply in_or_app; now left].
      * intros H. exfalso. apply H. exists a, x, b. split; [reflexivity|].
        pose proof (Lp p Hp). pose proof (Lp q Hq). rewrite enc_app, lenN_app. cbn [flat_map]. rewrite app_nil_r, Ex, lenN_app.
        repeat split; try lia; exact Hc.
    + split.
      * intros _ (a' & y & b' & E & H1 & H2 & H3).
        pose proof (Lp p Hp). pose proof (Lp q Hq). apply (f_equal (@lenN byte)) in Ex as Lx. rewrite lenN_app in Lx.
        destruct (split_prefix a a' (x :: b) (y :: b') E) as [[z Ez]|[z Ez]].
        -- subst a. rewrite <- app_assoc in E. apply app_inv_head in E. destruct z as [|w z].
           ++ rewrite app_nil_r in Hc. lia.
           ++ cbn [app] in E. injection E as <- E. rewrite !enc_app, !lenN_app in *. cbn [flat_map] in *.
              rewrite !lenN_app in *. change (@lenN byte []) with 0 in *. lia.
        -- subst a'. rewrite count_occ_app in H3. lia.
      * intros _. rewrite first_lines_many by (rewrite lfs_enc by exact Ha; exact Hc).
        apply first_lines_clean. exists a. auto.
Qed.

(** A text of any length without forbidden characters and without a signature is reported as plain
    text, except when the cut at 65536 bytes falls into a character of the first 16 lines; then it
    is reported as binary data. *)
Theorem C23_unicode_text : forall (c : cfg) cs l, supported c -> feat c FTxt = true ->
  Forall scalar cs -> Forall (fun x => ~ forbidden x) cs -> l = flat_map utf8_encode cs ->
  l <> [] -> rust_slice l -> no_match signatures l ->
  (from_bytes c l = Done PlainText <-> ~ cut_inside_a_character 65536 cs) /\
  (from_bytes c l = Done ArbitraryBinaryData <-> cut_inside_a_character 65536 cs).
Proof.
  intros c cs l Hc Ht Hs Hf -> Hne Hl Hn. pose proof (clean_head cs Hs Hf) as Hh.
  destruct (c22_lemma c (enc cs) Hc Hl Hne Hn Ht) as [A B]. split; [now rewrite A|].
  split.
  - intros E. destruct (take_enc cs 65536) as [(a & b & E1 & Et)|(a & x & b & p & q & E1 & Et & Ex & Hp & Hq & Hk)].
    + exfalso. apply B in E. apply E. unfold text_head. rewrite Et. apply first_lines_clean. exists a.
      subst cs. apply Forall_app in Hs as [Ha _]. apply Forall_app in Hf as [Hfa _]. auto.
    + assert (Lp : forall l : bytes, l <> [] -> 0 < lenN l).
      { intros [|y l] H; [now elim H|]. unfold lenN. cbn [List.length]. lia. }
      pose proof (Lp p Hp). pose proof (Lp q Hq).
      exists a, x, b. split; [exact E1|]. rewrite enc_app, lenN_app. cbn [flat_map]. rewrite app_nil_r, Ex, lenN_app.
      split; [lia|]. split; [lia|].
      destruct (Nat.lt_ge_cases (count_occ N.eq_dec a 10%N) 16%nat) as [Hc16|Hc16]; [exact Hc16|]. exfalso.
      apply B in E. apply E. unfold text_head. rewrite Et.
      subst cs. apply Forall_app in Hs as [Ha _]. apply Forall_app in Hf as [Hfa _].
      rewrite first_lines_many by (rewrite lfs_enc by exact Ha; exact Hc16). apply first_lines_clean. exists a. auto.
  - intros Hcut. apply B. intros K. apply Hh in K. contradiction.
Qed.
Print Assumptions C23_unicode_text.
(** In particular pure ASCII text of any length is plain text. *)
Theorem C23_ascii_text : forall (c : cfg) l, supported c -> feat c FTxt = true -> rust_slice l -> l <> [] ->
  no_match signatures l -> Forall (fun b => (9 <= bval b <= 13) \/ (32 <= bval b <= 126)) l ->
  from_bytes c l = Done PlainText.
Proof.
  intros c l Hc Ht Hl Hne Hn Ha.
  assert (E : l = enc (map bval l)).
  { clear -Ha. induction Ha as [|b l Hb Ha IH]; [reflexivity|]. cbn [map flat_map].
    rewrite encode_ascii by lia. rewrite byteN_bval. cbn [app]. now f_equal. }
  destruct (C23_unicode_text c (map bval l) l Hc Ht) as [H _]; auto; [| |apply H].
  - apply Forall_map. eapply Forall_impl; [|exact Ha]. intros b Hb. cbv beta in *. unfold scalar. lia.
  - apply Forall_map. eapply Forall_impl; [|exact Ha]. intros b Hb. cbv beta in *. unfold forbidden. lia.
  - intros (a & x & b & E1 & H1 & H2 & _).
    assert (Hx : x < 128).
    { assert (In x (map bval l)) as Hin by (rewrite E1; apply in_elt). apply in_map_iff in Hin as (y & <- & Hy).
      rewrite Forall_forall in Ha. specialize (Ha y Hy). cbv beta in Ha. lia. }
    rewrite enc_app, lenN_app in H2. cbn [flat_map] in H2. rewrite encode_ascii in H2 by exact Hx. cbn [app] in H2.
    change (lenN [byteN x]) with 1 in H2. lia.
Qed.
Print Assumptions C23_ascii_text.
(** What follows the first 16 lines is irrelevant: forbidden characters, and even bytes that are not
    UTF-8 at all. *)
Lemma text_head_lines cs rest : Forall scalar cs -> (16 <= count_occ N.eq_dec cs 10%N)%nat ->
  text_head (enc cs ++ rest) = text_head (enc cs).
Proof.
  intros Hs Hn. unfold text_head. destruct (N.le_gt_cases (lenN (enc cs)) 65536) as [H|H].
  - rewrite takeN_app, (takeN_all _ (enc cs)) by exact H. apply first_lines_many. now rewrite lfs_enc.
  - now rewrite takeN_app_le by lia.
Qed.
Theorem C23_sixteen_lines : forall (c : cfg) cs rest l, supported c -> feat c FTxt = true ->
  Forall scalar cs -> Forall (fun x => ~ forbidden x) cs -> (16 <= count_occ N.eq_dec cs 10%N)%nat ->
  l = flat_map utf8_encode cs ++ rest -> rust_slice l -> no_match signatures l ->
  (from_bytes c l = Done PlainText <-> ~ cut_inside_a_character 65536 cs) /\
  (lenN (flat_map utf8_encode cs) <= 65536 -> from_bytes c l = Done PlainText).
Proof.
  intros c cs rest l Hc Ht Hs Hf Hn -> Hl Hno.
  assert (Hne : enc cs ++ rest <> []).
  { destruct cs as [|x cs]; [cbn in Hn; lia|]. cbn [flat_map]. intros K. apply (encode_nonempty x).
    now destruct (utf8_encode x). }
  destruct (c22_lemma c (enc cs ++ rest) Hc Hl Hne Hno Ht) as [A _].
  assert (K : from_bytes c (enc cs ++ rest) = Done PlainText <-> ~ cut_inside_a_character 65536 cs).
  { rewrite A, text_head_lines by assumption. now apply clean_head. }
  split; [exact K|]. intros Hlen. apply K. intros (a & x & b & E & _ & H2 & _).
  subst cs. rewrite !enc_app, !lenN_app in *. cbn [flat_map] in *. rewrite app_nil_r in H2. rewrite lenN_app in Hlen. lia.
Qed.
Print Assumptions C23_sixteen_lines.
Example C23_sixteen_lines_witness :
  let cs := flat_map (fun _ => [228; 10]) (seq 0 16) in
  (16 <= count_occ N.eq_dec cs 10%N)%nat /\
  from_bytes cfg_all (enc cs ++ [xff; x00]) = Done PlainText /\ from_bytes cfg_all (enc (tl (tl cs)) ++ [xff; x00]) = Done ArbitraryBinaryData.
Proof. cbv zeta. split; [vm_compute; lia|]. split; vm_compute; reflexivity. Qed.
(** The exception is real (C23_unbounded_refuted); behind 16 lines it does no harm. *)
Example C23_cut : cut_inside_a_character 65536 straddling /\
  ~ cut_inside_a_character 65536 (repeat 10 16 ++ straddling).
Proof.
  assert (L : forall n, lenN (enc (repeat 97 n)) = N.of_nat n).
  { induction n as [|n IH]; [reflexivity|]. cbn [repeat flat_map]. rewrite lenN_app, IH. 
    change (lenN (utf8_encode 97)) with 1. lia. }
  split.
  - exists (repeat 97 (N.to_nat 65535)), 233, []. split; [reflexivity|].
    rewrite enc_app, lenN_app, L, N2Nat.id. split; [reflexivity|]. split; [reflexivity|].
    replace (count_occ _ _ _) with O; [lia|]. symmetry. apply count_occ_not_In. intros H. apply repeat_spec in H. discriminate H.
  - intros H. destruct straddling_text as [S1 S2].
    assert (A1 : Forall scalar (repeat 10 16 ++ straddling)).
    { apply Forall_app. split; [repeat constructor; unfold scalar; lia|exact S1]. }
    assert (A2 : Forall (fun x => ~ forbidden x) (repeat 10 16 ++ straddling)).
    { apply Forall_app. split; [repeat constructor; unfold forbidden; lia|exact S2]. }
    apply (proj1 (clean_head _ A1 A2)); [|exact H]. exists (repeat 10 16).
    split; [repeat constructor; unfold scalar; lia|]. split; [repeat constructor; unfold forbidden; lia|].
    vm_compute. reflexivity.
Qed.
