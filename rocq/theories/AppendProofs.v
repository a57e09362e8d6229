(** C50: the walks of SpecWalk.v on a byte string and on an extension of it. *)
From Coq Require Import NArith ZArith Bool String List Lia ZifyBool ZifyNat ZifyN.
From Verif Require Import Base BaseProofs Formats Spec SpecText SpecBin SpecExe SpecScan SpecId3 SpecMp4 SpecEbml
  SpecMedia SpecWalk.
Ltac Zify.zify_post_hook ::= idtac.
Local Open Scope N_scope.

Lemma lenN_app' {A} (a b : list A) : lenN (a ++ b) = lenN a + lenN b.
Proof. unfold lenN. rewrite app_length. lia. Qed.
Lemma slice_in off n (l t : bytes) : off + n <= lenN l -> slice off n (l ++ t) = slice off n l.
Proof.
  intros H. unfold slice. rewrite dropN_app. apply takeN_app_le. rewrite lenN_dropN. lia.
Qed.
Lemma slice_zero off (l : bytes) : slice off 0 l = [].
Proof. apply takeN_0. Qed.

Section Append.
Variables (l t : bytes) (limit : N).

Lemma have_some {A} off n (r : option A) x : have l off n r = Some x ->
  r = Some x /\ (n = 0 \/ off + n <= lenN l).
Proof. unfold have. destruct (N.eqb_spec n 0), (N.leb_spec (off + n) (lenN l)); cbn; intros; try discriminate; auto. Qed.
Lemma have_ok {A} off n (r : option A) : (n = 0 \/ off + n <= lenN l) -> have (l ++ t) off n r = r.
Proof.
  unfold have. rewrite lenN_app'. destruct (N.eqb_spec n 0), (N.leb_spec (off + n) (lenN l + lenN t)); cbn; intros [?|?]; try lia; auto.
Qed.
Lemma slice_ok off n : (n = 0 \/ off + n <= lenN l) -> slice off n (l ++ t) = slice off n l.
Proof. intros [->|H]; [now rewrite !slice_zero|now apply slice_in]. Qed.
Lemma jump_mono {A B} z (k : N -> option A) (k' : N -> option B) x y :
  jump limit z k = Some x -> (forall p, k p = Some x -> k' p = y) -> jump limit z k' = y.
Proof. unfold jump. destruct (_ && _)%bool; [auto|discriminate]. Qed.
Lemma after_some {A} (x : A) r v : after x r = Some v -> exists w, r = Some w /\ v = x :: w.
Proof. destruct r as [w|]; cbn; intros; [injection H as <-; eauto|discriminate]. Qed.

Ltac step :=
  match goal with
  | H : have l _ _ _ = Some _ |- _ => apply have_some in H; destruct H as [H ?]
  | |- have (l ++ t) _ _ _ = _ => rewrite have_ok by (auto; lia)
  | |- context [slice ?o ?n (l ++ t)] => rewrite (slice_ok o n) by (auto; lia)
  | H : jump limit _ _ = Some _ |- jump limit _ _ = _ => apply (jump_mono _ _ _ _ _ H); clear H; intros ? H; cbv beta in *
  | H : after _ _ = Some _ |- _ => apply after_some in H; destruct H as (? & H & ->)
  end.

Lemma rm_walk_app : forall n pos v, rm_walk l limit n pos = Some v -> rm_walk (l ++ t) limit n pos = Some v.
Proof.
  induction n as [|n IH]; intros pos v H; [exact H|]. cbn [rm_walk] in *. cbv zeta in *.
  step. step. step.
  assert (K : forall m w, jump limit (Z.of_N (pos + be_val (slice (pos + 4) 4 l))) (fun p => after m (rm_walk l limit n p)) = Some w ->
    jump limit (Z.of_N (pos + be_val (slice (pos + 4) 4 (l ++ t)))) (fun p => after m (rm_walk (l ++ t) limit n p)) = Some w).
  { intros m w K. step. step. step. rewrite (IH _ _ K). reflexivity. }
  destruct (beqb _ _); [|now apply K].
  unfold u8_at in *. repeat step. now rewrite (IH _ _ H).
Qed.
Lemma rm_result_app f : rm_result l limit = Some f -> rm_result (l ++ t) limit = Some f.
Proof.
  unfold rm_result. intros H. step. step. step.
  destruct (rm_walk l limit _ 18) eqn:E; [|discriminate]. now rewrite (rm_walk_app _ _ _ E).
Qed.

Lemma descriptors_app : forall n pos b, descriptors_walk l limit n pos = Some b ->
  descriptors_walk (l ++ t) limit n pos = Some b.
Proof.
  induction n as [|n IH]; intros pos v H; [exact H|]. cbn [descriptors_walk] in *. cbv zeta in *.
  do 3 step. do 3 step. destruct (bstarts_with _ _); [exact H|]. repeat step. now apply IH.
Qed.
Lemma asf_walk_app : forall n pos v, asf_walk l limit n pos = Some v -> asf_walk (l ++ t) limit n pos = Some v.
Proof.
  induction n as [|n IH]; intros pos v H; [exact H|]. cbn [asf_walk] in *. cbv zeta in *.
  do 4 step. destruct (beqb _ _).
  { repeat step. now rewrite (IH _ _ H). }
  destruct (beqb _ _).
  { do 3 step. destruct (descriptors_walk l _ _ _) as [b|] eqn:E; [|discriminate].
    rewrite (descriptors_app _ _ _ E). destruct b; [exact H|]. repeat step. now rewrite (IH _ _ H). }
  repeat step. now rewrite (IH _ _ H).
Qed.
Lemma asf_result_app f : asf_result l limit = Some f -> asf_result (l ++ t) limit = Some f.
Proof.
  unfold asf_result. intros H. do 4 step.
  destruct (asf_walk l limit _ _) eqn:E; [|discriminate]. now rewrite (asf_walk_app _ _ _ E).
Qed.

(** MP4 and EBML stop at the end of the file: more may follow in the extension. *)
Definition extends {A} (v : list A) (r : option (list A)) : Prop := r = None \/ exists w, r = Some (v ++ w).
Lemma extends_after {A} (x : A) v r : extends v r -> extends (x :: v) (after x r).
Proof. intros [->|(w & ->)]; [now left|right; now exists w]. Qed.
Lemma extends_nil {A} (r : option (list A)) : extends [] r.
Proof. destruct r as [w|]; [right; now exists w|now left]. Qed.
Lemma jump_ext {A} z (k k' : N -> option (list A)) v :
  jump limit z k = Some v -> (forall p, k p = Some v -> extends v (k' p)) -> extends v (jump limit z k').
Proof. unfold jump. destruct (_ && _)%bool; [auto|discriminate]. Qed.
Lemma extends_same {A} (v : list A) : extends v (Some v).
Proof. right. exists []. now rewrite app_nil_r. Qed.
Ltac estep :=
  match goal with
  | H : have l _ _ _ = Some _ |- _ => apply have_some in H; destruct H as [H ?]
  | |- extends _ (have (l ++ t) _ _ _) => rewrite have_ok by (auto; lia)
  | |- context [slice ?o ?n (l ++ t)] => rewrite (slice_ok o n) by (auto; lia)
  | H : jump limit _ _ = Some _ |- extends _ (jump limit _ _) => apply (jump_ext _ _ _ _ H); clear H; intros ? H; cbv beta in *
  | H : after _ _ = Some _ |- _ => apply after_some in H; destruct H as (? & H & ->)
  end.

Lemma mp4_walk_app : forall n pos v, mp4_walk l limit n pos = Some v -> extends v (mp4_walk (l ++ t) limit n pos).
Proof.
  induction n as [|n IH]; intros pos v H; [injection H as <-; apply extends_nil|].
  cbn [mp4_walk] in H. destruct (N.leb_spec (lenN l) pos) as [Hp|Hp]; [injection H as <-; apply extends_nil|].
  cbn [mp4_walk]. rewrite lenN_app'. destruct (N.leb_spec (lenN l + lenN t) pos) as [Hp'|Hp']; [lia|].
  cbv zeta in *. estep. estep. rewrite !slice_ok by (auto; lia).
  assert (K : forall kind body size w,
    (if is_kind kind node_kinds then after None (mp4_walk l limit n body)
     else if beqb kind (bs "hdlr") then
       have l (body + 8) 4 (jump limit (Z.of_N body + 12 + signed64 (Z.of_N size - 20))
         (fun p => after (Some (slice (body + 8) 4 l)) (mp4_walk l limit n p)))
     else jump limit (Z.of_N body + signed64 (Z.of_N size - 8)) (fun p => after None (mp4_walk l limit n p))) = Some w ->
    extends w (if is_kind kind node_kinds then after None (mp4_walk (l ++ t) limit n body)
     else if beqb kind (bs "hdlr") then
       have (l ++ t) (body + 8) 4 (jump limit (Z.of_N body + 12 + signed64 (Z.of_N size - 20))
         (fun p => after (Some (slice (body + 8) 4 (l ++ t))) (mp4_walk (l ++ t) limit n p)))
     else jump limit (Z.of_N body + signed64 (Z.of_N size - 8)) (fun p => after None (mp4_walk (l ++ t) limit n p)))).
  { clear H. intros kind body size w K. destruct (is_kind _ _).
    { estep. now apply extends_after, IH. }
    destruct (beqb _ _); repeat estep; now apply extends_after, IH. }
  destruct (N.eqb_spec (be_val (slice pos 4 l)) 1).
  - estep. estep. rewrite !slice_ok by (auto; lia). now apply K.
  - now apply K.
Qed.

Lemma ebml_walk_app bits : forall n pos v, ebml_walk l limit bits n pos = Some v ->
  extends v (ebml_walk (l ++ t) limit bits n pos).
Proof.
  induction n as [|n IH]; intros pos v H; [injection H as <-; apply extends_nil|].
  cbn [ebml_walk] in H. destruct (N.leb_spec (lenN l) pos) as [Hp|Hp]; [injection H as <-; apply extends_nil|].
  cbn [ebml_walk]. rewrite lenN_app'. destruct (N.leb_spec (lenN l + lenN t) pos) as [Hp'|Hp']; [lia|].
  unfold id_at, size_at, u8_at in *. cbv zeta in *.
  repeat estep. destruct (vint_width _) as [w|]; [|discriminate]. destruct (w <=? 4); [|discriminate].
  repeat estep. set (p := pos + w) in *. set (id := be_val (slice pos w l)) in *.
  repeat estep. destruct (vint_width _) as [w'|]; [|discriminate].
  repeat estep. set (q := p + w') in *. set (size := be_val (slice p w' l) mod 2 ^ (7 * w')) in *.
  destruct (existsb _ _). { estep. now apply extends_after, IH. }
  destruct (id =? ID_DocType).
  { repeat estep. destruct (bstarts_with _ _).
    - repeat estep. now apply extends_after, IH.
    - injection H as <-. apply extends_same. }
  destruct (id =? ID_CodecID). { repeat estep. now apply extends_after, IH. }
  destruct (id =? ID_StereoMode).
  { repeat estep. destruct (0 <? _); [injection H as <-; apply extends_same|].
    estep. now apply extends_after, IH. }
  destruct (id =? ID_Cluster); [injection H as <-; apply extends_same|].
  repeat estep. now apply extends_after, IH.
Qed.

(** Once the walk through an EBML file has stopped for good, it does not see what follows. *)
Definition stops (e : event) : bool :=
  match e with EvCluster => true | _ => match decisive e with Some _ => true | None => false end end.
Lemma matroska_not_webm name : bstarts_with name (bs "matroska") = true -> stops (EvDocType name) = false.
Proof.
  intros H. unfold stops, decisive. rewrite H.
  destruct (bstarts_with name (bs "webm")) eqn:E; [|reflexivity].
  apply bstarts_with_iff in H. apply bstarts_with_iff in E. destruct H as (r & ->), E as (r' & E). discriminate E.
Qed.
Lemma ebml_walk_final bits : forall n pos v, ebml_walk l limit bits n pos = Some v -> existsb stops v = true ->
  ebml_walk (l ++ t) limit bits n pos = Some v.
Proof.
  induction n as [|n IH]; intros pos v H Hs; [injection H as <-; discriminate|].
  cbn [ebml_walk] in H. destruct (N.leb_spec (lenN l) pos) as [Hp|Hp]; [injection H as <-; discriminate|].
  cbn [ebml_walk]. rewrite lenN_app'. destruct (N.leb_spec (lenN l + lenN t) pos) as [Hp'|Hp']; [lia|].
  unfold id_at, size_at, u8_at in *. cbv zeta in *.
  do 3 step. destruct (vint_width _) as [w|]; [|discriminate]. destruct (w <=? 4); [|discriminate].
  repeat step. destruct (vint_width _) as [w'|]; [|discriminate].
  repeat step. set (p := pos + w) in *. set (id := be_val (slice pos w l)) in *. set (q := p + w') in *. set (size := be_val (slice p w' l) mod 2 ^ (7 * w')) in *.
  destruct (existsb (N.eqb id) _). { step. cbn [existsb stops decisive orb] in Hs. now rewrite (IH _ _ H Hs). }
  destruct (id =? ID_DocType).
  { repeat step. destruct (bstarts_with _ (bs "matroska")) eqn:Em; [|exact H].
    repeat step. cbn [existsb] in Hs. rewrite (matroska_not_webm _ Em) in Hs. now rewrite (IH _ _ H Hs). }
  destruct (id =? ID_CodecID).
  { repeat step. cbn [existsb stops decisive orb] in Hs. now rewrite (IH _ _ H Hs). }
  destruct (id =? ID_StereoMode).
  { repeat step. destruct (0 <? _); [exact H|]. step. cbn [existsb stops decisive orb] in Hs.
    change (0 <? 0) with false in Hs. now rewrite (IH _ _ H Hs). }
  destruct (id =? ID_Cluster); [exact H|].
  repeat step. cbn [existsb stops decisive orb] in Hs. now rewrite (IH _ _ H Hs).
Qed.
Lemma first_decisive_stops v f : first_decisive (before_cluster v) = Some f -> existsb stops v = true.
Proof.
  induction v as [|e v IH]; [discriminate|]. cbn [existsb]. unfold stops at 1. destruct e; cbn [before_cluster first_decisive];
    try (destruct (decisive _) eqn:E; [reflexivity|]; exact IH); reflexivity.
Qed.
Lemma has_handler_app h a b : has_handler h a = true -> has_handler h (a ++ b) = true.
Proof. unfold has_handler. rewrite existsb_app. intros ->. reflexivity. Qed.

(** ID3v2 *)
Lemma id3_class_app a r f : id3_class a (Some f) -> id3_class (a ++ r) (Some f).
Proof. clear limit.
  assert (Hl : 10 <= lenN a -> 10 <= lenN (a ++ r)) by (rewrite lenN_app'; lia).
  assert (L : 10 <= lenN a -> exists x1 x2 x3 x4 a', a = x1 :: x2 :: x3 :: x4 :: a').
  { intros H. destruct a as [|x1 [|x2 [|x3 [|x4 a']]]]; try (exfalso; revert H; vm_compute; congruence). now exists x1, x2, x3, x4, a'. }
  intros H. inversion H as [|K1 (s & E)|K1 (b & s & E & K)|K1 K2 K3]; subst.
  - apply id3_flac; auto. exists (s ++ r). now rewrite app_assoc.
  - apply id3_mp3; auto. exists b, (s ++ r). split; [reflexivity|exact K].
  - destruct (L K1) as (x1 & x2 & x3 & x4 & a' & E). subst a. apply id3_other; auto.
    + intros (s & E). apply K2. cbn in E. injection E as -> -> -> -> E. now exists a'.
    + intros (b & s & E & K). apply K3. injection E as -> -> E. exists b, (x3 :: x4 :: a'). auto.
Qed.
Lemma id3_walk_app : forall pos r, id3_walk l limit pos r -> forall f, r = Some f ->
  id3_walk (l ++ t) limit pos (Some f).
Proof.
  assert (Hl : forall p n, p + n <= lenN l -> p + n <= lenN (l ++ t)) by (intros; rewrite lenN_app'; lia).
  induction 1 as [| |pos f0 H1 H2 H3|pos r H1 H2 H3 H4 H5 IH|pos r H1 H2 H3 H4 H5 IH|];
    intros f E; try discriminate.
  - injection E as ->.
    assert (Hp : pos + 10 <= lenN l) by (inversion H3 as [|K|K|K]; rewrite lenN_dropN in K; lia).
    apply id3_audio; [exact H1|rewrite slice_in by lia; exact H2|].
    rewrite dropN_app. now apply id3_class_app.
  - apply id3_tag_plain; unfold synchsafe_at, u8_at in *; auto; try (rewrite slice_in by lia; assumption).
    rewrite !slice_in by lia. now apply IH.
  - apply id3_tag_extended; unfold synchsafe_at, u8_at in *; auto; try (rewrite slice_in by lia; assumption).
    rewrite !slice_in by lia. now apply IH.
Qed.

(** Executables *)
Lemma exe_class_app f : exe_class l = Some f -> f <> MsDosExecutable -> exe_class (l ++ t) = Some f.
Proof. clear limit.
  unfold exe_class. rewrite !lenN_app'. cbv zeta.
  destruct (N.ltb_spec (lenN l) 64); [discriminate|].
  destruct (N.ltb_spec (lenN l + lenN t) 64); [lia|]. rewrite (slice_in 60) by lia.
  set (off := le_val (slice 60 4 l)).
  destruct (N.leb_spec (lenN l) (off + 4)); [intros E K; congruence|].
  destruct (N.leb_spec (lenN l + lenN t) (off + 4)); [lia|]. rewrite !(slice_in off) by lia.
  destruct (beqb _ _); [|auto].
  destruct (N.ltb_spec (lenN l) (off + 24)); [discriminate|].
  destruct (N.ltb_spec (lenN l + lenN t) (off + 24)); [lia|]. now rewrite slice_in by lia.
Qed.

(** Compound files *)
Lemma cfb_class_app f : cfb_class l (Some f) -> cfb_class (l ++ t) (Some f).
Proof. clear limit.
  assert (Hd : forall b, 96 <= b -> cfb_directory l + b <= lenN l -> cfb_directory (l ++ t) = cfb_directory l).
  { intros b Hb H. unfold cfb_directory in *. cbv zeta in *. 
    assert (512 <= lenN l) by (destruct (_ =? 3); lia). now rewrite !slice_in by lia. }
  pose proof (lenN_app' l t) as Hl.
  intros H. inversion H as [| |f0 K1 K2 K3| |K1 K2 K3| |K1 K2 K3 K4|K1 K2 K3 K4]; subst.
  - apply cfb_known; rewrite ?(Hd 96) by lia; try lia. now rewrite slice_in by lia.
  - apply cfb_works; rewrite ?(Hd 192) by lia; try lia; now rewrite slice_in by lia.
  - apply cfb_works6; rewrite ?(Hd 320) by lia; try lia; now rewrite slice_in by lia.
  - apply cfb_other; rewrite ?(Hd 320) by lia; try lia; now rewrite slice_in by lia.
Qed.

(** Markers *)
Lemma occurs_window m off n : occurs m (slice off n l) -> occurs m (slice off n (l ++ t)).
Proof. clear limit.
  unfold slice. rewrite dropN_app, takeN_app. intros (a & b & E). rewrite E.
  exists a. eexists. rewrite <- !app_assoc. reflexivity.
Qed.
End Append.
