(** UTF-8 decoding and the text reader. *)
From Coq Require Import NArith ZArith Bool String List Lia ZifyBool ZifyNat ZifyN.
From Verif Require Import Base BaseProofs IO Utf8 Mem IOProofs Spec SpecText.
Local Open Scope N_scope.
Ltac Zify.zify_post_hook ::= Z.div_mod_to_equations.

Lemma bval_byteN n : n < 256 -> bval (byteN n) = n.
Proof.
  intros H. unfold byteN, bval. destruct (Byte.of_N n) as [b|] eqn:E.
  - apply Byte.to_of_N. exact E.
  - apply Byte.of_N_None_iff in E. lia.
Qed.
Lemma byteN_bval b : byteN (bval b) = b.
Proof. unfold byteN, bval. now rewrite Byte.of_to_N. Qed.
Lemma bval_inj a b : bval a = bval b -> a = b.
Proof. intros H. now rewrite <- (byteN_bval a), H, byteN_bval. Qed.
Lemma byteN_eq b n : bval b = n -> byteN n = b.
Proof. intros <-. apply byteN_bval. Qed.

Lemma encode_nonempty c : utf8_encode c <> [].
Proof. unfold utf8_encode. repeat destruct (_ <? _); discriminate. Qed.

Lemma encode_ascii c : c < 128 -> utf8_encode c = [byteN c].
Proof. intros H. unfold utf8_encode. now replace (c <? 128) with true by lia. Qed.
Lemma encode_high c b : 128 <= c -> scalar c -> In b (utf8_encode c) -> 128 <= bval b.
Proof.
  intros H Hs Hin. unfold scalar in Hs. unfold utf8_encode in Hin.
  replace (c <? 128) with false in Hin by lia.
  destruct (c <? 2048) eqn:E1; [|destruct (c <? 65536) eqn:E2]; cbn [In] in Hin;
    repeat match goal with H : _ \/ _ |- _ => destruct H as [H|H] end; try contradiction;
    subst b; rewrite bval_byteN; lia.
Qed.

Ltac rng := unfold second_ok, is_cont, in_range in *.
Ltac bb := repeat match goal with b : byte |- _ =>
  lazymatch goal with H : bval b < 256 |- _ => fail | _ => pose proof (bval_lt b) end end.

Lemma utf8_next_sound l c r : utf8_next l = Some (Some c, r) ->
  scalar c /\ l = utf8_encode c ++ r.
Proof.
  unfold utf8_next, scalar.
  destruct l as [|b0 r0]; [discriminate|].
  destruct (bval b0 <? 128) eqn:E0.
  { intros [= <- <-]. split; [lia|]. rewrite encode_ascii by lia. now rewrite byteN_bval. }
  destruct (in_range 194 223 (bval b0)) eqn:E1.
  { destruct r0 as [|b1 r1]; [discriminate|]. destruct (is_cont (bval b1)) eqn:E2; [|discriminate].
    intros [= <- <-]. rng. split; [lia|]. unfold utf8_encode.
    remember ((bval b0 - 192) * 64 + (bval b1 - 128)) as c eqn:Hcdef.
    replace (c <? 128) with false by lia. replace (c <? 2048) with true by lia.
    rewrite (byteN_eq b0), (byteN_eq b1) by lia. reflexivity. }
  destruct (in_range 224 239 (bval b0)) eqn:E2.
  { destruct r0 as [|b1 r1]; [discriminate|].
    destruct (second_ok (bval b0) (bval b1)) eqn:E3; [|discriminate].
    destruct r1 as [|b2 r2]; [discriminate|].
    destruct (is_cont (bval b2)) eqn:E4; [|discriminate].
    intros [= <- <-]. rng. 
    remember ((bval b0 - 224) * 4096 + (bval b1 - 128) * 64 + (bval b2 - 128)) as c eqn:Hcdef.
    assert (Hc : 128 <= bval b1 <= 191) by (destruct (bval b0 =? 224), (bval b0 =? 237),
       (bval b0 =? 240), (bval b0 =? 244); lia).
    assert (Hc2 : 2048 <= c) by (destruct (bval b0 =? 224) eqn:?; [lia|]; lia).
    assert (Hc3 : c < 55296 \/ 57344 <= c) by (destruct (bval b0 =? 224) eqn:?; [lia|];
       destruct (bval b0 =? 237) eqn:?; lia).
    split; [lia|]. unfold utf8_encode.
    replace (c <? 128) with false by lia. replace (c <? 2048) with false by lia.
    replace (c <? 65536) with true by lia.
    rewrite (byteN_eq b0), (byteN_eq b1), (byteN_eq b2) by lia. reflexivity. }
  destruct (in_range 240 244 (bval b0)) eqn:E3; [|discriminate].
  destruct r0 as [|b1 r1]; [discriminate|].
  destruct (second_ok (bval b0) (bval b1)) eqn:E4; [|discriminate].
  destruct r1 as [|b2 r2]; [discriminate|].
  destruct (is_cont (bval b2)) eqn:E5; [|discriminate].
  destruct r2 as [|b3 r3]; [discriminate|].
  destruct (is_cont (bval b3)) eqn:E6; [|discriminate].
  intros [= <- <-]. rng.
  remember ((bval b0 - 240) * 262144 + (bval b1 - 128) * 4096 + (bval b2 - 128) * 64 + (bval b3 - 128)) as c eqn:Hcdef.
  assert (Hc : 128 <= bval b1 <= 191) by (destruct (bval b0 =? 224), (bval b0 =? 237),
       (bval b0 =? 240), (bval b0 =? 244); lia).
  assert (Hc2 : 65536 <= c < 1114112).
  { destruct (bval b0 =? 224) eqn:?; [lia|]. destruct (bval b0 =? 237) eqn:?; [lia|].
    destruct (bval b0 =? 240) eqn:?; [lia|]. destruct (bval b0 =? 244) eqn:?; lia. }
  split; [lia|]. unfold utf8_encode.
  replace (c <? 128) with false by lia. replace (c <? 2048) with false by lia.
  replace (c <? 65536) with false by lia.
  rewrite (byteN_eq b0), (byteN_eq b1), (byteN_eq b2), (byteN_eq b3) by lia. reflexivity.
Qed.

Lemma utf8_next_complete c r : scalar c -> utf8_next (utf8_encode c ++ r) = Some (Some c, r).
Proof.
  unfold scalar, utf8_encode. intros Hs.
  destruct (c <? 128) eqn:E1.
  { cbn [app utf8_next]. rewrite bval_byteN by lia. now rewrite E1. }
  destruct (c <? 2048) eqn:E2.
  { cbn [app utf8_next]. rewrite !bval_byteN by lia.
    replace (192 + c / 64 <? 128) with false by lia.
    replace (in_range 194 223 (192 + c / 64)) with true by (rng; lia).
    replace (is_cont (128 + c mod 64)) with true by (rng; lia).
    do 3 f_equal. lia. }
  destruct (c <? 65536) eqn:E3.
  { cbn [app utf8_next]. rewrite !bval_byteN by lia.
    replace (224 + c / 4096 <? 128) with false by lia.
    replace (in_range 194 223 (224 + c / 4096)) with false by (rng; lia).
    replace (in_range 224 239 (224 + c / 4096)) with true by (rng; lia).
    replace (second_ok (224 + c / 4096) (128 + (c / 64) mod 64)) with true.
    2:{ rng. destruct (224 + c / 4096 =? 224) eqn:?; [lia|].
        destruct (224 + c / 4096 =? 237) eqn:?; [lia|].
        destruct (224 + c / 4096 =? 240) eqn:?; [lia|].
        destruct (224 + c / 4096 =? 244) eqn:?; lia. }
    replace (is_cont (128 + c mod 64)) with true by (rng; lia).
    do 3 f_equal. lia. }
  cbn [app utf8_next]. rewrite !bval_byteN by lia.
  replace (240 + c / 262144 <? 128) with false by lia.
  replace (in_range 194 223 (240 + c / 262144)) with false by (rng; lia).
  replace (in_range 224 239 (240 + c / 262144)) with false by (rng; lia).
  replace (in_range 240 244 (240 + c / 262144)) with true by (rng; lia).
  replace (second_ok (240 + c / 262144) (128 + (c / 4096) mod 64)) with true.
  2:{ rng. destruct (240 + c / 262144 =? 224) eqn:?; [lia|].
      destruct (240 + c / 262144 =? 237) eqn:?; [lia|].
      destruct (240 + c / 262144 =? 240) eqn:?; [lia|].
      destruct (240 + c / 262144 =? 244) eqn:?; lia. }
  replace (is_cont (128 + (c / 64) mod 64)) with true by (rng; lia).
  replace (is_cont (128 + c mod 64)) with true by (rng; lia).
  do 3 f_equal. lia.
Qed.

Lemma utf8_next_len l x r : utf8_next l = Some (x, r) -> (List.length r < List.length l)%nat.
Proof.
  unfold utf8_next. destruct l as [|b0 r0]; [discriminate|].
  repeat match goal with
  | |- context [if ?b then _ else _] => destruct b
  | |- context [match ?l with [] => _ | _ :: _ => _ end] => destruct l
  end; intros [= <- <-]; cbn [List.length]; lia.
Qed.
Lemma utf8_next_none l : utf8_next l = None <-> l = [].
Proof.
  split; [|intros ->; reflexivity]. unfold utf8_next. destruct l as [|b0 r0]; [reflexivity|].
  repeat match goal with
  | |- context [if ?b then _ else _] => destruct b
  | |- context [match ?l with [] => _ | _ :: _ => _ end] => destruct l
  end; discriminate.
Qed.

Lemma utf8_strict_fuel_spec : forall fuel l cs, (List.length l <= fuel)%nat ->
  utf8_strict_fuel fuel l = Some cs <-> Forall scalar cs /\ l = flat_map utf8_encode cs.
Proof.
  induction fuel as [|fuel IH]; intros l cs Hf.
  - destruct l; [|cbn in Hf; lia]. cbn. split.
    + intros [= <-]. auto.
    + intros [_ H]. destruct cs as [|c cs]; [reflexivity|]. cbn in H.
      pose proof (encode_nonempty c). destruct (utf8_encode c); [contradiction|discriminate].
  - cbn [utf8_strict_fuel]. destruct (utf8_next l) as [[[c|] r]|] eqn:E.
    + pose proof (utf8_next_len _ _ _ E) as Hl. apply utf8_next_sound in E. destruct E as [Hs ->].
      split.
      * destruct (utf8_strict_fuel fuel r) as [cs'|] eqn:E'; [|discriminate]. intros [= <-].
        apply IH in E'; [|lia]. destruct E' as [H1 H2]. split; [now constructor|]. cbn. congruence.
      * intros [H1 H2]. destruct cs as [|c' cs'].
        { cbn in H2. pose proof (encode_nonempty c). destruct (utf8_encode c); [contradiction|discriminate]. }
        cbn in H2. inversion H1; subst.
        pose proof (utf8_next_complete c r Hs) as E1. rewrite H2, utf8_next_complete in E1 by assumption.
        injection E1 as -> <-.
        assert (E' : utf8_strict_fuel fuel (flat_map utf8_encode cs') = Some cs').
        { apply IH; [|auto]. lia. }
        rewrite E'. reflexivity.
    + split; [discriminate|]. intros [H1 H2]. destruct cs as [|c cs].
      * subst. discriminate.
      * inversion H1; subst. cbn [flat_map] in E. rewrite utf8_next_complete in E by assumption.
        discriminate.
    + apply utf8_next_none in E. subst. split.
      * intros [= <-]. auto.
      * intros [_ H]. destruct cs as [|c cs]; [reflexivity|]. cbn in H.
        pose proof (encode_nonempty c). destruct (utf8_encode c); [contradiction|discriminate].
Qed.
Lemma utf8_strict_spec l cs :
  utf8_strict l = Some cs <-> Forall scalar cs /\ l = flat_map utf8_encode cs.
Proof. apply utf8_strict_fuel_spec. lia. Qed.

(** ** Lossy decoding and ASCII patterns *)

Lemma utf8_lossy_fuel_more : forall n m l, (List.length l <= n)%nat -> (List.length l <= m)%nat ->
  utf8_lossy_fuel n l = utf8_lossy_fuel m l.
Proof.
  induction n as [|n IH]; intros m l Hn Hm.
  - destruct l; [|cbn in Hn; lia]. destruct m; reflexivity.
  - destruct m as [|m].
    + destruct l; [reflexivity|cbn in Hm; lia].
    + cbn [utf8_lossy_fuel]. destruct (utf8_next l) as [[[c|] r]|] eqn:E; [| |reflexivity];
        apply utf8_next_len in E; f_equal; apply IH; lia.
Qed.
Lemma utf8_lossy_step l : utf8_lossy l =
  match utf8_next l with
  | None => []
  | Some (Some c, r) => c :: utf8_lossy r
  | Some (None, r) => 65533 :: utf8_lossy r
  end.
Proof.
  unfold utf8_lossy. destruct (List.length l) as [|n] eqn:El.
  - destruct l; [reflexivity|discriminate].
  - cbn [utf8_lossy_fuel]. destruct (utf8_next l) as [[[c|] r]|] eqn:E; [| |reflexivity];
      apply utf8_next_len in E; f_equal; apply utf8_lossy_fuel_more; lia.
Qed.

Lemma utf8_next_ascii b r : bval b < 128 -> utf8_next (b :: r) = Some (Some (bval b), r).
Proof. intros H. cbn [utf8_next]. now replace (bval b <? 128) with true by lia. Qed.
Lemma utf8_lossy_ascii b r : bval b < 128 -> utf8_lossy (b :: r) = bval b :: utf8_lossy r.
Proof. intros H. rewrite utf8_lossy_step, utf8_next_ascii by exact H. reflexivity. Qed.

(** An ASCII byte always starts a new character. *)
Lemma utf8_next_app l a r : l <> [] -> bval a < 128 ->
  utf8_next (l ++ a :: r) =
  match utf8_next l with Some (x, t) => Some (x, t ++ a :: r) | None => None end.
Proof.
  intros Hl Ha. destruct l as [|b0 r0]; [contradiction|]. cbn [app utf8_next].
  assert (Hc : is_cont (bval a) = false) by (rng; lia).
  assert (Hs : forall n, second_ok n (bval a) = false).
  { intros n. rng. repeat destruct (_ =? _); lia. }
  repeat first
    [ progress cbn [app] | rewrite Hc | rewrite Hs
    | match goal with
      | |- context [if ?b then _ else _] => destruct b
      | |- context [match ?l ++ a :: r with _ => _ end] => destruct l
      end ]; reflexivity.
Qed.
Lemma utf8_lossy_app l a r : bval a < 128 ->
  utf8_lossy (l ++ a :: r) = utf8_lossy l ++ bval a :: utf8_lossy r.
Proof.
  intros Ha. remember (List.length l) as n eqn:En.
  revert l En. induction n as [n IH] using lt_wf_ind. intros l En.
  destruct l as [|b l0]; [cbn [app]; now rewrite utf8_lossy_ascii|].
  set (l := b :: l0) in *.
  rewrite utf8_lossy_step, utf8_next_app; [|discriminate|exact Ha].
  rewrite (utf8_lossy_step l).
  destruct (utf8_next l) as [[[c|] t]|] eqn:E.
  - pose proof (utf8_next_len _ _ _ E). cbn [app]. f_equal. apply (IH (List.length t)); [lia|reflexivity].
  - pose proof (utf8_next_len _ _ _ E). cbn [app]. f_equal. apply (IH (List.length t)); [lia|reflexivity].
  - apply utf8_next_none in E. discriminate.
Qed.

Definition chars (p : bytes) : ustr := map bval p.
Lemma us_chars s : us s = chars (bs s).
Proof. reflexivity. Qed.

Lemma utf8_lossy_app_chars l p r : ascii_bytes p -> p <> [] ->
  utf8_lossy (l ++ p ++ r) = utf8_lossy l ++ chars p ++ utf8_lossy r.
Proof.
  intros Hp Hne. destruct p as [|a p]; [contradiction|]. inversion Hp as [|? ? Ha Hp']; subst.
  cbn [app chars map]. rewrite utf8_lossy_app by exact Ha. f_equal. f_equal. clear Hp Hne.
  induction Hp' as [|x p Hx Hp' IH]; [reflexivity|]. cbn [app map].
  rewrite utf8_lossy_ascii by exact Hx. f_equal. exact IH.
Qed.

Lemma utf8_lossy_cons l c t : utf8_lossy l = c :: t -> exists chunk r,
  l = chunk ++ r /\ utf8_lossy r = t /\ (c < 128 -> exists b, chunk = [b] /\ bval b = c).
Proof.
  rewrite utf8_lossy_step. destruct (utf8_next l) as [[[c'|] r]|] eqn:E; [| |discriminate].
  - intros [= <- <-]. apply utf8_next_sound in E. destruct E as [Hs ->].
    exists (utf8_encode c'), r. split; [reflexivity|]. split; [reflexivity|]. intros Hlt.
    rewrite encode_ascii by exact Hlt. exists (byteN c'). split; [reflexivity|].
    apply bval_byteN. lia.
  - intros [= <- <-].
    assert (exists chunk, l = chunk ++ r) as [chunk ->].
    { clear - E. revert E. unfold utf8_next. destruct l as [|b0 r0]; [discriminate|].
      destruct (bval b0 <? 128); [discriminate|].
      assert (H0 : exists chunk, b0 :: r0 = chunk ++ r0) by now exists [b0].
      assert (H1 : forall b1 r1, r0 = b1 :: r1 -> exists chunk, b0 :: r0 = chunk ++ r1)
        by (intros b1 r1 ->; now exists [b0; b1]).
      assert (H2 : forall b1 b2 r2, r0 = b1 :: b2 :: r2 -> exists chunk, b0 :: r0 = chunk ++ r2)
        by (intros b1 b2 r2 ->; now exists [b0; b1; b2]).
      repeat match goal with
      | |- context [if ?b then _ else _] => destruct b
      | |- context [match ?l with [] => _ | _ :: _ => _ end] => destruct l
      end; intros [= <-]; eauto. }
    exists chunk, r. split; [reflexivity|]. split; [reflexivity|]. lia.
Qed.

Lemma utf8_lossy_split x y : forall l, utf8_lossy l = x ++ y -> exists a b,
  l = a ++ b /\ utf8_lossy b = y.
Proof.
  induction x as [|c x IH]; intros l E.
  - exists [], l. auto.
  - cbn [app] in E. apply utf8_lossy_cons in E. destruct E as (chunk & r & -> & Er & _).
    destruct (IH r Er) as (a & b & -> & Hb). exists (chunk ++ a), b.
    now rewrite app_assoc.
Qed.
Lemma utf8_lossy_prefix p : ascii_bytes p -> forall l y, utf8_lossy l = chars p ++ y ->
  exists r, l = p ++ r /\ utf8_lossy r = y.
Proof.
  induction 1 as [|b p Hb Hp IH]; intros l y E.
  - exists l. auto.
  - cbn [chars map app] in E. apply utf8_lossy_cons in E. destruct E as (chunk & r & -> & Er & Hc).
    destruct (Hc Hb) as (b' & -> & Hb'). apply bval_inj in Hb'. subst b'.
    destruct (IH r y Er) as (r' & -> & Hr'). exists r'. auto.
Qed.
Lemma utf8_lossy_nil l : utf8_lossy l = [] -> l = [].
Proof.
  rewrite utf8_lossy_step. destruct (utf8_next l) as [[[c|] r]|] eqn:E; try discriminate.
  intros _. now apply utf8_next_none.
Qed.

(** *** The string methods in terms of the bytes *)

Lemma ustr_eqb_eq a : forall b, ustr_eqb a b = true <-> a = b.
Proof.
  induction a as [|x a IH]; intros [|y b]; cbn [ustr_eqb]; try (split; congruence).
  rewrite andb_true_iff, N.eqb_eq, IH. split; [intros [-> ->]; reflexivity|intros [= -> ->]; auto].
Qed.
Lemma ustarts_with_iff p : forall s, ustarts_with s p = true <-> exists r, s = p ++ r.
Proof.
  induction p as [|y p IH]; intros s; cbn [ustarts_with].
  - split; [intros _; now exists s|intros _; destruct s; reflexivity].
  - destruct s as [|x s]; [split; [discriminate|intros [r Hr]; discriminate]|].
    cbn [ustarts_with]. rewrite andb_true_iff, N.eqb_eq, IH. split.
    + intros [-> [r ->]]. now exists r.
    + intros [r [= -> ->]]. eauto.
Qed.
Lemma uends_with_iff s p : uends_with s p = true <-> exists r, s = r ++ p.
Proof.
  unfold uends_with. rewrite ustarts_with_iff. split; intros [r Hr].
  - exists (rev r). rewrite <- (rev_involutive s), Hr, rev_app_distr. now rewrite rev_involutive.
  - exists (rev r). now rewrite Hr, rev_app_distr.
Qed.
Lemma ucontains_iff p : forall s, ucontains s p = true <-> exists a b, s = a ++ p ++ b.
Proof.
  induction s as [|x s IH]; cbn [ucontains]; rewrite orb_true_iff, ustarts_with_iff.
  - split.
    + intros [[r Hr]|H]; [|discriminate]. exists [], r. exact Hr.
    + intros (a & b & E). left. destruct a; [|discriminate]. exists b. exact E.
  - rewrite IH. split.
    + intros [[r Hr]|(a & b & ->)]; [exists [], r; exact Hr|exists (x :: a), b; reflexivity].
    + intros ([|y a] & b & E); [left; exists b; exact E|]. injection E as -> ->. right. eauto.
Qed.

Lemma lossy_eq l p : ascii_bytes p -> utf8_lossy l = chars p <-> l = p.
Proof.
  intros Hp. split.
  - intros E. rewrite <- (app_nil_r (chars p)) in E.
    destruct (utf8_lossy_prefix p Hp l [] E) as (r & -> & Hr). apply utf8_lossy_nil in Hr.
    subst. apply app_nil_r.
  - intros ->. destruct p as [|a p]; [reflexivity|].
    pose proof (utf8_lossy_app_chars [] (a :: p) [] Hp ltac:(discriminate)) as E.
    rewrite app_nil_r in E. cbn [app] in E. rewrite E. cbn. now rewrite app_nil_r.
Qed.
Lemma lossy_starts l p : ascii_bytes p ->
  ustarts_with (utf8_lossy l) (chars p) = true <-> exists r, l = p ++ r.
Proof.
  intros Hp. rewrite ustarts_with_iff. split.
  - intros [y E]. destruct (utf8_lossy_prefix p Hp l y E) as (r & -> & _). eauto.
  - intros [r ->]. destruct p as [|a p]; [now exists (utf8_lossy r)|].
    exists (utf8_lossy r). exact (utf8_lossy_app_chars [] (a :: p) r Hp ltac:(discriminate)).
Qed.
Lemma lossy_ends l p : ascii_bytes p ->
  uends_with (utf8_lossy l) (chars p) = true <-> exists r, l = r ++ p.
Proof.
  intros Hp. rewrite uends_with_iff. split.
  - intros [x E]. destruct (utf8_lossy_split x (chars p) l E) as (a & b & -> & Hb).
    apply lossy_eq in Hb; [|exact Hp]. subst. eauto.
  - intros [r ->]. destruct p as [|a p]; [exists (utf8_lossy r); now rewrite !app_nil_r|].
    exists (utf8_lossy r). pose proof (utf8_lossy_app_chars r (a :: p) [] Hp ltac:(discriminate)) as E.
    rewrite app_nil_r in E. rewrite E. cbn. now rewrite app_nil_r.
Qed.
Lemma lossy_contains l p : ascii_bytes p ->
  ucontains (utf8_lossy l) (chars p) = true <-> occurs p l.
Proof.
  intros Hp. rewrite ucontains_iff. unfold occurs. split.
  - intros (x & y & E). destruct (utf8_lossy_split x _ l E) as (a & b & -> & Hb).
    destruct (utf8_lossy_prefix p Hp b y Hb) as (r & -> & _). eauto.
  - intros (a & b & ->). destruct p as [|q p].
    + exists [], (utf8_lossy (a ++ b)). reflexivity.
    + exists (utf8_lossy a), (utf8_lossy b). now apply utf8_lossy_app_chars.
Qed.
Lemma lossy_contains_char l b : bval b < 128 ->
  ucontains_char (utf8_lossy l) (bval b) = true <-> In b l.
Proof.
  intros Hb. assert (Hp : ascii_bytes [b]) by (constructor; auto).
  unfold ucontains_char. rewrite existsb_exists. split.
  - intros (c & Hin & E). apply N.eqb_eq in E. subst c. apply in_split in Hin.
    destruct Hin as (x & y & E). assert (Hc : occurs [b] l).
    { apply lossy_contains; [exact Hp|]. apply ucontains_iff. exists x, y. exact E. }
    destruct Hc as (pre & post & ->). apply in_or_app. right. now left.
  - intros Hin. apply in_split in Hin. destruct Hin as (x & y & ->).
    exists (bval b). split; [|apply N.eqb_refl]. rewrite utf8_lossy_app by exact Hb.
    apply in_or_app. right. now left.
Qed.
