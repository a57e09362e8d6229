(** C59: how much data from_reader takes from its reader. *)
From Coq Require Import NArith ZArith Bool String List Lia ZifyBool ZifyNat ZifyN.
From Verif Require Import Base BaseProofs Formats FormatsProofs Signatures IO Readers Lib Mem Documented Static
  ReaderStatic Spec SpecSig SpecText SpecApi LibProofs Ideal SigProofs Conf AnyReader SpecAny AnyProofs AnyReturn
  SpecVolume AnyVolume PropertiesApi PropertiesAny PropertiesReturn.
Ltac Zify.zify_post_hook ::= idtac.
Import ListNotations.
Local Open Scope N_scope.

(** ** The meter changes nothing *)
Section Same.
Context {S1 S2 : Type} (R : S1 -> S2 -> Prop).
Variables (rd1 : N -> S1 -> result bytes * S1) (sk1 : whence -> S1 -> result N * S1)
          (rd2 : N -> S2 -> result bytes * S2) (sk2 : whence -> S2 -> result N * S2) (fuel : nat).
Hypothesis Hrd : forall n s t, R s t -> sameop R (rd1 n s) (rd2 n t).
Hypothesis Hsk : forall w s t, R s t -> sameop R (sk1 w s) (sk2 w t).

Definition Rb (a : abuf S1) (b : abuf S2) : Prop := R (a_dev a) (a_dev b) /\ a_buf a = a_buf b.
Lemma fill_same a b : Rb a b -> sameop Rb (a_fill S1 rd1 a) (a_fill S2 rd2 b).
Proof.
  destruct a as [s l], b as [t l']. intros [HR E]. cbn [a_dev a_buf] in *. subst l'. unfold a_fill. cbn [a_buf a_dev].
  destruct l as [|b0 l]; [|repeat split; exact HR]. destruct (Hrd buf_capacity s t HR) as [H1 H2].
  destruct (rd1 buf_capacity s) as [r s'], (rd2 buf_capacity t) as [r2 t']. cbn [fst snd] in *. subst r2.
  destruct r; repeat split; exact H2.
Qed.
Lemma read_same n a b : Rb a b -> sameop Rb (a_read S1 rd1 n a) (a_read S2 rd2 n b).
Proof.
  intros H. pose proof (fill_same _ _ H) as [F1 F2]. destruct a as [s l], b as [t l']. destruct H as [HR E]. cbn [a_dev a_buf] in *. subst l'.
  unfold a_read. cbn [a_buf a_dev]. destruct l as [|b0 l]; [|repeat split; exact HR]. destruct (buf_capacity <=? n).
  - destruct (Hrd n s t HR) as [H1 H2]. destruct (rd1 n s) as [r s'], (rd2 n t) as [r2 t']. cbn [fst snd] in *. subst r2.
    repeat split; exact H2.
  - destruct (a_fill S1 rd1 (mkabuf s [])) as [r a'], (a_fill S2 rd2 (mkabuf t [])) as [r2 b']. cbn [fst snd] in *. subst r2.
    destruct r; repeat split; apply F2.
Qed.
Lemma until_same : forall f lim acc a b, Rb a b -> oneop Rb (a_until S1 rd1 f lim acc a) (a_until S2 rd2 f lim acc b).
Proof.
  induction f as [|f IH]; intros lim acc a b H; cbn [a_until]; (destruct (lim =? 0); [cbn; eauto|]); [exact I|].
  pose proof (fill_same _ _ H) as [F1 F2]. destruct (a_fill S1 rd1 a) as [r a'], (a_fill S2 rd2 b) as [r2 b'].
  cbn [fst snd] in *. subst r2. destruct r as [l|e].
  - cbv zeta. assert (Hd : forall k, Rb (mkabuf (a_dev a') (dropN k l)) (mkabuf (a_dev b') (dropN k l))) by (intros k; split; [apply F2|reflexivity]).
    destruct (split_lf _) as [[x y]|]; [cbn; eauto|]. destruct (takeN lim l) as [|b0 v]; [cbn; eauto|]. apply IH. apply Hd.
  - destruct e; first [apply IH; exact F2|cbn; eauto].
Qed.
Lemma seek_same w a b : Rb a b -> sameop Rb (a_seek S1 sk1 w a) (a_seek S2 sk2 w b).
Proof.
  destruct a as [s l], b as [t l']. intros [HR E]. cbn [a_dev a_buf] in *. subst l'. unfold a_seek. cbn [a_buf a_dev].
  assert (H1 : forall w, sameop Rb (match sk1 w s with (Ok p, d) => (Ok p, mkabuf d []) | (Err e, d) => (Err e, mkabuf d l) end)
     (match sk2 w t with (Ok p, d) => (@Ok N p, mkabuf d []) | (Err e, d) => (Err e, mkabuf d l) end)).
  { intros w'. destruct (Hsk w' s t HR) as [K1 K2]. destruct (sk1 w' s) as [r s'], (sk2 w' t) as [r2 t']. cbn [fst snd] in *. subst r2.
    destruct r; repeat split; exact K2. }
  destruct w as [n|z|z]; [apply H1| |apply H1]. destruct (i64_min <=? z - Z.of_N (lenN l))%Z; [apply H1|].
  destruct (Hsk (FromCurrent (- Z.of_N (lenN l))) s t HR) as [K1 K2].
  destruct (sk1 (FromCurrent (- Z.of_N (lenN l))) s) as [r s'], (sk2 (FromCurrent (- Z.of_N (lenN l))) t) as [r2 t']. cbn [fst snd] in *. subst r2.
  destruct r as [p|e]; [|repeat split; exact K2].
  destruct (Hsk (FromCurrent z) s' t' K2) as [K3 K4].
  destruct (sk1 (FromCurrent z) s') as [r s2], (sk2 (FromCurrent z) t') as [r2 t2]. cbn [fst snd] in *. subst r2. repeat split; exact K4.
Qed.
Lemma buf_same : msim Rb (a_buf_machine S1 rd1 sk1 fuel) (a_buf_machine S2 rd2 sk2 fuel).
Proof.
  split; cbn [a_buf_machine am_read am_read_exact am_read_line am_seek am_tell].
  - exact read_same.
  - intros n s t H. apply (exact_mono Rb); auto using read_same.
  - intros n s t H. now apply until_same.
  - exact seek_same.
  - intros [s l] [t l'] [HR E]. cbn [a_dev a_buf] in *. subst l'. unfold a_tell. cbn [a_dev a_buf].
    destruct (Hsk (FromCurrent 0) s t HR) as [K1 K2].
    destruct (sk1 (FromCurrent 0) s) as [r s'], (sk2 (FromCurrent 0) t) as [r2 t']. cbn [fst snd] in *. subst r2.
    destruct r as [p|e]; [destruct (p <? lenN l)|]; (eexists; split; [reflexivity|split; [exact K2|reflexivity]]).
Qed.
Lemma raw_same : msim R (a_raw_machine S1 rd1 sk1 fuel) (a_raw_machine S2 rd2 sk2 fuel).
Proof.
  split; cbn [a_raw_machine am_read am_read_exact am_read_line am_seek am_tell].
  - exact Hrd.
  - intros n s t H. now apply (exact_mono R).
  - intros n s t H. pose proof (until_same (fuel + N.to_nat n) n [] (mkabuf s []) (mkabuf t []) (conj H eq_refl)) as K.
    destruct (a_until S1 rd1 _ _ _ _) as [[r| |] u]; cbn [oneop] in *; auto; destruct K as (t' & -> & K & _); eauto.
  - exact Hsk.
  - intros s t H. destruct (Hsk (FromCurrent 0) s t H) as [K1 K2].
    destruct (sk1 (FromCurrent 0) s) as [r s'], (sk2 (FromCurrent 0) t) as [r2 t']. cbn [fst snd] in *. subst r2. cbn. eauto.
Qed.
Lemma run_same {A} x (p : prog A) s t : R s t -> oneop R (a_run rd1 sk1 fuel x p s) (a_run rd2 sk2 fuel x p t).
Proof.
  intros H. unfold a_run. destruct (buffered x).
  - unfold arun_buf. pose proof (arun_sim _ _ _ buf_same _ _ (ple_refl p) (mkabuf s []) (mkabuf t []) (conj H eq_refl)) as K.
    destruct (arun _ p (mkabuf s [])) as [[r| |] u]; cbn [oneop] in *; auto; destruct K as (t' & -> & K & _); eauto.
  - exact (arun_sim _ _ _ raw_same _ _ (ple_refl p) s t H).
Qed.
Lemma from_reader_same c s t : R s t -> oneop R (a_from_reader S1 rd1 sk1 fuel c s) (a_from_reader S2 rd2 sk2 fuel c t).
Proof.
  intros H. unfold a_from_reader. destruct (Hrd window s t H) as [K1 K2].
  destruct (rd1 window s) as [r s1], (rd2 window t) as [r2 t1]. cbn [fst snd] in *. subst r2.
  destruct r as [[|b l]|e]; [cbn; eauto| |cbn; eauto].
  assert (Hg : forall s2 t2, R s2 t2 -> oneop R
     match a_from_generic_reader S1 rd1 sk1 fuel c s2 with
     | (Done f0, s3) => (Done (Ok f0), s3) | (Panicked, s3) => (Panicked, s3) | (OutOfFuel, s3) => (OutOfFuel, s3) end
     match a_from_generic_reader S2 rd2 sk2 fuel c t2 with
     | (Done f0, s3) => (Done (@Ok FileFormat f0), s3) | (Panicked, s3) => (Panicked, s3) | (OutOfFuel, s3) => (OutOfFuel, s3) end).
  { intros s2 t2 H2. unfold a_from_generic_reader. destruct (feat c FTxt); [|cbn; eauto].
    pose proof (run_same FTxt from_txt_reader s2 t2 H2) as K. unfold a_run in K. cbn [buffered] in K.
    destruct (arun_buf S1 rd1 sk1 fuel from_txt_reader s2) as [[[r|e]| |] u]; cbn [oneop] in K; auto;
      destruct K as (t' & -> & K); cbn; eauto. }
  destruct (from_signature (b :: l)) as [f|]; [|now apply Hg]. rewrite !a_fmt_eq.
  destruct (feature_of f) as [x|]; [|cbn; eauto]. destruct (feat c x); [|cbn; eauto].
  pose proof (run_same x (reader_of c fuel x) s1 t1 K2) as K.
  destruct (a_run rd1 sk1 fuel x (reader_of c fuel x) s1) as [[[r|e]| |] u]; cbn [oneop] in K; auto;
    destruct K as (t' & -> & K); [cbn; eauto|now apply Hg|cbn; eauto].
Qed.
End Same.

Lemma metered_same {S} (rd : N -> S -> result bytes * S) n (s : S * N) t : fst s = t ->
  sameop (fun (s : S * N) t => fst s = t) (metered rd n s) (rd n t).
Proof. intros <-. unfold metered. destruct (rd n (fst s)) as [[l|e] s']; split; reflexivity. Qed.
Lemma metered_seek_same {S} (sk : whence -> S -> result N * S) w (s : S * N) t : fst s = t ->
  sameop (fun (s : S * N) t => fst s = t) (metered_seek sk w s) (sk w t).
Proof. intros <-. unfold metered_seek. destruct (sk w (fst s)) as [r s']; split; reflexivity. Qed.

(** from_reader cannot tell a reader with a meter from one without. *)
Theorem C59_meter_is_transparent : forall S (rd : N -> S -> result bytes * S) sk fuel (c : cfg) s k,
  fst (a_from_reader (S * N) (metered rd) (metered_seek sk) fuel c (s, k)) = fst (a_from_reader S rd sk fuel c s).
Proof.
  intros S rd sk fuel c s k.
  pose proof (from_reader_same (fun (s : S * N) t => fst s = t) _ _ _ _ fuel (metered_same rd) (metered_seek_same sk) c (s, k) s eq_refl) as H1.
  pose proof (from_reader_same (fun t (s : S * N) => fst s = t) rd sk (metered rd) (metered_seek sk) fuel
    ltac:(intros n a b Hab; destruct (metered_same rd n b a Hab) as [K1 K2]; split; [now symmetry|exact K2])
    ltac:(intros n a b Hab; destruct (metered_seek_same sk n b a Hab) as [K1 K2]; split; [now symmetry|exact K2]) c s (s, k) eq_refl) as H2.
  destruct (a_from_reader (S * N) (metered rd) (metered_seek sk) fuel c (s, k)) as [r1 t1], (a_from_reader S rd sk fuel c s) as [r2 t2].
  cbn [fst]. destruct r1 as [r1| |]; cbn [oneop] in H1; [destruct H1 as (t' & [= -> _] & _); reflexivity ..|].
  destruct r2 as [r2| |]; cbn [oneop] in H2; [destruct H2 as (t' & E & _); discriminate E ..|reflexivity].
Qed.
Print Assumptions C59_meter_is_transparent.

(** ** The bounds *)
Lemma meter_reads {S} (rd : N -> S -> result bytes * S) n s r s' : metered rd n s = (r, s') -> snd s' = snd s + used 0 r.
Proof. unfold metered. destruct (rd n (fst s)) as [[l|e] t]; intros [= <- <-]; cbn [snd used]; lia. Qed.
Lemma meter_seeks {S} (sk : whence -> S -> result N * S) w s r s' : metered_seek sk w s = (r, s') -> snd s' = snd s.
Proof. unfold metered_seek. destruct (sk w (fst s)) as [x t]; intros [= <- <-]; reflexivity. Qed.
Lemma meter_read_contract {S} (rd : N -> S -> result bytes * S) : read_contract rd -> read_contract (metered rd).
Proof.
  intros H n s l s'. unfold metered. destruct (rd n (fst s)) as [[x|e] t] eqn:E; intros [= <- <-]. now apply (H _ _ _ _ E).
Qed.
Lemma meter_seek_contract {S} (sk : whence -> S -> result N * S) : seek_contract sk -> seek_contract (metered_seek sk).
Proof.
  intros H w s p s'. unfold metered_seek. destruct (sk w (fst s)) as [x t] eqn:E; intros [= -> <-]. now apply (H _ _ _ _ E).
Qed.
Lemma takes_volume fuel x : x <> FId3v2 -> takes fuel x = volume x 0.
Proof. intros H. destruct x; try reflexivity. now contradiction H. Qed.
Lemma meter_chosen {S} (rd : N -> S -> result bytes * S) c s k : a_chosen (metered rd) c (s, k) = a_chosen rd c s.
Proof. unfold a_chosen, metered. cbn [fst]. destruct (rd window s) as [[l|e] t]; reflexivity. Qed.
Lemma volume_lemma S (rd : N -> S -> result bytes * S) sk fuel (c : cfg) s :
  read_contract rd -> seek_contract sk -> supported c ->
  snd (snd (a_from_reader (S * N) (metered rd) (metered_seek sk) fuel c (s, 0))) <=
  36870 + match a_chosen rd c s with Some x => takes fuel x | None => 0 end + volume FTxt 0.
Proof.
  intros H1 H2 Hc. rewrite <- (takes_volume fuel FTxt) by discriminate. rewrite <- (meter_chosen rd c s 0).
  exact (from_reader_vol (metered rd) (metered_seek sk) fuel (meter_read_contract rd H1) (meter_seek_contract sk H2) snd
    (meter_reads rd) (meter_seeks sk) c (s, 0) Hc).
Qed.

(** Whatever the reader does and however often it is asked: the bytes it has returned when from_reader stops.
    The first read takes at most 36870, the container reader [volume x], the text reader 81920. *)
Theorem C59_container_volume : forall S (rd : N -> S -> result bytes * S) sk fuel (c : cfg) s x buf,
  read_contract rd -> seek_contract sk -> supported c ->
  fst (rd 36870 s) = Ok buf -> first_match signatures buf (container x) -> x <> FTxt -> x <> FId3v2 -> feat c x = true ->
  snd (snd (a_from_reader (S * N) (metered rd) (metered_seek sk) fuel c (s, 0))) <= 36870 + volume x 0 + 81920.
Proof.
  intros S rd sk fuel c s x buf H1 H2 Hc Hr Hs Hx Hi Hf. pose proof (volume_lemma S rd sk fuel c s H1 H2 Hc) as H.
  unfold a_chosen in H. change window with 36870 in H. rewrite Hr in H. apply from_signature_some in Hs. rewrite Hs in H.
  assert (E : feature_of (container x) = Some x) by (apply feature_of_some; auto). rewrite E, Hf, takes_volume in H by exact Hi. exact H.
Qed.
Print Assumptions C59_container_volume.
(** Data without an enabled container. *)
Theorem C59_other_volume : forall S (rd : N -> S -> result bytes * S) sk fuel (c : cfg) s,
  read_contract rd -> seek_contract sk -> supported c ->
  (forall x buf, fst (rd 36870 s) = Ok buf -> first_match signatures buf (container x) -> x <> FTxt -> feat c x = false) ->
  snd (snd (a_from_reader (S * N) (metered rd) (metered_seek sk) fuel c (s, 0))) <= 36870 + 81920.
Proof.
  intros S rd sk fuel c s H1 H2 Hc Hn. pose proof (volume_lemma S rd sk fuel c s H1 H2 Hc) as H.
  assert (E : a_chosen rd c s = None).
  { unfold a_chosen. change window with 36870. destruct (fst (rd 36870 s)) as [buf|e] eqn:Eb; [|reflexivity].
    destruct (from_signature buf) as [f|] eqn:Es; [|reflexivity].
    destruct (feature_of f) as [x|] eqn:Ef; [|reflexivity]. apply feature_of_some in Ef as [-> Hx].
    rewrite (Hn x buf); auto. now apply from_signature_some. }
  rewrite E in H. exact H.
Qed.
Print Assumptions C59_other_volume.
(** Without the ID3v2 reader it is a constant, even for streams without end; 133 MiB without the ZIP reader. *)
Theorem C59_volume_is_constant : forall S (rd : N -> S -> result bytes * S) sk fuel (c : cfg) s,
  read_contract rd -> seek_contract sk -> supported c -> feat c FId3v2 = false ->
  snd (snd (a_from_reader (S * N) (metered rd) (metered_seek sk) fuel c (s, 0))) <= 4387525690 /\
  (feat c FZip = false -> snd (snd (a_from_reader (S * N) (metered rd) (metered_seek sk) fuel c (s, 0))) <= 139119114).
Proof.
  intros S rd sk fuel c s H1 H2 Hc Hi. pose proof (volume_lemma S rd sk fuel c s H1 H2 Hc) as H.
  assert (E : forall x, a_chosen rd c s = Some x -> feat c x = true).
  { intros x. unfold a_chosen. destruct (fst (rd window s)) as [buf|]; [|discriminate].
    destruct (from_signature buf) as [f|]; [|discriminate]. destruct (feature_of f) as [y|]; [|discriminate].
    destruct (feat c y) eqn:Ey; [|discriminate]. now intros [= <-]. }
  destruct (a_chosen rd c s) as [x|].
  - specialize (E x eq_refl). assert (x <> FId3v2) by congruence. rewrite takes_volume in H by assumption.
    destruct x; cbn [volume] in H; try congruence; split; intros; try lia; congruence.
  - cbn [volume] in H. split; intros; lia.
Qed.
Print Assumptions C59_volume_is_constant.
(** With it, at most fourteen times the length of the stream for ID3v2 data. *)
Theorem C59_id3v2_volume : forall S (rd : N -> S -> result bytes * S) sk position patience size fuel (c : cfg) s buf,
  read_contract rd -> seek_contract sk -> own_cursor rd sk position -> finite_stream rd sk position patience size ->
  size s < 2 ^ 63 -> supported c -> fst (rd 36870 s) = Ok buf -> first_match signatures buf (container FId3v2) ->
  snd (snd (a_from_reader (S * N) (metered rd) (metered_seek sk) fuel c (s, 0))) <=
  36870 + volume FId3v2 (size s + N.of_nat (patience s)) + 81920.
Proof.
  intros S rd sk position patience size fuel c s buf H1 H2 H3 H4 H5 Hc Hr Hs.
  set (n := (N.to_nat (size s) + patience s + 1)%nat).
  assert (Hsmall : forall f, (f <= n)%nat -> snd (snd (a_from_reader (S * N) (metered rd) (metered_seek sk) f c (s, 0))) <=
    36870 + volume FId3v2 (size s + N.of_nat (patience s)) + 81920).
  { intros f Hf. pose proof (volume_lemma S rd sk f c s H1 H2 Hc) as H.
    unfold a_chosen in H. change window with 36870 in H. rewrite Hr in H. apply from_signature_some in Hs. rewrite Hs in H.
    cbn [container feature_of] in H. cbn [volume] in *. destruct (feat c FId3v2); [|lia].
    change (takes f FId3v2) with (14 * (N.of_nat f + 1) + 4) in H. lia. }
  destruct (Nat.le_gt_cases fuel n) as [Hf|Hf]; [now apply Hsmall|].
  assert (Ho : own_cursor (metered rd) (metered_seek sk) (fun s => position (fst s))).
  { destruct H3 as [O1 O2 O3 O4 O5]. unfold metered, metered_seek. split.
    - intros k [t i] l s'. cbn [fst]. destruct (rd k t) as [[x|e] t'] eqn:E; intros [= <- <-]. exact (O1 _ _ _ _ E).
    - intros k [t i] e0 s'. cbn [fst]. destruct (rd k t) as [[x|e] t'] eqn:E; intros [= <- <-]. exact (O2 _ _ _ _ E).
    - intros w [t i] p s'. cbn [fst]. destruct (sk w t) as [x t'] eqn:E; intros [= -> <-]. exact (O3 _ _ _ _ E).
    - intros w [t i] e0 s'. cbn [fst]. destruct (sk w t) as [x t'] eqn:E; intros [= -> <-]. exact (O4 _ _ _ _ E).
    - intros [t i] p s'. cbn [fst]. destruct (sk (FromCurrent 0) t) as [x t'] eqn:E; intros [= -> <-]. exact (O5 _ _ _ E). }
  assert (Hfin : finite_stream (metered rd) (metered_seek sk) (fun s => position (fst s)) (fun s => patience (fst s)) (fun s => size (fst s))).
  { destruct H4 as [F1 F2 F3 F4 F5]. unfold metered, metered_seek. split.
    - intros k [t i] l s'. cbn [fst]. destruct (rd k t) as [[x|e] t'] eqn:E; intros [= <- <-]. exact (F1 _ _ _ _ E).
    - intros k [t i] r s'. cbn [fst]. destruct (rd k t) as [[x|e] t'] eqn:E; intros [= <- <-]; exact (F2 _ _ _ _ E).
    - intros k [t i] s'. cbn [fst]. destruct (rd k t) as [[x|e] t'] eqn:E; intros [= -> <-]. exact (F3 _ _ _ E).
    - intros w [t i] r s'. cbn [fst]. destruct (sk w t) as [x t'] eqn:E; intros [= -> <-]. exact (F4 _ _ _ _ E).
    - intros k [t i] p s'. cbn [fst]. destruct (sk (FromStart k) t) as [x t'] eqn:E; intros [= -> <-]. exact (F5 _ _ _ _ E). }
  destruct (C58_finite_streams_return (S * N) _ _ _ _ _ c (s, 0) (meter_read_contract rd H1) (meter_seek_contract sk H2) Ho Hfin H5 Hc)
    as (r & s' & _ & HF). cbn [fst] in HF. fold n in HF.
  rewrite (HF fuel) by lia. rewrite <- (HF n) by lia. apply Hsmall. lia.
Qed.
Print Assumptions C59_id3v2_volume.


(** An executable in a file: 76 bytes in the first read, then two words of four bytes; and ID3v2 data of 30 bytes
    with an interruption. *)
Example C59_witness :
  let l := bs "MZ" ++ repeat x00 58 ++ [x40; x00; x00; x00] ++ bs "NE" ++ repeat x00 10 in
  let tag := bs "ID3" ++ [x04] ++ repeat x00 6 in let i := tag ++ tag ++ bs "some text." in
  let r d := a_from_reader (racing * N) (metered r_read) (metered_seek r_seek) 100 cfg_all (d, 0) in
  let d1 := mkracing l 0 [] in let d2 := mkracing i 0 [Short 1000; Signal; Short 2] in
  read_contract r_read /\ seek_contract r_seek /\ own_cursor r_read r_seek r_pos /\
  finite_stream r_read r_seek r_pos (fun r => List.length (r_history r)) longest /\
  fst (r_read 36870 d1) = Ok l /\ first_match signatures l (container FExe) /\
  fst (r d1) = Done (Ok NewExecutable) /\ snd (snd (r d1)) = 84 /\
  fst (r_read 36870 d2) = Ok i /\ first_match signatures i (container FId3v2) /\
  fst (r d2) = Done (Ok Id3v2) /\ snd (snd (r d2)) <= 36870 + volume FId3v2 33 + 81920.
Proof.
  cbv zeta. split; [exact racing_reads|]. split; [exact racing_seeks|]. split; [exact racing_cursor|]. split; [exact racing_finite|].
  split; [vm_compute; reflexivity|]. split; [apply from_signature_some; vm_compute; reflexivity|].
  split; [vm_compute; reflexivity|]. split; [vm_compute; reflexivity|]. split; [vm_compute; reflexivity|].
  split; [apply from_signature_some; vm_compute; reflexivity|]. split; [vm_compute; reflexivity|]. vm_compute; discriminate.
Qed.
