(** Two implementations of [Read + Seek] related by a function on their states give the same results. *)
From Coq Require Import List NArith ZArith Bool.
From Verif Require Import Base Formats Signatures IO Readers Lib AnyReader.
Local Open Scope N_scope.

Section Hom.
Context {S1 S2 : Type}.
Variable f : S1 -> S2.
Variables (rd1 : N -> S1 -> result bytes * S1) (sk1 : whence -> S1 -> result N * S1).
Variables (rd2 : N -> S2 -> result bytes * S2) (sk2 : whence -> S2 -> result N * S2).
Definition under {T1 T2 X} (g : T1 -> T2) (x : X * T1) : X * T2 := (fst x, g (snd x)).
Hypothesis Hrd : forall n s, rd2 n (f s) = under f (rd1 n s).
Hypothesis Hsk : forall w s, sk2 w (f s) = under f (sk1 w s).
Variable fuel : nat.
Definition bf (s : abuf S1) : abuf S2 := mkabuf (f (a_dev s)) (a_buf s).

Lemma fill_hom s : a_fill S2 rd2 (bf s) = under bf (a_fill S1 rd1 s).
Proof using Hrd.
  destruct s as [d [|b0 b]]; unfold a_fill, bf; cbn [a_buf a_dev]; [|reflexivity].
  rewrite Hrd. destruct (rd1 buf_capacity d) as [[l|e] d']; reflexivity.
Qed.
Lemma read_hom n s : a_read S2 rd2 n (bf s) = under bf (a_read S1 rd1 n s).
Proof using Hrd.
  destruct s as [d [|b0 b]]; unfold a_read; [|reflexivity].
  change (a_buf (bf (mkabuf d nil))) with (@nil byte). cbn [a_buf a_dev].
  destruct (buf_capacity <=? n).
  - unfold bf. cbn [a_dev]. rewrite Hrd. destruct (rd1 n d) as [r d']; reflexivity.
  - rewrite fill_hom. destruct (a_fill S1 rd1 (mkabuf d nil)) as [[l|e] s']; reflexivity.
Qed.
Lemma until_hom k : forall lim acc s, a_until S2 rd2 k lim acc (bf s) = under bf (a_until S1 rd1 k lim acc s).
Proof using Hrd.
  induction k as [|k IH]; intros lim acc s; cbn [a_until]; (destruct (lim =? 0); [reflexivity|]); [reflexivity|].
  rewrite fill_hom. destruct (a_fill S1 rd1 s) as [[l|e] s']; unfold under; cbn [fst snd].
  - cbv zeta. destruct (split_lf (takeN lim l)) as [[a r]|]; [reflexivity|].
    destruct (takeN lim l) as [|b0 v]; [reflexivity|].
    exact (IH _ _ (mkabuf (a_dev s') (dropN (lenN (b0 :: v)) l))).
  - destruct e; first [apply IH | reflexivity].
Qed.
Lemma seek_hom w s : a_seek S2 sk2 w (bf s) = under bf (a_seek S1 sk1 w s).
Proof using Hsk.
  destruct s as [d b]. unfold a_seek, bf. cbn [a_buf a_dev].
  destruct w as [n|z|z].
  - rewrite Hsk. destruct (sk1 _ d) as [[p|e] d']; reflexivity.
  - destruct (i64_min <=? _)%Z.
    + rewrite Hsk. destruct (sk1 _ d) as [[p|e] d']; reflexivity.
    + rewrite Hsk. destruct (sk1 _ d) as [[p|e] d']; cbn [under fst snd]; [|reflexivity].
      rewrite Hsk. destruct (sk1 _ d') as [q d2]; reflexivity.
  - rewrite Hsk. destruct (sk1 _ d) as [[p|e] d']; reflexivity.
Qed.
Lemma tell_hom s : a_tell S2 sk2 (bf s) = under bf (a_tell S1 sk1 s).
Proof using Hsk.
  destruct s as [d b]. unfold a_tell, bf. cbn [a_buf a_dev]. rewrite Hsk.
  destruct (sk1 _ d) as [[p|e] d']; unfold under; cbn [fst snd]; [|reflexivity].
  destruct (p <? lenN b); reflexivity.
Qed.
Lemma exact_hom {T1 T2} (g : T1 -> T2) r1 r2 (Hr : forall n s, r2 n (g s) = under g (r1 n s)) k :
  forall n acc s, read_exact_loop r2 k n acc (g s) = under g (read_exact_loop r1 k n acc s).
Proof using.
  induction k as [|k IH]; intros n acc s; cbn [read_exact_loop]; (destruct (n =? 0); [reflexivity|]); [reflexivity|].
  rewrite Hr. destruct (r1 n s) as [[l|e] s']; unfold under; cbn [fst snd].
  - destruct l; [reflexivity|apply IH].
  - destruct e; first [apply IH | reflexivity].
Qed.

Record ahom {T1 T2} (g : T1 -> T2) (M1 : amachine T1) (M2 : amachine T2) : Prop := {
  ah_read : forall n s, am_read M2 n (g s) = under g (am_read M1 n s);
  ah_exact : forall n s, am_read_exact M2 n (g s) = under g (am_read_exact M1 n s);
  ah_line : forall n s, am_read_line M2 n (g s) = under g (am_read_line M1 n s);
  ah_seek : forall w s, am_seek M2 w (g s) = under g (am_seek M1 w s);
  ah_tell : forall s, am_tell M2 (g s) = under g (am_tell M1 s) }.
Lemma arun_hom {T1 T2 A} (g : T1 -> T2) M1 M2 (H : ahom g M1 M2) (p : prog A) : forall s,
  arun M2 p (g s) = under g (arun M1 p s).
Proof using.
  induction p as [a| | |n k IH|n k IH|n k IH|w k IH|k IH|n k IH]; intros s; cbn [arun]; try reflexivity.
  - rewrite (ah_read _ _ _ H). destruct (am_read M1 n s) as [r s']. apply IH.
  - rewrite (ah_exact _ _ _ H). destruct (am_read_exact M1 n s) as [[r| |] s']; [apply IH|reflexivity|reflexivity].
  - rewrite (ah_line _ _ _ H). destruct (am_read_line M1 n s) as [[r| |] s']; [apply IH|reflexivity|reflexivity].
  - rewrite (ah_seek _ _ _ H). destruct (am_seek M1 w s) as [r s']. apply IH.
  - rewrite (ah_tell _ _ _ H). destruct (am_tell M1 s) as [[r| |] s']; [apply IH|reflexivity|reflexivity].
  - apply IH.
Qed.
Lemma raw_hom : ahom f (a_raw_machine S1 rd1 sk1 fuel) (a_raw_machine S2 rd2 sk2 fuel).
Proof using Hrd Hsk.
  split; cbn [a_raw_machine am_read am_read_exact am_read_line am_seek am_tell]; intros.
  - apply Hrd.
  - now apply exact_hom.
  - change (mkabuf (f s) nil) with (bf (mkabuf s nil)). rewrite until_hom.
    destruct (a_until S1 rd1 _ _ _ _) as [r t]. reflexivity.
  - apply Hsk.
  - rewrite Hsk. destruct (sk1 _ s) as [r t]. reflexivity.
Qed.
Lemma buf_hom : ahom bf (a_buf_machine S1 rd1 sk1 fuel) (a_buf_machine S2 rd2 sk2 fuel).
Proof using Hrd Hsk.
  split; cbn [a_buf_machine am_read am_read_exact am_read_line am_seek am_tell]; intros.
  - apply read_hom.
  - apply exact_hom. intros. apply read_hom.
  - apply until_hom.
  - apply seek_hom.
  - apply tell_hom.
Qed.
Lemma run_raw_hom {A} (p : prog A) s : arun_raw S2 rd2 sk2 fuel p (f s) = under f (arun_raw S1 rd1 sk1 fuel p s).
Proof using Hrd Hsk. apply arun_hom, raw_hom. Qed.
Lemma run_buf_hom {A} (p : prog A) s : arun_buf S2 rd2 sk2 fuel p (f s) = under f (arun_buf S1 rd1 sk1 fuel p s).
Proof using Hrd Hsk.
  unfold arun_buf. change (mkabuf (f s) nil) with (bf (mkabuf s nil)). rewrite (arun_hom _ _ _ buf_hom).
  destruct (arun (a_buf_machine S1 rd1 sk1 fuel) p (mkabuf s nil)) as [r t]. reflexivity.
Qed.
Lemma fmt_hom c x s : a_from_fmt_reader S2 rd2 sk2 fuel c x (f s) = under f (a_from_fmt_reader S1 rd1 sk1 fuel c x s).
Proof using Hrd Hsk.
  unfold a_from_fmt_reader. destruct (fmt_reader c fuel x) as [p|]; [|reflexivity].
  destruct (uses_bufreader x); [apply run_buf_hom|apply run_raw_hom].
Qed.
Lemma generic_hom c s : a_from_generic_reader S2 rd2 sk2 fuel c (f s) = under f (a_from_generic_reader S1 rd1 sk1 fuel c s).
Proof using Hrd Hsk.
  unfold a_from_generic_reader. destruct (feat c FTxt); [|reflexivity]. rewrite run_buf_hom.
  destruct (arun_buf S1 rd1 sk1 fuel from_txt_reader s) as [[[x|e]| |] t]; reflexivity.
Qed.
Lemma from_reader_hom c s : a_from_reader S2 rd2 sk2 fuel c (f s) = under f (a_from_reader S1 rd1 sk1 fuel c s).
Proof using Hrd Hsk.
  unfold a_from_reader. rewrite Hrd. destruct (rd1 window s) as [[l|e] s1]; unfold under; cbn [fst snd]; [|reflexivity].
  destruct l as [|b l]; [reflexivity|].
  assert (G : forall s2, match a_from_generic_reader S2 rd2 sk2 fuel c (f s2) with
      | (Done g, s3) => (Done (Ok g), s3) | (Panicked, s3) => (Panicked, s3) | (OutOfFuel, s3) => (OutOfFuel, s3) end =
    under f (match a_from_generic_reader S1 rd1 sk1 fuel c s2 with
      | (Done g, s3) => (Done (Ok g), s3) | (Panicked, s3) => (Panicked, s3) | (OutOfFuel, s3) => (OutOfFuel, s3) end)).
  { intros s2. rewrite generic_hom. destruct (a_from_generic_reader S1 rd1 sk1 fuel c s2) as [[g| |] s3]; reflexivity. }
  destruct (from_signature (b :: l)) as [x|]; [|apply G].
  rewrite fmt_hom. destruct (a_from_fmt_reader S1 rd1 sk1 fuel c x s1) as [[[g|e]| |] s2]; unfold under; cbn [fst snd]; try reflexivity.
  apply G.
Qed.
End Hom.
