(** The text of readers.rs means what the model says (C70). *)
From Coq Require Import NArith ZArith Bool String List Lia ZifyBool ZifyNat ZifyN.
From Verif Require Import Base BaseProofs Formats FormatsProofs IO Find Utf8 Readers Lib LibProofs Static AnyReader SpecAny AnyProofs
  RustAst RustSem Source SpecCargo Spec FindProofs SpecSource SourceProofs SourceFind SourceDispatch Conf.
Import ListNotations.
Local Open Scope N_scope.

(** ** From calls to runs *)
Lemma arun_sc {T B} (M : amachine T) I tp (HM : alaw M I tp) (p : prog (option B)) q : sc p q -> forall s, I s ->
  arun M p s = defined (arun M q s).
Proof.
  induction 1 as [b| | |n n' k k' E Hk IHk He IHe|n n' k k' E Hk IHk He IHe|n n' k k' E Hk IHk He IHe|w w' k k' E Hk IHk He IHe|k k' Hk IHk He IHe|n n' k k' E Hk IHk];
    intros s Hs; cbn [arun]; try reflexivity.
  - subst n'. pose proof (al_read _ _ _ HM n s Hs) as [K1 K2]. destruct (am_read M n s) as [[l|e] s']; cbn [fst snd] in *; auto.
  - subst n'. pose proof (al_exact _ _ _ HM n s Hs) as K. destruct (am_read_exact M n s) as [[[l|e]| |] s']; try reflexivity; destruct K as [K1 K2]; auto.
  - subst n'. pose proof (al_line _ _ _ HM n s Hs) as K. destruct (am_read_line M n s) as [[[l|e]| |] s']; try reflexivity; destruct K as [K1 K2]; auto.
  - subst w'. pose proof (al_seek _ _ _ HM w s Hs) as [K1 K2]. destruct (am_seek M w s) as [[l|e] s']; cbn [fst snd] in *; auto.
  - pose proof (al_tell _ _ _ HM s Hs) as K. destruct (am_tell M s) as [[[l|e]| |] s']; try reflexivity; destruct K as [K1 K2]; auto.
  - auto.
Qed.
Lemma enabled_ok c x : enabled c (feature_name x) = feat c x.
Proof. unfold enabled. destruct x; cbn; destruct (feat c _); reflexivity. Qed.
Lemma arun_bindp' {T A B} (M : amachine T) (p : prog A) (g : A -> B) s :
  arun M (bindp p (fun a => Ret (g a))) s =
  match arun M p s with (Done a, s') => (Done (g a), s') | (Panicked, s') => (Panicked, s') | (OutOfFuel, s') => (OutOfFuel, s') end.
Proof. rewrite arun_bindp. destruct (arun M p s) as [[a| |] s']; reflexivity. Qed.

Section Text.
Variables (S : Type) (rd : N -> S -> result bytes * S) (sk : whence -> S -> result N * S).
Hypothesis Hrd : read_contract rd.
Hypothesis Hsk : seek_contract sk.
Variables (fuel : nat) (c : cfg).
Hypothesis Hbits : 32 <= usize_bits c.
Lemma text_fmt_ok f s : (256 <= fuel)%nat ->
  text_from_fmt_reader S rd sk fuel c f s = defined (a_from_fmt_reader S rd sk fuel c f s).
Proof using Hrd Hsk Hbits.
  intros Hf. unfold text_from_fmt_reader, call_text. rewrite readers_fns_eq.
  pose proof (fmt_reader_ok c (enabled c) fuel (enabled_ok c) Hbits Hf f
    (fun n t => exec_task c (enabled c) fuel (uses_bufreader f) readers_fns (N.to_nat n) t)) as H.
  assert (HX : forall n i t, n = N.succ i ->
    exec_task (B := result FileFormat) c (enabled c) fuel (uses_bufreader f) readers_fns (N.to_nat n) t
    = go c (enabled c) fuel (uses_bufreader f) readers_fns (fun t => exec_task c (enabled c) fuel (uses_bufreader f) readers_fns (N.to_nat i) t) t 60).
  { intros n i t ->. rewrite N2Nat.inj_succ. reflexivity. }
  specialize (H HX). clear HX. cbv beta in H. change (N.to_nat 400) with 400%nat in H. change finish with as_result in H.
  revert H. generalize (exec_task (B := result FileFormat) c (enabled c) fuel (uses_bufreader f) readers_fns 400
    (TCall "from_fmt_reader" [VFmt f; VReader false] as_result)). intros p H.
  unfold a_from_fmt_reader. unfold dispatched in H. unfold arun_buf, arun_raw.
  destruct (uses_bufreader f) eqn:Eb.
  - rewrite (arun_sc _ _ _ (any_buf_law rd sk fuel Hrd Hsk) _ _ H _ Logic.I).
    destruct (fmt_reader c fuel f) as [q|]; [|reflexivity]. unfold defined.
    destruct (arun _ q _) as [[r| |] t]; reflexivity.
  - rewrite (arun_sc _ _ _ (any_raw_law rd sk fuel Hrd Hsk) _ _ H _ Logic.I).
    destruct (fmt_reader c fuel f) as [q|]; reflexivity.
Qed.
Lemma text_generic_ok s : text_from_generic_reader S rd sk fuel c s = defined (a_from_generic_reader S rd sk fuel c s).
Proof using Hrd Hsk Hbits.
  unfold text_from_generic_reader, call_text. rewrite readers_fns_eq.
  pose proof (generic_reader_ok c (enabled c) fuel (enabled_ok c) Hbits
    (fun n t => exec_task c (enabled c) fuel true readers_fns (N.to_nat n) t)) as H.
  assert (HX : forall n i t, n = N.succ i ->
    exec_task (B := FileFormat) c (enabled c) fuel true readers_fns (N.to_nat n) t
    = go c (enabled c) fuel true readers_fns (fun t => exec_task c (enabled c) fuel true readers_fns (N.to_nat i) t) t 60).
  { intros n i t ->. rewrite N2Nat.inj_succ. reflexivity. }
  specialize (H HX). clear HX. cbv beta in H. change (N.to_nat 400) with 400%nat in H. change finish_format with as_format in H.
  revert H. generalize (exec_task (B := FileFormat) c (enabled c) fuel true readers_fns 400
    (TCall "from_generic_reader" [VReader false] as_format)). intros p H.
  unfold a_from_generic_reader, arun_buf. rewrite (arun_sc _ _ _ (any_buf_law rd sk fuel Hrd Hsk) _ _ H _ Logic.I).
  unfold dispatched_generic. destruct (feat c FTxt); [|reflexivity]. rewrite arun_bindp'.
  destruct (arun _ from_txt_reader _) as [[[g|e]| |] t]; reflexivity.
Qed.
End Text.

(** ** C70: the readers do what their text says

    For every implementation of [Read + Seek] that keeps the contracts of the traits (whatever else it does:
    short reads, errors, other positions), every build and every format: evaluating the text of readers.rs gives
    the result of the model, leaves the reader in the same state, and never meets a construct that the evaluator
    does not know.  All theorems about the readers are therefore theorems about that text. *)
Theorem C70_format_readers : forall S rd sk fuel (c : cfg) f (s : S),
  read_contract rd -> seek_contract sk -> 32 <= usize_bits c -> (256 <= fuel)%nat ->
  text_from_fmt_reader S rd sk fuel c f s = defined (a_from_fmt_reader S rd sk fuel c f s).
Proof. intros. now apply text_fmt_ok. Qed.
Print Assumptions C70_format_readers.

Theorem C70_generic_reader : forall S rd sk fuel (c : cfg) (s : S),
  read_contract rd -> seek_contract sk -> 32 <= usize_bits c ->
  text_from_generic_reader S rd sk fuel c s = defined (a_from_generic_reader S rd sk fuel c s).
Proof. intros. now apply text_generic_ok. Qed.
Print Assumptions C70_generic_reader.

(** ** FindBytes *)
Lemma sc_ret_inv {B} (p : prog (option B)) x : sc p (Ret x) -> p = Ret (Some x).
Proof. intros H. remember (Ret x) as q. destruct H; try discriminate Heqq. now injection Heqq as ->. Qed.
Section FindText.
Variables (c : cfg) (rounds : nat) (data pat : bytes).
Hypothesis Hbits : 16 <= usize_bits c.
Hypothesis Hdata : 2 * lenN data < 2 ^ usize_bits c.
Hypothesis Hrounds : (List.length data < rounds)%nat.
Lemma shifted {B} : forall n i t, n = N.succ i ->
  exec_task (B := B) c (enabled c) rounds true readers_fns (N.to_nat (n + 300)) t
  = go c (enabled c) rounds true readers_fns (fun t => exec_task c (enabled c) rounds true readers_fns (N.to_nat (i + 300)) t) t 60.
Proof. intros n i t ->. replace (N.succ i + 300) with (N.succ (i + 300)) by lia. rewrite N2Nat.inj_succ. reflexivity. Qed.
Lemma find_text : exists r, find data pat = Done r /\ text_find c rounds data pat = Ret (Some (option_map N.of_nat r)).
Proof using Hbits Hdata Hrounds.
  destruct (find_total data pat) as [r Hr]. exists r. split; [exact Hr|]. apply sc_ret_inv. unfold text_find, call_text. rewrite readers_fns_eq.
  pose proof (find_ok c (enabled c) rounds true (fun n t => exec_task c (enabled c) rounds true readers_fns (N.to_nat (n + 300)) t)
    shifted Hbits as_index (Ret (option_map N.of_nat r)) data pat Hrounds Hdata) as H.
  cbv beta in H. change (N.to_nat (100 + 300)) with 400%nat in H. apply H. clear H. rewrite Hr. destruct pat as [|x l].
  - injection Hr as <-. constructor.
  - destruct r; constructor.
Qed.
Lemma rfind_text : exists r, rfind data pat = Done r /\ text_rfind c rounds data pat = Ret (Some (option_map N.of_nat r)).
Proof using Hbits Hdata Hrounds.
  destruct (rfind_total data pat) as [r Hr]. exists r. split; [exact Hr|]. apply sc_ret_inv. unfold text_rfind, call_text. rewrite readers_fns_eq.
  pose proof (rfind_ok c (enabled c) rounds true (fun n t => exec_task c (enabled c) rounds true readers_fns (N.to_nat (n + 300)) t)
    shifted Hbits as_index (Ret (option_map N.of_nat r)) data pat Hrounds Hdata) as H.
  cbv beta in H. change (N.to_nat (100 + 300)) with 400%nat in H. apply H. clear H. rewrite Hr. destruct r; constructor.
Qed.
Lemma holds_text : exists r, holds data pat = Done r /\ text_holds c rounds data pat = Ret (Some r).
Proof using Hbits Hdata Hrounds.
  destruct (holds_total data pat) as [r Hr]. exists r. split; [exact Hr|]. apply sc_ret_inv. unfold text_holds, call_text. rewrite readers_fns_eq.
  pose proof (holds_ok c (enabled c) rounds true (fun n t => exec_task c (enabled c) rounds true readers_fns (N.to_nat (n + 300)) t)
    shifted Hbits as_bool (Ret r) data pat) as H.
  cbv beta in H. change (N.to_nat (100 + 300)) with 400%nat in H. apply H. clear H. rewrite Hr. constructor.
Qed.
End FindText.

(** The text of the searches: for every data that fits in memory and every pattern (with enough rounds of
    the loops), no arithmetic overflow, no index out of bounds, and the first (last) occurrence. *)
Theorem C70_find_text : forall (c : cfg) rounds data pat,
  16 <= usize_bits c -> 2 * lenN data < 2 ^ usize_bits c -> (List.length data < rounds)%nat ->
  (forall i, text_find c rounds data pat = Ret (Some (Some (N.of_nat i))) <->
     occurs_at pat data i /\ forall j, (j < i)%nat -> ~ occurs_at pat data j) /\
  (text_find c rounds data pat = Ret (Some None) <-> ~ occurs pat data).
Proof.
  intros c rounds data pat H1 H2 H3. destruct (find_text c rounds data pat H1 H2 H3) as [r [Hr ->]]. split.
  - intros i. rewrite <- find_some, Hr. destruct r as [j|]; split; intros E; try discriminate E.
    + injection E as E. apply Nat2N.inj in E. now subst.
    + now injection E as ->.
  - rewrite <- find_none, Hr. destruct r; split; intros E; first [discriminate E | reflexivity].
Qed.
Print Assumptions C70_find_text.
Theorem C70_rfind_text : forall (c : cfg) rounds data pat,
  16 <= usize_bits c -> 2 * lenN data < 2 ^ usize_bits c -> (List.length data < rounds)%nat ->
  (forall i, text_rfind c rounds data pat = Ret (Some (Some (N.of_nat i))) <->
     occurs_at pat data i /\ forall j, (i < j)%nat -> ~ occurs_at pat data j) /\
  (text_rfind c rounds data pat = Ret (Some None) <-> ~ occurs pat data).
Proof.
  intros c rounds data pat H1 H2 H3. destruct (rfind_text c rounds data pat H1 H2 H3) as [r [Hr ->]]. split.
  - intros i. rewrite <- rfind_some, Hr. destruct r as [j|]; split; intros E; try discriminate E.
    + injection E as E. apply Nat2N.inj in E. now subst.
    + now injection E as ->.
  - rewrite <- rfind_none, Hr. destruct r; split; intros E; first [discriminate E | reflexivity].
Qed.
Print Assumptions C70_rfind_text.
Theorem C70_holds_text : forall (c : cfg) rounds data pat,
  16 <= usize_bits c -> 2 * lenN data < 2 ^ usize_bits c -> (List.length data < rounds)%nat ->
  (text_holds c rounds data pat = Ret (Some true) <-> occurs pat data) /\
  (text_holds c rounds data pat = Ret (Some false) <-> ~ occurs pat data).
Proof.
  intros c rounds data pat H1 H2 H3. destruct (holds_text c rounds data pat H1 H2 H3) as [r [Hr ->]].
  rewrite <- holds_false, <- holds_true, Hr. split; split; intros E; injection E as ->; reflexivity.
Qed.
Print Assumptions C70_holds_text.

(** The functions that were read from the text. *)
Example C70_witness_functions : map f_name (functions readers_rs) =
  ["from_fmt_reader"; "from_generic_reader"; "from_asf_reader"; "from_cfb_reader"; "from_ebml_reader";
   "from_exe_reader"; "from_id3v2_reader"; "from_mp4_reader"; "from_pdf_reader"; "from_rm_reader";
   "from_sqlite3_reader"; "from_txt_reader"; "from_xml_reader"; "from_zip_reader"; "read_bytes"; "read_guid";
   "read_string"; "read_u8"; "read_u16_le"; "read_u32_be"; "read_u32_le"; "read_u64_be"; "read_u64_le"; "find";
   "holds"; "rfind"]%string.
Proof. vm_compute. reflexivity. Qed.

(** A run of the text: a library of Windows, read in pieces of at most three bytes. *)
Definition dll : bytes := (bs "MZ" ++ repeat x00 58 ++ [x40; x00; x00; x00; x50; x45; x00; x00] ++ repeat x00 18 ++ [x22; x21; x00; x00])%list.
Definition dll_read (n p : N) : result bytes * N :=
  let l := takeN (N.min n 3) (dropN p dll) in (Ok l, p + lenN l).
Definition dll_seek (w : whence) (p : N) : result N * N :=
  let t := seek_target (lenN dll) p w in
  if (t <? 0)%Z || (Z.of_N (u64_max1 - 1) <? t)%Z then (Err EInvalidInput, p) else (Ok (Z.to_N t), Z.to_N t).
Lemma pieces k d : read_contract (fun n p => let l := takeN (N.min n k) (dropN p d) in (Ok l, p + lenN l)).
Proof. intros n s l s'. cbv zeta. intros E. apply (f_equal fst) in E. cbn [fst] in E. injection E as <-. rewrite lenN_takeN. lia. Qed.
Lemma dll_reads : read_contract dll_read.
Proof. exact (pieces 3 dll). Qed.
Lemma dll_seeks : seek_contract dll_seek.
Proof.
  intros w s p s'. unfold dll_seek. generalize (seek_target (lenN dll) s w). intros z. cbv zeta. destruct (_ || _) eqn:E; [discriminate|]. intros [= <- <-].
  unfold u64_max1 in E. change (2 ^ 64) with 18446744073709551616. lia.
Qed.
Example C70_witness_run : text_from_fmt_reader N dll_read dll_seek 256 cfg_all MsDosExecutable 2 = (Done (Some (Ok DynamicLinkLibrary)), 88).
Proof. vm_compute. reflexivity. Qed.
Example C70_witness_find : text_find cfg_all 20 (bs "abcababcabcab") (bs "abcab") = Ret (Some (Some 0)) /\
  text_rfind cfg_all 20 (bs "abcababcabcab") (bs "abcab") = Ret (Some (Some 8)) /\
  text_holds cfg_all 20 (bs "abcababcabcab") (bs "cc") = Ret (Some false).
Proof. repeat split; vm_compute; reflexivity. Qed.
