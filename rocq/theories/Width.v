(** Comparing 32-bit and 64-bit builds.  [refw p q]: for answers that obey the contract of
    [read_exact], [q] does what [p] does. *)
From Coq Require Import NArith ZArith Bool String List Lia.
From Verif Require Import Base BaseProofs Formats IO Find Utf8 Readers Lib LibProofs Static ReaderStatic Mem Ideal.
Import ListNotations.
Local Open Scope N_scope.

Inductive refw {A} : prog A -> prog A -> Prop :=
| rw_panic : refw PPanic PPanic
| rw_ret a : refw (Ret a) (Ret a)
| rw_fuel : refw PFuel PFuel
| rw_read n k k' : (forall r, refw (k r) (k' r)) -> refw (PRead n k) (PRead n k')
| rw_exact n k k' : (forall e, refw (k (Err e)) (k' (Err e))) ->
    (forall l, lenN l = n -> refw (k (Ok l)) (k' (Ok l))) -> refw (PReadExact n k) (PReadExact n k')
| rw_line n k k' : (forall r, refw (k r) (k' r)) -> refw (PReadLine n k) (PReadLine n k')
| rw_seek w k k' : (forall r, refw (k r) (k' r)) -> refw (PSeek w k) (PSeek w k')
| rw_tell k k' : (forall r, refw (k r) (k' r)) -> refw (PTell k) (PTell k')
| rw_alloc n k k' : refw k k' -> refw (PAlloc n k) (PAlloc n k').

Lemma refw_refl {A} (p : prog A) : refw p p.
Proof. induction p; constructor; auto. Qed.
Lemma refw_bindp {A B} (p q : prog A) (f g : A -> prog B) : refw p q -> (forall a, refw (f a) (g a)) ->
  refw (bindp p f) (bindp q g).
Proof. intros H K. induction H; cbn [bindp]; try constructor; auto. Qed.
Lemma refw_bindio {A B} (p q : io A) (f g : A -> io B) : refw p q -> (forall a, refw (f a) (g a)) ->
  refw (bindio p f) (bindio q g).
Proof. intros H K. apply refw_bindp; [exact H|]. intros [a|e]; [apply K|apply refw_refl]. Qed.
(** Integers: the continuation may assume the range. *)
Lemma refw_int {B} (v : bytes -> N) n (f g : N -> io B) :
  (forall l, lenN l = n -> refw (f (v l)) (g (v l))) ->
  refw (bindio (let! buf := read_exact n in ok (v buf)) f) (bindio (let! buf := read_exact n in ok (v buf)) g).
Proof. intros H. cbn. constructor; [intros; constructor|]. exact H. Qed.

Lemma refw_run {A} content max (p q : prog A) : refw p q -> forall s,
  run (mem_machine content max) q s = run (mem_machine content max) p s.
Proof.
  induction 1 as [|a| |n k k' H IH|n k k' H1 IH1 H IH|n k k' H IH|w k k' H IH|k k' H IH|n k k' H IH]; intros s;
    try (cbn [run]; reflexivity).
  - cbn [run]. destruct (m_read _ n s) as [r s']. apply IH.
  - cbn [run mem_machine m_read_exact]. unfold mem_read_exact.
    destruct (lenN (takeN n (dropN s content)) =? n) eqn:E; [apply IH; now apply N.eqb_eq|apply IH1].
  - cbn [run]. destruct (m_read_line _ n s) as [[r| |] s']; auto.
  - cbn [run]. destruct (m_seek _ w s) as [r s']. apply IH.
  - cbn [run]. destruct (m_tell _ s) as [r s']. apply IH.
  - cbn [run]. apply IH.
Qed.

Section Widths.
Variables c c' : plat.
Hypothesis Hc : usize_bits c = 32 \/ usize_bits c = 64.
Hypothesis Hc' : usize_bits c' = 32 \/ usize_bits c' = 64.
Hypothesis Ho : ovf c = ovf c'.

Lemma rw_as_usize n : n < 2 ^ 32 -> as_usize c' n = as_usize c n.
Proof.
  intros Hn. unfold as_usize. rewrite !N.mod_small; auto; [destruct Hc as [->| ->]|destruct Hc' as [->| ->]];
    change (2 ^ 32) with 4294967296 in *; change (2 ^ 64) with 18446744073709551616; lia.
Qed.
Lemma rw_read_bytes n : n < 2 ^ 31 -> refw (read_bytes c n) (read_bytes c' n).
Proof.
  intros Hn. apply refw_bindp; [|intros; apply refw_refl]. unfold alloc.
  pose proof (isize_max_ge c Hc). pose proof (isize_max_ge c' Hc'). change (2 ^ 31) with 2147483648 in Hn.
  destruct (N.ltb_spec (isize_max c) n); [lia|]. destruct (N.ltb_spec (isize_max c') n); [lia|]. apply refw_refl.
Qed.
Lemma rw_read_guid : refw (read_guid c) (read_guid c').
Proof. apply refw_bindio; [now apply rw_read_bytes|]. intros. apply refw_refl. Qed.
Lemma rw_u64_add a b : refw (u64_add c a b) (u64_add c' a b).
Proof. unfold u64_add. rewrite Ho. apply refw_refl. Qed.
Lemma rw_u64_sub a b : refw (u64_sub c a b) (u64_sub c' a b).
Proof. unfold u64_sub. rewrite Ho. apply refw_refl. Qed.
Lemma rw_i64_sub a b : refw (i64_sub c a b) (i64_sub c' a b).
Proof. unfold i64_sub. rewrite Ho. apply refw_refl. Qed.

Ltac rstep :=
  lazymatch goal with |- refw ?p ?q => constr_eq p q; apply refw_refl | _ => fail end ||
  lazymatch goal with
  | |- refw (read_bytes _ _) _ => apply rw_read_bytes; try reflexivity; try (change (2 ^ 31) with 2147483648; lia)
  | |- refw (read_guid _) _ => apply rw_read_guid
  | |- refw (u64_add _ _ _) _ => apply rw_u64_add
  | |- refw (u64_sub _ _ _) _ => apply rw_u64_sub
  | |- refw (i64_sub _ _ _) _ => apply rw_i64_sub
  | |- refw (bindio _ _) (bindio _ _) => apply refw_bindio; [|intros ?]
  | |- refw (bindp _ _) (bindp _ _) => apply refw_bindp; [|intros ?]
  | |- refw (if ?b then _ else _) (if ?b then _ else _) => destruct b
  | |- refw (match ?x with _ => _ end) (match ?x with _ => _ end) => destruct x
  | |- refw (let _ := _ in _) _ => cbv zeta
  end.
Ltac rsteps := repeat rstep.

Lemma rw_asf_descriptors n : refw (asf_descriptors c n) (asf_descriptors c' n).
Proof. induction n as [|n IH]; cbn [asf_descriptors]; rsteps; apply IH. Qed.
Lemma rw_asf_objects n : forall a v, refw (asf_objects c n a v) (asf_objects c' n a v).
Proof. induction n as [|n IH]; intros a v; cbn [asf_objects]; rsteps; try apply IH; try apply rw_asf_descriptors. Qed.
Lemma rw_id3 fuel : forall o, refw (id3v2_loop c fuel o) (id3v2_loop c' fuel o).
Proof. induction fuel as [|n IH]; intros o; cbn [id3v2_loop]; rsteps; apply IH. Qed.
Lemma rw_mp4 n len : forall a v s, refw (mp4_boxes c len n a v s) (mp4_boxes c' len n a v s).
Proof. induction n as [|n IH]; intros a v s; cbn [mp4_boxes]; rsteps; apply IH. Qed.

Lemma u8_small l : lenN l = 1 -> le_val l < 2 ^ 31.
Proof. intros H. eapply N.lt_le_trans; [apply le_val_lt|]. rewrite H. vm_compute. discriminate. Qed.
Lemma rw_rm n : forall a v, refw (rm_chunks c n a v) (rm_chunks c' n a v).
Proof.
  induction n as [|n IH]; intros a v; cbn [rm_chunks]; [apply refw_refl|].
  apply refw_bindio; [rstep|intros ty]. apply refw_bindio; [rstep|intros sz].
  apply refw_bindio; [|intros [x y]; rsteps; apply IH].
  destruct (beqb ty (bs "MDPR")); [|apply refw_refl].
  do 4 (apply refw_bindio; [rstep|intros ?]). apply (refw_int le_val 1). intros l Hl.
  apply refw_bindio; [apply rw_read_bytes; now apply u8_small|intros m]. rsteps.
Qed.

Lemma rw_reader fuel x : x <> FEbml -> x <> FZip -> refw (reader_of c fuel x) (reader_of c' fuel x).
Proof.
  intros Hx1 Hx2. destruct x; cbn [reader_of].
  - unfold from_asf_reader. apply refw_bindio; [rstep|intros ?]. apply (refw_int le_val 4). intros l Hl.
    rewrite rw_as_usize; [rsteps; apply rw_asf_objects|].
    eapply N.lt_le_trans; [apply le_val_lt|]. rewrite Hl. vm_compute. discriminate.
  - unfold from_cfb_reader. rsteps.
  - congruence.
  - unfold from_exe_reader. rsteps.
  - unfold from_id3v2_reader. rsteps. apply rw_id3.
  - unfold from_mp4_reader. rsteps. apply rw_mp4.
  - apply refw_refl.
  - unfold from_rm_reader. apply refw_bindio; [rstep|intros ?]. apply (refw_int be_val 4). intros l Hl.
    rewrite rw_as_usize; [apply rw_rm|]. unfold sat_sub.
    eapply N.le_lt_trans; [apply N.le_sub_l|].
    eapply N.lt_le_trans; [apply be_val_lt|]. rewrite Hl. vm_compute. discriminate.
  - apply refw_refl.
  - apply refw_refl.
  - apply refw_refl.
  - congruence.
Qed.
Lemma rw_mreader content max x : x <> FEbml -> x <> FZip -> mreader c' content max x = mreader c content max x.
Proof. intros H1 H2. unfold mreader, mrun. now rewrite (refw_run content max _ _ (rw_reader _ x H1 H2)). Qed.
End Widths.
