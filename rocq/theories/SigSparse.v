(** Signatures against inputs that repeat one byte: the table is decided on the part before the repetition, so
    that examples with long inputs need no long computation. *)
From Coq Require Import NArith ZArith Bool String List Lia ZifyBool ZifyNat ZifyN.
From Verif Require Import Base BaseProofs Formats Signatures IO Lib SigProofs.
Import ListNotations.
Local Open Scope N_scope.

Definition padded (b : byte) (p : bytes) (off k : N) : bytes :=
  let l := takeN k (dropN off p) in l ++ repeat b (N.to_nat (k - lenN l)).
Definition sparse_part (b : byte) (p : bytes) (x : sig_part) : bool :=
  beqb (padded b p (fst x) (lenN (snd x))) (snd x).
Fixpoint sparse_in (b : byte) (p : bytes) (table : list sig_entry) : option FileFormat :=
  match table with
  | [] => None
  | (f, alts) :: t => if existsb (forallb (sparse_part b p)) alts then Some f else sparse_in b p t
  end.

Lemma dropN_repeat {A} (b : A) m n : dropN m (repeat b n) = repeat b (n - N.to_nat m).
Proof.
  rewrite dropN_skipn. generalize (N.to_nat m). clear m. induction n as [|n IH]; intros [|m]; try reflexivity.
  cbn [repeat skipn]. apply IH.
Qed.
Lemma takeN_repeat {A} (b : A) m n : takeN m (repeat b n) = repeat b (Nat.min (N.to_nat m) n).
Proof.
  rewrite takeN_firstn. generalize (N.to_nat m). clear m. induction n as [|n IH]; intros [|m]; try reflexivity.
  cbn [repeat firstn Nat.min]. f_equal. apply IH.
Qed.
Lemma padded_ok b p n q off k : off + k <= lenN p + N.of_nat n ->
  takeN k (dropN off (p ++ repeat b n ++ q)) = padded b p off k.
Proof.
  intros H. unfold padded. cbv zeta. rewrite dropN_app, takeN_app. f_equal.
  rewrite lenN_takeN, !lenN_dropN, dropN_app, lenN_repeat, dropN_repeat.
  rewrite takeN_app, lenN_repeat.
  replace (k - (lenN p - off) - N.of_nat (n - N.to_nat (off - lenN p))) with 0 by lia.
  rewrite takeN_repeat. replace (takeN 0 _) with (@nil byte) by (rewrite takeN_firstn; reflexivity). rewrite app_nil_r.
  f_equal. lia.
Qed.
Lemma sparse_part_ok b p n q off v : off + lenN v <= lenN p + N.of_nat n ->
  part_matches (p ++ repeat b n ++ q) (off, v) = sparse_part b p (off, v).
Proof.
  intros H. unfold part_matches, sparse_part. cbn [fst snd]. rewrite padded_ok by exact H.
  rewrite !lenN_app, lenN_repeat. destruct (N.leb_spec (off + lenN v) (lenN p + (N.of_nat n + lenN q))); [reflexivity|lia].
Qed.
Lemma sparse_ok b p n q : 36870 <= lenN p + N.of_nat n ->
  from_signature (p ++ repeat b n ++ q) = sparse_in b p signatures.
Proof.
  intros Hn. unfold from_signature. pose proof table_extent as Ht. revert Ht.
  generalize signatures. intros table. induction table as [|[f alts] table IH]; [reflexivity|].
  cbn [forallb]. rewrite andb_true_iff. intros [H1 H2]. cbn [from_signature_in sparse_in].
  rewrite IH by exact H2.
  assert (E : existsb (forallb (part_matches (p ++ repeat b n ++ q))) alts = existsb (forallb (sparse_part b p)) alts).
  { unfold extent_ok in H1. cbn [snd] in H1. rewrite forallb_forall in H1.
    apply existsb_ext'. intros alt Halt. specialize (H1 alt Halt). rewrite forallb_forall in H1.
    apply forallb_ext'. intros [off v] Hp. specialize (H1 _ Hp). cbn [fst snd] in H1.
    apply sparse_part_ok. lia. }
  rewrite E. reflexivity.
Qed.
