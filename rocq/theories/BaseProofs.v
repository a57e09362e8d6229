(** Lemmas about Base.v. *)
From Coq Require Import List NArith ZArith Bool String Lia ZifyBool ZifyNat ZifyN.
From Verif Require Import Base.
Local Open Scope N_scope.

Lemma lenN_nil {A} : lenN (@nil A) = 0.
Proof. reflexivity. Qed.
Lemma lenN_cons {A} (x : A) l : lenN (x :: l) = 1 + lenN l.
Proof. unfold lenN; cbn [List.length]; lia. Qed.
Lemma lenN_app {A} (a b : list A) : lenN (a ++ b) = lenN a + lenN b.
Proof. unfold lenN; rewrite app_length; lia. Qed.
Lemma lenN_0 {A} (l : list A) : lenN l = 0 <-> l = [].
Proof. destruct l; unfold lenN; cbn [List.length]; split; try congruence; lia. Qed.
Lemma lenN_repeat {A} (x : A) n : lenN (repeat x n) = N.of_nat n.
Proof. unfold lenN; rewrite repeat_length; reflexivity. Qed.
Lemma lenN_map {A B} (f : A -> B) l : lenN (map f l) = lenN l.
Proof. unfold lenN; rewrite map_length; reflexivity. Qed.
Lemma lenN_rev {A} (l : list A) : lenN (rev l) = lenN l.
Proof. unfold lenN; rewrite rev_length; reflexivity. Qed.

Lemma dropN_skipn {A} (l : list A) : forall n, dropN n l = skipn (N.to_nat n) l.
Proof.
  induction l as [|x l IH]; intros n; cbn [dropN].
  - now rewrite skipn_nil.
  - destruct (N.eqb_spec n 0) as [->|Hn]; [reflexivity|].
    rewrite IH. replace (N.to_nat n) with (S (N.to_nat (N.pred n))) by lia. reflexivity.
Qed.
Lemma takeN_firstn {A} (l : list A) : forall n, takeN n l = firstn (N.to_nat n) l.
Proof.
  induction l as [|x l IH]; intros n; cbn [takeN].
  - now rewrite firstn_nil.
  - destruct (N.eqb_spec n 0) as [->|Hn]; [reflexivity|].
    rewrite IH. replace (N.to_nat n) with (S (N.to_nat (N.pred n))) by lia. reflexivity.
Qed.

Lemma dropN_0 {A} (l : list A) : dropN 0 l = l.
Proof. destruct l; reflexivity. Qed.
Lemma takeN_0 {A} (l : list A) : takeN 0 l = [].
Proof. destruct l; reflexivity. Qed.
Lemma dropN_nil {A} n : dropN n (@nil A) = [].
Proof. reflexivity. Qed.
Lemma takeN_nil {A} n : takeN n (@nil A) = [].
Proof. reflexivity. Qed.
Lemma take_dropN {A} n (l : list A) : takeN n l ++ dropN n l = l.
Proof. rewrite takeN_firstn, dropN_skipn. apply firstn_skipn. Qed.
Lemma lenN_takeN {A} n (l : list A) : lenN (takeN n l) = N.min n (lenN l).
Proof. unfold lenN; rewrite takeN_firstn, firstn_length; lia. Qed.
Lemma lenN_dropN {A} n (l : list A) : lenN (dropN n l) = lenN l - n.
Proof. unfold lenN; rewrite dropN_skipn, skipn_length; lia. Qed.
Lemma dropN_all {A} n (l : list A) : lenN l <= n -> dropN n l = [].
Proof. intros H; apply lenN_0; rewrite lenN_dropN; lia. Qed.
Lemma takeN_all {A} n (l : list A) : lenN l <= n -> takeN n l = l.
Proof.
  intros H; rewrite <- (take_dropN n l) at 2. rewrite (dropN_all n l H), app_nil_r. reflexivity.
Qed.
Lemma skipn_skipn' {A} : forall a b (l : list A), skipn a (skipn b l) = skipn (b + a) l.
Proof.
  intros a b; induction b as [|b IH]; intros l; [reflexivity|].
  destruct l; [now rewrite !skipn_nil|]. cbn [skipn Nat.add]. apply IH.
Qed.
Lemma dropN_dropN {A} a b (l : list A) : dropN a (dropN b l) = dropN (b + a) l.
Proof.
  rewrite !dropN_skipn, skipn_skipn'. f_equal; lia.
Qed.
Lemma takeN_takeN {A} a b (l : list A) : takeN a (takeN b l) = takeN (N.min a b) l.
Proof. rewrite !takeN_firstn, firstn_firstn. f_equal; lia. Qed.
Lemma dropN_app {A} n (a b : list A) : dropN n (a ++ b) = dropN n a ++ dropN (n - lenN a) b.
Proof. rewrite !dropN_skipn, skipn_app. unfold lenN. do 2 f_equal; lia. Qed.
Lemma takeN_app {A} n (a b : list A) : takeN n (a ++ b) = takeN n a ++ takeN (n - lenN a) b.
Proof. rewrite !takeN_firstn, firstn_app. unfold lenN. do 2 f_equal; lia. Qed.
Lemma dropN_app_len {A} n (a b : list A) : lenN a = n -> dropN n (a ++ b) = b.
Proof.
  intros H. rewrite dropN_app, dropN_all by lia. replace (n - lenN a) with 0 by lia.
  now rewrite dropN_0.
Qed.
Lemma takeN_app_len {A} n (a b : list A) : lenN a = n -> takeN n (a ++ b) = a.
Proof.
  intros H. rewrite takeN_app, takeN_all by lia. replace (n - lenN a) with 0 by lia.
  rewrite takeN_0, app_nil_r. reflexivity.
Qed.
Lemma takeN_app_le {A} n (a b : list A) : n <= lenN a -> takeN n (a ++ b) = takeN n a.
Proof.
  intros H. rewrite takeN_app. replace (n - lenN a) with 0 by lia.
  rewrite takeN_0, app_nil_r. reflexivity.
Qed.
Lemma dropN_app_ge {A} n (a b : list A) : lenN a <= n -> dropN n (a ++ b) = dropN (n - lenN a) b.
Proof. intros H. rewrite dropN_app, dropN_all by lia. reflexivity. Qed.
Lemma dropN_takeN {A} a b (l : list A) : dropN a (takeN b l) = takeN (b - a) (dropN a l).
Proof.
  rewrite !takeN_firstn, !dropN_skipn, skipn_firstn_comm. f_equal; lia.
Qed.
Lemma takeN_dropN_app {A} a b (l : list A) : takeN (a + b) l = takeN a l ++ takeN b (dropN a l).
Proof.
  rewrite <- (take_dropN a l) at 1. rewrite takeN_app, lenN_takeN.
  rewrite takeN_takeN. replace (N.min (a + b) a) with a by lia.
  destruct (N.le_gt_cases a (lenN l)) as [H|H].
  - f_equal. f_equal; lia.
  - rewrite (dropN_all a l) by lia. rewrite !takeN_nil. reflexivity.
Qed.

Lemma byte_eqb_eq a b : Byte.eqb a b = true <-> a = b.
Proof.
  split; intros H.
  - now apply byte_dec_bl.
  - subst. now apply byte_dec_lb.
Qed.
Lemma byte_eqb_refl a : Byte.eqb a a = true.
Proof. now apply byte_eqb_eq. Qed.
Lemma byte_eqb_neq a b : Byte.eqb a b = false <-> a <> b.
Proof.
  rewrite <- byte_eqb_eq. destruct (Byte.eqb a b); split; congruence.
Qed.

Lemma beqb_eq a : forall b, beqb a b = true <-> a = b.
Proof.
  induction a as [|x a IH]; intros [|y b]; cbn [beqb]; try (split; congruence).
  rewrite andb_true_iff, byte_eqb_eq, IH. split; [intros [-> ->]; reflexivity|].
  intros H; injection H; auto.
Qed.
Lemma beqb_refl a : beqb a a = true.
Proof. now apply beqb_eq. Qed.
Lemma beqb_neq a b : beqb a b = false <-> a <> b.
Proof. rewrite <- beqb_eq. destruct (beqb a b); split; congruence. Qed.

Lemma bstarts_with_iff p : forall l, bstarts_with l p = true <-> exists r, l = p ++ r.
Proof.
  induction p as [|y p IH]; intros l.
  - split; [intros _; exists l; reflexivity|]. intros _. destruct l; reflexivity.
  - destruct l as [|x l]; cbn [bstarts_with].
    + split; [congruence|]. intros [r Hr]; discriminate Hr.
    + rewrite andb_true_iff, byte_eqb_eq, IH. split.
      * intros [-> [r ->]]. exists r; reflexivity.
      * intros [r Hr]. cbn in Hr. injection Hr; intros -> ->. split; [reflexivity|].
        exists r; reflexivity.
Qed.
Lemma bstarts_with_app p r : bstarts_with (p ++ r) p = true.
Proof. apply bstarts_with_iff. now exists r. Qed.

Lemma bval_lt b : bval b < 256.
Proof. unfold bval. pose proof (Byte.to_N_bounded b). lia. Qed.

Lemma le_val_lt l : le_val l < 256 ^ lenN l.
Proof.
  induction l as [|b l IH]; [reflexivity|].
  cbn [le_val]. rewrite lenN_cons, N.pow_add_r. change (256 ^ 1) with 256.
  pose proof (bval_lt b). nia.
Qed.
Lemma be_acc_val l : forall acc, be_acc acc l = acc * 256 ^ lenN l + be_val l.
Proof.
  unfold be_val. induction l as [|b l IH]; intros acc.
  - cbn [be_acc]. rewrite lenN_nil. change (256 ^ 0) with 1. lia.
  - cbn [be_acc]. rewrite IH, (IH (0 * 256 + bval b)), lenN_cons, N.pow_add_r.
    change (256 ^ 1) with 256. lia.
Qed.
Lemma be_val_cons b l : be_val (b :: l) = bval b * 256 ^ lenN l + be_val l.
Proof. unfold be_val at 1. cbn [be_acc]. rewrite be_acc_val. lia. Qed.
Lemma be_val_nil : be_val [] = 0.
Proof. reflexivity. Qed.
Lemma be_val_lt l : be_val l < 256 ^ lenN l.
Proof.
  induction l as [|b l IH]; [reflexivity|].
  rewrite be_val_cons, lenN_cons, N.pow_add_r. change (256 ^ 1) with 256.
  pose proof (bval_lt b). nia.
Qed.
