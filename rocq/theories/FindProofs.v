(** The search of Find.v is exact: proofs. *)
From Coq Require Import List NArith Bool Arith Lia ZifyBool ZifyNat.
From Verif Require Import Base BaseProofs IO Find Spec.
Local Open Scope nat_scope.

Lemma index_some {A} (l : list A) i : i < length l ->
  exists x, index l i = Done x /\ nth_error l i = Some x.
Proof.
  intros H. unfold index. destruct (nth_error l i) as [x|] eqn:E.
  - exists x; auto.
  - apply nth_error_None in E. lia.
Qed.

Lemma nth_error_ext {A} : forall (a b : list A),
  (forall q, nth_error a q = nth_error b q) -> a = b.
Proof.
  induction a as [|x a IH]; intros [|y b] H; [reflexivity| | |].
  - specialize (H 0). discriminate H.
  - specialize (H 0). discriminate H.
  - pose proof (H 0) as H0. cbn in H0. injection H0 as ->. f_equal. apply IH.
    intros q. apply (H (S q)).
Qed.

(** Occurrence in terms of indices. *)
Definition matches (pat data : bytes) (i : nat) : Prop :=
  i + length pat <= length data /\
  forall q, q < length pat -> nth_error data (i + q) = nth_error pat q.

Lemma matches_occurs pat data i : matches pat data i <-> occurs_at pat data i.
Proof.
  split.
  - intros [Hlen Hq].
    exists (firstn i data), (skipn (i + length pat) data). split.
    + rewrite <- (firstn_skipn i data) at 1. f_equal.
      rewrite <- (firstn_skipn (length pat) (skipn i data)) at 1.
      rewrite skipn_skipn'. f_equal.
      apply nth_error_ext. intros q.
      destruct (Nat.lt_ge_cases q (length pat)) as [Hlt|Hge].
      * rewrite <- (Hq q Hlt).
        replace (nth_error data (i + q)) with (nth_error (skipn i data) q).
        2:{ rewrite <- (firstn_skipn i data) at 2.
            rewrite nth_error_app2; rewrite firstn_length; [|lia]. f_equal; lia. }
        rewrite <- (firstn_skipn (length pat) (skipn i data)) at 2.
        rewrite nth_error_app1; [reflexivity|].
        rewrite firstn_length, skipn_length. lia.
      * replace (nth_error pat q) with (@None byte) by (symmetry; now apply nth_error_None).
        apply nth_error_None. rewrite firstn_length. lia.
    + rewrite firstn_length. lia.
  - intros (pre & post & -> & <-). split.
    + rewrite !app_length. lia.
    + intros q Hq. rewrite nth_error_app2 by lia.
      replace (length pre + q - length pre) with q by lia.
      now rewrite nth_error_app1 by lia.
Qed.

Lemma occurs_matches pat data : occurs pat data <-> exists i, matches pat data i.
Proof.
  split.
  - intros (pre & post & E). exists (length pre). apply matches_occurs. exists pre, post. auto.
  - intros (i & H). apply matches_occurs in H. destruct H as (pre & post & E & _).
    exists pre, post; exact E.
Qed.

(** *** The shift table *)

Lemma fill_shift_le plen l : forall idx t b q,
  nth_error l q = Some b ->
  fill_shift plen idx l t b <= plen - 1 - (idx + q).
Proof.
  assert (Hno : forall l idx t b, (forall q, nth_error l q <> Some b) ->
                 fill_shift plen idx l t b = t b).
  { clear l. induction l as [|x l IH]; intros idx t b Hn; cbn [fill_shift]; [reflexivity|].
    rewrite IH.
    - unfold set_shift. destruct (Byte.eqb b x) eqn:E; [|reflexivity].
      apply byte_eqb_eq in E. subst. exfalso. apply (Hn 0). reflexivity.
    - intros q Hq. apply (Hn (S q)). exact Hq. }
  induction l as [|x l IH]; intros idx t b q Hq; [destruct q; discriminate|].
  cbn [fill_shift].
  destruct (in_dec Byte.byte_eq_dec b l) as [Hin|Hnin].
  - apply In_nth_error in Hin. destruct Hin as [q' Hq'].
    destruct q as [|q].
    + specialize (IH (S idx) (set_shift t x (plen - 1 - idx)) b q' Hq'). lia.
    + specialize (IH (S idx) (set_shift t x (plen - 1 - idx)) b q Hq). lia.
  - rewrite Hno.
    2:{ intros q' Hq'. apply Hnin. eapply nth_error_In; eassumption. }
    destruct q as [|q].
    + cbn in Hq. injection Hq as ->. unfold set_shift. rewrite byte_eqb_refl. lia.
    + exfalso. apply Hnin. eapply nth_error_In. exact Hq.
Qed.

Lemma fill_shift_range plen l : forall idx t b,
  idx + length l < plen -> 1 <= t b <= plen ->
  1 <= fill_shift plen idx l t b <= plen.
Proof.
  induction l as [|x l IH]; intros idx t b Hl Ht; cbn [fill_shift]; [exact Ht|].
  apply IH; cbn [length] in Hl; [lia|].
  unfold set_shift. destruct (Byte.eqb b x); lia.
Qed.

Lemma forward_shift_range pat b : pat <> [] -> 1 <= forward_shift pat b <= length pat.
Proof.
  intros Hp. unfold forward_shift. apply fill_shift_range.
  - rewrite firstn_length. destruct pat; [congruence|]. cbn [length]. lia.
  - destruct pat; [congruence|]. cbn [length]. lia.
Qed.
Lemma backward_shift_range pat b : pat <> [] -> 1 <= backward_shift pat b <= length pat.
Proof.
  intros Hp. unfold backward_shift. apply fill_shift_range.
  - rewrite firstn_length, rev_length. destruct pat; [congruence|]. cbn [length]. lia.
  - destruct pat; [congruence|]. cbn [length]. lia.
Qed.

Lemma nth_error_firstn' {A} : forall n (l : list A) q,
  q < n -> nth_error (firstn n l) q = nth_error l q.
Proof.
  induction n as [|n IH]; intros l q Hq; [lia|].
  destruct l as [|x l]; [now rewrite firstn_nil|].
  destruct q as [|q]; [reflexivity|]. cbn. apply IH. lia.
Qed.

Lemma forward_shift_bound pat b q : q < length pat - 1 -> nth_error pat q = Some b ->
  forward_shift pat b <= length pat - 1 - q.
Proof.
  intros Hq Hb. unfold forward_shift.
  pose proof (fill_shift_le (length pat) (firstn (length pat - 1) pat) 0
                (fun _ => length pat) b q) as H.
  rewrite nth_error_firstn' in H by lia. specialize (H Hb). lia.
Qed.

Lemma nth_error_rev' {A} (l : list A) q : q < length l ->
  nth_error (rev l) q = nth_error l (length l - 1 - q).
Proof.
  intros Hq. destruct (nth_error l (length l - 1 - q)) as [x|] eqn:E.
  - apply nth_error_nth with (d := x) in E as E'.
    rewrite (nth_error_nth' (rev l) x) by (rewrite rev_length; lia).
    rewrite rev_nth by lia. f_equal. rewrite <- E' at 2. f_equal. lia.
  - apply nth_error_None in E. lia.
Qed.

Lemma backward_shift_bound pat b q : 0 < q < length pat -> nth_error pat q = Some b ->
  backward_shift pat b <= q.
Proof.
  intros Hq Hb. unfold backward_shift.
  pose proof (fill_shift_le (length pat) (firstn (length pat - 1) (rev pat)) 0
                (fun _ => length pat) b (length pat - 1 - q)) as H.
  rewrite nth_error_firstn' in H by lia.
  rewrite nth_error_rev' in H by lia.
  replace (length pat - 1 - (length pat - 1 - q)) with q in H by lia.
  specialize (H Hb). lia.
Qed.

(** *** Forward search *)

Lemma find_inner_spec pat data k : forall pi,
  pi < length pat -> length pat - 1 <= k -> k < length data ->
  (find_inner pat data k pi = Done (Some (k - (length pat - 1))) /\
   forall q, q <= pi -> nth_error data (k - (length pat - 1) + q) = nth_error pat q)
  \/
  (find_inner pat data k pi = Done None /\
   exists q, q <= pi /\ nth_error data (k - (length pat - 1) + q) <> nth_error pat q).
Proof.
  induction pi as [|pi IH]; intros Hpi Hk Hd; cbn [find_inner].
  - destruct (index_some pat 0 Hpi) as (p & -> & Hp). cbn [bind_exec].
    unfold usub. replace (length pat - 1 - 0 <=? k) with true by lia. cbn [bind_exec].
    destruct (index_some data (k - (length pat - 1 - 0)) ltac:(lia)) as (d & -> & Hdd).
    cbn [bind_exec]. replace (length pat - 1 - 0) with (length pat - 1) in Hdd by lia.
    destruct (Byte.eqb p d) eqn:E.
    + left. replace (length pat - 1 <=? k) with true by lia. cbn [bind_exec]. split; [reflexivity|].
      intros q Hq. replace q with 0 by lia. rewrite Nat.add_0_r, Hdd, Hp.
      apply byte_eqb_eq in E. congruence.
    + right. split; [reflexivity|]. exists 0. split; [lia|].
      rewrite Nat.add_0_r, Hdd, Hp. apply byte_eqb_neq in E. congruence.
  - destruct (index_some pat (S pi) Hpi) as (p & -> & Hp). cbn [bind_exec].
    unfold usub. replace (length pat - 1 - S pi <=? k) with true by lia. cbn [bind_exec].
    destruct (index_some data (k - (length pat - 1 - S pi)) ltac:(lia)) as (d & -> & Hdd).
    cbn [bind_exec].
    replace (k - (length pat - 1 - S pi)) with (k - (length pat - 1) + S pi) in Hdd by lia.
    destruct (Byte.eqb p d) eqn:E.
    + destruct (IH ltac:(lia) Hk Hd) as [[-> H]|[-> (q & Hq & H)]].
      * left. split; [reflexivity|]. intros q Hq.
        destruct (Nat.eq_dec q (S pi)) as [->|Hne]; [|apply H; lia].
        rewrite Hdd, Hp. apply byte_eqb_eq in E. congruence.
      * right. split; [reflexivity|]. exists q. split; [lia|exact H].
    + right. split; [reflexivity|]. exists (S pi). split; [lia|].
      rewrite Hdd, Hp. apply byte_eqb_neq in E. congruence.
Qed.

Lemma find_outer_spec pat data (Hp : pat <> []) : forall fuel k,
  length pat - 1 <= k ->
  length data - k <= fuel ->
  (forall i, i + (length pat - 1) < k -> ~ matches pat data i) ->
  (exists i, find_outer fuel (forward_shift pat) pat data k = Done (Some i) /\
             matches pat data i /\ forall j, j < i -> ~ matches pat data j)
  \/
  (find_outer fuel (forward_shift pat) pat data k = Done None /\
   forall i, ~ matches pat data i).
Proof.
  assert (Hpl : 1 <= length pat) by (destruct pat; [congruence|cbn; lia]).
  induction fuel as [|fuel IH]; intros k Hk Hf Hinv; cbn [find_outer].
  - replace (k <? length data) with false by lia.
    right. split; [reflexivity|]. intros i Hi. apply (Hinv i); [|exact Hi].
    destruct Hi as [Hi _]. lia.
  - destruct (k <? length data) eqn:Hlt.
    2:{ right. split; [reflexivity|]. intros i Hi. apply (Hinv i); [|exact Hi].
        destruct Hi as [Hi _]. lia. }
    destruct (find_inner_spec pat data k (length pat - 1) ltac:(lia) Hk ltac:(lia))
      as [[-> H]|[-> (q & Hq & H)]]; cbn [bind_exec].
    + left. exists (k - (length pat - 1)). split; [reflexivity|]. split.
      * split; [lia|]. intros q Hq. apply H. lia.
      * intros j Hj. apply Hinv. lia.
    + destruct (index_some data k ltac:(lia)) as (b & -> & Hb). cbn [bind_exec].
      pose proof (forward_shift_range pat b Hp) as Hr.
      apply IH; [lia|lia|].
      intros i Hi [Hm1 Hm2].
      destruct (Nat.lt_ge_cases (i + (length pat - 1)) k) as [Hlt'|Hge].
      { apply (Hinv i Hlt'). split; assumption. }
      destruct (Nat.eq_dec (i + (length pat - 1)) k) as [Heq|Hne].
      { apply H. replace (k - (length pat - 1)) with i by lia. apply Hm2. lia. }
      (* the byte data[k] is aligned with a pattern position before the last *)
      assert (Hpos : k - i < length pat - 1) by lia.
      specialize (Hm2 (k - i) ltac:(lia)).
      replace (i + (k - i)) with k in Hm2 by lia.
      rewrite Hb in Hm2. symmetry in Hm2.
      pose proof (forward_shift_bound pat b (k - i) Hpos Hm2). lia.
Qed.

Lemma find_spec data pat :
  (exists i, find data pat = Done (Some i) /\ matches pat data i /\
             forall j, j < i -> ~ matches pat data j)
  \/ (find data pat = Done None /\ forall i, ~ matches pat data i).
Proof.
  unfold find. destruct pat as [|p pat'] eqn:Epat.
  - left. exists 0. split; [reflexivity|]. split.
    + split; [cbn; lia|]. intros q Hq. cbn in Hq. lia.
    + intros j Hj. lia.
  - rewrite <- Epat. assert (Hp : pat <> []) by (subst; discriminate).
    destruct (length data <? length pat) eqn:El.
    + right. split; [reflexivity|]. intros i [Hi _]. lia.
    + apply find_outer_spec; [exact Hp|lia|lia|]. intros i Hi. lia.
Qed.

(** *** Reverse search *)

Lemma rfind_inner_spec pat data k : forall n pi,
  n + pi = length pat -> 0 < n -> k + length pat <= length data ->
  (rfind_inner n pat data k pi = Done (Some k) /\
   forall q, pi <= q < length pat -> nth_error data (k + q) = nth_error pat q)
  \/
  (rfind_inner n pat data k pi = Done None /\
   exists q, pi <= q < length pat /\ nth_error data (k + q) <> nth_error pat q).
Proof.
  induction n as [|n IH]; intros pi Hn Hpos Hk; [lia|]. cbn [rfind_inner].
  destruct (index_some pat pi ltac:(lia)) as (p & -> & Hp). cbn [bind_exec].
  destruct (index_some data (k + pi) ltac:(lia)) as (d & -> & Hd). cbn [bind_exec].
  destruct (Byte.eqb p d) eqn:E.
  - apply byte_eqb_eq in E. subst d.
    destruct (pi =? length pat - 1) eqn:Epi.
    + left. split; [reflexivity|]. intros q Hq. replace q with pi by lia. congruence.
    + destruct (IH (S pi) ltac:(lia) ltac:(lia) Hk) as [[-> H]|[-> (q & Hq & H)]].
      * left. split; [reflexivity|]. intros q Hq.
        destruct (Nat.eq_dec q pi) as [->|Hne]; [congruence|]. apply H. lia.
      * right. split; [reflexivity|]. exists q. split; [lia|exact H].
  - right. split; [reflexivity|]. exists pi. split; [lia|].
    rewrite Hd, Hp. apply byte_eqb_neq in E. congruence.
Qed.

Lemma rfind_outer_spec pat data (Hp : pat <> []) : forall fuel k,
  k + length pat <= length data ->
  k < fuel ->
  (forall i, k < i -> ~ matches pat data i) ->
  (exists i, rfind_outer fuel (backward_shift pat) pat data k = Done (Some i) /\
             matches pat data i /\ forall j, i < j -> ~ matches pat data j)
  \/
  (rfind_outer fuel (backward_shift pat) pat data k = Done None /\
   forall i, ~ matches pat data i).
Proof.
  assert (Hpl : 1 <= length pat) by (destruct pat; [congruence|cbn; lia]).
  induction fuel as [|fuel IH]; intros k Hk Hf Hinv; [lia|]. cbn [rfind_outer].
  destruct (rfind_inner_spec pat data k (length pat) 0 ltac:(lia) ltac:(lia) Hk)
    as [[-> H]|[-> (q & Hq & H)]]; cbn [bind_exec].
  - left. exists k. split; [reflexivity|]. split; [|exact Hinv].
    split; [lia|]. intros q Hq. apply H. lia.
  - destruct (index_some data k ltac:(lia)) as (b & -> & Hb). cbn [bind_exec].
    pose proof (backward_shift_range pat b Hp) as Hr.
    assert (Hno : forall i, k - backward_shift pat b < i \/ k < backward_shift pat b ->
                   i <= k -> ~ matches pat data i).
    { intros i Hi Hik [Hm1 Hm2].
      destruct (Nat.eq_dec i k) as [->|Hne].
      { apply H. apply Hm2. lia. }
      specialize (Hm2 (k - i)).
      assert (Hlt : k - i < backward_shift pat b) by lia.
      specialize (Hm2 ltac:(lia)). replace (i + (k - i)) with k in Hm2 by lia.
      rewrite Hb in Hm2. symmetry in Hm2.
      pose proof (backward_shift_bound pat b (k - i) ltac:(lia) Hm2). lia. }
    destruct (backward_shift pat b <=? k) eqn:Es.
    + apply IH; [lia|lia|]. intros i Hi.
      destruct (Nat.le_gt_cases i k) as [Hle|Hgt]; [|apply Hinv; exact Hgt].
      apply Hno; [left; lia|exact Hle].
    + right. split; [reflexivity|]. intros i.
      destruct (Nat.le_gt_cases i k) as [Hle|Hgt]; [|apply Hinv; exact Hgt].
      apply Hno; [right; lia|exact Hle].
Qed.

Lemma rfind_spec data pat :
  (exists i, rfind data pat = Done (Some i) /\ matches pat data i /\
             forall j, i < j -> ~ matches pat data j)
  \/ (rfind data pat = Done None /\ forall i, ~ matches pat data i).
Proof.
  unfold rfind. destruct pat as [|p pat'] eqn:Epat.
  - left. exists (length data). split; [reflexivity|]. split.
    + split; [cbn; lia|]. intros q Hq. cbn in Hq. lia.
    + intros j Hj [Hm _]. cbn in Hm. lia.
  - rewrite <- Epat. assert (Hp : pat <> []) by (subst; discriminate).
    destruct (length data <? length pat) eqn:El.
    + right. split; [reflexivity|]. intros i [Hi _]. lia.
    + apply rfind_outer_spec; [exact Hp|lia|lia|]. intros i Hi [Hm _]. lia.
Qed.

(** *** Statements in terms of the specification *)

Lemma find_some data pat i :
  find data pat = Done (Some i) <->
  occurs_at pat data i /\ forall j, j < i -> ~ occurs_at pat data j.
Proof.
  split.
  - intros E. destruct (find_spec data pat) as [(i' & E' & Hm & Hmin)|[E' _]];
      rewrite E in E'; [|discriminate]. injection E' as <-.
    split; [now apply matches_occurs|]. intros j Hj Hc. apply (Hmin j Hj).
    now apply matches_occurs.
  - intros [Ho Hmin]. apply matches_occurs in Ho.
    destruct (find_spec data pat) as [(i' & E' & Hm & Hmin')|[_ Hno]].
    + rewrite E'. do 2 f_equal.
      destruct (Nat.lt_trichotomy i' i) as [H|[H|H]]; [|exact H|].
      * exfalso. apply (Hmin i' H). now apply matches_occurs.
      * exfalso. apply (Hmin' i H). exact Ho.
    + exfalso. apply (Hno i Ho).
Qed.
Lemma find_none data pat : find data pat = Done None <-> ~ occurs pat data.
Proof.
  rewrite occurs_matches.
  destruct (find_spec data pat) as [(i' & E' & Hm & _)|[E' Hno]]; rewrite E'.
  - split; [discriminate|]. intros H. exfalso. apply H. now exists i'.
  - split; [|reflexivity]. intros _ (i & Hi). apply (Hno i Hi).
Qed.
Lemma rfind_some data pat i :
  rfind data pat = Done (Some i) <->
  occurs_at pat data i /\ forall j, i < j -> ~ occurs_at pat data j.
Proof.
  split.
  - intros E. destruct (rfind_spec data pat) as [(i' & E' & Hm & Hmin)|[E' _]];
      rewrite E in E'; [|discriminate]. injection E' as <-.
    split; [now apply matches_occurs|]. intros j Hj Hc. apply (Hmin j Hj).
    now apply matches_occurs.
  - intros [Ho Hmin]. apply matches_occurs in Ho.
    destruct (rfind_spec data pat) as [(i' & E' & Hm & Hmin')|[_ Hno]].
    + rewrite E'. do 2 f_equal.
      destruct (Nat.lt_trichotomy i' i) as [H|[H|H]]; [|exact H|].
      * exfalso. apply (Hmin' i H). exact Ho.
      * exfalso. apply (Hmin i' H). now apply matches_occurs.
    + exfalso. apply (Hno i Ho).
Qed.
Lemma rfind_none data pat : rfind data pat = Done None <-> ~ occurs pat data.
Proof.
  rewrite occurs_matches.
  destruct (rfind_spec data pat) as [(i' & E' & Hm & _)|[E' Hno]]; rewrite E'.
  - split; [discriminate|]. intros H. exfalso. apply H. now exists i'.
  - split; [|reflexivity]. intros _ (i & Hi). apply (Hno i Hi).
Qed.

Lemma holds_total data pat : exists b, holds data pat = Done b.
Proof.
  unfold holds. destruct (find_spec data pat) as [(i & -> & _)|[-> _]]; cbn; eauto.
Qed.
Lemma holds_true data pat : holds data pat = Done true <-> occurs pat data.
Proof.
  unfold holds. rewrite occurs_matches.
  destruct (find_spec data pat) as [(i & -> & Hm & _)|[-> Hno]]; cbn.
  - split; [|reflexivity]. intros _. now exists i.
  - split; [discriminate|]. intros (i & Hi). exfalso. apply (Hno i Hi).
Qed.
Lemma holds_false data pat : holds data pat = Done false <-> ~ occurs pat data.
Proof.
  unfold holds. rewrite occurs_matches.
  destruct (find_spec data pat) as [(i & -> & Hm & _)|[-> Hno]]; cbn.
  - split; [discriminate|]. intros H. exfalso. apply H. now exists i.
  - split; [|reflexivity]. intros _ (i & Hi). apply (Hno i Hi).
Qed.
Lemma find_total data pat : exists r, find data pat = Done r.
Proof. destruct (find_spec data pat) as [(i & -> & _)|[-> _]]; eauto. Qed.
Lemma rfind_total data pat : exists r, rfind data pat = Done r.
Proof. destruct (rfind_spec data pat) as [(i & -> & _)|[-> _]]; eauto. Qed.

Lemma occurs_dec pat data : occurs pat data \/ ~ occurs pat data.
Proof.
  destruct (holds_total data pat) as [[|] H].
  - left. now apply holds_true.
  - right. now apply holds_false.
Qed.
