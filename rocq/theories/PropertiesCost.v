(** C64: the cost of searching.  Statements use SpecCost.v, SpecAny.v and the counted programs of FindCost.v. *)
From Coq Require Import List NArith ZArith Bool Arith String Lia ZifyBool ZifyNat ZifyN.
From Verif Require Import Base Formats IO Find Readers AnyReader FindCost SpecAny SpecCost.
From Verif Require Import BaseProofs FindProofs AnyProofs.
Local Open Scope nat_scope.

(** ** One search *)
Lemma find_inner_counted_spec pat data k : forall pi,
  pi < List.length pat -> List.length pat - 1 <= k -> k < List.length data ->
  exists r n, find_inner_counted pat data k pi = Done (r, n) /\ find_inner pat data k pi = Done r /\ 1 <= n <= S pi.
Proof.
  induction pi as [|pi IH]; intros Hpi Hk Hd; cbn [find_inner find_inner_counted].
  - destruct (index_some pat 0 Hpi) as (p & -> & _). cbn [bind_exec].
    unfold usub. replace (List.length pat - 1 - 0 <=? k) with true by lia. cbn [bind_exec].
    destruct (index_some data (k - (List.length pat - 1 - 0)) ltac:(lia)) as (d & -> & _). cbn [bind_exec].
    replace (List.length pat - 1 <=? k) with true by lia. cbn [bind_exec].
    destruct (Byte.eqb p d); do 2 eexists; (split; [reflexivity|split; [reflexivity|lia]]).
  - destruct (index_some pat (S pi) Hpi) as (p & -> & _). cbn [bind_exec].
    unfold usub. replace (List.length pat - 1 - S pi <=? k) with true by lia. cbn [bind_exec].
    destruct (index_some data (k - (List.length pat - 1 - S pi)) ltac:(lia)) as (d & -> & _). cbn [bind_exec].
    destruct (Byte.eqb p d).
    + destruct (IH ltac:(lia) Hk Hd) as (r & n & -> & -> & Hn). cbn [bind_exec]. exists r, (S n).
      split; [reflexivity|split; [reflexivity|lia]].
    + exists None, 1. split; [reflexivity|split; [reflexivity|lia]].
Qed.

Lemma find_outer_counted_spec pat data (Hp : pat <> []) : forall fuel k,
  List.length pat - 1 <= k -> List.length data - k <= fuel ->
  exists r a n, find_outer_counted fuel (forward_shift pat) pat data k = Done (r, a, n) /\
    find_outer fuel (forward_shift pat) pat data k = Done r /\
    a <= List.length data - k /\ a <= n <= a * List.length pat.
Proof.
  assert (Hpl : 1 <= List.length pat) by (destruct pat; [congruence|cbn; lia]).
  induction fuel as [|fuel IH]; intros k Hk Hf; cbn [find_outer find_outer_counted].
  - replace (k <? List.length data) with false by lia. exists None, 0, 0. repeat split; lia.
  - destruct (k <? List.length data) eqn:Hlt; [|exists None, 0, 0; repeat split; lia].
    destruct (find_inner_counted_spec pat data k (List.length pat - 1) ltac:(lia) Hk ltac:(lia)) as (r & n & -> & -> & Hn).
    cbn [bind_exec]. destruct r as [i|].
    + exists (Some i), 1, n. repeat split; lia.
    + destruct (index_some data k ltac:(lia)) as (b & -> & _). cbn [bind_exec].
      pose proof (forward_shift_range pat b Hp) as Hr.
      destruct (IH (k + forward_shift pat b) ltac:(lia) ltac:(lia)) as (r & a & n' & -> & -> & Ha & Hn').
      cbn [bind_exec]. exists r, (S a), (n + n'). repeat split; lia.
Qed.

(** A forward search makes at most one round for each position at which the pattern fits, and at most as many
    comparisons in a round as the pattern has bytes. *)
Theorem C64_forward_search : forall data pat, exists r rounds n,
  find_counted data pat = Done (r, rounds, n) /\ find data pat = Done r /\
  (rounds = 0 \/ rounds + List.length pat <= List.length data + 1) /\ rounds <= n <= rounds * List.length pat.
Proof.
  intros data pat. unfold find_counted, find. destruct pat as [|p pat'] eqn:E.
  { exists (Some 0), 0, 0. repeat split; try lia. }
  rewrite <- E. assert (Hp : pat <> []) by (subst; discriminate).
  assert (Hpl : 1 <= List.length pat) by (subst; cbn; lia). clear E p pat'.
  destruct (List.length data <? List.length pat) eqn:El.
  { exists None, 0, 0. repeat split; try lia. }
  destruct (find_outer_counted_spec pat data Hp (S (List.length data)) (List.length pat - 1) ltac:(lia) ltac:(lia))
    as (r & a & n & H1 & H2 & Ha & Hn).
  exists r, a, n. repeat split; try assumption; lia.
Qed.
Print Assumptions C64_forward_search.

Lemma rfind_inner_counted_spec pat data k : forall m pi,
  m + pi = List.length pat -> 0 < m -> k + List.length pat <= List.length data ->
  exists r n, rfind_inner_counted m pat data k pi = Done (r, n) /\ rfind_inner m pat data k pi = Done r /\ 1 <= n <= m.
Proof.
  induction m as [|m IH]; intros pi Hn Hpos Hk; [lia|]. cbn [rfind_inner rfind_inner_counted].
  destruct (index_some pat pi ltac:(lia)) as (p & -> & _). cbn [bind_exec].
  destruct (index_some data (k + pi) ltac:(lia)) as (d & -> & _). cbn [bind_exec].
  destruct (Byte.eqb p d).
  - destruct (pi =? List.length pat - 1) eqn:Epi.
    + exists (Some k), 1. repeat split; lia.
    + destruct (IH (S pi) ltac:(lia) ltac:(lia) Hk) as (r & n & -> & -> & Hn'). cbn [bind_exec].
      exists r, (S n). repeat split; lia.
  - exists None, 1. repeat split; lia.
Qed.

Lemma rfind_outer_counted_spec pat data (Hp : pat <> []) : forall fuel k,
  k + List.length pat <= List.length data -> k < fuel ->
  exists r a n, rfind_outer_counted fuel (backward_shift pat) pat data k = Done (r, a, n) /\
    rfind_outer fuel (backward_shift pat) pat data k = Done r /\
    a <= S k /\ a <= n <= a * List.length pat.
Proof.
  assert (Hpl : 1 <= List.length pat) by (destruct pat; [congruence|cbn; lia]).
  induction fuel as [|fuel IH]; intros k Hk Hf; [lia|]. cbn [rfind_outer rfind_outer_counted].
  destruct (rfind_inner_counted_spec pat data k (List.length pat) 0 ltac:(lia) ltac:(lia) Hk) as (r & n & -> & -> & Hn).
  cbn [bind_exec]. destruct r as [i|].
  - exists (Some i), 1, n. repeat split; lia.
  - destruct (index_some data k ltac:(lia)) as (b & -> & _). cbn [bind_exec].
    pose proof (backward_shift_range pat b Hp) as Hr.
    destruct (backward_shift pat b <=? k) eqn:Es.
    + destruct (IH (k - backward_shift pat b) ltac:(lia) ltac:(lia)) as (r & a & n' & -> & -> & Ha & Hn').
      cbn [bind_exec]. exists r, (S a), (n + n'). repeat split; lia.
    + exists None, 1, n. repeat split; lia.
Qed.

(** The same for the search from the end. *)
Theorem C64_reverse_search : forall data pat, exists r rounds n,
  rfind_counted data pat = Done (r, rounds, n) /\ rfind data pat = Done r /\
  (rounds = 0 \/ rounds + List.length pat <= List.length data + 1) /\ rounds <= n <= rounds * List.length pat.
Proof.
  intros data pat. unfold rfind_counted, rfind. destruct pat as [|p pat'] eqn:E.
  { exists (Some (List.length data)), 0, 0. repeat split; try lia. }
  rewrite <- E. assert (Hp : pat <> []) by (subst; discriminate).
  assert (Hpl : 1 <= List.length pat) by (subst; cbn; lia). clear E p pat'.
  destruct (List.length data <? List.length pat) eqn:El.
  { exists None, 0, 0. repeat split; try lia. }
  destruct (rfind_outer_counted_spec pat data Hp (S (List.length data)) (List.length data - List.length pat) ltac:(lia) ltac:(lia))
    as (r & a & n & H1 & H2 & Ha & Hn).
  exists r, a, n. repeat split; try assumption; lia.
Qed.
Print Assumptions C64_reverse_search.

(** ** The best case: data without any byte of the pattern is passed in steps of the List.length of the pattern. *)
Lemma fill_shift_absent plen l : forall idx t b, ~ In b l -> fill_shift plen idx l t b = t b.
Proof.
  induction l as [|x l IH]; intros idx t b Hn; cbn [fill_shift]; [reflexivity|].
  rewrite IH by (intros H; apply Hn; now right). unfold set_shift.
  destruct (Byte.eqb b x) eqn:E; [|reflexivity]. apply byte_eqb_eq in E. subst. exfalso. apply Hn. now left.
Qed.
Lemma forward_shift_absent pat b : ~ In b pat -> forward_shift pat b = List.length pat.
Proof.
  intros H. unfold forward_shift. rewrite fill_shift_absent; [reflexivity|]. intros Hi. apply H.
  rewrite <- (firstn_skipn (List.length pat - 1) pat). apply in_or_app. now left.
Qed.
Lemma backward_shift_absent pat b : ~ In b pat -> backward_shift pat b = List.length pat.
Proof.
  intros H. unfold backward_shift. rewrite fill_shift_absent; [reflexivity|]. intros Hi. apply H.
  apply in_rev. rewrite <- (firstn_skipn (List.length pat - 1) (rev pat)). apply in_or_app. now left.
Qed.

Lemma index_in {A} (l : list A) i : i < List.length l -> exists x, index l i = Done x /\ In x l.
Proof. intros H. destruct (index_some l i H) as (x & E & Hx). exists x. split; [exact E|]. eapply nth_error_In; eauto. Qed.
Lemma byte_eqb_false (p d : byte) : p <> d -> Byte.eqb p d = false.
Proof. intros H. destruct (Byte.eqb p d) eqn:E; [|reflexivity]. apply byte_eqb_eq in E. congruence. Qed.

Lemma div_steps n m k : 1 <= m -> m - 1 <= k -> k < n -> (n - 1 - k) / m = S ((n - 1 - (k + m)) / m) \/ n <= k + m.
Proof.
  intros Hm Hk Hn. destruct (Nat.le_gt_cases n (k + m)) as [H|H]; [now right|left].
  replace (n - 1 - k) with (1 * m + (n - 1 - (k + m))) by lia. rewrite Nat.div_add_l by lia. lia.
Qed.

Lemma find_inner_counted_absent pat data k : pat <> [] -> (forall b, In b pat -> ~ In b data) ->
  List.length pat - 1 <= k -> k < List.length data -> find_inner_counted pat data k (List.length pat - 1) = Done (None, 1).
Proof.
  intros Hp Hd Hk Hl. assert (Hpl : 1 <= List.length pat) by (destruct pat; [congruence|cbn; lia]).
  assert (E : forall pi, find_inner_counted pat data k pi =
    bind_exec (index pat pi) (fun p =>
    bind_exec (usub k (List.length pat - 1 - pi)) (fun j =>
    bind_exec (index data j) (fun d => if Byte.eqb p d then
      match pi with O => bind_exec (usub k (List.length pat - 1)) (fun i => Done (Some i, 1))
      | S pi' => bind_exec (find_inner_counted pat data k pi') (fun '(r, n) => Done (r, S n)) end
      else Done (None, 1))))) by (intros [|pi]; reflexivity).
  rewrite E. clear E.
  destruct (index_in pat (List.length pat - 1) ltac:(lia)) as (p & -> & Hpi). cbn [bind_exec].
  rewrite Nat.sub_diag. unfold usub at 1. cbn [Nat.leb bind_exec]. rewrite Nat.sub_0_r.
  destruct (index_in data k Hl) as (d & -> & Hdi). cbn [bind_exec].
  rewrite byte_eqb_false; [reflexivity|]. intros ->. now apply (Hd d).
Qed.

Theorem C64_disjoint_bytes : forall data pat, pat <> [] -> (forall b, In b pat -> ~ In b data) ->
  find_counted data pat = Done (None, List.length data / List.length pat, List.length data / List.length pat) /\
  rfind_counted data pat = Done (None, List.length data / List.length pat, List.length data / List.length pat).
Proof.
  intros data pat Hp Hd. assert (Hpl : 1 <= List.length pat) by (destruct pat; [congruence|cbn; lia]).
  assert (Hd' : forall b, In b data -> ~ In b pat) by (intros b H1 H2; now apply (Hd b)).
  split.
  - unfold find_counted. destruct pat as [|p0 pat'] eqn:E; [congruence|]. rewrite <- E in *. clear E p0 pat'.
    destruct (List.length data <? List.length pat) eqn:El.
    { rewrite Nat.div_small by lia. reflexivity. }
    assert (G : forall fuel k, List.length pat - 1 <= k -> List.length data - k <= fuel ->
      find_outer_counted fuel (forward_shift pat) pat data k =
      Done (None, (List.length data + (List.length pat - 1) - k) / List.length pat, (List.length data + (List.length pat - 1) - k) / List.length pat)).
    { induction fuel as [|fuel IH]; intros k Hk Hf; cbn [find_outer_counted].
      - replace (k <? List.length data) with false by lia. rewrite Nat.div_small by lia. reflexivity.
      - destruct (k <? List.length data) eqn:Hlt; [|rewrite Nat.div_small by lia; reflexivity].
        rewrite find_inner_counted_absent by (try assumption; lia). cbn [bind_exec].
        destruct (index_in data k ltac:(lia)) as (b & -> & Hb). cbn [bind_exec].
        rewrite forward_shift_absent by now apply Hd'.
        rewrite IH by lia. cbn [bind_exec].
        replace (List.length data + (List.length pat - 1) - k) with (List.length data - 1 - k + 1 * List.length pat) by lia.
        rewrite Nat.div_add by lia.
        destruct (Nat.le_gt_cases (List.length data) (k + List.length pat)) as [H|H].
        + rewrite !Nat.div_small by lia. reflexivity.
        + replace (List.length data - 1 - k) with (List.length data + (List.length pat - 1) - (k + List.length pat)) by lia.
          rewrite Nat.add_1_r. reflexivity. }
    rewrite G by lia. replace (List.length data + (List.length pat - 1) - (List.length pat - 1)) with (List.length data) by lia. reflexivity.
  - unfold rfind_counted. destruct pat as [|p0 pat'] eqn:E; [congruence|]. rewrite <- E in *. clear E p0 pat'.
    destruct (List.length data <? List.length pat) eqn:El.
    { rewrite Nat.div_small by lia. reflexivity. }
    assert (G : forall fuel k, k + List.length pat <= List.length data -> k < fuel ->
      rfind_outer_counted fuel (backward_shift pat) pat data k = Done (None, S (k / List.length pat), S (k / List.length pat))).
    { induction fuel as [|fuel IH]; intros k Hk Hf; [lia|]. cbn [rfind_outer_counted].
      destruct (List.length pat) as [|m] eqn:Em; [lia|]. cbn [rfind_inner_counted]. rewrite <- Em in *.
      destruct (index_in pat 0 ltac:(lia)) as (p & -> & Hpi). cbn [bind_exec].
      destruct (index_in data (k + 0) ltac:(lia)) as (d & -> & Hdi). cbn [bind_exec].
      rewrite byte_eqb_false by (intros ->; now apply (Hd d)). cbn [bind_exec].
      destruct (index_in data k ltac:(lia)) as (b & -> & Hb). cbn [bind_exec].
      rewrite backward_shift_absent by now apply Hd'.
      destruct (List.length pat <=? k) eqn:Ek.
      - rewrite IH by lia. cbn [bind_exec].
        replace (k / List.length pat) with (S ((k - List.length pat) / List.length pat)); [reflexivity|].
        replace k with (k - List.length pat + 1 * List.length pat) at 2 by lia. rewrite Nat.div_add by lia. lia.
      - rewrite Nat.div_small by lia. reflexivity. }
    rewrite G by lia.
    replace (List.length data / List.length pat) with (S ((List.length data - List.length pat) / List.length pat)); [reflexivity|].
    replace (List.length data) with (List.length data - List.length pat + 1 * List.length pat) at 2 by lia. rewrite Nat.div_add by lia. lia.
Qed.
Print Assumptions C64_disjoint_bytes.

(** ** The worst case: the bounds are attained. *)
Lemma nth_repeat_tail {A} (y x : A) m i : 1 <= i < m -> nth_error (y :: repeat x (m - 1)) i = Some x.
Proof.
  intros H. destruct i as [|i]; [lia|]. cbn [nth_error]. rewrite nth_error_nth' with (d := x) by (rewrite repeat_length; lia).
  now rewrite nth_repeat.
Qed.
Lemma index_repeat {A} (x : A) n i : i < n -> index (repeat x n) i = Done x.
Proof.
  intros H. unfold index. rewrite nth_error_nth' with (d := x) by (rewrite repeat_length; lia). now rewrite nth_repeat.
Qed.

Theorem C64_forward_worst_case : forall x y n m, x <> y -> 3 <= m <= n ->
  find_counted (repeat x n) (y :: repeat x (m - 1)) = Done (None, n - m + 1, (n - m + 1) * m).
Proof.
  intros x y n m Hxy Hm. set (pat := y :: repeat x (m - 1)).
  assert (Hl : List.length pat = m) by (unfold pat; cbn [List.length]; rewrite repeat_length; lia).
  assert (Hs : forward_shift pat x = 1).
  { assert (Hp : pat <> []) by (unfold pat; discriminate).
    pose proof (forward_shift_range pat x Hp).
    pose proof (forward_shift_bound pat x (m - 2) ltac:(lia) (nth_repeat_tail y x m (m - 2) ltac:(lia))). lia. }
  assert (Hi : forall k pi, pi < m -> m - 1 <= k < n -> find_inner_counted pat (repeat x n) k pi = Done (None, S pi)).
  { intros k pi. induction pi as [|pi IH]; intros Hpi Hk; cbn [find_inner_counted].
    - unfold index at 1. unfold pat at 1. cbn [nth_error bind_exec]. unfold usub at 1.
      replace (List.length pat - 1 - 0 <=? k) with true by lia. cbn [bind_exec].
      rewrite index_repeat by lia. cbn [bind_exec]. rewrite byte_eqb_false by congruence. reflexivity.
    - unfold index at 1. unfold pat at 1. rewrite nth_repeat_tail by lia. cbn [bind_exec]. unfold usub at 1.
      replace (List.length pat - 1 - S pi <=? k) with true by lia. cbn [bind_exec].
      rewrite index_repeat by lia. cbn [bind_exec]. rewrite byte_eqb_refl. rewrite IH by lia. reflexivity. }
  assert (G : forall fuel k, m - 1 <= k -> n - k <= fuel ->
    find_outer_counted fuel (forward_shift pat) pat (repeat x n) k = Done (None, n - k, (n - k) * m)).
  { induction fuel as [|fuel IH]; intros k Hk Hf; cbn [find_outer_counted]; rewrite repeat_length.
    - replace (k <? n) with false by lia. replace (n - k) with 0 by lia. reflexivity.
    - destruct (k <? n) eqn:Hlt; [|replace (n - k) with 0 by lia; reflexivity].
      rewrite Hl, Hi by lia. cbn [bind_exec]. rewrite index_repeat by lia. cbn [bind_exec].
      rewrite Hs, IH by lia. cbn [bind_exec]. replace (n - k) with (S (n - (k + 1))) by lia.
      cbn [Nat.mul]. replace (S (m - 1)) with m by lia. reflexivity. }
  unfold find_counted. replace pat with (y :: repeat x (m - 1)) at 1 by reflexivity. cbv iota beta.
  fold pat. rewrite repeat_length, Hl. replace (n <? m) with false by lia.
  rewrite G by lia. replace (n - (m - 1)) with (n - m + 1) by lia. reflexivity.
Qed.
Print Assumptions C64_forward_worst_case.

Theorem C64_reverse_worst_case : forall x y n m, x <> y -> 3 <= m <= n ->
  rfind_counted (repeat x n) (repeat x (m - 1) ++ [y]) = Done (None, n - m + 1, (n - m + 1) * m).
Proof.
  intros x y n m Hxy Hm. set (pat := repeat x (m - 1) ++ [y]).
  assert (Hl : List.length pat = m) by (unfold pat; rewrite app_length, repeat_length; cbn [List.length]; lia).
  assert (Hx : forall i, i < m - 1 -> nth_error pat i = Some x).
  { intros i Hi. unfold pat. rewrite nth_error_app1 by (rewrite repeat_length; lia).
    rewrite nth_error_nth' with (d := x) by (rewrite repeat_length; lia). now rewrite nth_repeat. }
  assert (Hy : nth_error pat (m - 1) = Some y).
  { unfold pat. rewrite nth_error_app2 by (rewrite repeat_length; lia). rewrite repeat_length, Nat.sub_diag. reflexivity. }
  assert (Hp : pat <> []) by (intros H; rewrite H in Hl; cbn in Hl; lia).
  assert (Hs : backward_shift pat x = 1).
  { pose proof (backward_shift_range pat x Hp).
    pose proof (backward_shift_bound pat x 1 ltac:(lia) (Hx 1 ltac:(lia))). lia. }
  assert (Hi : forall k w pi, w + pi = m -> 0 < w -> k + m <= n ->
    rfind_inner_counted w pat (repeat x n) k pi = Done (None, w)).
  { intros k w. induction w as [|w IH]; intros pi Hw Hpos Hk; [lia|]. cbn [rfind_inner_counted].
    destruct (Nat.eq_dec pi (m - 1)) as [->|Hne].
    - unfold index at 1. rewrite Hy. cbn [bind_exec]. rewrite index_repeat by lia. cbn [bind_exec].
      rewrite byte_eqb_false by congruence. replace w with 0 by lia. reflexivity.
    - unfold index at 1. rewrite Hx by lia. cbn [bind_exec]. rewrite index_repeat by lia. cbn [bind_exec].
      rewrite byte_eqb_refl. replace (pi =? List.length pat - 1) with false by lia.
      rewrite IH by lia. reflexivity. }
  assert (G : forall fuel k, k + m <= n -> k < fuel ->
    rfind_outer_counted fuel (backward_shift pat) pat (repeat x n) k = Done (None, S k, S k * m)).
  { induction fuel as [|fuel IH]; intros k Hk Hf; [lia|]. cbn [rfind_outer_counted].
    rewrite Hl, Hi by lia. cbn [bind_exec]. rewrite index_repeat by lia. cbn [bind_exec]. rewrite Hs.
    destruct (1 <=? k) eqn:Ek.
    - rewrite IH by lia. cbn [bind_exec]. replace (S (k - 1)) with k by lia. reflexivity.
    - replace k with 0 by lia. cbn [Nat.mul]. rewrite Nat.add_0_r. reflexivity. }
  unfold rfind_counted. destruct pat as [|p0 pat'] eqn:E; [congruence|]. rewrite <- E in *. clear E p0 pat'.
  rewrite repeat_length, Hl. replace (n <? m) with false by lia. rewrite G by lia.
  replace (S (n - m)) with (n - m + 1) by lia. reflexivity.
Qed.
Print Assumptions C64_reverse_worst_case.

(** ** The readers that search *)
Local Open Scope N_scope.
Lemma holds_counted_spec data pat : exists b n, holds_counted data pat = Done (b, n) /\ holds data pat = Done b /\
  (n = 0%nat \/ (n + (List.length pat - 1) * List.length pat <= List.length data * List.length pat)%nat).
Proof.
  destruct (C64_forward_search data pat) as (r & a & n & E1 & E2 & Ha & Hn). unfold holds_counted, holds. rewrite E1, E2.
  cbn [bind_exec]. do 2 eexists. split; [reflexivity|]. split; [reflexivity|].
  destruct Ha as [->|Ha]; [left; lia|]. destruct a as [|a]; [left; lia|right].
  destruct (List.length pat) as [|m] eqn:Em; [lia|]. nia.
Qed.

Lemma ai_marker_length : List.length AI_MARKER = 13%nat. Proof. reflexivity. Qed.

Section Readers.
Context (S : Type) (rd : N -> S -> result bytes * S) (sk : whence -> S -> result N * S) (fuel : nat).
Notation R := (arun_raw S rd sk fuel).

Lemma pdf_loop_counted_spec (Hrd : read_contract rd) : forall steps total buf work s,
  total < PDF_READ_LIMIT + CHUNK_SIZE ->
  let x := R (pdf_loop_counted steps total buf work) s in
  erases_to (fun '(r, _, _) => r) x (R (pdf_loop steps total buf) s) /\
  match fst x with
  | Done (_, taken, work') => work' + 13 * total <= work + 13 * taken /\ taken < PDF_READ_LIMIT + CHUNK_SIZE
  | _ => True
  end.
Proof.
  cbv zeta. unfold arun_raw. induction steps as [|steps IH]; intros total buf work s Ht;
    cbn [pdf_loop pdf_loop_counted]; (destruct (total <? PDF_READ_LIMIT) eqn:El;
      [|split; [reflexivity|cbn [arun fst]; lia]]);
    unfold read, bindio; cbn [bindp arun a_raw_machine am_read];
    (destruct (rd CHUNK_SIZE s) as [[chunk|e] s1] eqn:Er; [|split; [reflexivity|cbn [arun fst]; lia]]);
    pose proof (Hrd _ _ _ _ Er) as Hc;
    (destruct (lenN chunk =? 0) eqn:E0; [split; [reflexivity|cbn [arun fst]; lia]|]);
    set (win := dropN _ (takeN _ _));
    (assert (Hw : (List.length win <= N.to_nat (OVERLAP_SIZE + lenN chunk))%nat) by
      (unfold win; rewrite dropN_skipn, takeN_firstn, skipn_length, firstn_length; lia));
    destruct (holds_counted_spec win AI_MARKER) as (b & n & E1 & E2 & Hn);
    rewrite E1, E2; cbn [lift_exec bindp];
    rewrite ai_marker_length in Hn; change OVERLAP_SIZE with 12 in Hw.
  - destruct b; cbn [arun fst snd]; (split; [reflexivity|lia]).
  - destruct b; [cbn [arun fst snd]; (split; [reflexivity|lia])|].
    match goal with |- context [pdf_loop_counted steps ?t ?b ?w] => destruct (IH t b w s1 ltac:(lia)) as [I1 I2] end.
    split; [exact I1|]. destruct (fst _) as [[[r t] w]| |]; lia.
Qed.

(** Illustrator marker: at most 13 comparisons for each byte read, however the reader splits the data, and at most
    32 MB and one chunk are read. *)
Theorem C64_pdf : read_contract rd -> forall steps s,
  let x := R (from_pdf_reader_counted steps) s in
  erases_to (fun '(r, _, _) => r) x (R (from_pdf_reader steps) s) /\
  match fst x with
  | Done (_, taken, comparisons) => comparisons <= 13 * taken /\ taken < 33554432 + 32768
  | _ => True
  end.
Proof.
  intros Hrd steps s x. subst x. unfold from_pdf_reader_counted, from_pdf_reader, seek, bindio, arun_raw.
  cbn [bindp arun a_raw_machine am_seek]. destruct (sk (FromStart 5) s) as [[p|e] s1].
  - match goal with |- context [pdf_loop_counted steps ?t ?b ?w] =>
      destruct (pdf_loop_counted_spec Hrd steps t b w s1 ltac:(reflexivity)) as [I1 I2] end.
    split; [exact I1|]. unfold arun_raw in I2. destruct (fst _) as [[[r t] w]| |]; auto.
    unfold PDF_READ_LIMIT, CHUNK_SIZE in I2. lia.
  - split; [reflexivity|]. cbn [arun fst]. lia.
Qed.

(** Sketch marker: 26 bytes in at most 32768. *)
Theorem C64_sqlite3 : read_contract rd -> forall s,
  let x := R from_sqlite3_reader_counted s in
  erases_to fst x (R from_sqlite3_reader s) /\
  match fst x with Done (_, comparisons) => comparisons <= 26 * (32768 - 25) | _ => True end.
Proof.
  intros Hrd s x. subst x. unfold from_sqlite3_reader_counted, from_sqlite3_reader, seek, read, bindio, arun_raw.
  cbn [bindp arun a_raw_machine am_seek am_read]. destruct (sk (FromStart 100) s) as [[p|e] s1].
  2:{ split; [reflexivity|]. cbn [arun fst]. lia. }
  cbn [bindp arun a_raw_machine am_read]. destruct (rd 32768 s1) as [[buf|e] s2] eqn:Er.
  2:{ split; [reflexivity|]. cbn [arun fst]. lia. }
  pose proof (Hrd _ _ _ _ Er) as Hl. unfold lenN in Hl.
  destruct (holds_counted_spec buf SKETCH_MARKER) as (b & n & -> & -> & Hn). cbn [lift_exec bindp].
  change (List.length SKETCH_MARKER) with 26%nat in Hn.
  destruct b; cbn [arun fst]; (split; [reflexivity|lia]).
Qed.

(** The conditions of the XML reader: one comparison costs at most the List.length of each pattern for each byte. *)
Fixpoint pattern_bytes (x : xcond) : nat :=
  match x with XHolds s => List.length (bs s) | XOr a b | XAnd a b => pattern_bytes a + pattern_bytes b end.
Lemma xeval_counted_spec buf : forall x, exists b n, xeval_counted buf x = Done (b, n) /\ xeval buf x = Done b /\
  (n <= List.length buf * pattern_bytes x)%nat.
Proof.
  induction x as [p|a (ra & na & Ea & Ea' & Ha) b (rb & nb & Eb & Eb' & Hb)|a (ra & na & Ea & Ea' & Ha) b (rb & nb & Eb & Eb' & Hb)];
    cbn [xeval xeval_counted pattern_bytes].
  - destruct (holds_counted_spec buf (bs p)) as (b & n & E1 & E2 & Hn). exists b, n. repeat split; auto. lia.
  - rewrite Ea, Ea'. cbn [bind_exec]. destruct ra.
    + exists true, na. repeat split. lia.
    + rewrite Eb, Eb'. cbn [bind_exec]. exists rb, (na + nb)%nat. repeat split. lia.
  - rewrite Ea, Ea'. cbn [bind_exec]. destruct ra.
    + rewrite Eb, Eb'. cbn [bind_exec]. exists rb, (na + nb)%nat. repeat split. lia.
    + exists false, na. repeat split. lia.
Qed.
Lemma xml_chain_counted_spec buf : forall rules, exists f n, xml_chain_counted buf rules = Done (f, n) /\
  xml_chain buf rules = Done f /\ (n <= List.length buf * list_sum (map (fun r => pattern_bytes (fst r)) rules))%nat.
Proof.
  induction rules as [|[x f] rules (f' & n' & E1 & E2 & Hn')]; cbn [xml_chain xml_chain_counted map fst].
  - do 2 eexists. repeat split. lia.
  - destruct (xeval_counted_spec buf x) as (b & n & -> & -> & Hn). cbn [bind_exec].
    destruct b.
    + exists f, n. repeat split. unfold list_sum. cbn [fold_right]. rewrite Nat.mul_add_distr_l. lia.
    + rewrite E1, E2. cbn [bind_exec]. exists f', (n + n')%nat. repeat split. unfold list_sum in *. cbn [fold_right].
      rewrite Nat.mul_add_distr_l. lia.
Qed.

(** XML vocabularies: 35 patterns with 373 bytes in at most 8192. *)
Theorem C64_xml : read_contract rd -> forall s,
  let x := R from_xml_reader_counted s in
  erases_to fst x (R from_xml_reader s) /\
  match fst x with Done (_, comparisons) => comparisons <= 373 * 8192 | _ => True end.
Proof.
  intros Hrd s x. subst x. unfold from_xml_reader_counted, from_xml_reader, seek, read, bindio, arun_raw.
  cbn [bindp arun a_raw_machine am_seek am_read]. destruct (sk (FromStart 5) s) as [[p|e] s1].
  2:{ split; [reflexivity|]. cbn [arun fst]. lia. }
  cbn [bindp arun a_raw_machine am_read]. destruct (rd 8192 s1) as [[buf|e] s2] eqn:Er.
  2:{ split; [reflexivity|]. cbn [arun fst]. lia. }
  pose proof (Hrd _ _ _ _ Er) as Hl. unfold lenN in Hl.
  destruct (xml_chain_counted_spec buf xml_rules) as (f & n & -> & -> & Hn). cbn [lift_exec bindp].
  replace (list_sum (map (fun r => pattern_bytes (fst r)) xml_rules)) with 373%nat in Hn by reflexivity.
  cbn [arun fst]. split; [reflexivity|]. lia.
Qed.


(** End of the central directory of a ZIP archive: 4 bytes in at most 65557.  This reader works on a [BufReader]. *)
Lemma buffered_exact (Hrd : read_contract rd) n s l s' :
  am_read_exact (a_buf_machine S rd sk fuel) n s = (Done (Ok l), s') -> lenN l = n.
Proof.
  intros E. assert (H0 : forall n s, True -> Mem.legal_read n (fst (a_read S rd n s)) /\ True).
  { intros n0 s0 _. split; [|exact Logic.I]. apply (a_read_law rd sk Hrd (fun _ => True) True); auto. }
  pose proof (exact_law (a_read S rd) (fun _ => True) H0 fuel n [] s Logic.I) as H.
  cbn [a_buf_machine am_read_exact] in E. rewrite E in H. destruct H as [H _]. cbn in H. lia.
Qed.
Notation B := (arun (a_buf_machine S rd sk fuel)).
Theorem C64_zip : read_contract rd -> forall c len s,
  let x := B (zip_find_eocd_counted c len) s in
  erases_to fst x (B (zip_find_eocd c len) s) /\
  match fst x with Done (_, comparisons) => comparisons <= 4 * (65557 - 3) | _ => True end.
Proof.
  intros Hrd c len s x. subst x. unfold zip_find_eocd_counted, zip_find_eocd, seek, read_bytes, read_exact, alloc, bindio.
  cbv zeta. cbn [bindp arun]. destruct (am_seek _ _ s) as [[p|e] s1].
  2:{ split; [reflexivity|]. cbn [arun fst]. lia. }
  set (size := N.min _ EOCD_MAX_SIZE).
  destruct (isize_max c <? size); [split; [reflexivity|exact Logic.I]|]. cbn [bindp arun].
  destruct (am_read_exact _ size s1) as [[[buf|e]| |] s2] eqn:Er.
  2:{ split; [reflexivity|]. cbn [arun fst]. lia. }
  2-3: split; [reflexivity|exact Logic.I].
  assert (Hl : lenN buf <= 65557).
  { apply (buffered_exact Hrd) in Er. rewrite Er. unfold size, EOCD_MAX_SIZE, EOCD_MIN_SIZE. lia. }
  unfold lenN in Hl.
  destruct (C64_reverse_search buf EOCD_SIGNATURE) as (r & a & n & -> & -> & Ha & Hn). cbn [lift_exec bindp].
  change (List.length EOCD_SIGNATURE) with 4%nat in *.
  destruct r as [i|]; cbn [bindp].
  - rewrite !arun_bindp. destruct (arun _ (u64_add c _ _) s2) as [[e| |] s3]; (split; [reflexivity|]); cbn [arun fst]; auto. lia.
  - split; [reflexivity|]. cbn [arun fst]. lia.
Qed.
End Readers.
Print Assumptions C64_pdf.
Print Assumptions C64_sqlite3.
Print Assumptions C64_xml.
Print Assumptions C64_zip.

Local Open Scope string_scope.
Local Open Scope list_scope.
Local Open Scope N_scope.
(** A reader that hands out one byte at a time, and ignores seeks. *)
Definition drip (n : N) (s : bytes) : result bytes * bytes := (Ok (takeN (N.min n 1) s), dropN 1 s).
Definition stay (w : whence) (s : bytes) : result N * bytes := (Ok 0, s).
Definition all_at_once (n : N) (s : bytes) : result bytes * bytes := (Ok (takeN n s), dropN n s).
Lemma drip_contract : read_contract drip.
Proof. intros n s l s' E. unfold drip in E. injection E as <- _. rewrite lenN_takeN. lia. Qed.
Lemma all_at_once_contract : read_contract all_at_once.
Proof. intros n s l s' E. unfold all_at_once in E. injection E as <- _. rewrite lenN_takeN. lia. Qed.
Definition small_pdf : bytes := bs "%PDF-1.7 <</AIPrivateData1 5 0 R>>".
Example C64_witness :
  (* "abcabd" in "abcabcabd": one comparison, a shift by 3, then the 6 comparisons of the match *)
  find_counted (bs "abcabcabd") (bs "abcabd") = Done (Some 3%nat, 2%nat, 7%nat) /\
  rfind_counted (bs "abcabcabd") (bs "abcabd") = Done (Some 3%nat, 1%nat, 6%nat) /\
  find_counted (bs "xxxxxxxxx") (bs "abcd") = Done (None, 2%nat, 2%nat) /\
  find_counted (bs "xxxxxxxxx") (bs "yxx") = Done (None, 7%nat, 21%nat) /\
  read_contract drip /\ read_contract all_at_once /\
  fst (arun_raw bytes drip stay 1 (from_pdf_reader_counted 100) small_pdf) = Done (Ok AdobeIllustratorArtwork, 25, 38) /\
  fst (arun_raw bytes all_at_once stay 1 (from_pdf_reader_counted 100) small_pdf) = Done (Ok AdobeIllustratorArtwork, 34, 14) /\
  fst (arun_raw bytes all_at_once stay 1 from_xml_reader_counted (bs "<?xml version='1.0'?><kml>")) = Done (Ok KeyholeMarkupLanguage, 76).
Proof.
  repeat match goal with |- _ /\ _ => split end;
    try exact drip_contract; try exact all_at_once_contract; vm_compute; reflexivity.
Qed.
