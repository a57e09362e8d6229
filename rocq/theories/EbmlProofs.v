(** EBML (C29, C30). *)
From Coq Require Import NArith ZArith Bool String List Lia ZifyBool ZifyNat ZifyN.
From Verif Require Import Base BaseProofs Formats IO Readers Mem LibProofs Ideal Spec SpecText SpecBin SpecEbml
  BinProofs Utf8Proofs Exec ExeProofs Id3Proofs Mp4Proofs Static ReaderStatic.
Local Open Scope N_scope.
Ltac Zify.zify_post_hook ::= idtac.

(** ** Big-endian numbers from the top *)
Lemma le_bytes_snoc k : forall v, le_bytes (S k) v = le_bytes k v ++ [byteN (v / 256 ^ N.of_nat k mod 256)].
Proof.
  induction k as [|k IH]; intros v.
  - cbn [le_bytes app]. change (256 ^ N.of_nat 0) with 1. now rewrite N.div_1_r.
  - change (le_bytes (S (S k)) v) with (byteN (v mod 256) :: le_bytes (S k) (v / 256)).
    rewrite IH. cbn [le_bytes app]. do 3 f_equal.
    rewrite N.div_div by (try apply N.pow_nonzero; lia). f_equal. f_equal. f_equal.
    rewrite Nat2N.inj_succ, N.pow_succ_r'. reflexivity.
Qed.
Lemma le_bytes_mod k : forall v, le_bytes k (v mod 256 ^ N.of_nat k) = le_bytes k v.
Proof.
  induction k as [|k IH]; intros v; [reflexivity|]. cbn [le_bytes].
  rewrite Nat2N.inj_succ, N.pow_succ_r'.
  pose proof (N.pow_nonzero 256 (N.of_nat k) ltac:(lia)) as Hz.
  rewrite N.mod_mul_r by lia. f_equal.
  - f_equal. rewrite N.mul_comm, N.mod_add by lia. apply N.mod_mod; lia.
  - rewrite <- (IH (v / 256)). f_equal.
    rewrite N.mul_comm, N.div_add by lia. rewrite N.div_small; [lia|apply N.mod_lt; lia].
Qed.
Lemma be_bytes_cons k v : v < 256 ^ N.of_nat (S k) ->
  be_bytes (S k) v = byteN (v / 256 ^ N.of_nat k) :: be_bytes k (v mod 256 ^ N.of_nat k).
Proof.
  intros H. unfold be_bytes. rewrite le_bytes_snoc, rev_app_distr, le_bytes_mod. cbn [rev app].
  f_equal. f_equal. apply N.mod_small. rewrite Nat2N.inj_succ, N.pow_succ_r' in H.
  apply N.div_lt_upper_bound; [apply N.pow_nonzero; lia|lia].
Qed.

Lemma leading_zeros_range f w : (1 <= w <= 8)%nat -> 2 ^ (8 - N.of_nat w) <= f ->
  f < 2 ^ (9 - N.of_nat w) -> leading_zeros8 f = N.of_nat w - 1.
Proof.
  intros Hw H1 H2. unfold leading_zeros8.
  assert (f <> 0) by (intros ->; pose proof (N.pow_nonzero 2 (8 - N.of_nat w)); lia).
  rewrite N.size_log2 by assumption. rewrite (N.log2_unique f (8 - N.of_nat w)); [lia|lia|].
  replace (N.succ (8 - N.of_nat w)) with (9 - N.of_nat w) by lia. auto.
Qed.

Section Reads.
Variables (content : bytes) (max : N).

Lemma ex_shift_bytes {B} m l : forall v r pos (k : N -> io B) X,
  (forall i, i <= lenN l -> v * 256 ^ i < m) -> v * 256 ^ lenN l + be_val l < m ->
  at_ content pos (l ++ r) ->
  (at_ content (pos + lenN l) r -> ex content max (k (v * 256 ^ lenN l + be_val l)) (pos + lenN l) = X) ->
  ex content max (bindio (read_shift_bytes m (List.length l) v) k) pos = X.
Proof.
  induction l as [|b l IH]; intros v r pos k X Hm1 Hm2 Hat HX.
  - cbn [List.length read_shift_bytes]. apply ex_bind_ok.
    rewrite lenN_nil, N.add_0_r in HX. change (be_val []) with 0 in HX.
    rewrite N.pow_0_r, N.mul_1_r, N.add_0_r in HX. apply HX. exact Hat.
  - cbn [List.length read_shift_bytes]. apply ex_bind_assoc.
    change ((b :: l) ++ r) with ([b] ++ l ++ r) in Hat.
    eapply (ex_int _ _ le_val 1); [exact Hat|reflexivity|reflexivity|]. intros Hat1.
    cbn [le_val]. rewrite N.mul_0_r, N.add_0_r.
    pose proof (bval_lt b) as Hb.
    assert (Hv : v * 256 < m).
    { specialize (Hm1 1). rewrite N.pow_1_r in Hm1. apply Hm1. rewrite lenN_cons. lia. }
    rewrite (N.mod_small (N.shiftl v 8)) by (rewrite N.shiftl_mul_pow2; exact Hv).
    rewrite (lor_shift v (bval b) 8) by exact Hb. change (2 ^ 8) with 256.
    rewrite lenN_cons in *. rewrite be_val_cons in *.
    assert (Hval : (v * 256 + bval b) * 256 ^ lenN l + be_val l =
                   v * 256 ^ (1 + lenN l) + (bval b * 256 ^ lenN l + be_val l)).
    { rewrite N.pow_add_r. change (256 ^ 1) with 256. lia. }
    eapply IH; [|rewrite Hval; exact Hm2|exact Hat1|].
    + intros i Hi. eapply N.le_lt_trans; [|exact Hm2].
      rewrite N.pow_add_r. change (256 ^ 1) with 256.
      assert (Hp : 256 ^ i <= 256 ^ lenN l) by (apply N.pow_le_mono_r; lia).
      apply (N.mul_le_mono_l _ _ (v * 256 + bval b)) in Hp.
      remember (256 ^ i) as pi. remember (256 ^ lenN l) as pl. lia.
    + intros Hat2. rewrite Hval.
      replace (pos + 1 + lenN l) with (pos + (1 + lenN l)) in * by lia. apply HX. exact Hat2.
Qed.

Lemma ex_ebml_id {B} w v r pos (k : N -> io B) X : element_id w v ->
  at_ content pos (be_bytes w v ++ r) ->
  (at_ content (pos + N.of_nat w) r -> ex content max (k v) (pos + N.of_nat w) = X) ->
  ex content max (bindio read_ebml_id k) pos = X.
Proof.
  intros (Hw & H1 & H2) Hat HX. destruct w as [|n]; [lia|].
  assert (H256 : v < 256 ^ N.of_nat (S n)).
  { eapply N.lt_le_trans; [exact H2|]. change 256 with (2 ^ 8). rewrite <- N.pow_mul_r.
    apply N.pow_le_mono_r; lia. }
  rewrite be_bytes_cons in Hat by exact H256.
  set (q := v / 256 ^ N.of_nat n) in *. set (m := v mod 256 ^ N.of_nat n) in *.
  assert (Hp : 256 ^ N.of_nat n <> 0) by (apply N.pow_nonzero; lia).
  assert (Hq : 2 ^ (8 - N.of_nat (S n)) <= q /\ q < 2 ^ (9 - N.of_nat (S n))).
  { assert (E : 256 ^ N.of_nat n = 2 ^ (8 * N.of_nat n)) by (change 256 with (2 ^ 8); now rewrite <- N.pow_mul_r).
    unfold q. rewrite E in *. split.
    - apply N.div_le_lower_bound; [exact Hp|]. rewrite <- N.pow_add_r.
      replace (8 * N.of_nat n + (8 - N.of_nat (S n))) with (7 * N.of_nat (S n)) by lia. exact H1.
    - apply N.div_lt_upper_bound; [exact Hp|]. rewrite <- N.pow_add_r.
      replace (8 * N.of_nat n + (9 - N.of_nat (S n))) with (7 * N.of_nat (S n) + 1) by lia. exact H2. }
  assert (Hq256 : q < 256).
  { eapply N.lt_le_trans; [apply Hq|]. change 256 with (2 ^ 8). apply N.pow_le_mono_r; lia. }
  unfold read_ebml_id. apply ex_bind_assoc.
  change ((byteN q :: be_bytes n m) ++ r) with ([byteN q] ++ be_bytes n m ++ r) in Hat.
  eapply (ex_int _ _ le_val 1); [exact Hat|reflexivity|reflexivity|]. intros Hat1.
  cbn [le_val]. rewrite bval_byteN, N.mul_0_r, N.add_0_r by exact Hq256.
  rewrite (leading_zeros_range q (S n)) by (try apply Hq; lia). cbv zeta.
  replace (4 <? N.of_nat (S n) - 1 + 1) with false by lia.
  replace (N.to_nat (N.of_nat (S n) - 1 + 1 - 1)) with (List.length (be_bytes n m))
    by (rewrite be_bytes_length; lia).
  assert (Hm : m < 256 ^ N.of_nat n) by (apply N.mod_lt; exact Hp).
  assert (Hval : q * 256 ^ lenN (be_bytes n m) + be_val (be_bytes n m) = v).
  { rewrite lenN_be_bytes, be_val_be_bytes by exact Hm. unfold q, m.
    rewrite (N.div_mod v (256 ^ N.of_nat n)) at 3 by exact Hp. lia. }
  assert (Hv32 : v < u32_max1).
  { eapply N.lt_le_trans; [exact H256|]. unfold u32_max1. change 256 with (2 ^ 8).
    rewrite <- N.pow_mul_r. apply N.pow_le_mono_r; lia. }
  eapply (ex_shift_bytes u32_max1 (be_bytes n m) q); [| |exact Hat1|].
  - intros i Hi. eapply N.le_lt_trans; [|exact Hv32]. rewrite <- Hval.
    assert (Hle : 256 ^ i <= 256 ^ lenN (be_bytes n m)) by (apply N.pow_le_mono_r; lia).
    apply (N.mul_le_mono_l _ _ q) in Hle. eapply N.le_trans; [exact Hle|]. apply N.le_add_r.
  - rewrite Hval. exact Hv32.
  - rewrite Hval. rewrite lenN_be_bytes. replace (pos + 1 + N.of_nat n) with (pos + N.of_nat (S n)) by lia.
    exact HX.
Qed.

Lemma ex_ebml_size {B} w v r pos (k : N -> io B) X : (1 <= w <= 8)%nat -> v < 2 ^ (7 * N.of_nat w) ->
  at_ content pos (vint w v ++ r) ->
  (at_ content (pos + N.of_nat w) r -> ex content max (k v) (pos + N.of_nat w) = X) ->
  ex content max (bindio read_ebml_size k) pos = X.
Proof.
  intros Hw Hv Hat HX. destruct w as [|n]; [lia|]. unfold vint in Hat.
  set (V := 2 ^ (7 * N.of_nat (S n)) + v) in *.
  assert (E : 256 ^ N.of_nat n = 2 ^ (8 * N.of_nat n)) by (change 256 with (2 ^ 8); now rewrite <- N.pow_mul_r).
  assert (Hp : 256 ^ N.of_nat n <> 0) by (apply N.pow_nonzero; lia).
  assert (Hmark : 2 ^ (7 * N.of_nat (S n)) = 2 ^ (8 - N.of_nat (S n)) * 256 ^ N.of_nat n).
  { rewrite E, <- N.pow_add_r. f_equal. lia. }
  assert (HV : V < 2 ^ (7 * N.of_nat (S n) + 1)).
  { unfold V. rewrite N.pow_add_r. change (2 ^ 1) with 2. lia. }
  assert (H256 : V < 256 ^ N.of_nat (S n)).
  { eapply N.lt_le_trans; [exact HV|]. change 256 with (2 ^ 8). rewrite <- N.pow_mul_r.
    apply N.pow_le_mono_r; lia. }
  rewrite be_bytes_cons in Hat by exact H256.
  set (t := v / 256 ^ N.of_nat n).
  assert (Ht : t < 2 ^ (8 - N.of_nat (S n))).
  { unfold t. apply N.div_lt_upper_bound; [exact Hp|]. rewrite N.mul_comm, <- Hmark. exact Hv. }
  assert (Hdiv : V / 256 ^ N.of_nat n = 2 ^ (8 - N.of_nat (S n)) + t).
  { unfold V. rewrite Hmark, N.div_add_l by exact Hp. reflexivity. }
  assert (Hmod : V mod 256 ^ N.of_nat n = v mod 256 ^ N.of_nat n).
  { unfold V. rewrite Hmark, N.add_comm, N.mod_add by exact Hp. reflexivity. }
  rewrite Hdiv, Hmod in Hat. set (m := v mod 256 ^ N.of_nat n) in *.
  assert (Hpow : 2 ^ (9 - N.of_nat (S n)) = 2 * 2 ^ (8 - N.of_nat (S n))).
  { rewrite <- N.pow_succ_r'. f_equal. lia. }
  assert (Hq256 : 2 ^ (8 - N.of_nat (S n)) + t < 256).
  { apply N.lt_le_trans with (2 ^ (9 - N.of_nat (S n))); [lia|].
    change 256 with (2 ^ 8). apply N.pow_le_mono_r; lia. }
  unfold read_ebml_size. apply ex_bind_assoc.
  set (q := 2 ^ (8 - N.of_nat (S n)) + t) in *.
  change ((byteN q :: be_bytes n m) ++ r) with ([byteN q] ++ be_bytes n m ++ r) in Hat.
  eapply (ex_int _ _ le_val 1); [exact Hat|reflexivity|reflexivity|]. intros Hat1.
  cbn [le_val]. rewrite bval_byteN, N.mul_0_r, N.add_0_r by exact Hq256.
  rewrite (leading_zeros_range q (S n)) by (unfold q; lia). cbv zeta.
  replace (8 <? N.of_nat (S n) - 1 + 1) with false by lia.
  replace (N.to_nat (N.of_nat (S n) - 1 + 1 - 1)) with (List.length (be_bytes n m))
    by (rewrite be_bytes_length; lia).
  assert (Hmask : N.shiftr 128 (N.of_nat (S n) - 1) - 1 = N.ones (8 - N.of_nat (S n))).
  { rewrite N.shiftr_div_pow2, N.ones_equiv, <- N.sub_1_r. f_equal. change 128 with (2 ^ 7).
    rewrite <- N.pow_sub_r by lia. f_equal. lia. }
  rewrite Hmask, N.land_ones.
  replace (q mod 2 ^ (8 - N.of_nat (S n))) with t.
  2:{ unfold q. replace (2 ^ (8 - N.of_nat (S n)) + t) with (t + 1 * 2 ^ (8 - N.of_nat (S n))) by lia.
      rewrite N.mod_add by (apply N.pow_nonzero; lia). symmetry. now apply N.mod_small. }
  assert (Hm : m < 256 ^ N.of_nat n) by (apply N.mod_lt; exact Hp).
  assert (Hval : t * 256 ^ lenN (be_bytes n m) + be_val (be_bytes n m) = v).
  { rewrite lenN_be_bytes, be_val_be_bytes by exact Hm. unfold t, m.
    rewrite (N.div_mod v (256 ^ N.of_nat n)) at 3 by exact Hp. lia. }
  assert (Hv64 : v < u64_max1).
  { eapply N.lt_le_trans; [exact Hv|]. unfold u64_max1. apply N.pow_le_mono_r; lia. }
  eapply (ex_shift_bytes u64_max1 (be_bytes n m) t); [| |exact Hat1|].
  - intros i Hi. eapply N.le_lt_trans; [|exact Hv64]. rewrite <- Hval.
    assert (Hle : 256 ^ i <= 256 ^ lenN (be_bytes n m)) by (apply N.pow_le_mono_r; lia).
    apply (N.mul_le_mono_l _ _ t) in Hle. eapply N.le_trans; [exact Hle|]. apply N.le_add_r.
  - rewrite Hval. exact Hv64.
  - rewrite Hval. rewrite lenN_be_bytes. replace (pos + 1 + N.of_nat n) with (pos + N.of_nat (S n)) by lia.
    exact HX.
Qed.
End Reads.

(** ** Tree induction and tokens *)
Lemma element_ind' (P : element -> Prop) :
  (forall m u w children, Forall P children -> P (Master m u w children)) ->
  (forall w n, P (DocType w n)) -> (forall w n, P (CodecID w n)) -> (forall w n, P (StereoMode w n)) ->
  (forall u w p, P (Cluster u w p)) -> (forall iw id w p, P (Element iw id w p)) -> forall e, P e.
Proof.
  intros H1 H2 H3 H4 H5 H6. fix IH 1. intros [m u w children| | | | |];
    [|apply H2|apply H3|apply H4|apply H5|apply H6].
  apply H1. induction children as [|x r IHr]; constructor; [apply IH|exact IHr].
Qed.

Inductive tok : Set :=
| TMaster (m : master) (w : nat) (size : N)
| TStereo (w : nat) (size : N) (mode : byte)
| TElem (e : element).
Definition tok_bytes (t : tok) : bytes :=
  match t with
  | TMaster m w size => master_id m ++ vint w size
  | TStereo w size mode => be_bytes 2 ID_StereoMode ++ vint w size ++ [mode]
  | TElem e => element_bytes e
  end.
Definition tok_event (t : tok) : event :=
  match t with
  | TMaster _ _ _ => EvOther
  | TStereo _ _ mode => EvStereo (bval mode)
  | TElem (Master _ _ _ _) => EvOther
  | TElem (DocType _ name) => EvDocType name
  | TElem (CodecID _ name) => EvCodec name
  | TElem (StereoMode _ mode) => EvStereo (bval mode)
  | TElem (Cluster _ _ _) => EvCluster
  | TElem (Element _ _ _ _) => EvOther
  end.
Definition wf_tok (t : tok) : Prop :=
  match t with
  | TMaster _ w size | TStereo w size _ => (1 <= w <= 8)%nat /\ size < 2 ^ (7 * N.of_nat w)
  | TElem (Master _ _ _ _) => False
  | TElem e => wf_element e
  end.
Fixpoint toks (e : element) : list tok :=
  match e with
  | Master m u w children =>
      TMaster m w (if u then 2 ^ (7 * N.of_nat w) - 1 else lenN (flat_map element_bytes children))
      :: flat_map toks children
  | _ => [TElem e]
  end.

Lemma toks_bytes e : element_bytes e = flat_map tok_bytes (toks e).
Proof.
  induction e as [m u w children IH| | | | |] using element_ind';
    try (cbn [toks flat_map tok_bytes]; now rewrite app_nil_r).
  cbn [element_bytes toks flat_map tok_bytes]. unfold size_field. rewrite <- app_assoc. do 2 f_equal.
  induction IH as [|x r Hx _ IHr]; [reflexivity|]. cbn [flat_map]. now rewrite flat_map_app, Hx, IHr.
Qed.
Lemma toks_events e : map tok_event (toks e) = events e.
Proof.
  induction e as [m u w children IH| | | | |] using element_ind'; try reflexivity.
  cbn [toks map events tok_event]. f_equal.
  induction IH as [|x r Hx _ IHr]; [reflexivity|]. cbn [flat_map]. now rewrite map_app, Hx, IHr.
Qed.
Lemma unknown_lt w : 2 ^ (7 * N.of_nat w) - 1 < 2 ^ (7 * N.of_nat w).
Proof. pose proof (N.pow_nonzero 2 (7 * N.of_nat w) ltac:(lia)). lia. Qed.
Lemma toks_wf e : wf_element e -> Forall wf_tok (toks e).
Proof.
  induction e as [m u w children IH| | | | |] using element_ind'; intros H;
    try (constructor; [exact H|constructor]).
  cbn [wf_element toks] in *. destruct H as [[Hw Hs] H]. constructor.
  { split; [exact Hw|]. destruct u; [apply unknown_lt|exact Hs]. }
  clear Hs. induction IH as [|x r Hx _ IHr]; [constructor|]. cbn [flat_map]. apply Forall_app.
  destruct H as [H1 H2]. split; [apply Hx; exact H1|apply IHr; exact H2].
Qed.
Lemma flat_toks_bytes els : flat_map element_bytes els = flat_map tok_bytes (flat_map toks els).
Proof. induction els; [reflexivity|]. cbn [flat_map]. now rewrite flat_map_app, toks_bytes, IHels. Qed.
Lemma flat_toks_events els : map tok_event (flat_map toks els) = flat_map events els.
Proof. induction els; [reflexivity|]. cbn [flat_map]. now rewrite map_app, toks_events, IHels. Qed.
Lemma flat_toks_wf els : Forall wf_element els -> Forall wf_tok (flat_map toks els).
Proof. induction 1; [constructor|]. cbn [flat_map]. apply Forall_app. split; [now apply toks_wf|assumption]. Qed.

(** ** The loop *)
Lemma bstarts_with_takeN p : forall n l, lenN p <= n -> bstarts_with (takeN n l) p = bstarts_with l p.
Proof.
  induction p as [|y p IH]; intros n l H; [destruct l; [reflexivity|]; now destruct (takeN n _)|].
  destruct l as [|x l]; [reflexivity|]. rewrite lenN_cons in H. cbn [takeN].
  replace (n =? 0) with false by lia. cbn [bstarts_with]. rewrite IH by lia. reflexivity.
Qed.
Lemma as_usize_small c n : wf_cfg c -> n < 2 ^ 32 -> as_usize c n = n.
Proof.
  intros Hc Hn. unfold as_usize. apply N.mod_small. destruct Hc as [-> | ->]; [exact Hn|].
  eapply N.lt_trans; [exact Hn|reflexivity].
Qed.

Definition outcome (a v s : bool) (evs : list event) : FileFormat :=
  let seen := before_cluster evs in
  match first_decisive seen with
  | Some f => f
  | None => ebml_result (a || has_codec "A_" seen) (v || has_codec "V_" seen) (s || has_codec "S_" seen)
  end.
Lemma outcome_class evs : outcome false false false evs = ebml_class evs.
Proof. reflexivity. Qed.
Lemma outcome_nil a v s : outcome a v s [] = ebml_result a v s.
Proof. unfold outcome. cbn. now rewrite !orb_false_r. Qed.
Lemma outcome_other a v s evs : outcome a v s (EvOther :: evs) = outcome a v s evs.
Proof. reflexivity. Qed.

Lemma codec_upd name a v s :
  (if bstarts_with name (bs "A_") then (true, v, s)
   else if bstarts_with name (bs "V_") then (a, true, s)
   else if bstarts_with name (bs "S_") then (a, v, true) else (a, v, s)) =
  (a || bstarts_with name (bs "A_"), v || bstarts_with name (bs "V_"), s || bstarts_with name (bs "S_")).
Proof.
  destruct (bstarts_with name (bs "A_")) eqn:E1.
  { apply bstarts_with_iff in E1 as [r ->]. cbn. now rewrite !orb_false_r, orb_true_r. }
  destruct (bstarts_with name (bs "V_")) eqn:E2.
  { apply bstarts_with_iff in E2 as [r ->]. cbn. now rewrite !orb_false_r, orb_true_r. }
  destruct (bstarts_with name (bs "S_")); now rewrite ?orb_false_r, ?orb_true_r.
Qed.
Lemma outcome_codec a v s name evs :
  outcome a v s (EvCodec name :: evs) =
  outcome (a || bstarts_with name (bs "A_")) (v || bstarts_with name (bs "V_")) (s || bstarts_with name (bs "S_")) evs.
Proof.
  unfold outcome. cbn [before_cluster first_decisive decisive has_codec existsb].
  destruct (first_decisive _); [reflexivity|]. now rewrite <- !orb_assoc.
Qed.

Section Loop.
Variables (c : plat) (content : bytes) (max : N).
Hypothesis Hc : wf_cfg c.
Hypothesis Hlen : lenN content <= max.
Hypothesis Hlen2 : lenN content < 2 ^ 63.

(** An element header: the ID and the size. *)
Lemma ex_header {B} iw id w size r pos (k : N -> N -> io B) X :
  element_id iw id -> (1 <= w <= 8)%nat -> size < 2 ^ (7 * N.of_nat w) ->
  at_ content pos (be_bytes iw id ++ vint w size ++ r) ->
  (at_ content (pos + N.of_nat iw + N.of_nat w) r -> ex content max (k id size) (pos + N.of_nat iw + N.of_nat w) = X) ->
  ex content max (let! i := read_ebml_id in let! sz := read_ebml_size in k i sz) pos = X.
Proof.
  intros Hi Hw Hs Hat HX. eapply ex_ebml_id; [exact Hi|exact Hat|]. intros Hat1.
  eapply ex_ebml_size; [exact Hw|exact Hs|exact Hat1|exact HX].
Qed.

Lemma vint_len w n : lenN (vint w n) = N.of_nat w.
Proof. apply lenN_be_bytes. Qed.

Definition master_width (m : master) : nat := match m with MTrackEntry | MVideo => 1 | _ => 4 end%nat.
Definition master_num (m : master) : N :=
  match m with MEbml => ID_EBML | MSegment => ID_Segment | MTracks => ID_Tracks
             | MTrackEntry => ID_TrackEntry | MVideo => ID_Video end.
Lemma master_id_eq m : master_id m = be_bytes (master_width m) (master_num m).
Proof. destruct m; reflexivity. Qed.
Ltac eid := unfold element_id; split; [cbn; lia|split; vm_compute; [intros E; discriminate E|reflexivity]].
Lemma master_id_wf m : element_id (master_width m) (master_num m).
Proof. destruct m; eid. Qed.
Lemma id_doctype : element_id 2 ID_DocType. Proof. eid. Qed.
Lemma id_codec : element_id 1 ID_CodecID. Proof. eid. Qed.
Lemma id_stereo : element_id 2 ID_StereoMode. Proof. eid. Qed.
Lemma id_cluster : element_id 4 ID_Cluster. Proof. eid. Qed.

Lemma other_id id : ~ In id special_ids ->
  (id =? EBML_ELEMENT_ID) || (id =? SEGMENT_ELEMENT_ID) || (id =? TRACKS_ELEMENT_ID)
           || (id =? TRACK_ENTRY_ELEMENT_ID) || (id =? VIDEO_ELEMENT_ID) = false /\
  (id =? DOC_TYPE_ELEMENT_ID) = false /\ (id =? CODEC_ID_ELEMENT_ID) = false /\
  (id =? STEREO_MODE_ELEMENT_ID) = false /\ (id =? CLUSTER_ELEMENT_ID) = false.
Proof.
  intros H.
  assert (K : forall x, In x special_ids -> (id =? x) = false).
  { intros x Hx. apply N.eqb_neq. intros ->. exact (H Hx). }
  change EBML_ELEMENT_ID with ID_EBML. change SEGMENT_ELEMENT_ID with ID_Segment.
  change TRACKS_ELEMENT_ID with ID_Tracks. change TRACK_ENTRY_ELEMENT_ID with ID_TrackEntry.
  change VIDEO_ELEMENT_ID with ID_Video. change DOC_TYPE_ELEMENT_ID with ID_DocType.
  change CODEC_ID_ELEMENT_ID with ID_CodecID. change STEREO_MODE_ELEMENT_ID with ID_StereoMode.
  change CLUSTER_ELEMENT_ID with ID_Cluster.
  rewrite !K by (cbn; tauto). repeat split.
Qed.

Lemma ebml_loop_spec : forall n ts pos a v s,
  Forall wf_tok ts -> at_ content pos (flat_map tok_bytes ts) ->
  ex content max (ebml_elements c (lenN content) n a v s) pos =
  Done (Ok (outcome a v s (map tok_event (firstn n ts)))).
Proof.
  pose proof (isize_max_ge c Hc) as Hi. change (2 ^ 63) with 9223372036854775808 in Hlen2.
  induction n as [|n IH]; intros ts pos a v s Hw Hat.
  { cbn [firstn map]. rewrite outcome_nil. reflexivity. }
  cbn [ebml_elements]. apply ex_tell. destruct ts as [|t ts].
  { cbn [firstn map]. rewrite outcome_nil.
    destruct Hat as [_ Hat]. cbn in Hat. replace (pos <? lenN content) with false by lia. reflexivity. }
  inversion Hw as [|? ? Ht Hw']; subst. cbn [firstn map].
  assert (Hpos : pos + lenN (tok_bytes t) <= lenN content).
  { destruct Hat as [_ Hat]. cbn [flat_map] in Hat. rewrite lenN_app in Hat. lia. }
  assert (Hne : pos < lenN content).
  { enough (0 < lenN (tok_bytes t)) by lia.
    destruct t as [m w size|w size mode|[m u w ch|w name|w name|w mode|u w p|iw id w p]];
      cbn [tok_bytes element_bytes wf_tok wf_element] in *; unfold leaf_bytes; rewrite ?lenN_app;
      rewrite ?master_id_eq, ?lenN_be_bytes, ?vint_len.
    - lia.
    - lia.
    - destruct Ht.
    - lia.
    - lia.
    - lia.
    - lia.
    - destruct Ht as [(Hiw & _) _]. lia. }
  replace (pos <? lenN content) with true by lia.
  cbn [flat_map] in Hat.
  destruct t as [m w size|w size mode|[m u w ch|w name|w name|w mode|u w p|iw id w p]];
    cbn [tok_bytes element_bytes wf_tok wf_element tok_event] in *; unfold leaf_bytes in *.
  - (* master *)
    destruct Ht as [Hw1 Hs]. rewrite master_id_eq, <- !app_assoc in Hat.
    eapply (ex_header (master_width m) (master_num m) w size);
      [apply master_id_wf|exact Hw1|exact Hs|exact Hat|]. intros Hat1.
    rewrite outcome_other, <- (IH ts _ a v s Hw' Hat1). destruct m; reflexivity.
  - (* StereoMode with any declared size *)
    destruct Ht as [Hw1 Hs]. rewrite <- !app_assoc in Hat.
    eapply (ex_header 2 ID_StereoMode w size); [apply id_stereo|exact Hw1|exact Hs|exact Hat|].
    intros Hat1.
    change ((ID_StereoMode =? EBML_ELEMENT_ID) || (ID_StereoMode =? SEGMENT_ELEMENT_ID) || (ID_StereoMode =? TRACKS_ELEMENT_ID)
           || (ID_StereoMode =? TRACK_ENTRY_ELEMENT_ID) || (ID_StereoMode =? VIDEO_ELEMENT_ID)) with false.
    change (ID_StereoMode =? DOC_TYPE_ELEMENT_ID) with false.
    change (ID_StereoMode =? CODEC_ID_ELEMENT_ID) with false.
    change (ID_StereoMode =? STEREO_MODE_ELEMENT_ID) with true. cbn match.
    eapply (ex_int _ _ le_val 1); [exact Hat1|reflexivity|reflexivity|]. intros Hat2.
    cbn [le_val]. rewrite N.mul_0_r, N.add_0_r.
    unfold outcome. cbn [before_cluster first_decisive decisive].
    destruct (0 <? bval mode); [reflexivity|]. exact (IH ts _ a v s Hw' Hat2).
  - destruct Ht.
  - (* DocType *)
    destruct Ht as [[Hw1 Hs] H32]. rewrite <- !app_assoc in Hat.
    eapply (ex_header 2 ID_DocType w (lenN name)); [apply id_doctype|exact Hw1|exact Hs|exact Hat|].
    intros Hat1.
    change ((ID_DocType =? EBML_ELEMENT_ID) || (ID_DocType =? SEGMENT_ELEMENT_ID) || (ID_DocType =? TRACKS_ELEMENT_ID)
           || (ID_DocType =? TRACK_ENTRY_ELEMENT_ID) || (ID_DocType =? VIDEO_ELEMENT_ID)) with false.
    change (ID_DocType =? DOC_TYPE_ELEMENT_ID) with true. cbn match.
    rewrite as_usize_small by assumption.
    rewrite <- (take_dropN 8 name) in Hat1. rewrite <- app_assoc in Hat1.
    eapply ex_bytes; [lia|exact Hat1|apply lenN_takeN|]. intros Hat2.
    rewrite !bstarts_with_takeN by (vm_compute; discriminate).
    unfold outcome. cbn [before_cluster first_decisive decisive].
    destruct (bstarts_with name (bs "webm")); [reflexivity|].
    destruct (bstarts_with name (bs "matroska")); cbn [negb]; [|reflexivity].
    change (2 ^ 32) with 4294967296 in H32.
    rewrite as_i64_small by (change (2 ^ 63) with 9223372036854775808; unfold sat_sub; lia).
    eapply ex_skip; [exact Hat2|rewrite lenN_dropN; reflexivity|exact Hlen|]. intros Hat3.
    exact (IH ts _ a v s Hw' Hat3).
  - (* CodecID *)
    destruct Ht as [[Hw1 Hs] H32]. rewrite <- !app_assoc in Hat.
    eapply (ex_header 1 ID_CodecID w (lenN name)); [apply id_codec|exact Hw1|exact Hs|exact Hat|].
    intros Hat1.
    change ((ID_CodecID =? EBML_ELEMENT_ID) || (ID_CodecID =? SEGMENT_ELEMENT_ID) || (ID_CodecID =? TRACKS_ELEMENT_ID)
           || (ID_CodecID =? TRACK_ENTRY_ELEMENT_ID) || (ID_CodecID =? VIDEO_ELEMENT_ID)) with false.
    change (ID_CodecID =? DOC_TYPE_ELEMENT_ID) with false.
    change (ID_CodecID =? CODEC_ID_ELEMENT_ID) with true. cbn match.
    rewrite as_usize_small by assumption.
    rewrite <- (take_dropN 64 name) in Hat1. rewrite <- app_assoc in Hat1.
    eapply ex_bytes; [lia|exact Hat1|apply lenN_takeN|]. intros Hat2.
    rewrite !bstarts_with_takeN by (vm_compute; discriminate).
    rewrite codec_upd, outcome_codec.
    change (2 ^ 32) with 4294967296 in H32.
    rewrite as_i64_small by (change (2 ^ 63) with 9223372036854775808; unfold sat_sub; lia).
    eapply ex_skip; [exact Hat2|rewrite lenN_dropN; reflexivity|exact Hlen|]. intros Hat3.
    exact (IH ts _ _ _ _ Hw' Hat3).
  - (* StereoMode *)
    destruct Ht as [Hw1 Hs]. rewrite <- !app_assoc in Hat.
    eapply (ex_header 2 ID_StereoMode w 1); [apply id_stereo|exact Hw1|exact Hs|exact Hat|].
    intros Hat1.
    change ((ID_StereoMode =? EBML_ELEMENT_ID) || (ID_StereoMode =? SEGMENT_ELEMENT_ID) || (ID_StereoMode =? TRACKS_ELEMENT_ID)
           || (ID_StereoMode =? TRACK_ENTRY_ELEMENT_ID) || (ID_StereoMode =? VIDEO_ELEMENT_ID)) with false.
    change (ID_StereoMode =? DOC_TYPE_ELEMENT_ID) with false.
    change (ID_StereoMode =? CODEC_ID_ELEMENT_ID) with false.
    change (ID_StereoMode =? STEREO_MODE_ELEMENT_ID) with true. cbn match.
    eapply (ex_int _ _ le_val 1); [exact Hat1|reflexivity|reflexivity|]. intros Hat2.
    cbn [le_val]. rewrite N.mul_0_r, N.add_0_r.
    unfold outcome. cbn [before_cluster first_decisive decisive].
    destruct (0 <? bval mode); [reflexivity|]. exact (IH ts _ a v s Hw' Hat2).
  - (* Cluster *)
    destruct Ht as [Hw1 Hs]. unfold size_field in Hat. rewrite <- !app_assoc in Hat.
    eapply (ex_header 4 ID_Cluster w); [apply id_cluster|exact Hw1| |exact Hat|].
    { destruct u; [apply unknown_lt|exact Hs]. }
    intros Hat1. cbn -[outcome ebml_elements]. now rewrite <- outcome_nil.
  - (* others *)
    destruct Ht as (Hid & Hnot & Hw1 & Hs). rewrite <- !app_assoc in Hat.
    eapply (ex_header iw id w (lenN p)); [exact Hid|exact Hw1|exact Hs|exact Hat|].
    intros Hat1. destruct (other_id id Hnot) as (-> & -> & -> & -> & ->).
    rewrite !lenN_app in Hpos.
    rewrite as_i64_small by (change (2 ^ 63) with 9223372036854775808; lia).
    eapply ex_skip; [exact Hat1|reflexivity|exact Hlen|]. intros Hat2.
    rewrite outcome_other. exact (IH ts _ a v s Hw' Hat2).
Qed.
End Loop.

Lemma ebml_reader_spec c els max : wf_cfg c -> Forall wf_element els ->
  let content := flat_map element_bytes els in
  lenN content < 2 ^ 63 -> lenN content <= max ->
  mreader c content max FEbml = Done (Ok (ebml_class (firstn 256 (flat_map events els)))).
Proof.
  intros Hc Hw content Hlen Hmax. unfold mreader. cbn [reader_of].
  change (fst (mrun content max (from_ebml_reader c) 0)) with (ex content max (from_ebml_reader c) 0).
  unfold from_ebml_reader. apply ex_end; [exact Hmax|]. apply ex_goto; [lia|].
  rewrite (ebml_loop_spec c content max Hc Hmax Hlen 256 (flat_map toks els) 0 false false false).
  - rewrite outcome_class, <- firstn_map, flat_toks_events. reflexivity.
  - now apply flat_toks_wf.
  - rewrite <- flat_toks_bytes. apply at_start.
Qed.

(** Files as sequences of pieces (C30). *)
Definition epiece_toks (p : ebml_piece) : list tok :=
  match p with
  | ETree e => toks e
  | EHead m w size => [TMaster m w size]
  | EStereo w size mode => [TStereo w size mode]
  end.
Lemma epiece_toks_bytes p : epiece_bytes p = flat_map tok_bytes (epiece_toks p).
Proof. destruct p; [apply toks_bytes|cbn [epiece_bytes epiece_toks flat_map tok_bytes]; now rewrite app_nil_r..]. Qed.
Lemma epiece_toks_events p : map tok_event (epiece_toks p) = epiece_events p.
Proof. destruct p; [apply toks_events|reflexivity..]. Qed.
Lemma epiece_toks_wf p : wf_epiece p -> Forall wf_tok (epiece_toks p).
Proof. destruct p; intros H; [now apply toks_wf|constructor; [exact H|constructor]..]. Qed.
Lemma ebml_pieces_spec c pieces max : wf_cfg c -> Forall wf_epiece pieces ->
  let content := flat_map epiece_bytes pieces in
  lenN content < 2 ^ 63 -> lenN content <= max ->
  mreader c content max FEbml = Done (Ok (ebml_class (firstn 256 (flat_map epiece_events pieces)))).
Proof.
  intros Hc Hw content Hlen Hmax. unfold mreader. cbn [reader_of].
  change (fst (mrun content max (from_ebml_reader c) 0)) with (ex content max (from_ebml_reader c) 0).
  unfold from_ebml_reader. apply ex_end; [exact Hmax|]. apply ex_goto; [lia|].
  assert (E1 : content = flat_map tok_bytes (flat_map epiece_toks pieces)).
  { unfold content. clear. induction pieces as [|p r IH]; [reflexivity|]. cbn [flat_map]. now rewrite flat_map_app, epiece_toks_bytes, IH. }
  assert (E2 : map tok_event (flat_map epiece_toks pieces) = flat_map epiece_events pieces).
  { clear. induction pieces as [|p r IH]; [reflexivity|]. cbn [flat_map]. now rewrite map_app, epiece_toks_events, IH. }
  rewrite (ebml_loop_spec c content max Hc Hmax Hlen 256 (flat_map epiece_toks pieces) 0 false false false).
  - rewrite outcome_class, <- firstn_map, E2. reflexivity.
  - clear -Hw. induction Hw; [constructor|]. cbn [flat_map]. apply Forall_app. split; [now apply epiece_toks_wf|assumption].
  - rewrite <- E1. apply at_start.
Qed.
