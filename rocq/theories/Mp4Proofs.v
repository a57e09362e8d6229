(** MP4 (C27, C28). *)
From Coq Require Import NArith ZArith Bool String List Lia ZifyBool ZifyNat ZifyN.
From Verif Require Import Base BaseProofs Formats IO Readers Mem LibProofs Ideal Spec SpecBin SpecMp4
  BinProofs Exec ExeProofs Static ReaderStatic.
Local Open Scope N_scope.

(** ** Tree induction *)
Lemma box_ind' (P : mp4_box -> Prop) :
  (forall large kind children, Forall P children -> P (Node large kind children)) ->
  (forall p h r, P (Hdlr p h r)) -> (forall k p, P (Leaf k p)) -> forall b, P b.
Proof.
  intros H1 H2 H3. fix IH 1. intros [large kind children| |]; [|apply H2|apply H3].
  apply H1. induction children as [|x r IHr]; constructor; [apply IH|exact IHr].
Qed.

(** ** Tokens: what the reader consumes in one round *)
Inductive tok : Set :=
| TNode (large : bool) (kind : bytes) (len : N)
| THdlr (prefix handler rest : bytes)
| TLeaf (kind payload : bytes)
| TLargeHdlr (prefix handler rest slack : bytes)
| TLargeLeaf (kind payload slack : bytes).
Definition tok_bytes (t : tok) : bytes :=
  match t with
  | TNode large kind n => box_header large kind n
  | THdlr p h r => box_header false (bs "hdlr") (lenN (p ++ h ++ r)) ++ p ++ h ++ r
  | TLeaf k p => box_header false k (lenN p) ++ p
  | TLargeHdlr p h r s => box_header true (bs "hdlr") (lenN (p ++ h ++ r)) ++ p ++ h ++ r ++ s
  | TLargeLeaf k p s => box_header true k (lenN p) ++ p ++ s
  end.
Definition tok_handler (t : tok) : option bytes := match t with THdlr _ h _ | TLargeHdlr _ h _ _ => Some h | _ => None end.
Definition wf_tok (t : tok) : Prop :=
  match t with
  | TNode large kind n => In kind node_kinds /\ (large = false -> 8 + n < 2 ^ 32)
  | THdlr p h r => lenN p = 8 /\ lenN h = 4 /\ 20 + lenN r < 2 ^ 32
  | TLeaf k p => lenN k = 4 /\ ~ In k (bs "hdlr" :: node_kinds) /\ 8 + lenN p < 2 ^ 32
  | TLargeHdlr p h r s => lenN p = 8 /\ lenN h = 4 /\ lenN s = 8
  | TLargeLeaf k p s => lenN k = 4 /\ ~ In k (bs "hdlr" :: node_kinds) /\ lenN s = 8
  end.
Fixpoint toks (b : mp4_box) : list tok :=
  match b with
  | Node large kind children => TNode large kind (lenN (flat_map box_bytes children)) :: flat_map toks children
  | Hdlr p h r => [THdlr p h r]
  | Leaf k p => [TLeaf k p]
  end.

Lemma toks_bytes b : box_bytes b = flat_map tok_bytes (toks b).
Proof.
  induction b as [large kind children IH| |] using box_ind'.
  - cbn [box_bytes toks flat_map tok_bytes]. f_equal.
    induction IH as [|x r Hx _ IHr]; [reflexivity|]. cbn [flat_map]. now rewrite flat_map_app, Hx, IHr.
  - cbn [toks flat_map tok_bytes box_bytes]. now rewrite app_nil_r.
  - cbn [toks flat_map tok_bytes box_bytes]. now rewrite app_nil_r.
Qed.
Lemma toks_order b : map tok_handler (toks b) = doc_order b.
Proof.
  induction b as [large kind children IH| |] using box_ind'; [|reflexivity|reflexivity].
  cbn [toks map doc_order tok_handler]. f_equal.
  induction IH as [|x r Hx _ IHr]; [reflexivity|]. cbn [flat_map]. now rewrite map_app, Hx, IHr.
Qed.
Lemma toks_wf b : wf_box b -> Forall wf_tok (toks b).
Proof.
  induction b as [large kind children IH|p h r|k p] using box_ind'; cbn [wf_box toks]; intros H.
  - destruct H as (H1 & H2 & H3). constructor; [split; assumption|].
    induction IH as [|x r Hx _ IHr]; [constructor|]. cbn [flat_map]. apply Forall_app.
    destruct H3 as [H3 H4]. split; [apply Hx; exact H3|apply IHr; [|exact H4]].
    intros E. specialize (H2 E). cbn [flat_map] in H2. rewrite lenN_app in H2. lia.
  - constructor; [exact H|constructor].
  - constructor; [exact H|constructor].
Qed.

Lemma flat_toks_bytes boxes : flat_map box_bytes boxes = flat_map tok_bytes (flat_map toks boxes).
Proof. induction boxes; [reflexivity|]. cbn [flat_map]. now rewrite flat_map_app, toks_bytes, IHboxes. Qed.
Lemma flat_toks_order boxes : map tok_handler (flat_map toks boxes) = flat_map doc_order boxes.
Proof. induction boxes; [reflexivity|]. cbn [flat_map]. now rewrite map_app, toks_order, IHboxes. Qed.
Lemma flat_toks_wf boxes : Forall wf_box boxes -> Forall wf_tok (flat_map toks boxes).
Proof. induction 1; [constructor|]. cbn [flat_map]. apply Forall_app. split; [now apply toks_wf|assumption]. Qed.

(** ** The loop *)
Lemma as_i64_small n : n < 2 ^ 63 -> as_i64 n = Z.of_N n.
Proof. intros H. unfold as_i64. replace (n <? 2 ^ 63) with true by lia. reflexivity. Qed.

Section Loop.
Variables (c : plat) (content : bytes) (max : N).
Hypothesis Hc : wf_cfg c.
Hypothesis Hlen : lenN content <= max.
Hypothesis Hlen2 : lenN content < 2 ^ 63.

Definition h_is (types : list string) (t : tok) : bool := has_handler types [tok_handler t].


Lemma node_kind_test kind : In kind node_kinds ->
  lenN kind = 4 /\ beqb kind (bs "moov") || beqb kind (bs "trak") || beqb kind (bs "mdia") = true.
Proof. intros [<-|[<-|[<-|[]]]]; split; reflexivity. Qed.
Lemma leaf_kind_test kind : ~ In kind (bs "hdlr" :: node_kinds) ->
  beqb kind (bs "moov") || beqb kind (bs "trak") || beqb kind (bs "mdia") = false /\
  beqb kind (bs "hdlr") = false.
Proof.
  intros H.
  assert (K : forall s, In (bs s) (bs "hdlr" :: node_kinds) -> beqb kind (bs s) = false).
  { intros s Hs. apply beqb_neq. intros ->. exact (H Hs). }
  rewrite !K by (cbn; tauto). split; reflexivity.
Qed.

Lemma handler_update h a v s :
  (if beqb h (bs "vide") then (a, true, s)
   else if beqb h (bs "soun") then (true, v, s)
   else if beqb h (bs "sbtl") || beqb h (bs "subt") || beqb h (bs "text")
   then (a, v, true) else (a, v, s)) =
  (a || has_handler ["soun"%string] [Some h], v || has_handler ["vide"%string] [Some h],
   s || has_handler ["sbtl"; "subt"; "text"]%string [Some h]).
Proof.
  unfold has_handler. cbn [existsb]. rewrite !orb_false_r.
      destruct (beqb h (bs "vide")) eqn:E1.
      { apply beqb_eq in E1. subst h. cbn. now rewrite !orb_false_r, orb_true_r. }
      destruct (beqb h (bs "soun")) eqn:E2.
      { apply beqb_eq in E2. subst h. cbn. now rewrite !orb_false_r, orb_true_r. }
      rewrite !orb_false_r. rewrite <- orb_assoc.
      destruct (beqb h (bs "sbtl") || (beqb h (bs "subt") || beqb h (bs "text"))).
      - now rewrite orb_true_r.
      - now rewrite orb_false_r.
Qed.
Lemma mp4_loop_spec : forall n toks pos a v s,
  Forall wf_tok toks -> at_ content pos (flat_map tok_bytes toks) ->
  let seen := map tok_handler (firstn n toks) in
  ex content max (mp4_boxes c (lenN content) n a v s) pos =
  Done (Ok (mp4_result (a || has_handler ["soun"%string] seen) (v || has_handler ["vide"%string] seen)
              (s || has_handler ["sbtl"; "subt"; "text"]%string seen))).
Proof.
  pose proof (isize_max_ge c Hc) as Hi. change (2 ^ 63) with 9223372036854775808 in Hlen2.
  induction n as [|n IH]; intros toks pos a v s Hw Hat seen.
  { cbn [firstn map] in seen. subst seen. cbn [has_handler existsb]. rewrite !orb_false_r. reflexivity. }
  cbn [mp4_boxes]. apply ex_tell. destruct toks as [|t toks].
  { cbn [firstn map] in seen. subst seen. cbn [has_handler existsb]. rewrite !orb_false_r.
    destruct Hat as [_ Hat]. cbn in Hat. replace (pos <? lenN content) with false by lia. reflexivity. }
  inversion Hw as [|? ? Ht Hw']; subst. cbn [firstn map] in seen.
  assert (Hne : pos < lenN content /\ pos + lenN (tok_bytes t) <= lenN content).
  { destruct Hat as [_ Hat]. cbn [flat_map] in Hat. rewrite lenN_app in Hat.
    assert (4 <= lenN (tok_bytes t)); [|lia].
    destruct t as [[|] k m|p h r|k p|p h r sl|k p sl]; cbn [tok_bytes box_header]; rewrite !lenN_app, !lenN_be_bytes; lia. }
  destruct Hne as [Hne Hfit].
  replace (pos <? lenN content) with true by lia.
  assert (Hnext : at_ content (pos + lenN (tok_bytes t)) (flat_map tok_bytes toks)).
  { apply (at_app _ _ (tok_bytes t)); [exact Hat|reflexivity]. }
  cbn [flat_map] in Hat.
  destruct t as [large kind m|p h r|kind p|p h r sl|kind p sl]; cbn [tok_bytes wf_tok tok_handler] in *.
  - destruct Ht as [Hk Hm]. destruct (node_kind_test kind Hk) as [Hk4 Hkt].
    assert (Hseen : forall types, has_handler types seen = has_handler types (map tok_handler (firstn n toks))).
    { intros types. subst seen. reflexivity. }
    rewrite !Hseen. destruct large; unfold box_header in *.
    + rewrite <- !app_assoc in Hat.
      eapply (ex_int _ _ be_val 4); [exact Hat|apply lenN_be_bytes|apply be_val_be_bytes; reflexivity|].
      intros Hat1. eapply ex_bytes; [|exact Hat1|exact Hk4|]; [lia|]. intros Hat2.
      change (1 =? 1) with true. cbn match.
      eapply (ex_int _ _ be_val 8); [exact Hat2|apply lenN_be_bytes|reflexivity|]. intros Hat3.
      rewrite Hkt. apply IH; [exact Hw'|]. exact Hat3.
    + specialize (Hm eq_refl). rewrite <- !app_assoc in Hat.
      eapply (ex_int _ _ be_val 4); [exact Hat|apply lenN_be_bytes|apply be_val_be_bytes; exact Hm|].
      intros Hat1. eapply ex_bytes; [|exact Hat1|exact Hk4|]; [lia|]. intros Hat2.
      replace (8 + m =? 1) with false by lia. apply ex_bind_ok.
      rewrite Hkt. apply IH; [exact Hw'|]. exact Hat2.
  - destruct Ht as (Hp & Hh & Hr). change (2 ^ 32) with 4294967296 in Hr.
    unfold box_header in Hat. rewrite <- !app_assoc in Hat.
    assert (Hpay : lenN (p ++ h ++ r) = 12 + lenN r) by (rewrite !lenN_app; lia).
    rewrite Hpay in Hat.
    eapply (ex_int _ _ be_val 4); [exact Hat|apply lenN_be_bytes|apply be_val_be_bytes|].
    { change (256 ^ N.of_nat 4) with 4294967296. lia. }
    intros Hat1. eapply ex_bytes; [|exact Hat1|reflexivity|]; [lia|]. intros Hat2.
    replace (8 + (12 + lenN r) =? 1) with false by lia. apply ex_bind_ok.
    change (beqb (bs "hdlr") (bs "moov") || beqb (bs "hdlr") (bs "trak") || beqb (bs "hdlr") (bs "mdia")) with false.
    change (beqb (bs "hdlr") (bs "hdlr")) with true. cbn match.
    eapply ex_skip; [exact Hat2|rewrite Hp; reflexivity|exact Hlen|]. intros Hat3.
    eapply ex_bytes; [|exact Hat3|exact Hh|]; [lia|]. intros Hat4.
    set (a' := a || has_handler ["soun"%string] [Some h]).
    set (v' := v || has_handler ["vide"%string] [Some h]).
    set (s' := s || has_handler ["sbtl"; "subt"; "text"]%string [Some h]).
    pose proof (handler_update h a v s) as Hupd. fold a' v' s' in Hupd.
    rewrite Hupd. apply ex_i64_sub.
    { rewrite as_i64_small by (change (2 ^ 63) with 9223372036854775808; lia).
      unfold i64_min, i64_max. lia. }
    rewrite as_i64_small by (change (2 ^ 63) with 9223372036854775808; lia).
    eapply ex_skip; [exact Hat4|lia|exact Hlen|]. intros Hat5.
    rewrite (IH toks _ a' v' s' Hw' Hat5).
    unfold a', v', s', seen, has_handler. cbn [existsb]. rewrite !orb_false_r, !orb_assoc. reflexivity.
  - destruct Ht as (Hk & Hnk & Hp). change (2 ^ 32) with 4294967296 in Hp.
    destruct (leaf_kind_test kind Hnk) as [Hk1 Hk2].
    unfold box_header in Hat. rewrite <- !app_assoc in Hat.
    eapply (ex_int _ _ be_val 4); [exact Hat|apply lenN_be_bytes|apply be_val_be_bytes|].
    { change (256 ^ N.of_nat 4) with 4294967296. lia. }
    intros Hat1. eapply ex_bytes; [|exact Hat1|exact Hk|]; [lia|]. intros Hat2.
    replace (8 + lenN p =? 1) with false by lia. apply ex_bind_ok.
    rewrite Hk1, Hk2. apply ex_i64_sub.
    { rewrite as_i64_small by (change (2 ^ 63) with 9223372036854775808; lia).
      unfold i64_min, i64_max. lia. }
    rewrite as_i64_small by (change (2 ^ 63) with 9223372036854775808; lia).
    eapply ex_skip; [exact Hat2|lia|exact Hlen|]. intros Hat5.
    rewrite (IH toks _ a v s Hw' Hat5). subst seen. reflexivity.
  - destruct Ht as (Hp & Hh & Hs8).
    unfold box_header in *. rewrite <- !app_assoc in Hat.
    assert (Hpay : lenN (p ++ h ++ r) = 12 + lenN r) by (rewrite !lenN_app; lia).
    rewrite Hpay in *. rewrite !lenN_app, !lenN_be_bytes in Hfit.
    eapply (ex_int _ _ be_val 4); [exact Hat|apply lenN_be_bytes|apply be_val_be_bytes; reflexivity|].
    intros Hat1. eapply ex_bytes; [|exact Hat1|reflexivity|]; [lia|]. intros Hat2.
    change (1 =? 1) with true. cbn match.
    eapply (ex_int _ _ be_val 8); [exact Hat2|apply lenN_be_bytes|apply be_val_be_bytes|].
    { change (256 ^ N.of_nat 8) with 18446744073709551616. lia. }
    intros Hat2'.
    change (beqb (bs "hdlr") (bs "moov") || beqb (bs "hdlr") (bs "trak") || beqb (bs "hdlr") (bs "mdia")) with false.
    change (beqb (bs "hdlr") (bs "hdlr")) with true. cbn match.
    eapply ex_skip; [exact Hat2'|rewrite Hp; reflexivity|exact Hlen|]. intros Hat3.
    eapply ex_bytes; [|exact Hat3|exact Hh|]; [lia|]. intros Hat4.
    set (a' := a || has_handler ["soun"%string] [Some h]).
    set (v' := v || has_handler ["vide"%string] [Some h]).
    set (s' := s || has_handler ["sbtl"; "subt"; "text"]%string [Some h]).
    pose proof (handler_update h a v s) as Hupd. fold a' v' s' in Hupd.
    rewrite Hupd. apply ex_i64_sub.
    { rewrite as_i64_small by (change (2 ^ 63) with 9223372036854775808; lia).
      unfold i64_min, i64_max. lia. }
    rewrite as_i64_small by (change (2 ^ 63) with 9223372036854775808; lia).
    rewrite app_assoc in Hat4.
    eapply ex_skip; [exact Hat4|rewrite lenN_app; lia|exact Hlen|]. intros Hat5.
    rewrite (IH toks _ a' v' s' Hw' Hat5).
    unfold a', v', s', seen, has_handler. cbn [existsb]. rewrite !orb_false_r, !orb_assoc. reflexivity.
  - destruct Ht as (Hk & Hnk & Hs8).
    destruct (leaf_kind_test kind Hnk) as [Hk1 Hk2].
    unfold box_header in *. rewrite <- !app_assoc in Hat. rewrite !lenN_app, !lenN_be_bytes in Hfit.
    eapply (ex_int _ _ be_val 4); [exact Hat|apply lenN_be_bytes|apply be_val_be_bytes; reflexivity|].
    intros Hat1. eapply ex_bytes; [|exact Hat1|exact Hk|]; [lia|]. intros Hat2.
    change (1 =? 1) with true. cbn match.
    eapply (ex_int _ _ be_val 8); [exact Hat2|apply lenN_be_bytes|apply be_val_be_bytes|].
    { change (256 ^ N.of_nat 8) with 18446744073709551616. lia. }
    intros Hat2'.
    rewrite Hk1, Hk2. apply ex_i64_sub.
    { rewrite as_i64_small by (change (2 ^ 63) with 9223372036854775808; lia).
      unfold i64_min, i64_max. lia. }
    rewrite as_i64_small by (change (2 ^ 63) with 9223372036854775808; lia).
    rewrite app_assoc in Hat2'.
    eapply ex_skip; [exact Hat2'|rewrite lenN_app; lia|exact Hlen|]. intros Hat5.
    rewrite (IH toks _ a v s Hw' Hat5). subst seen. reflexivity.
Qed.
End Loop.

Lemma mp4_reader_spec c boxes max : wf_cfg c -> Forall wf_box boxes ->
  let content := flat_map box_bytes boxes in
  lenN content < 2 ^ 63 -> lenN content <= max ->
  mreader c content max FMp4 = Done (Ok (mp4_class (firstn 256 (flat_map doc_order boxes)))).
Proof.
  intros Hc Hw content Hlen Hmax. unfold mreader. cbn [reader_of].
  change (fst (mrun content max (from_mp4_reader c) 0)) with (ex content max (from_mp4_reader c) 0).
  unfold from_mp4_reader. apply ex_end; [exact Hmax|]. apply ex_goto; [lia|].
  rewrite (mp4_loop_spec c content max Hc Hmax Hlen 256 (flat_map toks boxes) 0 false false false).
  - cbn [orb]. rewrite <- firstn_map, flat_toks_order. reflexivity.
  - now apply flat_toks_wf.
  - rewrite <- flat_toks_bytes. apply at_start.
Qed.

(** ** Pieces (C28) *)
Definition piece_toks (p : mp4_piece) : list tok :=
  match p with
  | Tree b => toks b
  | Head large kind n => [TNode large kind n]
  | LargeHdlr p h r s => [TLargeHdlr p h r s]
  | LargeLeaf k p s => [TLargeLeaf k p s]
  end.
Lemma piece_toks_bytes p : piece_bytes p = flat_map tok_bytes (piece_toks p).
Proof.
  destruct p; cbn [piece_bytes piece_toks]; [apply toks_bytes|..]; cbn [flat_map tok_bytes]; now rewrite app_nil_r.
Qed.
Lemma piece_toks_order p : map tok_handler (piece_toks p) = piece_order p.
Proof. destruct p; [apply toks_order|reflexivity..]. Qed.
Lemma piece_toks_wf p : wf_piece p -> Forall wf_tok (piece_toks p).
Proof. destruct p; intros H; [now apply toks_wf|constructor; [exact H|constructor]..]. Qed.
Lemma mp4_pieces_spec c pieces max : wf_cfg c -> Forall wf_piece pieces ->
  let content := flat_map piece_bytes pieces in
  lenN content < 2 ^ 63 -> lenN content <= max ->
  mreader c content max FMp4 = Done (Ok (mp4_class (firstn 256 (flat_map piece_order pieces)))).
Proof.
  intros Hc Hw content Hlen Hmax. unfold mreader. cbn [reader_of].
  change (fst (mrun content max (from_mp4_reader c) 0)) with (ex content max (from_mp4_reader c) 0).
  unfold from_mp4_reader. apply ex_end; [exact Hmax|]. apply ex_goto; [lia|].
  assert (E1 : content = flat_map tok_bytes (flat_map piece_toks pieces)).
  { unfold content. clear. induction pieces as [|p r IH]; [reflexivity|]. cbn [flat_map]. now rewrite flat_map_app, piece_toks_bytes, IH. }
  assert (E2 : map tok_handler (flat_map piece_toks pieces) = flat_map piece_order pieces).
  { clear. induction pieces as [|p r IH]; [reflexivity|]. cbn [flat_map]. now rewrite map_app, piece_toks_order, IH. }
  rewrite (mp4_loop_spec c content max Hc Hmax Hlen 256 (flat_map piece_toks pieces) 0 false false false).
  - cbn [orb]. rewrite <- firstn_map, E2. reflexivity.
  - clear -Hw. induction Hw; [constructor|]. cbn [flat_map]. apply Forall_app. split; [now apply piece_toks_wf|assumption].
  - rewrite <- E1. apply at_start.
Qed.
