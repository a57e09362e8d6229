(** C62: byte order marks.  Statements use SpecBom.v, SpecSig.v and SpecApi.v. *)
From Coq Require Import NArith ZArith Bool String List Lia ZifyBool ZifyNat ZifyN.
From Coq.Strings Require Import Byte.
From Verif Require Import Base BaseProofs Formats FormatsProofs Signatures IO Lib Documented
  Spec SpecSig SpecText SpecScan SpecApi SpecBom LibProofs Ideal SigProofs CoreProofs Utf8Proofs TextProofs FindProofs Glue Conf PropertiesSig PropertiesText PropertiesApi PropertiesApi2 PropertiesMagic.
Import ListNotations.
Ltac Zify.zify_post_hook ::= idtac.
Local Open Scope N_scope.

(** ** Signatures behind a mark *)
Definition further (alt : list (N * bytes)) : bool := existsb (fun p => 0 <? fst p) alt.
Definition same_alt (a b : list (N * bytes)) : bool :=
  match a, b with [(0, v)], [(0, w)] => if list_eq_dec Byte.byte_eq_dec v w then true else false | _, _ => false end.
Definition mark_alt (a : list (N * bytes)) : list (N * bytes) := map (fun p => (fst p, bom ++ snd p)) a.
Definition holds_alt (alts : list (list (N * bytes))) (a : list (N * bytes)) : bool := existsb (same_alt a) alts.
Definition begins_with_bom (alt : list (N * bytes)) : bool := compatible [(0, bom)] alt && implied alt [(0, bom)].
(** The alternatives of [f] come in pairs. *)
Definition paired (alts : list (list (N * bytes))) : bool :=
  forallb (fun a => existsb (fun b => same_alt a (mark_alt b)) alts || holds_alt alts (mark_alt a) && negb (compatible [(0, bom)] a)) alts.
Definition harmless (own other : list (list (N * bytes))) (alt : list (N * bytes)) : bool :=
  further alt ||
  (forallb (fun a => begins_with_bom a || negb (compatible (mark_alt a) alt)) own || existsb (fun b => same_alt alt (mark_alt b)) other) &&
  (forallb (fun a => begins_with_bom a || negb (compatible a alt)) own || holds_alt other (mark_alt alt)).
Fixpoint bom_row (f : FileFormat) (own : list (list (N * bytes))) (table : list sig_entry) : bool :=
  match table with
  | [] => false
  | (g, alts) :: rest => if feqb g f then negb (existsb (fun e : sig_entry => feqb (fst e) f) rest) else forallb (harmless own alts) alts && bom_row f own rest
  end.
Definition own_alts (f : FileFormat) : list (list (N * bytes)) :=
  match find (fun e : sig_entry => feqb (fst e) f) signatures with Some e => snd e | None => [] end.
Definition bom_ok (f : FileFormat) : bool := paired (own_alts f) && bom_row f (own_alts f) signatures.
Lemma bom_checked : forallb bom_ok marked_formats = true.
Proof. vm_compute. reflexivity. Qed.

Lemma same_alt_eq a b : same_alt a b = true -> a = b /\ exists v, a = [(0, v)].
Proof.
  destruct a as [|[[|o] v] [|x a]]; try discriminate. destruct b as [|[[|o'] w] [|y b]]; try discriminate.
  cbn. destruct (list_eq_dec Byte.byte_eq_dec v w) as [->|]; [|discriminate]. intros _. split; [reflexivity|now exists w].
Qed.
Lemma mark_alt_inv a v : mark_alt a = [(0, v)] -> exists w, a = [(0, w)] /\ v = bom ++ w.
Proof. destruct a as [|[o w] [|x a]]; try discriminate. cbn [mark_alt map fst snd]. intros E. injection E as -> <-. now exists w. Qed.
Lemma same_mark a b : same_alt a (mark_alt b) = true -> exists w, b = [(0, w)] /\ a = [(0, bom ++ w)].
Proof.
  intros H. apply same_alt_eq in H as [-> (v & E)]. destruct (mark_alt_inv _ _ E) as (w & -> & ->). exists w. split; [reflexivity|exact E].
Qed.
Lemma holds_mark alts a : holds_alt alts (mark_alt a) = true -> exists w, a = [(0, w)] /\ In [(0, bom ++ w)] alts.
Proof.
  intros H. apply existsb_exists in H as (b & Hb & H). apply same_alt_eq in H as [E (v & Ev)].
  destruct (mark_alt_inv _ _ Ev) as (w & -> & ->). exists w. split; [reflexivity|]. rewrite <- Ev, E. exact Hb.
Qed.
Lemma present_0 l v : present l 0 v <-> exists post, l = v ++ post.
Proof.
  split.
  - intros (pre & post & -> & H). apply lenN_0 in H. subst. now exists post.
  - intros (post & ->). exists [], post. now split.
Qed.
Lemma alt_0 l v : alt_matches l [(0, v)] <-> exists post, l = v ++ post.
Proof.
  rewrite <- present_0. split; [intros H; apply H; now left|]. intros H off w [E|[]]. now injection E as <- <-.
Qed.
Lemma alt_marked l w : alt_matches (bom ++ l) [(0, bom ++ w)] <-> alt_matches l [(0, w)].
Proof.
  rewrite !alt_0. split; intros (post & E).
  - exists post. rewrite <- app_assoc in E. now apply app_inv_head in E.
  - exists post. now rewrite E, app_assoc.
Qed.
Lemma begins_sound l a : alt_matches l a -> begins_with_bom a = true -> present l 0 bom.
Proof.
  intros H K. apply andb_prop in K as [_ K]. apply (implied_sound l a [(0, bom)] H K). now left.
Qed.
Definition own_match (l : bytes) (own : list (list (N * bytes))) : Prop :=
  exists w, In [(0, w)] own /\ alt_matches l [(0, w)] /\ In [(0, bom ++ w)] own.
Lemma own_from_plain l own : paired own = true -> ~ present l 0 bom -> sig_matches l own -> own_match l own.
Proof.
  intros Hp Hb (a & Ha & Hm). unfold paired in Hp. rewrite forallb_forall in Hp. specialize (Hp a Ha).
  apply orb_prop in Hp as [Hp|Hp].
  - exfalso. apply existsb_exists in Hp as (b & Hb' & E). apply same_mark in E as (w & -> & ->). apply Hb.
    apply alt_0 in Hm as (post & ->). apply present_0. exists (w ++ post). now rewrite app_assoc.
  - apply andb_prop in Hp as [Hp _]. apply holds_mark in Hp as (w & -> & Hw). exists w. auto.
Qed.
Lemma own_from_marked l own : paired own = true -> sig_matches (bom ++ l) own -> exists w, In [(0, w)] own /\ alt_matches l [(0, w)].
Proof.
  intros Hp (a & Ha & Hm). unfold paired in Hp. rewrite forallb_forall in Hp. specialize (Hp a Ha).
  apply orb_prop in Hp as [Hp|Hp].
  - apply existsb_exists in Hp as (b & Hb & E). apply same_mark in E as (w & -> & ->). exists w. split; [exact Hb|]. now apply alt_marked.
  - exfalso. apply andb_prop in Hp as [_ Hp]. apply negb_true_iff in Hp.
    rewrite (compatible_sound (bom ++ l) [(0, bom)] a) in Hp; [discriminate| |exact Hm]. apply alt_0. now exists l.
Qed.
Lemma further_sound alt : further alt = true -> exists off v, In (off, v) alt /\ 0 < off.
Proof. intros H. apply existsb_exists in H as ([o v] & H & K). exists o, v. split; [exact H|]. cbn [fst] in K. lia. Qed.
Lemma harmless_sound l own other g : ~ present l 0 bom -> nothing_further l -> nothing_further (bom ++ l) ->
  own_match l own -> In (g, other) signatures -> forallb (harmless own other) other = true ->
  (sig_matches l other <-> sig_matches (bom ++ l) other).
Proof.
  intros Hb N1 N2 (w & Hw & Hm & Hw') Hg H. rewrite forallb_forall in H.
  assert (B : begins_with_bom [(0, w)] = false).
  { destruct (begins_with_bom [(0, w)]) eqn:E; [|reflexivity]. exfalso. now apply Hb, (begins_sound l [(0, w)]). }
  split; intros (alt & Ha & Hma); specialize (H alt Ha); unfold harmless in H; apply orb_prop in H as [H|H].
  - exfalso. apply further_sound in H as (o & v & Hv & Ho). exact (N1 g other alt o v Hg Ha Hv Ho Hma).
  - apply andb_prop in H as [_ H]. apply orb_prop in H as [H|H].
    + exfalso. rewrite forallb_forall in H. specialize (H _ Hw). rewrite B in H. cbn [orb] in H. apply negb_true_iff in H.
      rewrite (compatible_sound l [(0, w)] alt Hm Hma) in H. discriminate.
    + apply holds_mark in H as (u & -> & Hu). exists [(0, bom ++ u)]. split; [exact Hu|]. now apply alt_marked.
  - exfalso. apply further_sound in H as (o & v & Hv & Ho). exact (N2 g other alt o v Hg Ha Hv Ho Hma).
  - apply andb_prop in H as [H _]. apply orb_prop in H as [H|H].
    + exfalso. rewrite forallb_forall in H. specialize (H _ Hw). rewrite B in H. cbn [orb] in H. apply negb_true_iff in H.
      rewrite (compatible_sound (bom ++ l) (mark_alt [(0, w)]) alt) in H; [discriminate| |exact Hma].
      cbn [mark_alt map fst snd]. now apply alt_marked.
    + apply existsb_exists in H as (b & Hb' & E). apply same_mark in E as (u & -> & ->). exists [(0, u)].
      split; [exact Hb'|]. now apply alt_marked.
Qed.
Lemma first_match_cons (g : FileFormat) alts rest l f : first_match ((g, alts) :: rest) l f <->
  (g = f /\ sig_matches l alts) \/ (~ sig_matches l alts /\ first_match rest l f).
Proof.
  split.
  - intros (before & falts & after & E & H & Hn). destruct before as [|e before].
    + injection E as -> -> _. now left.
    + injection E as <- ->. right. split; [apply (Hn g alts); now left|]. exists before, falts, after.
      split; [reflexivity|]. split; [exact H|]. intros h halts Hin. apply (Hn h halts). now right.
  - intros [[-> H]|[H (before & falts & after & E & H1 & H2)]].
    + exists [], alts, rest. split; [reflexivity|]. split; [exact H|]. now intros g0 galts [].
    + exists ((g, alts) :: before), falts, after. rewrite E. split; [reflexivity|]. split; [exact H1|].
      intros h halts [Eh|Hin]; [now injection Eh as <- <-|exact (H2 h halts Hin)].
Qed.
Lemma row_sound l f own : ~ present l 0 bom -> nothing_further l -> nothing_further (bom ++ l) -> own_match l own ->
  forall table, (forall e, In e table -> In e signatures) -> bom_row f own table = true ->
  (forall alts, In (f, alts) table -> alts = own) ->
  (first_match table l f <-> first_match table (bom ++ l) f).
Proof.
  intros Hb N1 N2 Ho. induction table as [|[g alts] rest IH]; intros Hs H He; [discriminate|]. cbn [bom_row] in H.
  rewrite !first_match_cons. destruct (feqb g f) eqn:E.
  - apply feqb_eq in E. subst g. assert (alts = own) by (apply He; now left). subst alts.
    destruct Ho as (w & Hw & Hm & Hw'). split; intros _; left; (split; [reflexivity|]).
    + exists [(0, bom ++ w)]. split; [exact Hw'|]. now apply alt_marked.
    + exists [(0, w)]. auto.
  - apply andb_prop in H as [H1 H2].
    pose proof (harmless_sound l own alts g Hb N1 N2 Ho (Hs _ (or_introl eq_refl)) H1) as K.
    assert (IH' : first_match rest l f <-> first_match rest (bom ++ l) f).
    { apply IH; [|exact H2|]; intros; [apply Hs|apply He]; now right. }
    assert (Ef : g <> f) by (intros ->; rewrite (proj2 (feqb_eq f f) eq_refl) in E; discriminate E).
    split; intros [[Eg _]|[A B]]; try contradiction; right; (split; [now rewrite K in *|now apply IH']).
Qed.
Lemma own_alts_in f alts : In f marked_formats -> In (f, alts) signatures -> alts = own_alts f.
Proof.
  assert (K : forallb (fun f => (List.length (filter (fun e : sig_entry => feqb (fst e) f) signatures) <=? 1)%nat) marked_formats = true)
    by (vm_compute; reflexivity).
  intros Hf Hin. rewrite forallb_forall in K. specialize (K f Hf). unfold own_alts. clear Hf.
  assert (T : feqb f f = true) by now apply feqb_eq.
  revert K Hin. induction signatures as [|[g ga] rest IH]; [intros _ []|]. cbn [filter find fst].
  destruct (feqb g f) eqn:E.
  - apply feqb_eq in E. subst g. cbn [List.length snd]. intros K [H|H]; [now injection H as ->|].
    exfalso. assert (X : In (f, alts) (filter (fun e : sig_entry => feqb (fst e) f) rest)) by (apply filter_In; now split).
    destruct (filter _ rest); [destruct X|cbn in K; discriminate].
  - intros K [H|H]; [injection H as -> _; rewrite T in E; discriminate|]. now apply IH.
Qed.
Lemma first_own l f : In f marked_formats -> first_match signatures l f -> sig_matches l (own_alts f).
Proof.
  intros Hf (before & alts & after & E & H & _). rewrite <- (own_alts_in f alts Hf); [exact H|]. rewrite E. apply in_elt.
Qed.

(** ** C62: signatures *)
Theorem C62_mark_keeps_the_signature : forall l f, In f marked_formats -> ~ present l 0 bom ->
  nothing_further l -> nothing_further (bom ++ l) ->
  (first_match signatures l f <-> first_match signatures (bom ++ l) f).
Proof.
  intros l f Hf Hb N1 N2. pose proof bom_checked as K. rewrite forallb_forall in K. specialize (K f Hf).
  apply andb_prop in K as [K1 K2].
  assert (R : own_match l (own_alts f) -> (first_match signatures l f <-> first_match signatures (bom ++ l) f)).
  { intros Ho. apply (row_sound l f (own_alts f)); auto. intros alts. now apply own_alts_in. }
  split; intros H.
  - apply R; [|exact H]. apply own_from_plain; auto. now apply first_own.
  - apply R; [|exact H]. apply own_from_plain; auto.
    destruct (own_from_marked l (own_alts f) K1 (first_own _ f Hf H)) as (w & Hw & Hm). now exists [(0, w)].
Qed.
Print Assumptions C62_mark_keeps_the_signature.

(** ** C62: results *)
Lemma bom_nonempty l : bom ++ l <> [].
Proof. discriminate. Qed.
Theorem C62_mark_is_transparent : forall (c : cfg) l f, supported c -> featureless c -> rust_slice (bom ++ l) ->
  In f marked_formats -> ~ present l 0 bom -> nothing_further l -> nothing_further (bom ++ l) ->
  (from_bytes c l = Done f <-> from_bytes c (bom ++ l) = Done f).
Proof.
  intros c l f Hc Hf Hl Hin Hb N1 N2.
  assert (Hl0 : rust_slice l) by (unfold rust_slice in *; rewrite lenN_app in Hl; lia).
  assert (Ha : f <> ArbitraryBinaryData /\ f <> Empty) by (cbn in Hin; repeat (destruct Hin as [<-|Hin]; [split; discriminate|]); destruct Hin).
  rewrite (C04_first_match_wins c (bom ++ l) Hc Hf Hl (bom_nonempty l)).
  destruct l as [|b l'].
  { split.
    - intros H. exfalso. pose proof (proj2 (from_bytes_empty c Hc [] Hl0) eq_refl) as K.
      rewrite K in H. injection H as <-. now apply (proj2 Ha).
    - intros [H|[H _]]; [|now apply (proj1 Ha) in H]. exfalso.
      apply (C62_mark_keeps_the_signature [] f Hin Hb N1 N2) in H. now apply nonempty_match in H. }
  rewrite (C04_first_match_wins c (b :: l') Hc Hf Hl0) by discriminate.
  pose proof (C62_mark_keeps_the_signature (b :: l') f Hin Hb N1 N2) as K.
  split; (intros [H|[H _]]; [left; now apply K|now apply (proj1 Ha) in H]).
Qed.
Print Assumptions C62_mark_is_transparent.
(** With readers: XML data is looked at more closely, everything else is as before. *)
Theorem C62_mark_with_readers : forall (c : cfg) l f, supported c -> rust_slice (bom ++ l) ->
  In f marked_formats -> ~ present l 0 bom -> nothing_further l -> nothing_further (bom ++ l) ->
  f <> ExtensibleMarkupLanguage -> first_match signatures l f ->
  from_bytes c l = Done f /\ from_bytes c (bom ++ l) = Done f.
Proof.
  intros c l f Hc Hl Hin Hb N1 N2 Hx H.
  assert (Hl0 : rust_slice l) by (unfold rust_slice in *; rewrite lenN_app in Hl; lia).
  assert (Hcont : forall x, feat c x = true -> x <> FTxt -> container x <> f).
  { intros x _ _ E. subst f. cbn in Hin. destruct x; cbn in Hx, Hin; try congruence;
      repeat (destruct Hin as [Hin|Hin]; [discriminate Hin|]); destruct Hin. }
  split; [exact (C04_signature_stands c l f Hc Hl0 H Hcont)|].
  exact (C04_signature_stands c (bom ++ l) f Hc Hl (proj1 (C62_mark_keeps_the_signature l f Hin Hb N1 N2) H) Hcont).
Qed.
Print Assumptions C62_mark_with_readers.

(** ** C62: XML *)
Definition markers : list bytes := map bs (concat (concat (map fst xml_dialects))).
Fixpoint could_begin (m w : bytes) : bool :=
  match m, w with
  | b :: m', b' :: w' => Byte.eqb b b' && could_begin m' w'
  | _, _ => true
  end.
Lemma could_begin_sound m : forall w post r, m ++ post = w ++ r -> could_begin m w = true.
Proof.
  induction m as [|b m IH]; [reflexivity|]. intros [|b' w] post r E; [reflexivity|]. cbn [app] in E. injection E as -> E.
  cbn [could_begin]. apply andb_true_intro. split; [now apply Byte.byte_dec_lb|]. now apply (IH w post r).
Qed.
Lemma markers_checked : forallb (fun m => forallb (fun s =>
   negb (could_begin m (bs "xml" ++ [s])) && negb (could_begin m (bs "ml" ++ [s])) && negb (could_begin m (bs "l" ++ [s])))
   [x20; x09; x0d; x0a]) markers = true.
Proof. vm_compute. reflexivity. Qed.
Lemma occurs_xml m s rest : In m markers -> In s [x20; x09; x0d; x0a] ->
  (occurs m (bs "xml" ++ s :: rest) <-> occurs m (s :: rest)).
Proof.
  intros Hm Hs. pose proof markers_checked as K. rewrite forallb_forall in K. specialize (K m Hm). rewrite forallb_forall in K.
  specialize (K s Hs). apply andb_prop in K as [K K3]. apply andb_prop in K as [K1 K2]. apply negb_true_iff in K1, K2, K3. split.
  - intros (pre & post & E). destruct pre as [|a pre].
    { exfalso. cbn [app] in E. rewrite (could_begin_sound m _ post rest) in K1; [discriminate|]. now rewrite <- E, <- app_assoc. }
    injection E as <- E. destruct pre as [|a pre].
    { exfalso. cbn [app] in E. rewrite (could_begin_sound m _ post rest) in K2; [discriminate|]. now rewrite <- E, <- app_assoc. }
    injection E as <- E. destruct pre as [|a pre].
    { exfalso. cbn [app] in E. rewrite (could_begin_sound m _ post rest) in K3; [discriminate|]. now rewrite <- E, <- app_assoc. }
    injection E as <- E. now exists pre, post.
  - intros (pre & post & E). exists (bs "xml" ++ pre), post. now rewrite E, <- app_assoc.
Qed.
Lemma dialect_markers w w' : (forall m, In m markers -> (occurs m w <-> occurs m w')) ->
  forall f, xml_dialect w f -> xml_dialect w' f.
Proof.
  intros H.
  assert (D : forall alts g, In (alts, g) xml_dialects -> (dialect_present w alts <-> dialect_present w' alts)).
  { intros alts g Hin. assert (M : forall ms m, In ms alts -> In m ms -> In (bs m) markers).
    { intros ms m H1 H2. unfold markers. apply in_map. apply in_concat. exists ms. split; [|exact H2].
      apply in_concat. exists alts. split; [|exact H1]. now apply (in_map fst) in Hin. }
    split; intros (ms & H1 & H2); exists ms; (split; [exact H1|]); intros m Hm; apply (H (bs m) (M ms m H1 Hm)); now apply H2. }
  intros f [(before & alts & after & E & H1 & H2)|[E H1]].
  - left. exists before, alts, after. split; [exact E|]. split.
    + apply (D alts f); [rewrite E; apply in_elt|exact H1].
    + intros alts' g Hin K. apply (H2 alts' g Hin). apply (D alts' g); [|exact K]. rewrite E. apply in_or_app. now left.
  - right. split; [exact E|]. intros alts g Hin K. apply (H1 alts g Hin). now apply (D alts g).
Qed.
Theorem C62_xml_mark_is_transparent : forall (c : cfg) l, supported c -> signed c FXml l -> xml_declared l ->
  lenN l <= 8194 -> nothing_further l -> nothing_further (bom ++ l) ->
  from_bytes c (bom ++ l) = from_bytes c l.
Proof.
  intros c l Hc Hs (s & rest & Hsp & El) Hlen N1 N2.
  assert (Hb : ~ present l 0 bom) by (rewrite El; intros H; apply present_0 in H as (post & H); discriminate H).
  assert (Hl : rust_slice (bom ++ l)) by (unfold rust_slice; rewrite lenN_app; change (lenN bom) with 3; lia).
  assert (Hl0 : rust_slice l) by (unfold rust_slice; lia).
  assert (Hs' : signed c FXml (bom ++ l)).
  { destruct Hs as (H1 & H2 & H3). split; [exact H1|]. split; [exact H2|]. cbn [container] in *.
    refine (proj1 (C62_mark_keeps_the_signature l _ _ Hb N1 N2) H3). unfold marked_formats. do 16 right. left. reflexivity. }
  assert (W : slice 5 8192 l = s :: rest).
  { unfold slice. rewrite El. change (bs "<?xml" ++ s :: rest) with (bs "<?xml" ++ (s :: rest)). rewrite dropN_app_len by reflexivity.
    apply takeN_all. rewrite El, lenN_app in Hlen. change (lenN (bs "<?xml")) with 5 in Hlen. lia. }
  assert (W' : slice 5 8192 (bom ++ l) = bs "xml" ++ s :: rest).
  { unfold slice. rewrite El. change (bom ++ bs "<?xml" ++ s :: rest) with ((bom ++ bs "<?") ++ (bs "xml" ++ s :: rest)).
    rewrite dropN_app_len by reflexivity. apply takeN_all. rewrite El, lenN_app in Hlen. change (lenN (bs "<?xml")) with 5 in Hlen.
    rewrite lenN_app. change (lenN (bs "xml")) with 3. lia. }
  assert (T : forall x y, supported c -> rust_slice x -> rust_slice y -> signed c FXml x -> signed c FXml y ->
    (forall f, xml_dialect (slice 5 8192 x) f -> xml_dialect (slice 5 8192 y) f) ->
    forall f, from_bytes c x = Done f -> from_bytes c y = Done f).
  { intros x y _ Hx Hy Sx Sy D f H. apply (C19_xml_dialects c y Hc Hy Sy). apply D. now apply (C19_xml_dialects c x Hc Hx Sx). }
  destruct (C44_containers c FXml l l Hc Hl0 Hl0 Hs (or_introl eq_refl) eq_refl) as (f & E & _). rewrite E. apply (T l (bom ++ l)); auto.
  intros g. rewrite W, W'. apply dialect_markers. intros m Hm. symmetry. now apply occurs_xml.
Qed.
Print Assumptions C62_xml_mark_is_transparent.

(** ** C62: plain text *)
Lemma clean_marked x : clean_text (bom ++ x) <-> clean_text x.
Proof.
  assert (S : scalar 65279) by (unfold scalar; lia).
  assert (E : bom = utf8_encode 65279) by (vm_compute; reflexivity).
  split.
  - intros (cs & H1 & H2 & H3). destruct cs as [|a cs]; [discriminate H3|]. cbn [flat_map] in H3.
    inversion H1 as [|? ? Ha Hcs]; subst. inversion H2 as [|? ? Hb Hbs]; subst.
    pose proof (utf8_next_complete a (flat_map utf8_encode cs) Ha) as K. rewrite <- H3, E in K.
    rewrite (utf8_next_complete 65279 x S) in K. injection K as _ ->. now exists cs.
  - intros H. apply clean_app; [|exact H]. exists [65279]. split; [now repeat constructor|]. split.
    + constructor; [|constructor]. intros F. apply bad_char_iff in F. vm_compute in F. discriminate F.
    + cbn [flat_map]. now rewrite app_nil_r.
Qed.
Lemma head_marked l : lenN l <= 65533 -> text_head (bom ++ l) = bom ++ text_head l.
Proof.
  intros H. unfold text_head. rewrite !takeN_all; [reflexivity|lia|]. rewrite lenN_app. change (lenN bom) with 3. lia.
Qed.
Theorem C62_plain_text : forall (c : cfg) l, supported c -> l <> [] -> lenN l <= 65533 ->
  no_match signatures l -> no_match signatures (bom ++ l) -> feat c FTxt = true ->
  (from_bytes c l = Done PlainText <-> from_bytes c (bom ++ l) = Done PlainText).
Proof.
  intros c l Hc Hn Hl N1 N2 Hf.
  assert (H1 : rust_slice l) by (unfold rust_slice; lia).
  assert (H2 : rust_slice (bom ++ l)) by (unfold rust_slice; rewrite lenN_app; change (lenN bom) with 3; lia).
  rewrite (proj1 (C22_plain_text_iff c l Hc H1 Hn N1 Hf)).
  rewrite (proj1 (C22_plain_text_iff c (bom ++ l) Hc H2 (bom_nonempty l) N2 Hf)).
  rewrite head_marked by exact Hl. symmetry. apply clean_marked.
Qed.
Print Assumptions C62_plain_text.
(** Text in UTF-16 begins with FF FE or FE FF.  It is never text to the library. *)
Theorem C62_utf16_is_binary : forall (c : cfg) mark l, supported c -> rust_slice (mark ++ l) ->
  mark = [xff; xfe] \/ mark = [xfe; xff] -> no_match signatures (mark ++ l) ->
  from_bytes c (mark ++ l) = Done ArbitraryBinaryData.
Proof.
  intros c mark l Hc Hl Hm Hn.
  assert (Hne : mark ++ l <> []) by (destruct Hm as [->| ->]; discriminate).
  assert (Hbad : ~ clean_text (text_head (mark ++ l))).
  { intros (cs & H1 & _ & E). destruct Hm as [->| ->]; unfold text_head, takeN in E.
    - change (N.to_nat 65536) with (S (S (N.to_nat 65534))) in E. cbn [app firstn first_lines Byte.eqb] in E.
      destruct cs as [|a cs]; [discriminate E|]. cbn [flat_map] in E. inversion H1 as [|? ? Ha _]; subst.
      pose proof (utf8_next_complete a (flat_map utf8_encode cs) Ha) as K. rewrite <- E in K. vm_compute in K. discriminate K.
    - change (N.to_nat 65536) with (S (S (N.to_nat 65534))) in E. cbn [app firstn first_lines Byte.eqb] in E.
      destruct cs as [|a cs]; [discriminate E|]. cbn [flat_map] in E. inversion H1 as [|? ? Ha _]; subst.
      pose proof (utf8_next_complete a (flat_map utf8_encode cs) Ha) as K. rewrite <- E in K. vm_compute in K. discriminate K. }
  destruct (feat c FTxt) eqn:F.
  - now apply (proj2 (C22_plain_text_iff c (mark ++ l) Hc Hl Hne Hn F)).
  - now apply C43_default.
Qed.
Print Assumptions C62_utf16_is_binary.

(** ** Witnesses and exceptions *)
Lemma nothing_further_dec l :
  forallb (fun e : sig_entry => forallb (fun alt => negb (further alt && forallb (part_matches l) alt)) (snd e)) signatures = true ->
  nothing_further l.
Proof.
  intros H g alts alt off v Hg Ha Hv Ho Hm. rewrite forallb_forall in H. specialize (H _ Hg). cbn [snd] in H.
  rewrite forallb_forall in H. specialize (H _ Ha). apply alt_matches_iff in Hm. rewrite Hm, andb_true_r in H.
  apply negb_true_iff in H. rewrite <- not_true_iff_false in H. apply H. apply existsb_exists. exists (off, v).
  split; [exact Hv|]. cbn [fst]. lia.
Qed.
Lemma no_mark_dec l : part_matches l (0, bom) = false -> ~ present l 0 bom.
Proof. intros H K. apply part_matches_iff in K. rewrite K in H. discriminate H. Qed.
Definition page : bytes := bs "<!DOCTYPE html><title>x</title>".
Example C62_witness :
  In HypertextMarkupLanguage marked_formats /\ ~ present page 0 bom /\ nothing_further page /\ nothing_further (bom ++ page) /\
  first_match signatures page HypertextMarkupLanguage /\ rust_slice (bom ++ page) /\
  from_bytes cfg_none (bom ++ page) = Done HypertextMarkupLanguage /\
  from_bytes cfg_all (bom ++ page) = Done HypertextMarkupLanguage /\
  (let doc := bs "<?xml version='1.0'?><svg/>" in
   signed cfg_all FXml doc /\ xml_declared doc /\ nothing_further doc /\ nothing_further (bom ++ doc) /\
   from_bytes cfg_all (bom ++ doc) = Done ScalableVectorGraphics) /\
  (let text := bs "two" ++ [x0a] ++ bs "lines" in
   no_match signatures text /\ no_match signatures (bom ++ text) /\ from_bytes cfg_all (bom ++ text) = Done PlainText) /\
  (let text := [x74; x00; x65; x00; x78; x00; x74; x00] in
   no_match signatures ([xff; xfe] ++ text) /\ from_bytes cfg_all ([xff; xfe] ++ text) = Done ArbitraryBinaryData).
Proof.
  split; [unfold marked_formats; do 5 right; left; reflexivity|]. split; [apply no_mark_dec; vm_compute; reflexivity|].
  split; [apply nothing_further_dec; vm_compute; reflexivity|]. split; [apply nothing_further_dec; vm_compute; reflexivity|].
  split; [apply sig_first; vm_compute; reflexivity|]. split; [vm_compute; reflexivity|].
  split; [vm_compute; reflexivity|]. split; [vm_compute; reflexivity|]. split.
  { cbv zeta. split; [signed_by_computation|]. split; [exists x20; eexists; split; [now left|reflexivity]|].
    split; [apply nothing_further_dec; vm_compute; reflexivity|]. split; [apply nothing_further_dec; vm_compute; reflexivity|].
    vm_compute. reflexivity. }
  split; cbv zeta.
  - split; [apply sig_none; vm_compute; reflexivity|]. split; [apply sig_none; vm_compute; reflexivity|]. vm_compute. reflexivity.
  - split; [apply sig_none; vm_compute; reflexivity|]. vm_compute. reflexivity.
Qed.
(** An AbiWord document with a document type declaration is looked for at one absolute offset, with or
    without the mark: a document that is recognised no longer is when a mark is put in front. *)
Definition abiword_doc : bytes :=
  bs "<!DOCTYPE abiword PUBLIC ""-//ABISOURCE//DTD AWML 1.0 Strict//EN"" ""http://www.abisource.com/awml.dtd"">" ++ [x0a] ++
  bs "<abiword template=""false"">".
Theorem C62_abiword_refuted : exists l, ~ present l 0 bom /\ nothing_further (bom ++ l) /\
  from_bytes cfg_none l = Done Abiword /\ from_bytes cfg_none (bom ++ l) = Done ArbitraryBinaryData /\
  from_bytes cfg_all (bom ++ l) = Done PlainText.
Proof.
  exists abiword_doc. split; [apply no_mark_dec; vm_compute; reflexivity|]. split; [apply nothing_further_dec; vm_compute; reflexivity|].
  repeat split; vm_compute; reflexivity.
Qed.
Print Assumptions C62_abiword_refuted.
(** Other text formats are not recognised behind a mark: a contact, a calendar, a key, a feed, a script. *)
Theorem C62_other_text_refuted : forall l f, In (l, f)
    [ (bs "BEGIN:VCARD", Vcard); (bs "BEGIN:VCALENDAR", Icalendar); (bs "-----BEGIN CERTIFICATE-----", PemCertificate);
      (bs "{""version"":""https://jsonfeed.org/version/1""}", JsonFeed); (bs "Microsoft Visual Studio Solution File, Format Version 12.00", MicrosoftVisualStudioSolution);
      (bs "#EXTM3U", Mp3Url); (bs "#!/bin/sh", ShellScript); (bs "<?wpl version=""1.0""?>", WindowsMediaPlaylist) ] ->
  from_bytes cfg_all l = Done f /\ from_bytes cfg_all (bom ++ l) = Done PlainText.
Proof.
  intros l f H. repeat (destruct H as [H|H]; [injection H as <- <-; split; vm_compute; reflexivity|]). destruct H.
Qed.
Print Assumptions C62_other_text_refuted.
(** The white space of the XML declaration is needed. *)
Theorem C62_undeclared_refuted : exists l, signed cfg_all FXml l /\ nothing_further l /\ nothing_further (bom ++ l) /\
  lenN l <= 8194 /\ from_bytes cfg_all l = Done ExtensibleMarkupLanguage /\
  from_bytes cfg_all (bom ++ l) = Done TimedTextMarkupLanguage.
Proof.
  exists (bs "<?xmlns=""http://www.w3.org/ns/ttml"" ?><tt>"). split; [signed_by_computation|].
  split; [apply nothing_further_dec; vm_compute; reflexivity|]. split; [apply nothing_further_dec; vm_compute; reflexivity|].
  split; [vm_compute; discriminate|]. split; vm_compute; reflexivity.
Qed.
Print Assumptions C62_undeclared_refuted.
(** A well-formed XML document in UTF-16, an encoding every XML processor must accept, is binary data. *)
Theorem C62_xml_utf16_refuted :
  let doc := [xff; xfe] ++ flat_map (fun b => [b; x00]) (bs "<?xml version='1.0'?><svg/>") in
  from_bytes cfg_all (bs "<?xml version='1.0'?><svg/>") = Done ScalableVectorGraphics /\
  from_bytes cfg_all doc = Done ArbitraryBinaryData.
Proof. split; vm_compute; reflexivity. Qed.
Print Assumptions C62_xml_utf16_refuted.
