(** C64, continued: the cost of signature matching.  Statements use the counted program of SigCost.v. *)
From Coq Require Import List NArith ZArith Bool Arith String Lia ZifyBool ZifyNat ZifyN.
From Verif Require Import Base BaseProofs Formats Signatures Lib SigCost.
Import ListNotations.
Local Open Scope N_scope.

Lemma equal_counted_spec a : forall b, fst (equal_counted a b) = beqb a b /\ snd (equal_counted a b) <= lenN b.
Proof.
  induction a as [|x a IH]; intros [|y b]; cbn [equal_counted beqb fst snd]; try (split; [reflexivity|lia]).
  destruct (IH b) as [H1 H2]. rewrite lenN_cons. destruct (Byte.eqb x y); cbn [andb fst snd].
  - destruct (equal_counted a b) as [r n]. cbn [fst snd] in *. split; [exact H1|lia].
  - split; [reflexivity|lia].
Qed.
Lemma part_counted_spec l p : fst (part_counted l p) = part_matches l p /\ snd (part_counted l p) <= lenN (snd p).
Proof.
  destruct p as [o v]. unfold part_counted, part_matches. cbn [snd]. destruct (o + lenN v <=? lenN l); cbn [andb fst snd].
  - apply equal_counted_spec.
  - split; [reflexivity|lia].
Qed.
Definition parts_size (parts : list sig_part) : N := fold_right (fun p n => lenN (snd p) + n) 0 parts.
Lemma parts_counted_spec l parts : forall r t n, parts_counted l parts = (r, t, n) ->
  r = forallb (part_matches l) parts /\ t <= lenN parts /\ n <= parts_size parts.
Proof.
  induction parts as [|p parts IH]; cbn [parts_counted forallb parts_size fold_right].
  - intros r t n E. injection E as <- <- <-. repeat split; lia.
  - intros r t n. destruct (part_counted_spec l p) as [H1 H2]. destruct (part_counted l p) as [b k]. cbn [fst snd] in *.
    rewrite <- H1, lenN_cons. destruct b; cbn [andb].
    + destruct (parts_counted l parts) as [[r' t'] m]. destruct (IH r' t' m eq_refl) as (-> & K2 & K3).
      unfold parts_size in K3. intros E. injection E as <- <- <-. repeat split; lia.
    + intros E. injection E as <- <- <-. repeat split; lia.
Qed.
Definition alts_parts (alts : list (list sig_part)) : N := fold_right (fun a n => lenN a + n) 0 alts.
Definition alts_size (alts : list (list sig_part)) : N := fold_right (fun a n => parts_size a + n) 0 alts.
Lemma alts_counted_spec l alts : forall r t n, alts_counted l alts = (r, t, n) ->
  r = existsb (forallb (part_matches l)) alts /\ t <= alts_parts alts /\ n <= alts_size alts.
Proof.
  induction alts as [|a alts IH]; cbn [alts_counted existsb alts_parts alts_size fold_right].
  - intros r t n E. injection E as <- <- <-. repeat split; lia.
  - intros r t n. destruct (parts_counted l a) as [[b t0] k] eqn:Ea. destruct (parts_counted_spec _ _ _ _ _ Ea) as (-> & H2 & H3).
    destruct (forallb (part_matches l) a); cbn [orb].
    + intros E. injection E as <- <- <-. unfold alts_size. repeat split; lia.
    + destruct (alts_counted l alts) as [[r' t'] m]. destruct (IH r' t' m eq_refl) as (-> & K2 & K3).
      unfold alts_size, alts_parts in *. intros E. injection E as <- <- <-. repeat split; lia.
Qed.
Definition table_parts (t : list sig_entry) : N := fold_right (fun e n => alts_parts (snd e) + n) 0 t.
Definition table_size (t : list sig_entry) : N := fold_right (fun e n => alts_size (snd e) + n) 0 t.
Lemma signature_counted_spec l table : forall r t n, signature_counted table l = (r, t, n) ->
  r = from_signature_in table l /\ t <= table_parts table /\ n <= table_size table.
Proof.
  induction table as [|[f alts] table IH]; cbn [signature_counted from_signature_in table_parts table_size fold_right snd].
  - intros r t n E. injection E as <- <- <-. repeat split; lia.
  - intros r t n. destruct (alts_counted l alts) as [[b t0] k] eqn:Ea. destruct (alts_counted_spec _ _ _ _ _ Ea) as (-> & H2 & H3).
    destruct (existsb (forallb (part_matches l)) alts).
    + intros E. injection E as <- <- <-. unfold table_size. repeat split; lia.
    + destruct (signature_counted table l) as [[r' t'] m]. destruct (IH r' t' m eq_refl) as (-> & K2 & K3).
      unfold table_size, table_parts in *. intros E. injection E as <- <- <-. repeat split; lia.
Qed.
(** Recognising the signature takes at most 855 length tests and 7207 byte comparisons, whatever the data and
    however much of it there is. *)
Theorem C64_signatures : forall l,
  let '(r, tests, comparisons) := signature_counted signatures l in
  r = from_signature l /\ tests <= 855 /\ comparisons <= 7207.
Proof.
  intros l. destruct (signature_counted signatures l) as [[r t] n] eqn:E.
  destruct (signature_counted_spec l _ _ _ _ E) as (H1 & H2 & H3).
  assert (K1 : table_parts signatures = 855) by (vm_compute; reflexivity).
  assert (K2 : table_size signatures = 7207) by (vm_compute; reflexivity).
  split; [exact H1|]. lia.
Qed.
Print Assumptions C64_signatures.
(** Without a match every alternative is tried: at least one length test for each of the 726. *)
Lemma parts_counted_positive l p parts : 1 <= snd (fst (parts_counted l (p :: parts))).
Proof.
  cbn [parts_counted]. destruct (part_counted l p) as [[|] n]; cbn [fst snd]; [|lia].
  destruct (parts_counted l parts) as [[r t] m]. cbn [fst snd]. lia.
Qed.
Lemma alts_counted_all l alts : (forall a, In a alts -> a <> []) -> existsb (forallb (part_matches l)) alts = false ->
  lenN alts <= snd (fst (alts_counted l alts)).
Proof.
  induction alts as [|a alts IH]; intros Hne H; cbn [alts_counted existsb] in *; [cbn; lia|].
  apply orb_false_elim in H as [H1 H2]. pose proof (Hne a (or_introl eq_refl)) as Ha.
  destruct a as [|p parts]; [now destruct Ha|]. pose proof (parts_counted_positive l p parts) as Hp.
  destruct (parts_counted l (p :: parts)) as [[r t] n] eqn:E. destruct (parts_counted_spec _ _ _ _ _ E) as (-> & _ & _).
  rewrite H1. specialize (IH (fun x Hx => Hne x (or_intror Hx)) H2). destruct (alts_counted l alts) as [[r' t'] m].
  cbn [fst snd] in *. rewrite lenN_cons. lia.
Qed.
Theorem C64_no_signature : forall l, from_signature l = None ->
  726 <= snd (fst (signature_counted signatures l)).
Proof.
  intros l H. assert (G : forall table, (forall f alts a, In (f, alts) table -> In a alts -> a <> []) ->
    from_signature_in table l = None -> fold_right (fun e n => lenN (snd e) + n) 0 table <= snd (fst (signature_counted table l))).
  { induction table as [|[f alts] table IH]; intros Hne E; cbn [fold_right signature_counted from_signature_in snd] in *; [cbn; lia|].
    destruct (existsb (forallb (part_matches l)) alts) eqn:Ea; [discriminate|].
    pose proof (alts_counted_all l alts (fun a Ha => Hne f alts a (or_introl eq_refl) Ha) Ea) as K.
    destruct (alts_counted l alts) as [[r t] n] eqn:E2. destruct (alts_counted_spec _ _ _ _ _ E2) as (-> & _ & _). rewrite Ea.
    assert (IH' := IH (fun f' alts' a' Hx => Hne f' alts' a' (or_intror Hx)) E).
    destruct (signature_counted table l) as [[r' t'] m]. cbn [fst snd] in *. lia. }
  assert (K : fold_right (fun (e : sig_entry) n => lenN (snd e) + n) 0 signatures = 726) by (vm_compute; reflexivity).
  rewrite <- K. apply G; [|exact H]. intros f alts a Hf Ha ->.
  assert (Q : forallb (fun e : sig_entry => forallb (fun a => negb (lenN a =? 0)) (snd e)) signatures = true) by (vm_compute; reflexivity).
  rewrite forallb_forall in Q. specialize (Q _ Hf). cbn [snd] in Q. rewrite forallb_forall in Q. specialize (Q _ Ha). discriminate.
Qed.
Print Assumptions C64_no_signature.
Example C64_signatures_witness :
  signature_counted signatures (repeat x20 100) = (None, 726, 687) /\
  signature_counted signatures (bs "GIF89a") = (Some GraphicsInterchangeFormat, 439, 70).
Proof. split; vm_compute; reflexivity. Qed.
