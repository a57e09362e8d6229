(** Integers and GUIDs (C41). *)
From Coq Require Import NArith ZArith Bool String List Lia ZifyBool ZifyNat ZifyN.
From Verif Require Import Base BaseProofs IO Readers SpecText SpecBin Utf8Proofs.
Local Open Scope N_scope.
Ltac Zify.zify_post_hook ::= Z.div_mod_to_equations.

Lemma le_bytes_length n : forall v, List.length (le_bytes n v) = n.
Proof. induction n; intros v; cbn [le_bytes List.length]; auto. Qed.
Lemma lenN_le_bytes n v : lenN (le_bytes n v) = N.of_nat n.
Proof. unfold lenN. now rewrite le_bytes_length. Qed.
Lemma be_bytes_length n v : List.length (be_bytes n v) = n.
Proof. unfold be_bytes. now rewrite rev_length, le_bytes_length. Qed.
Lemma lenN_be_bytes n v : lenN (be_bytes n v) = N.of_nat n.
Proof. unfold lenN. now rewrite be_bytes_length. Qed.

Lemma le_val_le_bytes n : forall v, v < 256 ^ N.of_nat n -> le_val (le_bytes n v) = v.
Proof.
  induction n as [|n IH]; intros v H.
  - cbn in *. lia.
  - cbn [le_bytes le_val]. rewrite bval_byteN by lia.
    rewrite IH; [lia|]. rewrite Nat2N.inj_succ, N.pow_succ_r' in H.
    apply N.div_lt_upper_bound; lia.
Qed.

Lemma be_acc_app a : forall acc b, be_acc acc (a ++ b) = be_acc (be_acc acc a) b.
Proof. induction a; intros; cbn [app be_acc]; auto. Qed.
Lemma be_val_rev l : be_val (rev l) = le_val l.
Proof.
  unfold be_val. induction l as [|b l IH]; [reflexivity|].
  cbn [rev le_val]. rewrite be_acc_app, IH. cbn [be_acc]. lia.
Qed.
Lemma be_val_be_bytes n v : v < 256 ^ N.of_nat n -> be_val (be_bytes n v) = v.
Proof. intros H. unfold be_bytes. now rewrite be_val_rev, le_val_le_bytes. Qed.

Lemma le_bytes_le_val l : le_bytes (List.length l) (le_val l) = l.
Proof.
  induction l as [|b l IH]; [reflexivity|]. cbn [List.length le_bytes le_val].
  pose proof (bval_lt b).
  replace ((bval b + 256 * le_val l) mod 256) with (bval b) by lia.
  replace ((bval b + 256 * le_val l) / 256) with (le_val l) by lia.
  now rewrite byteN_bval, IH.
Qed.
Lemma le_val_inj a b : List.length a = List.length b -> le_val a = le_val b -> a = b.
Proof.
  intros H1 H2. rewrite <- (le_bytes_le_val a), <- (le_bytes_le_val b). now rewrite H1, H2.
Qed.

(** ** GUIDs *)

Lemma hex_digit_hex1 n : n < 16 -> hex_digit n = hex1 n.
Proof.
  intros H. assert (forallb (fun k => String.eqb (hex_digit (N.of_nat k)) (hex1 (N.of_nat k))) (seq 0 16) = true)
    as Hall by reflexivity.
  rewrite forallb_forall in Hall. specialize (Hall (N.to_nat n)).
  rewrite N2Nat.id in Hall. apply String.eqb_eq, Hall, in_seq. lia.
Qed.
Lemma hex2_hexN b : hex2 b = hexN 2 (bval b).
Proof.
  pose proof (bval_lt b). unfold hex2. cbn [hexN append].
  rewrite !hex_digit_hex1 by lia. f_equal. f_equal. lia.
Qed.

Lemma append_assoc a b c : ((a ++ b) ++ c = a ++ b ++ c)%string.
Proof. induction a; cbn [append]; congruence. Qed.
Lemma append_nil_r a : (a ++ "" = a)%string.
Proof. induction a; cbn [append]; congruence. Qed.

Lemma hexN_le2 v : v < 65536 ->
  hexN 4 v = (hex2 (byteN (v / 256)) ++ hex2 (byteN (v mod 256)))%string.
Proof.
  intros H. rewrite !hex2_hexN, !bval_byteN by lia. cbn [hexN append].
  rewrite append_assoc.
  replace (v / 16 / 16 / 16 mod 16) with (v / 256 / 16 mod 16) by lia.
  replace (v / 16 / 16 mod 16) with (v / 256 mod 16) by lia.
  replace (v / 16 mod 16) with (v mod 256 / 16 mod 16) by lia.
  replace (v mod 16) with (v mod 256 mod 16) by lia.
  now rewrite !append_assoc.
Qed.
Lemma hexN_add n m v : hexN (n + m) v = (hexN n (v / 16 ^ N.of_nat m) ++ hexN m v)%string.
Proof.
  revert v. induction m as [|m IH]; intros v.
  - rewrite Nat.add_0_r. cbn [hexN]. rewrite append_nil_r. f_equal. cbn. lia.
  - rewrite Nat.add_succ_r. cbn [hexN]. rewrite IH, append_assoc. f_equal.
    rewrite Nat2N.inj_succ, N.pow_succ_r', N.div_div by lia. reflexivity.
Qed.
Lemma hexN_mod n : forall v, hexN n (v mod 16 ^ N.of_nat n) = hexN n v.
Proof.
  induction n as [|n IH]; intros v; [reflexivity|]. cbn [hexN].
  rewrite Nat2N.inj_succ, N.pow_succ_r'. pose proof (N.pow_nonzero 16 (N.of_nat n) ltac:(lia)) as Hz.
  f_equal.
  - rewrite <- (IH (v / 16)). rewrite <- (IH (v mod (16 * 16 ^ N.of_nat n) / 16)). f_equal.
    rewrite N.mod_mul_r by lia. rewrite N.mul_comm, N.add_comm.
    rewrite N.div_add_l by lia. rewrite (N.div_small (v mod 16)) by lia. rewrite N.add_0_r.
    apply N.mod_mod; lia.
  - f_equal. rewrite N.mod_mul_r by lia. rewrite N.mul_comm, N.mod_add by lia. apply N.mod_mod; lia.
Qed.
Lemma hexN_8 v : v < 2 ^ 32 -> hexN 8 v = (hexN 4 (v / 65536) ++ hexN 4 (v mod 65536))%string.
Proof.
  intros H. change 8%nat with (4 + 4)%nat. rewrite hexN_add.
  rewrite <- (hexN_mod 4 v). reflexivity.
Qed.

Lemma guid_string_text g : wf_guid g -> guid_string (guid_bytes g) = guid_text g.
Proof.
  intros (H1 & H2 & H3 & H4). destruct g as [d1 d2 d3 d4]. cbn [data1 data2 data3 data4] in *.
  destruct d4 as [|b0 [|b1 [|b2 [|b3 [|b4 [|b5 [|b6 [|b7 [|b8 d4]]]]]]]]]; try discriminate H4.
  unfold guid_bytes, guid_text. cbn [data1 data2 data3 data4 le_bytes app firstn skipn].
  rewrite hexN_8 by assumption.
  rewrite !(hexN_le2 d2), !(hexN_le2 d3) by (lia || assumption).
  rewrite (hexN_le2 (d1 / 65536)) by lia. rewrite (hexN_le2 (d1 mod 65536)) by lia.
  unfold guid_string, hex_bytes. cbn [map guid_piece nth Nat.eqb orb].
  cbn [String.concat].
  rewrite <- !hex2_hexN.
  replace (d1 / 65536 / 256) with (d1 / 256 / 256 / 256 mod 256) by lia.
  replace (d1 / 65536 mod 256) with (d1 / 256 / 256 mod 256) by lia.
  replace (d1 mod 65536 / 256) with (d1 / 256 mod 256) by lia.
  replace (d1 mod 65536 mod 256) with (d1 mod 256) by lia.
  replace (d2 / 256) with (d2 / 256 mod 256) at 2 by lia.
  replace (d3 / 256) with (d3 / 256 mod 256) at 2 by lia.
  rewrite !append_assoc. cbn [append]. rewrite ?append_assoc. reflexivity.
Qed.

Definition guid_of (l : bytes) : guid :=
  mkguid (le_val (takeN 4 l)) (le_val (takeN 2 (dropN 4 l))) (le_val (takeN 2 (dropN 6 l))) (dropN 8 l).
Lemma guid_of_ok l : lenN l = 16 -> wf_guid (guid_of l) /\ guid_bytes (guid_of l) = l.
Proof.
  intros H. unfold lenN in H.
  do 16 (destruct l as [|?b l]; [exfalso; cbn [List.length] in H; lia|]).
  destruct l; [|exfalso; cbn [List.length] in H; lia]. clear H.
  split.
  - unfold wf_guid, guid_of. cbn [data1 data2 data3 data4].
    split; [exact (le_val_lt [b; b0; b1; b2])|]. split; [exact (le_val_lt [b3; b4])|].
    split; [exact (le_val_lt [b5; b6])|reflexivity].
  - unfold guid_bytes, guid_of. cbn [data1 data2 data3 data4].
    change (takeN 4 _) with [b; b0; b1; b2]. change (takeN 2 (dropN 4 _)) with [b3; b4].
    change (takeN 2 (dropN 6 _)) with [b5; b6].
    change (le_bytes 4 (le_val [b; b0; b1; b2])) with
      (le_bytes (List.length [b; b0; b1; b2]) (le_val [b; b0; b1; b2])).
    change (le_bytes 2 (le_val [b3; b4])) with (le_bytes (List.length [b3; b4]) (le_val [b3; b4])).
    change (le_bytes 2 (le_val [b5; b6])) with (le_bytes (List.length [b5; b6]) (le_val [b5; b6])).
    rewrite !le_bytes_le_val. reflexivity.
Qed.

Definition hex_ascii (n : N) : Ascii.ascii :=
  match String.get (N.to_nat n) "0123456789abcdef" with Some a => a | None => Ascii.zero end.
Lemma hex1_ascii n : n < 16 -> hex1 n = String (hex_ascii n) EmptyString.
Proof.
  intros H. assert (forallb (fun k => String.eqb (hex1 (N.of_nat k)) (String (hex_ascii (N.of_nat k)) "")) (seq 0 16) = true)
    as Hall by reflexivity.
  rewrite forallb_forall in Hall. specialize (Hall (N.to_nat n)).
  rewrite N2Nat.id in Hall. apply String.eqb_eq, Hall, in_seq. lia.
Qed.
Lemma hex_ascii_inj a b : a < 16 -> b < 16 -> hex_ascii a = hex_ascii b -> a = b.
Proof.
  intros Ha Hb H.
  assert (forallb (fun i => forallb (fun j => Nat.eqb i j ||
    negb (Ascii.eqb (hex_ascii (N.of_nat i)) (hex_ascii (N.of_nat j)))) (seq 0 16)) (seq 0 16) = true)
    as Hall by reflexivity.
  rewrite forallb_forall in Hall. specialize (Hall (N.to_nat a) ltac:(apply in_seq; lia)).
  rewrite forallb_forall in Hall. specialize (Hall (N.to_nat b) ltac:(apply in_seq; lia)).
  rewrite !N2Nat.id, H, Ascii.eqb_refl, orb_false_r in Hall. apply Nat.eqb_eq in Hall. lia.
Qed.
Lemma hex2_ascii b : hex2 b = String (hex_ascii (bval b / 16)) (String (hex_ascii (bval b mod 16)) "").
Proof.
  pose proof (bval_lt b). unfold hex2. rewrite !hex_digit_hex1, !hex1_ascii by lia. reflexivity.
Qed.
Lemma hex2_inj' a b : hex_ascii (bval a / 16) = hex_ascii (bval b / 16) ->
  hex_ascii (bval a mod 16) = hex_ascii (bval b mod 16) -> a = b.
Proof.
  intros H1 H2. pose proof (bval_lt a). pose proof (bval_lt b). apply bval_inj.
  apply hex_ascii_inj in H1; [|lia|lia]. apply hex_ascii_inj in H2; [|lia|lia]. lia.
Qed.
Lemma guid_string_inj a b : lenN a = 16 -> lenN b = 16 -> guid_string a = guid_string b -> a = b.
Proof.
  unfold lenN. intros Ha Hb.
  do 16 (destruct a as [|?a a]; [exfalso; cbn [List.length] in Ha; lia|]).
  destruct a; [|exfalso; cbn [List.length] in Ha; lia].
  do 16 (destruct b as [|?b b]; [exfalso; cbn [List.length] in Hb; lia|]).
  destruct b; [|exfalso; cbn [List.length] in Hb; lia]. clear Ha Hb.
  unfold guid_string. cbn [map guid_piece nth Nat.eqb orb String.concat].
  rewrite !hex2_ascii. cbn [append]. intros H.
  injection H; clear H; intros. repeat (f_equal; try (apply hex2_inj'; assumption)).
Qed.
Lemma guid_text_inj g h : wf_guid g -> wf_guid h -> guid_text g = guid_text h -> guid_bytes g = guid_bytes h.
Proof.
  intros Hg Hh H. rewrite <- !guid_string_text in H by assumption.
  assert (Hl : forall k, wf_guid k -> lenN (guid_bytes k) = 16).
  { intros k (_ & _ & _ & H4). unfold guid_bytes. rewrite !lenN_app, !lenN_le_bytes. unfold lenN. rewrite H4. reflexivity. }
  now apply guid_string_inj in H; [|apply Hl|apply Hl].
Qed.
Lemma app_eq_app' {A} (a b r s : list A) : List.length a = List.length b -> a ++ r = b ++ s -> a = b /\ r = s.
Proof.
  revert b. induction a as [|x a IH]; intros [|y b] Hl H; try discriminate; [now split|].
  injection H as -> H. injection Hl as Hl. destruct (IH _ Hl H) as [-> ->]. now split.
Qed.
Lemma guid_text_eq : forall g h, wf_guid g -> wf_guid h -> guid_text g = guid_text h -> g = h.
Proof.
  intros g h Hg Hh H. apply guid_text_inj in H; [|exact Hg|exact Hh].
    destruct g as [g1 g2 g3 g4], h as [h1 h2 h3 h4].
    destruct Hg as (A1 & A2 & A3 & A4), Hh as (B1 & B2 & B3 & B4).
    unfold guid_bytes in H. cbn [data1 data2 data3 data4] in *.
    assert (K : forall n v w r s, le_bytes n v ++ r = le_bytes n w ++ s -> le_bytes n v = le_bytes n w /\ r = s).
    { intros n v w r s E. apply app_eq_app' in E; [exact E|now rewrite !le_bytes_length]. }
    apply K in H as [E1 H]. apply K in H as [E2 H]. apply K in H as [E3 H].
    apply (f_equal le_val) in E1, E2, E3.
    rewrite !le_val_le_bytes in E1 by assumption. rewrite !le_val_le_bytes in E2 by assumption.
    rewrite !le_val_le_bytes in E3 by assumption. now subst.
Qed.
