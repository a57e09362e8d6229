(** The trait FindBytes: the text of /repo/src/readers.rs against the model. *)
From Coq Require Import NArith ZArith Bool String List Lia ZifyBool ZifyNat ZifyN.
From Verif Require Import Base BaseProofs Formats IO Find FindProofs Utf8 Readers RustAst RustSem Source SourceProofs.
Import ListNotations.
Local Open Scope N_scope.

(** The shift table as the array of 256 numbers. *)
Definition rep (tab : list N) (t : shift_table) : Prop :=
  lenN tab = 256 /\ forall x, nth (N.to_nat (bval x)) tab 0 = N.of_nat (t x).
Lemma nth_update l i v j d : (i < List.length l)%nat -> nth j (update l i v) d = if Nat.eqb j i then v else nth j l d.
Proof.
  revert i j. induction l as [|x l IH]; intros i j H; [cbn in H; lia|]. unfold update in *. cbn in H.
  destruct i as [|i], j as [|j]; cbn; try reflexivity. cbn in IH. apply IH. lia.
Qed.
Ltac abstract_env_fun3 f H :=
  assert (H : forall v s kk, f v s kk = ltac:(let t := eval cbv beta in (f v s kk) in exact t)) by (intros; reflexivity);
  let g := fresh "code" in set (g := f) in H |- *; clearbody g.
Lemma lenN_update l i v : (i < List.length l)%nat -> lenN (update l i v) = lenN l.
Proof.
  intros H. unfold update, lenN. rewrite app_length. cbn [List.length]. rewrite firstn_length, skipn_length. lia.
Qed.
Lemma rep_set tab t x v : rep tab t -> rep (update tab (N.to_nat (bval x)) (N.of_nat v)) (set_shift t x v).
Proof.
  intros [H1 H2]. pose proof (bval_lt x). unfold lenN in H1. split; [unfold rep; rewrite lenN_update by lia; unfold lenN; lia|].
  intros y. rewrite nth_update by lia. unfold set_shift. rewrite H2.
  destruct (Nat.eqb_spec (N.to_nat (bval y)) (N.to_nat (bval x))) as [E|E], (Byte.eqb y x) eqn:F; try reflexivity.
  - exfalso. apply N2Nat.inj, bval_inj0 in E. subst y. rewrite byte_eqb_refl in F. discriminate.
  - exfalso. apply byte_eqb_eq in F. subst y. now apply E.
Qed.
Lemma rep_start (n : nat) : rep (repeat (N.of_nat n) 256) (fun _ => n).
Proof.
  split; [reflexivity|]. intros x. pose proof (bval_lt x). assert (Hi : (N.to_nat (bval x) < 256)%nat) by lia.
  revert Hi. generalize (N.to_nat (bval x)). intros i Hi. rewrite (nth_indep _ 0 (N.of_nat n)); [apply nth_repeat|]. now rewrite repeat_length.
Qed.
Lemma firstn_enumerate n : forall i l, firstn n (enumerate i l) = enumerate i (firstn n l).
Proof. induction n as [|n IH]; intros i [|x l]; cbn [firstn enumerate]; try reflexivity. now rewrite IH. Qed.

Lemma index_inv (l : bytes) i x : Find.index l i = Done x -> (i < List.length l)%nat /\ nth i l x00 = x.
Proof.
  unfold Find.index. destruct (nth_error l i) as [y|] eqn:E; [|discriminate]. intros [= <-]. split.
  - apply nth_error_Some. congruence.
  - now apply nth_error_nth.
Qed.
Lemma bval_eqb x y : (bval x =? bval y) = Byte.eqb x y.
Proof.
  destruct (Byte.eqb x y) eqn:E.
  - apply byte_eqb_eq in E. subst. apply N.eqb_refl.
  - apply N.eqb_neq. intros H. apply bval_inj0 in H. subst. now rewrite byte_eqb_refl in E.
Qed.

Ltac dr := lazymatch goal with
  | |- sc (fits _ USize _ _) _ => apply sc_fits; [cbn [width]; lia|]
  | _ => drive
  end.
Section Search.
Context {B : Type}.
Variables (c : plat) (on : string -> bool) (rounds : nat) (b : bool).
Variable X : N -> task (B := B) -> prog (option B).
Hypothesis HX : forall n i t, n = N.succ i -> X n t = go c on rounds b readers_fns (X i) t 60.
Hypothesis Hbits : 16 <= usize_bits c.
Lemma call_find k q data pat : (List.length data < rounds)%nat -> 2 * lenN data < 2 ^ usize_bits c -> pat <> [] -> lenN pat <= lenN data ->
  sc (pure_call (find data pat) (fun r => k (match r with Some i => VSome (VU USize (N.of_nat i)) | None => VNone end))) q ->
  sc (X 100 (TCall "find" [VBytes data; VBytes pat] k)) q.
Proof using HX Hbits.
  intros Hr0 Hd Hp Hl Hq. enter. drive. do 2 drive. assert (Hp0 : lenN pat <> 0) by (destruct pat; [tauto|unfold lenN; cbn; lia]).
  assert (Hk : known (lenN pat =? 0) false) by (apply N.eqb_neq, Hp0).
  repeat drive. change (N.to_nat 256) with 256%nat. rewrite firstn_enumerate, firstn_map. replace (N.to_nat (lenN pat - 1)) with (List.length pat - 1)%nat by (unfold lenN; lia).
  lazymatch goal with |- sc (for_each _ ?body _ ?k') _ => abstract_env_fun3 body Hbody end.
  lazymatch goal with |- sc (for_each _ ?body ((?x, _) :: ?s) _) _ =>
    cut (forall (kk : env -> prog (option B)) l i tab t, rep tab t -> N.of_nat i + lenN l <= lenN pat - 1 ->
      (forall tab', rep tab' (fill_shift (List.length pat) i l t) -> sc (kk ((x, VTab USize tab') :: s)) q) ->
      sc (for_each (enumerate (N.of_nat i) (map (fun b0 : byte => VU U8 (bval b0)) l)) body ((x, VTab USize tab) :: s) kk) q) end.
  { intros L. apply (L _ _ 0%nat _ (fun _ => List.length pat)).
    - apply rep_start.
    - unfold lenN. rewrite firstn_length. lia.
    - clear L Hbody. change (fill_shift _ _ _ _) with (forward_shift pat). intros tab Ht. repeat drive.
      destruct (find_total data pat) as [r Hr]. rewrite Hr in Hq. cbn [pure_call] in Hq.
      unfold find in Hr. destruct pat as [|p0 pt]; [tauto|]. revert Hr. generalize dependent (p0 :: pt). clear p0 pt.
      intros pat Hp Hl Hp0 Hk Ht Hr. replace (_ <? _)%nat with false in Hr by (symmetry; apply Nat.ltb_ge; unfold lenN in Hl; lia).
      destruct Ht as [Ht1 Ht2].
      replace (lenN pat - 1) with (N.of_nat (List.length pat - 1)) by (unfold lenN; lia).
      lazymatch goal with |- sc (while_n _ ?cond ?body _ ?ke) _ => abstract_env_fun cond Hcond; abstract_env_fun body Hbody end.
      lazymatch goal with |- sc (while_n _ ?cond ?body ((?x, _) :: ?s) ?ke) _ =>
        cut (forall f i n, find_outer f (forward_shift pat) pat data i = Done r -> (f <= n)%nat -> (i <= List.length data + List.length pat)%nat ->
          sc (while_n n cond body ((x, VU USize (N.of_nat i)) :: s) ke) q) end.
      { intros L. apply (L _ _ _ Hr); lia. }
      clear Hr. induction f as [|f IH]; intros i n Hr Hn Hi; [|destruct n as [|n]; [lia|]]; rewrite while_n_eq, Hcond; cbn [find_outer] in Hr;
        (destruct (i <? List.length data)%nat eqn:Ei;
          [apply Nat.ltb_lt in Ei; assert (Hlt : known (N.of_nat i <? lenN data) true) by (apply N.ltb_lt; unfold lenN; lia)
          |apply Nat.ltb_ge in Ei; assert (Hlt : known (N.of_nat i <? lenN data) false) by (apply N.ltb_ge; unfold lenN; lia)]); try discriminate Hr.
      { injection Hr as <-. repeat drive. exact Hq. }
      2: { injection Hr as <-. repeat drive. exact Hq. }
      repeat drive.
      replace (lenN pat - 1) with (N.of_nat (List.length pat - 1)) by (unfold lenN; lia).
      lazymatch goal with |- sc (while_n _ ?cond ?body _ ?ke) _ => abstract_env_fun cond Hcond2; abstract_env_fun body Hbody2 end.
      lazymatch goal with |- sc (while_n _ ?cond ?body ((?x, _) :: ?s) ?ke) _ =>
        cut (forall (kk : env -> prog (option B)) pi n ri, find_inner pat data i pi = Done ri -> (pi <= n)%nat ->
          (forall j, ri = Some j -> sc (k (VSome (VU USize (N.of_nat j)))) q) ->
          (ri = None -> forall v, sc (kk ((x, v) :: s)) q) ->
          sc (while_n n cond body ((x, VU USize (N.of_nat pi)) :: s) kk) q) end.
      { intros L. destruct (find_inner pat data i (List.length pat - 1)) as [ri| |] eqn:Ri; cbn [bind_exec] in Hr; try discriminate Hr.
        apply (L _ _ _ ri Ri).
        - unfold lenN in Hl. lia.
        - intros j ->. injection Hr as <-. exact Hq.
        - intros -> v. cbv beta.
          pose proof (bval_lt (nth i data x00)) as Hb. pose proof (forward_shift_range pat (nth i data x00) Hp) as Hs.
          assert (Hx : Find.index data i = Done (nth i data x00)) by (unfold Find.index; now rewrite (nth_error_nth' data x00 Ei)).
          rewrite Hx in Hr. cbn [bind_exec] in Hr. clear Hbody2 Hcond2 Hbody L.
          assert (HiN : N.of_nat i < lenN data) by (unfold lenN; lia).
          assert (HsN : N.of_nat (forward_shift pat (nth i data x00)) <= lenN pat) by (unfold lenN; lia).
          repeat drive. rewrite Nat2N.id. drive. rewrite Ht2, <- Nat2N.inj_add. repeat drive.
          apply IH; [exact Hr|lia|lia]. }
      clear Hr. intros kk. clear Hbody IH. induction pi as [|pi IH]; intros n0 ri Hr Hn0 K1 K2;
        rewrite while_n_eq, Hcond2; cbn [find_inner] in Hr;
        (destruct (Find.index pat _) as [px| |] eqn:Ep in Hr; cbn [bind_exec] in Hr; try discriminate Hr);
        (destruct (usub i _) as [j| |] eqn:Ej in Hr; cbn [bind_exec] in Hr; try discriminate Hr);
        (destruct (Find.index data j) as [dx| |] eqn:Ed in Hr; cbn [bind_exec] in Hr; try discriminate Hr);
        apply index_inv in Ep; apply index_inv in Ed; destruct Ep as [Ep1 Ep2], Ed as [Ed1 Ed2];
        (unfold usub in Ej; destruct (_ <=? i)%nat eqn:Ej' in Ej; [|discriminate Ej]; injection Ej as Ej; apply Nat.leb_le in Ej').
      all: assert (HiN : N.of_nat i < lenN data) by (unfold lenN; lia).
      all: lazymatch type of Ep1 with (?p < _)%nat =>
        assert (HpN : N.of_nat p < lenN pat) by (unfold lenN; lia);
        assert (HjN : lenN pat - 1 - N.of_nat p <= N.of_nat i) by (unfold lenN; lia);
        assert (HjE : N.of_nat i - (lenN pat - 1 - N.of_nat p) = N.of_nat j) by (unfold lenN; lia) end.
      all: assert (HjD : N.of_nat j < lenN data) by (unfold lenN; lia).
      all: repeat (lazymatch goal with |- sc (if _ then _ else _) _ => fail | _ => drive end); rewrite HjE, ?Nat2N.id.
      1: assert (Hz : known (N.of_nat 0 =? 0) true) by reflexivity.
      2: assert (Hz : known (N.of_nat (S pi) =? 0) false) by (apply N.eqb_neq; lia).
      2: destruct n0 as [|n0]; [lia|].
      all: repeat drive; rewrite ?Nat2N.id in *.
      all: match goal with E : known (bval _ =? bval _) _ |- _ => unfold known in E; rewrite Ep2, Ed2, bval_eqb in E; rewrite E in Hr end.
      + unfold usub in Hr. replace (_ <=? i)%nat with true in Hr by (symmetry; apply Nat.leb_le; lia). injection Hr as <-.
        replace (N.of_nat i - (lenN pat - 1)) with (N.of_nat (i - (List.length pat - 1))) by (unfold lenN; lia). now apply K1.
      + injection Hr as <-. now apply K2.
      + replace (N.of_nat (S pi) - 1) with (N.of_nat pi) by lia. apply (IH _ ri Hr); [lia|exact K1|exact K2].
      + injection Hr as <-. now apply K2. }
  intros kk. induction l as [|y l IH]; intros i tab t Ht Hi K; cbn [map enumerate for_each fill_shift] in *.
  - now apply K.
  - rewrite Hbody. pose proof (bval_lt y). destruct Ht as [Ht1 Ht2]. rewrite lenN_cons in Hi. repeat drive.
    replace (N.of_nat i + 1) with (N.of_nat (S i)) by lia. apply IH with (t := set_shift t y (List.length pat - 1 - i)).
    + replace (lenN pat - 1 - N.of_nat i) with (N.of_nat (List.length pat - 1 - i)) by (unfold lenN in *; lia). apply rep_set. now split.
    + lia.
    + apply K.
Qed.
Lemma call_rfind k q data pat : (List.length data < rounds)%nat -> 2 * lenN data < 2 ^ usize_bits c -> pat <> [] -> lenN pat <= lenN data ->
  sc (pure_call (rfind data pat) (fun r => k (match r with Some i => VSome (VU USize (N.of_nat i)) | None => VNone end))) q ->
  sc (X 100 (TCall "rfind" [VBytes data; VBytes pat] k)) q.
Proof using HX Hbits.
  intros Hr0 Hd Hp Hl Hq. enter. drive. do 2 drive. assert (Hp0 : lenN pat <> 0) by (destruct pat; [tauto|unfold lenN; cbn; lia]).
  assert (Hk : known (lenN pat =? 0) false) by (apply N.eqb_neq, Hp0).
  repeat drive. change (N.to_nat 256) with 256%nat. rewrite firstn_enumerate, <- map_rev, firstn_map. replace (N.to_nat (lenN pat - 1)) with (List.length pat - 1)%nat by (unfold lenN; lia).
  lazymatch goal with |- sc (for_each _ ?body _ ?k') _ => abstract_env_fun3 body Hbody end.
  lazymatch goal with |- sc (for_each _ ?body ((?x, _) :: ?s) _) _ =>
    cut (forall (kk : env -> prog (option B)) l i tab t, rep tab t -> N.of_nat i + lenN l <= lenN pat - 1 ->
      (forall tab', rep tab' (fill_shift (List.length pat) i l t) -> sc (kk ((x, VTab USize tab') :: s)) q) ->
      sc (for_each (enumerate (N.of_nat i) (map (fun b0 : byte => VU U8 (bval b0)) l)) body ((x, VTab USize tab) :: s) kk) q) end.
  { intros L. apply (L _ _ 0%nat _ (fun _ => List.length pat)).
    - apply rep_start.
    - unfold lenN. rewrite firstn_length. lia.
    - clear L Hbody. change (fill_shift _ _ _ _) with (backward_shift pat). intros tab Ht. repeat drive.
      destruct (rfind_total data pat) as [r Hr]. rewrite Hr in Hq. cbn [pure_call] in Hq.
      unfold rfind in Hr. destruct pat as [|p0 pt]; [tauto|]. revert Hr. generalize dependent (p0 :: pt). clear p0 pt.
      intros pat Hp Hl Hp0 Hk Ht Hr. replace (_ <? _)%nat with false in Hr by (symmetry; apply Nat.ltb_ge; unfold lenN in Hl; lia).
      destruct Ht as [Ht1 Ht2].
      replace (lenN data - lenN pat) with (N.of_nat (List.length data - List.length pat)) by (unfold lenN; lia).
      lazymatch goal with |- sc (loop_n _ ?body _) _ => abstract_env_fun body Hbody end.
      lazymatch goal with |- sc (loop_n _ ?body ((?x, _) :: ?s)) _ =>
        cut (forall f i n, rfind_outer f (backward_shift pat) pat data i = Done r -> (f <= n)%nat -> (i + List.length pat <= List.length data)%nat ->
          sc (loop_n n body ((x, VU USize (N.of_nat i)) :: s)) q) end.
      { intros L. apply (L _ _ _ Hr); unfold lenN in Hl; lia. }
      clear Hr. induction f as [|f IH]; intros i n Hr Hn Hi; [discriminate Hr|destruct n as [|n]; [lia|]]. rewrite loop_n_eq. cbn [rfind_outer] in Hr.
      repeat drive.
      lazymatch goal with |- sc (while_n _ ?cond ?body _ ?ke) _ => abstract_env_fun cond Hcond2; abstract_env_fun body Hbody2 end.
      lazymatch goal with |- sc (while_n _ ?cond ?body ((?x, _) :: ?s) ?ke) _ =>
        cut (forall (kk : env -> prog (option B)) m pi n ri, rfind_inner m pat data i pi = Done ri -> (m <= n)%nat ->
          (forall j, ri = Some j -> sc (k (VSome (VU USize (N.of_nat j)))) q) ->
          (ri = None -> forall v, sc (kk ((x, v) :: s)) q) ->
          sc (while_n n cond body ((x, VNum (N.of_nat pi)) :: s) kk) q) end.
      { intros L. destruct (rfind_inner (List.length pat) pat data i 0) as [ri| |] eqn:Ri; cbn [bind_exec] in Hr; try discriminate Hr.
        apply (L _ _ 0%nat _ ri Ri).
        - unfold lenN in Hl. lia.
        - intros j ->. injection Hr as <-. exact Hq.
        - intros -> v. cbv beta.
          pose proof (bval_lt (nth i data x00)) as Hb. pose proof (backward_shift_range pat (nth i data x00) Hp) as Hs.
          assert (Ei : (i < List.length data)%nat) by (unfold lenN in Hp0; lia).
          assert (Hx : Find.index data i = Done (nth i data x00)) by (unfold Find.index; now rewrite (nth_error_nth' data x00 Ei)).
          rewrite Hx in Hr. cbn [bind_exec] in Hr. clear Hbody2 Hcond2 Hbody L.
          assert (HiN : N.of_nat i < lenN data) by (unfold lenN; lia).
          repeat drive. rewrite Nat2N.id. drive. rewrite Ht2. 
          destruct (backward_shift pat (nth i data x00) <=? i)%nat eqn:El in Hr.
          + apply Nat.leb_le in El. assert (HkE : known (N.of_nat (backward_shift pat (nth i data x00)) <=? N.of_nat i) true) by (apply N.leb_le; lia).
            repeat drive. rewrite <- Nat2N.inj_sub. apply IH; [exact Hr|lia|lia].
          + apply Nat.leb_gt in El. assert (HkE : known (N.of_nat (backward_shift pat (nth i data x00)) <=? N.of_nat i) false) by (apply N.leb_gt; lia).
            injection Hr as <-. repeat drive. exact Hq. }
      clear Hr. intros kk. clear Hbody IH. induction m as [|m IH]; intros pi n0 ri Hr Hn0 K1 K2; [discriminate Hr|destruct n0 as [|n0]; [lia|]].
        rewrite while_n_eq, Hcond2; cbn [rfind_inner] in Hr.
        (destruct (Find.index pat _) as [px| |] eqn:Ep in Hr; cbn [bind_exec] in Hr; try discriminate Hr);
        (destruct (Find.index data _) as [dx| |] eqn:Ed in Hr; cbn [bind_exec] in Hr; try discriminate Hr);
        apply index_inv in Ep; apply index_inv in Ed; destruct Ep as [Ep1 Ep2], Ed as [Ed1 Ed2].
      assert (HpN : N.of_nat pi < lenN pat) by (unfold lenN; lia).
      assert (HjD : N.of_nat i + N.of_nat pi < lenN data) by (unfold lenN; lia).
      repeat dr;
        match goal with E : known (bval _ =? bval _) _ |- _ =>
          unfold known in E; rewrite <- Nat2N.inj_add, !Nat2N.id in E; rewrite Ep2, Ed2, bval_eqb in E; rewrite E in Hr end.
      + replace (_ =? _)%nat with true in Hr by (symmetry; apply Nat.eqb_eq; unfold known, lenN in *; lia). injection Hr as <-. now apply K1.
      + replace (_ =? _)%nat with false in Hr by (symmetry; apply Nat.eqb_neq; unfold known, lenN in *; lia).
        replace (N.of_nat pi + 1) with (N.of_nat (S pi)) by lia. apply (IH _ _ ri Hr); [lia|exact K1|exact K2].
      + injection Hr as <-. now apply K2. }
  intros kk. induction l as [|y l IH]; intros i tab t Ht Hi K; cbn [map enumerate for_each fill_shift] in *.
  - now apply K.
  - rewrite Hbody. pose proof (bval_lt y). destruct Ht as [Ht1 Ht2]. rewrite lenN_cons in Hi. repeat drive.
    replace (N.of_nat i + 1) with (N.of_nat (S i)) by lia. apply IH with (t := set_shift t y (List.length pat - 1 - i)).
    + replace (lenN pat - 1 - N.of_nat i) with (N.of_nat (List.length pat - 1 - i)) by (unfold lenN in *; lia). apply rep_set. now split.
    + lia.
    + apply K.
Qed.
(** Every pattern. *)
Definition found (r : option nat) : value := match r with Some i => VSome (VU USize (N.of_nat i)) | None => VNone end.
Lemma find_ok k q data pat : (List.length data < rounds)%nat -> 2 * lenN data < 2 ^ usize_bits c ->
  sc (match pat with [] => k (VSome (VLit 0)) | _ => pure_call (find data pat) (fun r => k (found r)) end) q ->
  sc (X 100 (TCall "find" [VBytes data; VBytes pat] k)) q.
Proof using HX Hbits.
  intros Hr Hd Hq. destruct pat as [|x pat].
  - assert (Hk0 : known (lenN (@nil byte) =? 0) true) by reflexivity. enter. repeat drive. exact Hq.
  - destruct (N.le_gt_cases (lenN (x :: pat)) (lenN data)) as [H|H].
    + apply call_find; try assumption. discriminate.
    + unfold find in Hq. replace (_ <? _)%nat with true in Hq by (symmetry; apply Nat.ltb_lt; unfold lenN in H; lia).
      cbn [pure_call found] in Hq. revert Hq H. generalize (x :: pat). intros p Hq H. enter. drive. do 2 drive.
      assert (Hk : known (lenN p <=? lenN data) false) by (apply N.leb_gt; exact H).
      assert (Hk0 : known (lenN p =? 0) false) by (apply N.eqb_neq; lia).
      repeat drive. exact Hq.
Qed.
Lemma rfind_ok k q data pat : (List.length data < rounds)%nat -> 2 * lenN data < 2 ^ usize_bits c ->
  sc (pure_call (rfind data pat) (fun r => k (found r))) q ->
  sc (X 100 (TCall "rfind" [VBytes data; VBytes pat] k)) q.
Proof using HX Hbits.
  intros Hr Hd Hq. destruct pat as [|x pat].
  - assert (Hk0 : known (lenN (@nil byte) =? 0) true) by reflexivity. enter. repeat drive. exact Hq.
  - destruct (N.le_gt_cases (lenN (x :: pat)) (lenN data)) as [H|H].
    + apply call_rfind; try assumption. discriminate.
    + unfold rfind in Hq. replace (_ <? _)%nat with true in Hq by (symmetry; apply Nat.ltb_lt; unfold lenN in H; lia).
      cbn [pure_call found] in Hq. revert Hq H. generalize (x :: pat). intros p Hq H. enter. drive. do 2 drive.
      assert (Hk : known (lenN p <=? lenN data) false) by (apply N.leb_gt; exact H).
      assert (Hk0 : known (lenN p =? 0) false) by (apply N.eqb_neq; lia).
      repeat drive. exact Hq.
Qed.
Lemma holds_ok k q data pat :
  sc (pure_call (holds data pat) (fun r => k (VBool r))) q ->
  sc (X 100 (TCall "holds" [VBytes data; VBytes pat] k)) q.
Proof using HX Hbits.
  intros Hq. unfold holds in Hq. enter. destruct (find_total data pat) as [r Hr]. rewrite Hr in *.
  cbn [bind_exec pure_call] in *. destruct r; lhs; exact Hq.
Qed.
End Search.
