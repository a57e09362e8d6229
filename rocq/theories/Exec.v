(** Step lemmas for running a reader program on the ideal reader over a known content. *)
From Coq Require Import NArith ZArith Bool String List Lia ZifyBool ZifyNat ZifyN.
From Verif Require Import Base BaseProofs IO Readers Mem LibProofs Spec SpecBin BinProofs Static ReaderStatic.
Local Open Scope N_scope.

Section Exec.
Variable content : bytes.
Variable max : N.

Definition ex {A} (p : prog A) (pos : N) : exec A := fst (mrun content max p pos).

(** The stream position is [pos] and [rest] is what follows. *)
Definition at_ (pos : N) (rest : bytes) : Prop :=
  dropN pos content = rest /\ pos + lenN rest = lenN content.

Lemma at_app pos a r n : at_ pos (a ++ r) -> lenN a = n -> at_ (pos + n) r.
Proof.
  intros [H1 H2] Hl. split.
  - rewrite <- dropN_dropN, H1. now apply dropN_app_len.
  - rewrite lenN_app in H2. lia.
Qed.
Lemma at_start : at_ 0 content.
Proof. split; [apply dropN_0|lia]. Qed.
Lemma at_pos pos pos' r : at_ pos r -> pos = pos' -> at_ pos' r.
Proof. now intros H <-. Qed.
Lemma at_abs pre r : content = pre ++ r -> at_ (lenN pre) r.
Proof.
  intros E. apply (at_pos (0 + lenN pre)); [|lia].
  apply (at_app 0 pre r); [|reflexivity]. rewrite <- E. apply at_start.
Qed.

Lemma ex_ret {A} (a : A) pos : ex (Ret a) pos = Done a.
Proof. reflexivity. Qed.
Lemma ex_ok {A} (a : A) pos : ex (ok a) pos = Done (Ok a).
Proof. reflexivity. Qed.

Lemma ex_read_exact {B} n a r pos (k : bytes -> io B) X : at_ pos (a ++ r) -> lenN a = n ->
  (at_ (pos + n) r -> ex (k a) (pos + n) = X) ->
  ex (bindio (read_exact n) k) pos = X.
Proof.
  intros H Hl HX. specialize (HX (at_app _ _ _ _ H Hl)). rewrite <- HX.
  unfold ex, mrun. rewrite run_bindio. cbn [read_exact run mem_machine m_read_exact].
  unfold mem_read_exact. rewrite (proj1 H), takeN_app_len by exact Hl.
  rewrite Hl, N.eqb_refl. reflexivity.
Qed.
Lemma ex_read_exact_eof {B} n pos (k : bytes -> io B) : lenN (dropN pos content) < n ->
  ex (bindio (read_exact n) k) pos = Done (Err EUnexpectedEof).
Proof.
  intros Hl. unfold ex, mrun. rewrite run_bindio. cbn [read_exact run mem_machine m_read_exact].
  unfold mem_read_exact. rewrite takeN_all by lia.
  replace (lenN (dropN pos content) =? n) with false by lia. reflexivity.
Qed.

Lemma ex_int {B} (f : bytes -> N) n a r v pos (k : N -> io B) X :
  at_ pos (a ++ r) -> lenN a = n -> f a = v ->
  (at_ (pos + n) r -> ex (k v) (pos + n) = X) ->
  ex (bindio (let! buf := read_exact n in ok (f buf)) k) pos = X.
Proof.
  intros H Hl <- HX. rewrite <- (ex_read_exact n a r pos (fun buf => k (f buf)) X H Hl HX).
  unfold ex, mrun. rewrite !run_bindio. 
  destruct (run (mem_machine content max) (read_exact n) pos) as [[[x|e]| |] s]; reflexivity.
Qed.
Lemma ex_int_eof {B} (f : bytes -> N) n pos (k : N -> io B) :
  lenN (dropN pos content) < n ->
  ex (bindio (let! buf := read_exact n in ok (f buf)) k) pos = Done (Err EUnexpectedEof).
Proof.
  intros H. pose proof (ex_read_exact_eof n pos (fun b => ok (f b)) H) as E.
  unfold ex, mrun in *. rewrite run_bindio.
  destruct (run (mem_machine content max) (let! buf := read_exact n in ok (f buf)) pos) as [r s].
  cbn [fst] in E. subst r. reflexivity.
Qed.

Lemma ex_bytes {B} c n a r pos (k : bytes -> io B) X : n <= isize_max c ->
  at_ pos (a ++ r) -> lenN a = n ->
  (at_ (pos + n) r -> ex (k a) (pos + n) = X) ->
  ex (bindio (read_bytes c n) k) pos = X.
Proof.
  intros Hc H Hl HX. rewrite <- (ex_read_exact n a r pos k X H Hl HX).
  unfold ex, mrun. rewrite !run_bindio, run_read_bytes by exact Hc.
  cbn [read_exact run mem_machine m_read_exact]. unfold mem_read_exact.
  destruct (lenN _ =? n); reflexivity.
Qed.
Lemma ex_bytes_eof {B} c n pos (k : bytes -> io B) : n <= isize_max c ->
  lenN (dropN pos content) < n -> ex (bindio (read_bytes c n) k) pos = Done (Err EUnexpectedEof).
Proof.
  intros Hc H. rewrite <- (ex_read_exact_eof n pos k H).
  unfold ex, mrun. rewrite !run_bindio, run_read_bytes by exact Hc.
  cbn [read_exact run mem_machine m_read_exact]. unfold mem_read_exact.
  destruct (lenN _ =? n); reflexivity.
Qed.

Lemma ex_string {B} c n a r pos (k : Utf8.ustr -> io B) X : n <= isize_max c ->
  at_ pos (a ++ r) -> lenN a = n ->
  (at_ (pos + n) r -> ex (k (Utf8.utf8_lossy a)) (pos + n) = X) ->
  ex (bindio (read_string c n) k) pos = X.
Proof.
  intros Hc H Hl HX. rewrite <- (ex_bytes c n a r pos (fun l => k (Utf8.utf8_lossy l)) X Hc H Hl HX).
  unfold ex, mrun, read_string. rewrite !run_bindio.
  destruct (run (mem_machine content max) (read_bytes c n) pos) as [[[x|e]| |] s]; reflexivity.
Qed.

Lemma ex_guid {B} c g r pos (k : string -> io B) X : wf_cfg c -> wf_guid g ->
  at_ pos (guid_bytes g ++ r) ->
  (at_ (pos + 16) r -> ex (k (guid_text g)) (pos + 16) = X) ->
  ex (bindio (read_guid c) k) pos = X.
Proof.
  intros Hc Hg H HX. pose proof (isize_max_ge c Hc).
  rewrite <- (guid_string_text g Hg) in HX.
  rewrite <- (ex_bytes c 16 (guid_bytes g) r pos (fun l => k (guid_string l)) X ltac:(lia) H); [|  |exact HX].
  - unfold ex, mrun, read_guid. rewrite !run_bindio.
    destruct (run (mem_machine content max) (read_bytes c 16) pos) as [[[x|e]| |] s]; reflexivity.
  - destruct Hg as (_ & _ & _ & H4). unfold guid_bytes. rewrite !lenN_app, !lenN_le_bytes. unfold lenN. rewrite H4. reflexivity.
Qed.

(** Seeks. *)
Lemma ex_seek {B} w t pos (k : N -> io B) X : seek_target (lenN content) pos w = Z.of_N t ->
  t <= max -> ex (k t) t = X -> ex (bindio (seek w) k) pos = X.
Proof.
  intros Ht Hm <-. unfold ex, mrun. rewrite run_bindio. unfold seek. cbn [run mem_machine m_seek].
  unfold mem_seek. rewrite Ht.
  replace ((Z.of_N t <? 0)%Z || (Z.of_N max <? Z.of_N t)%Z) with false by lia.
  replace (Z.to_N (Z.of_N t)) with t by lia. reflexivity.
Qed.
Lemma ex_seek_bad {B} w pos (k : N -> io B) :
  (seek_target (lenN content) pos w < 0 \/ Z.of_N max < seek_target (lenN content) pos w)%Z ->
  ex (bindio (seek w) k) pos = Done (Err EInvalidInput).
Proof.
  intros Ht. unfold ex, mrun. rewrite run_bindio. unfold seek. cbn [run mem_machine m_seek].
  unfold mem_seek.
  replace (_ || _) with true by lia. reflexivity.
Qed.
(** Skipping [n] bytes forwards. *)
Lemma ex_skip {B} z a r pos (k : N -> io B) X : at_ pos (a ++ r) -> Z.of_N (lenN a) = z ->
  lenN content <= max ->
  (at_ (pos + lenN a) r -> ex (k (pos + lenN a)) (pos + lenN a) = X) ->
  ex (bindio (seek (FromCurrent z)) k) pos = X.
Proof.
  intros H <- Hm HX. pose proof (at_app _ _ _ _ H eq_refl) as H'.
  apply (ex_seek _ (pos + lenN a)); [cbn; lia| |auto].
  destruct H' as [_ H']. lia.
Qed.
Lemma ex_tell {B} pos (k : N -> io B) X : ex (k pos) pos = X -> ex (bindio tell k) pos = X.
Proof. intros <-. unfold ex, mrun. rewrite run_bindio. reflexivity. Qed.
Lemma ex_end {B} pos (k : N -> io B) X : lenN content <= max ->
  ex (k (lenN content)) (lenN content) = X -> ex (bindio (seek (FromEnd 0)) k) pos = X.
Proof. intros Hm HX. apply (ex_seek _ (lenN content)); [cbn; lia|exact Hm|exact HX]. Qed.
Lemma ex_goto {B} n pos (k : N -> io B) X : n <= max ->
  ex (k n) n = X -> ex (bindio (seek (FromStart n)) k) pos = X.
Proof. intros Hm HX. apply (ex_seek _ n); [reflexivity|exact Hm|exact HX]. Qed.

Lemma ex_bind_ok {A B} (a : A) (k : A -> io B) pos X : ex (k a) pos = X -> ex (bindio (ok a) k) pos = X.
Proof. exact id. Qed.
Lemma ex_bind_ret {A B} (a : A) (k : A -> prog B) pos X : ex (k a) pos = X -> ex (bindp (Ret a) k) pos = X.
Proof. exact id. Qed.
Lemma ex_bind_assoc {A B C} (m : io A) (f : A -> io B) (g : B -> io C) pos X :
  ex (bindio m (fun x => bindio (f x) g)) pos = X -> ex (bindio (bindio m f) g) pos = X.
Proof.
  intros <-. unfold ex, mrun. rewrite !run_bindio.
  destruct (run (mem_machine content max) m pos) as [[[x|e]| |] s]; try reflexivity.
  now rewrite run_bindio.
Qed.
Lemma ex_bindp_assoc {A B C} (m : prog A) (f : A -> io B) (g : B -> io C) pos X :
  ex (bindp m (fun x => bindio (f x) g)) pos = X -> ex (bindio (bindp m f) g) pos = X.
Proof.
  intros <-. unfold ex, mrun. rewrite run_bindio, !run_bindp.
  destruct (run (mem_machine content max) m pos) as [[x| |] s]; try reflexivity.
  now rewrite run_bindio.
Qed.
Lemma ex_u64_add {B} c a b (k : N -> prog B) pos X : a + b < u64_max1 -> ex (k (a + b)) pos = X ->
  ex (bindp (u64_add c a b) k) pos = X.
Proof. intros H <-. unfold ex, mrun. rewrite run_bindp, run_u64_add by exact H. reflexivity. Qed.
Lemma ex_u64_sub {B} c a b (k : N -> prog B) pos X : b <= a -> ex (k (a - b)) pos = X ->
  ex (bindp (u64_sub c a b) k) pos = X.
Proof. intros H <-. unfold u64_sub. replace (b <=? a) with true by lia. reflexivity. Qed.
Lemma ex_i64_sub {B} c a b (k : Z -> prog B) pos X : (i64_min <= a - b <= i64_max)%Z -> ex (k (a - b)%Z) pos = X ->
  ex (bindp (i64_sub c a b) k) pos = X.
Proof.
  intros H <-. unfold i64_sub. cbn zeta.
  replace ((i64_min <=? a - b)%Z && (a - b <=? i64_max)%Z) with true by lia. reflexivity.
Qed.

(** The same for arbitrary content. *)
Lemma at_slice pos n : pos + n <= lenN content ->
  at_ pos (slice pos n content ++ dropN (pos + n) content) /\ lenN (slice pos n content) = n.
Proof.
  intros H. unfold slice. rewrite <- dropN_dropN, take_dropN. split.
  - split; [reflexivity|]. rewrite lenN_dropN. lia.
  - rewrite lenN_takeN, lenN_dropN. lia.
Qed.
Lemma eof_at pos n : 0 < n -> lenN content < pos + n -> lenN (dropN pos content) < n.
Proof. intros. rewrite lenN_dropN. lia. Qed.
Lemma exs_int {B} (f : bytes -> N) n pos (k : N -> io B) X : pos + n <= lenN content ->
  ex (k (f (slice pos n content))) (pos + n) = X ->
  ex (bindio (let! buf := read_exact n in ok (f buf)) k) pos = X.
Proof. intros H HX. destruct (at_slice _ _ H) as [H1 H2]. eapply ex_int; eauto. Qed.
Lemma exs_bytes {B} c n pos (k : bytes -> io B) X : n <= isize_max c -> pos + n <= lenN content ->
  ex (k (slice pos n content)) (pos + n) = X ->
  ex (bindio (read_bytes c n) k) pos = X.
Proof. intros Hc H HX. destruct (at_slice _ _ H) as [H1 H2]. eapply ex_bytes; eauto. Qed.
Lemma exs_guid {B} c pos (k : string -> io B) X : wf_cfg c -> pos + 16 <= lenN content ->
  ex (k (guid_string (slice pos 16 content))) (pos + 16) = X ->
  ex (bindio (read_guid c) k) pos = X.
Proof.
  intros Hc H HX. pose proof (isize_max_ge c Hc).
  rewrite <- (exs_bytes c 16 pos (fun l => k (guid_string l)) X ltac:(lia) H HX).
  unfold ex, mrun, read_guid. rewrite !run_bindio.
  destruct (run (mem_machine content max) (read_bytes c 16) pos) as [[[x|e]| |] s]; reflexivity.
Qed.
Lemma ex_guid_eof {B} c pos (k : string -> io B) : wf_cfg c -> lenN (dropN pos content) < 16 ->
  ex (bindio (read_guid c) k) pos = Done (Err EUnexpectedEof).
Proof.
  intros Hc H. pose proof (isize_max_ge c Hc).
  rewrite <- (ex_bytes_eof c 16 pos (fun l => k (guid_string l)) ltac:(lia) H).
  unfold ex, mrun, read_guid. rewrite !run_bindio.
  destruct (run (mem_machine content max) (read_bytes c 16) pos) as [[[x|e]| |] s]; reflexivity.
Qed.
End Exec.
