(** Statements about a reader program that hold whatever the underlying reader answers: a weakest
    precondition over every answer the [Read]/[Seek] contract allows (a byte count not above the
    request, exactly the request for a successful [read_exact], a 64-bit position; errors at any
    point). *)
From Coq Require Import List NArith ZArith Bool Lia ZifyBool ZifyNat ZifyN.
From Verif Require Import Base BaseProofs IO Mem IOProofs.
Local Open Scope N_scope.

Record sparams : Type := mksparams {
  pa : Prop;         (* may a panic be reached? *)
  fu : Prop;         (* may the loop fuel run out? *)
  al : N -> Prop;    (* permitted sizes of vec![0; n] *)
  rd : Prop;         (* may [read] be called? *)
  ln : Prop          (* may [read_until] be called? *)
}.

Fixpoint wp {A} (s : sparams) (p : prog A) (Q : A -> Prop) : Prop :=
  match p with
  | Ret a => Q a
  | PPanic => pa s
  | PFuel => fu s
  | PRead n k => rd s /\ forall r, legal_read n r -> wp s (k r) Q
  | PReadExact n k => forall r, legal_exact n r -> wp s (k r) Q
  | PReadLine n k => ln s /\ forall r, legal_read n r -> wp s (k r) Q
  | PSeek _ k => forall r, legal_pos r -> wp s (k r) Q
  | PTell k => forall r, legal_pos r -> wp s (k r) Q
  | PAlloc n k => al s n /\ wp s k Q
  end.

Lemma wp_mono {A} s (p : prog A) : forall (Q Q' : A -> Prop),
  (forall a, Q a -> Q' a) -> wp s p Q -> wp s p Q'.
Proof.
  induction p as [a| | |n k IH|n k IH|n k IH|w k IH|k IH|n k IH]; intros Q Q' HQ H; cbn [wp] in *;
    auto.
  - destruct H as [H1 H2]. split; [exact H1|]. intros r Hr. eapply IH; eauto.
  - intros r Hr. eapply IH; eauto.
  - destruct H as [H1 H2]. split; [exact H1|]. intros r Hr. eapply IH; eauto.
  - intros r Hr. eapply IH; eauto.
  - intros r Hr. eapply IH; eauto.
  - destruct H as [H1 H2]. split; [exact H1|]. eapply IH; eauto.
Qed.

Lemma wp_bindp {A B} s (p : prog A) (f : A -> prog B) Q :
  wp s p (fun a => wp s (f a) Q) -> wp s (bindp p f) Q.
Proof.
  induction p as [a| | |n k IH|n k IH|n k IH|w k IH|k IH|n k IH]; intros H; cbn [wp bindp] in *;
    auto.
  - destruct H as [H1 H2]. split; [exact H1|]. intros r Hr. auto.
  - destruct H as [H1 H2]. split; [exact H1|]. intros r Hr. auto.
  - destruct H as [H1 H2]. split; [exact H1|]. auto.
Qed.

(** Code that may fail: only successful results are constrained. *)
Definition okres {A} (F : A -> Prop) (r : result A) : Prop :=
  match r with Ok a => F a | Err _ => True end.
Definition wpio {A} (s : sparams) (m : io A) (F : A -> Prop) : Prop := wp s m (okres F).

Lemma wpio_bind {A B} s (m : io A) (f : A -> io B) F :
  wpio s m (fun a => wpio s (f a) F) -> wpio s (bindio m f) F.
Proof.
  intros H. unfold wpio, bindio in *. apply wp_bindp. eapply wp_mono; [|exact H].
  intros [a|e] Ha; [exact Ha|exact I].
Qed.
Lemma wpio_bindp {A B} s (m : prog A) (f : A -> io B) F :
  wp s m (fun a => wpio s (f a) F) -> wpio s (bindp m f) F.
Proof. intros H. unfold wpio in *. now apply wp_bindp. Qed.
Lemma wpio_ok {A} s (a : A) (F : A -> Prop) : F a -> wpio s (ok a) F.
Proof. auto. Qed.
Lemma wpio_err {A} s e (F : A -> Prop) : wpio s (err e) F.
Proof. exact I. Qed.
Lemma wpio_mono {A} s (m : io A) (F F' : A -> Prop) :
  (forall a, F a -> F' a) -> wpio s m F -> wpio s m F'.
Proof.
  intros HF. unfold wpio. apply wp_mono. intros [a|e]; cbn; auto.
Qed.
Lemma wpio_read_exact s n (F : bytes -> Prop) :
  (forall l, lenN l = n -> F l) -> wpio s (read_exact n) F.
Proof. intros H [l|e] Hr; cbn in *; auto. Qed.
Lemma wpio_read s n (F : bytes -> Prop) : rd s ->
  (forall l, lenN l <= n -> F l) -> wpio s (read n) F.
Proof. intros Hrd H. split; [exact Hrd|]. intros [l|e] Hr; cbn in *; auto. Qed.
Lemma wpio_read_line s n (F : bytes -> Prop) : ln s ->
  (forall l, lenN l <= n -> F l) -> wpio s (read_line n) F.
Proof. intros Hrd H. split; [exact Hrd|]. intros [l|e] Hr; cbn in *; auto. Qed.
Lemma wpio_seek s w (F : N -> Prop) : (forall p, p < u64_max1 -> F p) -> wpio s (seek w) F.
Proof. intros H [p|e] Hr; cbn in *; auto. Qed.
Lemma wpio_tell s (F : N -> Prop) : (forall p, p < u64_max1 -> F p) -> wpio s tell F.
Proof. intros H [p|e] Hr; cbn in *; auto. Qed.
Lemma wpio_rewind s (F : N -> Prop) : (forall p, p < u64_max1 -> F p) -> wpio s rewind F.
Proof. apply wpio_seek. Qed.

Lemma wp_alloc s c n (Q : unit -> Prop) : (isize_max c < n -> pa s) -> (n <= isize_max c -> al s n) -> Q tt ->
  wp s (alloc c n) Q.
Proof.
  intros Hp Ha HQ. unfold alloc. destruct (isize_max c <? n) eqn:E; cbn [wp].
  - apply Hp. lia.
  - split; [apply Ha; lia|exact HQ].
Qed.
Lemma wpio_read_bytes s c n (F : bytes -> Prop) :
  (isize_max c < n -> pa s) -> (n <= isize_max c -> al s n) ->
  (forall l, lenN l = n -> F l) -> wpio s (read_bytes c n) F.
Proof.
  intros Hp Ha H. unfold read_bytes. apply wpio_bindp. apply wp_alloc; auto.
  now apply wpio_read_exact.
Qed.

Lemma le_val_bound l n : lenN l = n -> le_val l < 256 ^ n.
Proof. intros <-. apply le_val_lt. Qed.
Lemma be_val_bound l n : lenN l = n -> be_val l < 256 ^ n.
Proof. intros <-. apply be_val_lt. Qed.

Lemma wpio_read_u8 s (F : N -> Prop) : (forall v, v < 256 -> F v) -> wpio s read_u8 F.
Proof.
  intros H. apply wpio_bind, wpio_read_exact. intros l Hl. apply wpio_ok, H.
  apply (le_val_bound l 1 Hl).
Qed.
Lemma wpio_read_u16_le s (F : N -> Prop) : (forall v, v < 65536 -> F v) -> wpio s read_u16_le F.
Proof.
  intros H. apply wpio_bind, wpio_read_exact. intros l Hl. apply wpio_ok, H.
  apply (le_val_bound l 2 Hl).
Qed.
Lemma wpio_read_u32_le s (F : N -> Prop) : (forall v, v < u32_max1 -> F v) -> wpio s read_u32_le F.
Proof.
  intros H. apply wpio_bind, wpio_read_exact. intros l Hl. apply wpio_ok, H.
  apply (le_val_bound l 4 Hl).
Qed.
Lemma wpio_read_u32_be s (F : N -> Prop) : (forall v, v < u32_max1 -> F v) -> wpio s read_u32_be F.
Proof.
  intros H. apply wpio_bind, wpio_read_exact. intros l Hl. apply wpio_ok, H.
  apply (be_val_bound l 4 Hl).
Qed.
Lemma wpio_read_u64_le s (F : N -> Prop) : (forall v, v < u64_max1 -> F v) -> wpio s read_u64_le F.
Proof.
  intros H. apply wpio_bind, wpio_read_exact. intros l Hl. apply wpio_ok, H.
  apply (le_val_bound l 8 Hl).
Qed.
Lemma wpio_read_u64_be s (F : N -> Prop) : (forall v, v < u64_max1 -> F v) -> wpio s read_u64_be F.
Proof.
  intros H. apply wpio_bind, wpio_read_exact. intros l Hl. apply wpio_ok, H.
  apply (be_val_bound l 8 Hl).
Qed.

Lemma wp_u64_add s c a b (Q : N -> Prop) :
  (ovf c = true -> u64_max1 <= a + b -> pa s) ->
  (forall v, v < u64_max1 -> (a + b < u64_max1 -> v = a + b) -> Q v) -> wp s (u64_add c a b) Q.
Proof.
  intros Hp HQ. unfold u64_add. destruct (a + b <? u64_max1) eqn:E.
  - apply HQ; lia.
  - destruct (ovf c) eqn:Eo; cbn [wp].
    + apply Hp; [reflexivity|lia].
    + apply HQ; [apply N.mod_lt; discriminate|lia].
Qed.
Lemma wp_u64_sub s c a b (Q : N -> Prop) :
  (ovf c = true -> a < b -> pa s) ->
  (forall v, (b <= a -> v = a - b) -> (a < u64_max1 -> v < u64_max1) -> Q v) -> wp s (u64_sub c a b) Q.
Proof.
  intros Hp HQ. unfold u64_sub. destruct (b <=? a) eqn:E.
  - apply HQ; lia.
  - destruct (ovf c) eqn:Eo; cbn [wp].
    + apply Hp; [reflexivity|lia].
    + apply HQ; [lia|]. intros _. apply N.mod_lt; discriminate.
Qed.
Lemma wp_i64_sub s c a b (Q : Z -> Prop) :
  (ovf c = true -> pa s) -> (forall v, Q v) -> wp s (i64_sub c a b) Q.
Proof.
  intros Hp HQ. unfold i64_sub. cbn zeta.
  destruct ((i64_min <=? a - b)%Z && (a - b <=? i64_max)%Z); [apply HQ|].
  destruct (ovf c) eqn:Eo; cbn [wp]; auto.
Qed.
Lemma wp_lift_exec {A} s (e : exec A) (Q : A -> Prop) :
  (exists a, e = Done a) -> (forall a, e = Done a -> Q a) -> wp s (lift_exec e) Q.
Proof. intros (a & ->) H. cbn. now apply H. Qed.

(** Programs that never call [read], or never [read_until]. *)
Lemma wp_no_read {A} s (p : prog A) : forall Q, ~ rd s -> wp s p Q -> no_read p.
Proof.
  induction p as [a| | |n k IH|n k IH|n k IH|w k IH|k IH|n k IH]; intros Q Hr H;
    cbn [wp no_read] in *; auto.
  - destruct H as [H _]. contradiction.
  - intros r Hl. eapply IH; eauto.
  - intros r Hl. destruct H as [_ H]. eapply IH; eauto.
  - intros r Hl. eapply IH; eauto.
  - intros r Hl. eapply IH; eauto.
  - destruct H as [_ H]. eapply IH; eauto.
Qed.
Lemma wp_no_line {A} s (p : prog A) : forall Q, ~ ln s -> wp s p Q -> no_line p.
Proof.
  induction p as [a| | |n k IH|n k IH|n k IH|w k IH|k IH|n k IH]; intros Q Hr H;
    cbn [wp no_line] in *; auto.
  - intros r Hl. destruct H as [_ H]. eapply IH; eauto.
  - intros r Hl. eapply IH; eauto.
  - destruct H as [H _]. contradiction.
  - intros r Hl. eapply IH; eauto.
  - intros r Hl. eapply IH; eauto.
  - destruct H as [_ H]. eapply IH; eauto.
Qed.

(** ** Soundness *)

(** A machine that keeps the contract, with [I] an invariant of its states. *)
Record lawful {S} (M : machine S) (I : S -> Prop) : Prop := {
  lw_read : forall n s, I s -> legal_read n (fst (m_read M n s)) /\ I (snd (m_read M n s));
  lw_exact : forall n s, I s -> exists r s', m_read_exact M n s = (Done r, s') /\
     legal_exact n r /\ I s';
  lw_line : forall n s, I s -> exists r s', m_read_line M n s = (Done r, s') /\
     legal_read n r /\ I s';
  lw_seek : forall w s, I s -> legal_pos (fst (m_seek M w s)) /\ I (snd (m_seek M w s));
  lw_tell : forall s, I s -> legal_pos (fst (m_tell M s)) /\ I (snd (m_tell M s))
}.

Lemma wp_sound {S A} (M : machine S) I sp : lawful M I ->
  forall (p : prog A) Q, wp sp p Q -> forall s, I s ->
  I (snd (run M p s)) /\
  match fst (run M p s) with
  | Done a => Q a
  | Panicked => pa sp
  | OutOfFuel => fu sp
  end.
Proof.
  intros HM. induction p as [a| | |n k IH|n k IH|n k IH|w k IH|k IH|n k IH];
    intros Q H s HI; cbn [wp run] in *; auto.
  - destruct H as [_ H]. destruct (lw_read _ _ HM n s HI) as [H1 H2].
    destruct (m_read M n s) as [r s']. cbn [fst snd] in *. apply (IH r); auto.
  - destruct (lw_exact _ _ HM n s HI) as (r & s' & -> & H1 & H2). apply (IH r); auto.
  - destruct H as [_ H]. destruct (lw_line _ _ HM n s HI) as (r & s' & -> & H1 & H2).
    apply (IH r); auto.
  - destruct (lw_seek _ _ HM w s HI) as [H1 H2].
    destruct (m_seek M w s) as [r s']. cbn [fst snd] in *. apply (IH r); auto.
  - destruct (lw_tell _ _ HM s HI) as [H1 H2].
    destruct (m_tell M s) as [r s']. cbn [fst snd] in *. apply (IH r); auto.
  - apply IH; auto. apply H.
Qed.
