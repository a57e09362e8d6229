(** from_id3v2_reader: the text of /repo/src/readers.rs against the model. *)
From Coq Require Import NArith ZArith Bool String List Lia ZifyBool ZifyNat ZifyN.
From Verif Require Import Base BaseProofs Formats IO Find Utf8 Readers RustAst RustSem Source SourceProofs.
Import ListNotations.
Local Open Scope N_scope.
Lemma shl_small x n : n <= 21 -> N.shiftl (N.land x 127) n mod 2 ^ 64 = N.shiftl (N.land x 127) n.
Proof.
  intros H. apply N.mod_small. rewrite N.shiftl_mul_pow2.
  assert (N.land x 127 < 128).
  { change 127 with (N.ones 7). rewrite N.land_ones. apply N.mod_lt. discriminate. }
  assert (2 ^ n <= 2 ^ 21) by (apply N.pow_le_mono_r; lia).
  change (2 ^ 21) with 2097152 in *. change (2 ^ 64) with 18446744073709551616. nia.
Qed.
Lemma tag_eq l :
  N.lor (N.lor (N.lor (N.shiftl (N.land (bval (nth (N.to_nat 6) l x00)) 127) 21 mod 2 ^ 64)
    (N.shiftl (N.land (bval (nth (N.to_nat 7) l x00)) 127) 14 mod 2 ^ 64))
    (N.shiftl (N.land (bval (nth (N.to_nat 8) l x00)) 127) 7 mod 2 ^ 64))
    (N.land (bval (nth (N.to_nat 9) l x00)) 127)
  = id3v2_tag_size l.
Proof. rewrite !shl_small by lia. reflexivity. Qed.
Lemma add_bind {A B} c x y (f : N -> prog A) (g : A -> prog B) :
  bindp (bindp (u64_add c x y) f) g = bindp (u64_add c x y) (fun v => bindp (f v) g).
Proof. unfold u64_add. destruct (_ <? _); [reflexivity|]. destruct (ovf c); reflexivity. Qed.
Lemma add_bind2 {A B C} c x y (f : N -> prog A) (g : A -> prog B) (h : B -> prog C) :
  bindp (bindp (bindp (u64_add c x y) f) g) h = bindp (u64_add c x y) (fun v => bindp (bindp (f v) g) h).
Proof. unfold u64_add. destruct (_ <? _); [reflexivity|]. destruct (ovf c); reflexivity. Qed.
Ltac drive_tag :=
  lazymatch goal with
  | |- sc (arith _ _ _ _) (bindp (bindp (bindp (u64_add ?c ?x ?y) ?f) ?g) ?h) =>
      lazymatch goal with |- sc ?p _ => refine (eq_ind_r (fun q => sc p q) _ (add_bind2 c x y f g h)) end; arithmetic
  | |- sc (arith _ _ _ _) (bindp (bindp (u64_add ?c ?x ?y) ?f) ?g) =>
      lazymatch goal with |- sc ?p _ => refine (eq_ind_r (fun q => sc p q) _ (add_bind c x y f g)) end; arithmetic
  | |- sc (_ _ (TPat (PaIdent "tag_size") (VU U64 (N.lor _ _)) _ _)) _ => rewrite tag_eq
  | |- sc (_ _ (TPat (PaIdent "flags") (VU U8 (bval (nth (N.to_nat 5) _ _))) _ _)) _ => change (N.to_nat 5) with 5%nat
  | |- sc (fits _ U64 (0 + 10) _) _ => change (0 + 10) with 10; lazymatch goal with |- context [u64_add ?c 0 10] => change (u64_add c 0 10) with (@Ret N 10) end; rhs
  | _ => drive
  end.
Section Reader.
Variables (c : plat) (on : string -> bool) (rounds : nat).
Variable X : N -> task (B := result FileFormat) -> prog (option (result FileFormat)).
Hypothesis HX : forall n i t, n = N.succ i -> X n t = go c on rounds false readers_fns (X i) t 60.
Hypothesis Hbits : 16 <= usize_bits c.
Lemma id3v2_ok : sc (X 100 (TCall "from_id3v2_reader" [VReader false] finish)) (from_id3v2_reader c rounds).
Proof using HX Hbits.
  enter. unfold from_id3v2_reader. lazymatch goal with |- sc ?p ?q => let q' := eval cbv [mp3_magics existsb] in q in change (sc p q') end. strings. repeat drive.
  lazymatch goal with |- sc (loop_n _ ?body _) _ => abstract_env_fun body Hbody end.
  lazymatch goal with |- sc (loop_n _ ?body ((?x, _) :: ?s)) (bindio _ ?K) =>
    assert (L : forall n off, off < u64_max1 -> sc (loop_n n body ((x, VU U64 off) :: s)) (bindio (id3v2_loop c n off) K)) end.
  { induction n as [|n IH]; intros off Hoff; rewrite loop_n_eq; cbn [id3v2_loop]; strings.
    - repeat drive_tag.
    - repeat drive_tag. }
  destruct rounds as [|n]; rewrite loop_n_eq; cbn [id3v2_loop]; strings.
  - repeat drive_tag.
  - repeat drive_tag.
Qed.
End Reader.
