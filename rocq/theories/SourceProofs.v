(** The functions of /repo/src/readers.rs, as their text says, against the model of Readers.v: infrastructure. *)
From Coq Require Import NArith ZArith Bool String List Lia ZifyBool ZifyNat ZifyN.
From Verif Require Import Base BaseProofs Formats IO Find Utf8 Readers Rust RustAst RustSem Source.
From Coq Require Import Ascii.
Import ListNotations.
Local Open Scope N_scope.

(** The syntax trees of the functions of readers.rs. *)
Definition readers_fns : list fn := Eval vm_compute in functions readers_rs.
(** Computed in stages: the results of each are values, which the kernel's conversion then need not compute again. *)
Definition readers_tokens : option (list token) := Eval vm_compute in lex_lines readers_rs.
Lemma readers_tokens_eq : lex_lines readers_rs = readers_tokens.
Proof. vm_cast_no_check (eq_refl readers_tokens). Qed.
Definition readers_trees : option (list tree) := Eval vm_compute in trees_of readers_rs.
Lemma readers_trees_eq : match readers_tokens with Some ks => nest ks [] [] | None => None end = readers_trees.
Proof. vm_cast_no_check (eq_refl readers_trees). Qed.
Lemma readers_parse :
  match readers_trees with
  | Some ts => match file_fns (S (List.length ts)) ts with Some l => l | None => [] end
  | None => []
  end = readers_fns.
Proof. vm_cast_no_check (eq_refl readers_fns). Qed.
Lemma readers_fns_eq : functions readers_rs = readers_fns.
Proof. unfold functions, trees_of. rewrite readers_tokens_eq, readers_trees_eq. exact readers_parse. Qed.

(** [p] makes the calls of [q], with its results: on the answers that the contracts of [Read] and [Seek] allow. *)
Inductive sc {B} : prog (option B) -> prog B -> Prop :=
| sc_ret b : sc (Ret (Some b)) (Ret b)
| sc_panic : sc PPanic PPanic
| sc_fuel : sc PFuel PFuel
| sc_read n n' k k' : n = n' ->
    (forall l, lenN l <= n -> sc (k (Ok l)) (k' (Ok l))) -> (forall e, sc (k (Err e)) (k' (Err e))) ->
    sc (PRead n k) (PRead n' k')
| sc_read_exact n n' k k' : n = n' ->
    (forall l, lenN l = n -> sc (k (Ok l)) (k' (Ok l))) -> (forall e, sc (k (Err e)) (k' (Err e))) ->
    sc (PReadExact n k) (PReadExact n' k')
| sc_read_line n n' k k' : n = n' ->
    (forall l, sc (k (Ok l)) (k' (Ok l))) -> (forall e, sc (k (Err e)) (k' (Err e))) ->
    sc (PReadLine n k) (PReadLine n' k')
| sc_seek w w' k k' : w = w' ->
    (forall p, p < u64_max1 -> sc (k (Ok p)) (k' (Ok p))) -> (forall e, sc (k (Err e)) (k' (Err e))) ->
    sc (PSeek w k) (PSeek w' k')
| sc_tell k k' :
    (forall p, p < u64_max1 -> sc (k (Ok p)) (k' (Ok p))) -> (forall e, sc (k (Err e)) (k' (Err e))) ->
    sc (PTell k) (PTell k')
| sc_alloc n n' k k' : n = n' -> sc k k' -> sc (PAlloc n k) (PAlloc n' k').

Definition finish (v : value) : prog (option (result FileFormat)) :=
  match v with
  | VOk v' => match v' with VFmt f => Ret (Some (Ok f)) | _ => stuck end
  | VErr e => Ret (Some (Err e))
  | _ => stuck
  end.

(** ** The driver *)
Ltac ev t := eval lazy beta iota zeta delta [go
  lookup assign name_eqb Ascii.eqb Bool.eqb trunc edrop esub elen push_consts kind_of as_var as_range as_index as_mut
  as_self okind_of is_zero is_const only_arg bin is_shift op_u op_i op_n op_eq op_shift lit_same pos_same flip same_type typed settle
  widens cast convert arg_u arg_i arg0 arg1 arg2 with_bytes with_str with_text with_int with_iter with_char with_bool with_reader
  with_pattern call_std method_std shift_left shift_right index slice_from slice_to slice_of same finish map_values fst snd width
  f_body f_params bind_params] in t.
Ltac lhs := lazymatch goal with |- sc ?t ?r => let t' := ev t in change (sc t' r) end.
Ltac rhs := lazymatch goal with |- sc ?p ?q =>
  let q' := eval cbn [bindp bindio seek tell read read_exact read_line read_bytes read_u8 read_u16_le read_u32_le read_u32_be
    read_u64_le read_u64_be read_guid read_string rewind ok err lift_exec bind_exec orb andb negb] in q in change (sc p q') end.
Ltac lbeta := lazymatch goal with |- sc ?p ?q => let p' := eval cbv beta in p in change (sc p' q) end.

Lemma lenN_repeat {A} (x : A) n : lenN (repeat x (N.to_nat n)) = n.
Proof. unfold lenN. rewrite repeat_length. lia. Qed.

(** Replacing the continuation of a call. *)
Lemma sc_exact_mono {B} n n' (k k2 : result bytes -> prog (option B)) q : n = n' ->
  (forall l q', lenN l = n -> sc (k (Ok l)) q' -> sc (k2 (Ok l)) q') -> (forall e q', sc (k (Err e)) q' -> sc (k2 (Err e)) q') ->
  sc (PReadExact n k) q -> sc (PReadExact n' k2) q.
Proof.
  intros <- Hk He H. remember (PReadExact n k) as p. destruct H; try discriminate Heqp.
  injection Heqp as -> ->. subst n'. constructor; [reflexivity| |]; auto.
Qed.
Lemma sc_alloc_mono {B} c n (k k2 : prog (option B)) q : (forall q', sc k q' -> sc k2 q') ->
  sc (alloc_zeros c n k) q -> sc (alloc_zeros c n k2) q.
Proof.
  unfold alloc_zeros. destruct (isize_max c <? n); [auto|]. intros Hk H. remember (PAlloc n k) as p.
  destruct H; try discriminate Heqp. injection Heqp as -> ->. constructor; auto.
Qed.

Lemma fits_usize {B} c n (p : prog (option B)) : 16 <= usize_bits c -> (n <? 65536) = true -> fits c USize n p = p.
Proof.
  intros Hbits H. unfold fits. cbn [width]. replace (n <? 2 ^ usize_bits c) with true; [reflexivity|].
  symmetry. apply N.ltb_lt. apply N.ltb_lt in H. eapply N.lt_le_trans; [exact H|].
  change 65536 with (2 ^ 16). apply N.pow_le_mono_r; lia.
Qed.

Lemma lenN_succ {A} (l : list A) n : lenN l = N.succ n -> exists x l', l = x :: l' /\ lenN l' = n.
Proof. destruct l as [|x l']; unfold lenN; cbn; [lia|]. intros H. exists x, l'. split; [reflexivity|lia]. Qed.
Lemma us_append s t : us (String.append s t) = (us s ++ us t)%list.
Proof. unfold us, bs. induction s as [|a s IH]; [reflexivity|]. cbn. now f_equal. Qed.

Lemma format_plain n : format_with (S (String.length "{:02x}")) "{:02x}" [VU U8 n] = Some (hex2n n).
Proof. cbn -[hex2n]. now rewrite app_nil_r. Qed.
Lemma format_dash n : format_with (S (String.length "-{:02x}")) "-{:02x}" [VU U8 n] = Some (45 :: hex2n n).
Proof. cbn -[hex2n]. now rewrite app_nil_r. Qed.
Lemma in_bounds_true {B} x (p : prog (option B)) : x = true -> in_bounds x p = p.
Proof. now intros ->. Qed.
Fixpoint succs (n : nat) (g : N) : N := match n with O => g | S m => N.succ (succs m g) end.
Lemma succs_ex n : forall f, (N.of_nat n <=? f) = true -> exists g, f = succs n g.
Proof.
  induction n as [|n IH]; intros f H; [now exists f|].
  destruct (IH (N.pred f)) as [g Hg]; [lia|]. exists g. cbn [succs]. lia.
Qed.
Section Run.
Context {B : Type}.
Variables (c : plat) (on : string -> bool) (rounds : nat) (b : bool).
(** [exec_task], with its equation only: so that terms do not unfold further than they should. *)
Variable X : N -> task (B := B) -> prog (option B).
Hypothesis HX : forall n i t, n = N.succ i -> X n t = go c on rounds b readers_fns (X i) t 60.

Lemma go_call later g vs k n :
  go (B := B) c on rounds b readers_fns later (TCall g vs k) (S n)
  = match find_fn g readers_fns with
    | Some d =>
        match bind_params (f_params d) vs with
        | Some s => go c on rounds b readers_fns later (TBlock (f_body d) s k (fun _ => stuck) (fun v _ => k v)) n
        | None => stuck
        end
    | None => stuck
    end.
Proof. reflexivity. Qed.
Lemma call_fn g vs k f d : find_fn g readers_fns = Some d ->
  X (N.succ f) (TCall g vs k)
  = match bind_params (f_params d) vs with
    | Some s => go c on rounds b readers_fns (X f) (TBlock (f_body d) s k (fun _ => stuck) (fun v _ => k v)) 59
    | None => stuck
    end.
Proof using HX. intros H. now rewrite (HX (N.succ f) f), go_call, H. Qed.

Ltac enter := erewrite call_fn by (vm_compute; reflexivity); lhs.
Ltac fuel n H := match type of H with (_ <=? ?f) = true =>
    let g := fresh f in let E := fresh in destruct (succs_ex n f) as [g E]; [exact H|]; cbn [succs] in E; subst f; clear H end.
Ltac step := lazymatch goal with |- sc (X (N.succ ?i) ?t) ?r => refine (eq_ind_r (fun p => sc p r) _ (HX (N.succ i) i t eq_refl)) end; lhs.

Ltac mono_ok := let Hx := fresh in intros ? ? _ Hx; cbn [on_io] in *; repeat step; exact Hx.
Ltac mono_err := let Hx := fresh in intros ? ? Hx; exact Hx.
Lemma call_read_u8 k f q : (12 <=? f) = true ->
  sc (PReadExact 1 (fun r => on_io r (fun l => in_bounds (0 <? lenN l) (k (VOk (VU U8 (bval (nth 0 l x00)))))) (fun e => k (VErr e)))) q ->
  sc (X f (TCall "read_u8" [VReader b] k)) q.
Proof using HX.
  intros H Hq; fuel 12%nat H. enter. repeat step. destruct b; lhs; revert Hq; (apply sc_exact_mono; [reflexivity|mono_ok|mono_err]).
Qed.
Lemma call_read_u16_le k f q : (12 <=? f) = true ->
  sc (PReadExact 2 (fun r => on_io r (fun l => k (VOk (VU U16 (le_val l)))) (fun e => k (VErr e)))) q ->
  sc (X f (TCall "read_u16_le" [VReader b] k)) q.
Proof using HX.
  intros H Hq; fuel 12%nat H. enter. repeat step. destruct b; lhs; revert Hq; (apply sc_exact_mono; [reflexivity|mono_ok|mono_err]).
Qed.
Lemma call_read_u32_le k f q : (12 <=? f) = true ->
  sc (PReadExact 4 (fun r => on_io r (fun l => k (VOk (VU U32 (le_val l)))) (fun e => k (VErr e)))) q ->
  sc (X f (TCall "read_u32_le" [VReader b] k)) q.
Proof using HX.
  intros H Hq; fuel 12%nat H. enter. repeat step. destruct b; lhs; revert Hq; (apply sc_exact_mono; [reflexivity|mono_ok|mono_err]).
Qed.
Lemma call_read_u32_be k f q : (12 <=? f) = true ->
  sc (PReadExact 4 (fun r => on_io r (fun l => k (VOk (VU U32 (be_val l)))) (fun e => k (VErr e)))) q ->
  sc (X f (TCall "read_u32_be" [VReader b] k)) q.
Proof using HX.
  intros H Hq; fuel 12%nat H. enter. repeat step. destruct b; lhs; revert Hq; (apply sc_exact_mono; [reflexivity|mono_ok|mono_err]).
Qed.
Lemma call_read_u64_le k f q : (12 <=? f) = true ->
  sc (PReadExact 8 (fun r => on_io r (fun l => k (VOk (VU U64 (le_val l)))) (fun e => k (VErr e)))) q ->
  sc (X f (TCall "read_u64_le" [VReader b] k)) q.
Proof using HX.
  intros H Hq; fuel 12%nat H. enter. repeat step. destruct b; lhs; revert Hq; (apply sc_exact_mono; [reflexivity|mono_ok|mono_err]).
Qed.
Lemma call_read_u64_be k f q : (12 <=? f) = true ->
  sc (PReadExact 8 (fun r => on_io r (fun l => k (VOk (VU U64 (be_val l)))) (fun e => k (VErr e)))) q ->
  sc (X f (TCall "read_u64_be" [VReader b] k)) q.
Proof using HX.
  intros H Hq; fuel 12%nat H. enter. repeat step. destruct b; lhs; revert Hq; (apply sc_exact_mono; [reflexivity|mono_ok|mono_err]).
Qed.
Lemma call_read_bytes k f n q : (12 <=? f) = true ->
  sc (alloc_zeros c n (PReadExact n (fun r => on_io r (fun l => k (VOk (VBytes l))) (fun e => k (VErr e))))) q ->
  sc (X f (TCall "read_bytes" [VReader b; VU USize n] k)) q.
Proof using HX.
  intros H Hq; fuel 12%nat H. enter. revert Hq. apply sc_alloc_mono. intros q' Hq. repeat step. destruct b; lhs; revert Hq; (apply sc_exact_mono; [now rewrite lenN_repeat|mono_ok|mono_err]).
Qed.
Lemma call_read_bytes_lit k f n q : (12 <=? f) = true ->
  sc (alloc_zeros c n (PReadExact n (fun r => on_io r (fun l => k (VOk (VBytes l))) (fun e => k (VErr e))))) q ->
  sc (X f (TCall "read_bytes" [VReader b; VLit n] k)) q.
Proof using HX.
  intros H Hq; fuel 12%nat H. enter. revert Hq. apply sc_alloc_mono. intros q' Hq. repeat step. destruct b; lhs; revert Hq; (apply sc_exact_mono; [now rewrite lenN_repeat|mono_ok|mono_err]).
Qed.

Lemma call_read_string k f n q : (24 <=? f) = true ->
  sc (alloc_zeros c n (PReadExact n (fun r => on_io r (fun l => k (VOk (VStr (utf8_lossy l)))) (fun e => k (VErr e))))) q ->
  sc (X f (TCall "read_string" [VReader b; VU USize n] k)) q.
Proof using HX.
  intros H Hq; fuel 24%nat H. enter.
  apply call_read_bytes; [lia|exact Hq].
Qed.
Hypothesis Hbits : 16 <= usize_bits c.
Lemma call_read_guid k f q : (60 <=? f) = true ->
  sc (alloc_zeros c 16 (PReadExact 16 (fun r => on_io r (fun l => k (VOk (VStr (us (guid_string l))))) (fun e => k (VErr e))))) q ->
  sc (X f (TCall "read_guid" [VReader b] k)) q.
Proof using HX Hbits.
  intros H Hq. fuel 60%nat H. enter. 
  apply call_read_bytes_lit; [lia|]. revert Hq. apply sc_alloc_mono. intros q'.
  apply sc_exact_mono; [reflexivity| |mono_err].
  intros l q2 Hl Hq. cbn [on_io] in *. 
  apply (f_equal N.to_nat) in Hl. unfold lenN in Hl. rewrite Nnat.Nat2N.id in Hl. cbn in Hl.
  do 16 (destruct l as [|? l]; [discriminate Hl|]). destruct l; [|discriminate Hl]. clear Hl.
  repeat step.
  do 16 (repeat step; rewrite fits_usize, in_bounds_true by (exact Hbits || reflexivity);
         first [rewrite format_plain | rewrite format_dash]; lhs).
  cbn [concat_strs]. cbv beta iota.
  assert (E : forall a a' : ustr, a = a' -> sc (k (VOk (VStr a'))) q2 -> sc (k (VOk (VStr a))) q2) by (intros ? ? ->; auto).
  eapply E; [|exact Hq]. clear. cbn [nth]. unfold guid_string, guid_piece. cbn [map Nat.eqb orb nth String.concat].
  rewrite !us_append. unfold hex2n, hex2. cbv [N.to_nat Pos.to_nat Pos.iter_op Init.Nat.add].
  change (us "") with (@nil N). change (us "-") with [45]. cbn [app]. rewrite ?app_nil_r, <- ?app_assoc. cbn [app]. reflexivity.
Qed.
End Run.

(** ** For the readers *)
Ltac enter := match goal with HX : (forall n i t, n = N.succ i -> ?X n t = _) |- sc (?X ?n _) _ =>
  let m := eval vm_compute in (N.pred n) in change n with (N.succ m); erewrite (call_fn _ _ _ _ _ HX) by (vm_compute; reflexivity) end; lhs.
Ltac step :=
  lazymatch goal with
  | HX : (forall n i t, n = N.succ i -> ?X n t = _) |- sc (?X ?n ?t) ?r =>
      let m := eval vm_compute in (N.pred n) in refine (eq_ind_r (fun p => sc p r) _ (HX n m t eq_refl)); lhs
  end.
(** One call of the reader on both sides. *)
Lemma lenN_read_into lo l got : lo + lenN got <= lenN l -> lenN (read_into lo l got) = lenN l.
Proof. intros H. unfold read_into. rewrite !lenN_app, lenN_takeN, lenN_dropN. lia. Qed.
Lemma takeN_read_into l got : lenN got <= lenN l -> takeN (lenN got) (read_into 0 l got) = got.
Proof.
  intros H. unfold read_into. rewrite takeN_0. cbn [app]. now apply takeN_app_len.
Qed.
Ltac after_io := lazymatch goal with |- sc ?p ?q =>
  lazymatch p with
  | (fun r => on_io r ?y ?n) (Ok ?a) => let p' := eval cbv beta in (y a) in change (sc p' q)
  | (fun r => on_io r ?y ?n) (Err ?a) => let p' := eval cbv beta in (n a) in change (sc p' q)
  | _ => cbn [on_io]
  end end.
Ltac io := rhs; lazymatch goal with
  | |- sc (PReadExact _ _) _ => apply sc_read_exact; [reflexivity| |]
  | |- sc (PRead _ _) _ => apply sc_read; [lia| |]
  | |- sc (PSeek _ _) _ => apply sc_seek; [reflexivity| |]
  | |- sc (PTell _) _ => apply sc_tell
  end; [intros ? ?; after_io; rhs | intros ?; after_io; rhs; try apply sc_ret].
Lemma arith_small {B} c w r (k : N -> prog (option B)) : r < 2 ^ w -> arith c w r k = k r.
Proof. intros H. unfold arith. apply N.ltb_lt in H. now rewrite H. Qed.
Lemma arith_i64_small {B} c r (k : Z -> prog (option B)) :
  (-9223372036854775808 <= r <= 9223372036854775807)%Z -> arith_i64 c r k = k r.
Proof.
  intros H. unfold arith_i64. replace (_ && _)%bool with true; [reflexivity|]. symmetry.
  change i64_min with (-9223372036854775808)%Z. change i64_max with 9223372036854775807%Z. lia.
Qed.
Lemma p8 : 2 ^ 8 = 256. Proof. reflexivity. Qed.
Lemma p16 : 2 ^ 16 = 65536. Proof. reflexivity. Qed.
Lemma p32 : 2 ^ 32 = 4294967296. Proof. reflexivity. Qed.
Lemma p64 : 2 ^ 64 = 18446744073709551616. Proof. reflexivity. Qed.
Lemma le_val_1 l : lenN l = 1 -> le_val l = bval (nth 0 l x00).
Proof.
  intros H. destruct l as [|x [|y l]]; unfold lenN in H; cbn in H; try lia. cbn. lia.
Qed.
Lemma leading_zeros8_le x : leading_zeros8 x <= 8.
Proof. unfold leading_zeros8. lia. Qed.
Lemma shiftr_128_le n : N.shiftr 128 n <= 128.
Proof. rewrite N.shiftr_div_pow2. apply N.div_le_upper_bound; [apply N.pow_nonzero; lia|]. pose proof (N.pow_nonzero 2 n). nia. Qed.
Lemma shiftr_128_pos n : n < 8 -> 1 <= N.shiftr 128 n.
Proof.
  intros H. assert (n = 0 \/ n = 1 \/ n = 2 \/ n = 3 \/ n = 4 \/ n = 5 \/ n = 6 \/ n = 7) by lia.
  intuition (subst; vm_compute; discriminate).
Qed.
(** The bounds of the numbers that were read. *)
Ltac bound l H n := let m := eval vm_compute in (256 ^ n) in
  let H1 := fresh "Hle" in let H2 := fresh "Hbe" in
  assert (H1 : le_val l < m) by (pose proof (le_val_lt l) as Q; rewrite H in Q; exact Q);
  assert (H2 : be_val l < m) by (pose proof (be_val_lt l) as Q; rewrite H in Q; exact Q).
Ltac bounds :=
  try match goal with H : lenN ?l = 1 |- _ => progress rewrite ?(le_val_1 l H) end;
  repeat match goal with
  | H : lenN ?l = 1 |- _ =>
      lazymatch goal with _ : bval (nth 0 l x00) < 256 |- _ => fail | _ =>
        pose proof (bval_lt (nth 0 l x00)); pose proof (leading_zeros8_le (bval (nth 0 l x00))); pose proof (shiftr_128_le (leading_zeros8 (bval (nth 0 l x00)))) end
  | H : lenN ?l = ?n |- _ => lazymatch n with 2 => idtac | 4 => idtac | 8 => idtac end;
      lazymatch goal with _ : le_val l < _ |- _ => fail | _ => bound l H n end
  end.
(** The byte strings of the model, as lists. *)
Ltac strings := repeat match goal with
  | |- context [bs ?s] => let v := eval vm_compute in (bs s) in change (bs s) with v
  | |- context [bs0 ?s] => let v := eval vm_compute in (bs0 s) in change (bs0 s) with v
  end.
Lemma max64 : u64_max1 = 2 ^ 64. Proof. reflexivity. Qed.
Lemma sc_add64 {B} c a b (k : N -> prog (option B)) K : (forall r, r < u64_max1 -> sc (k r) (K r)) ->
  sc (arith c 64 (a + b) k) (bindp (u64_add c a b) K).
Proof.
  intros H. unfold arith, u64_add. rewrite <- max64. destruct (a + b <? u64_max1) eqn:E.
  - apply H. now apply N.ltb_lt.
  - destruct (ovf c); [constructor|]. apply H. now apply N.mod_lt.
Qed.
Lemma sc_sub64 {B} c a b (k : N -> prog (option B)) K : a < u64_max1 -> (forall r, r < u64_max1 -> sc (k r) (K r)) ->
  sc (arith_sub c 64 a b k) (bindp (u64_sub c a b) K).
Proof.
  intros Ha H. unfold arith_sub, u64_sub. rewrite <- max64. destruct (b <=? a) eqn:E.
  - apply H. lia.
  - destruct (ovf c); [constructor|]. apply H. now apply N.mod_lt.
Qed.
Lemma sc_sub_i64 {B} c a b (k : Z -> prog (option B)) K : (forall r, sc (k r) (K r)) ->
  sc (arith_i64 c (a - b) k) (bindp (i64_sub c a b) K).
Proof.
  intros H. unfold arith_i64, i64_sub. cbv zeta. destruct (_ && _)%bool; [apply H|].
  destruct (ovf c); [constructor|apply H].
Qed.
Ltac num := rewrite ?p8, ?p16, ?p32, ?p64; lia.
Ltac reader_call :=
  match goal with HX : (forall n i t, n = N.succ i -> ?X n t = _) |- _ =>
  lazymatch goal with
  | |- sc (X _ (TCall "read_u8" _ _)) _ => eapply (call_read_u8 _ _ _ _ _ HX); [reflexivity|]
  | |- sc (X _ (TCall "read_u16_le" _ _)) _ => eapply (call_read_u16_le _ _ _ _ _ HX); [reflexivity|]
  | |- sc (X _ (TCall "read_u32_le" _ _)) _ => eapply (call_read_u32_le _ _ _ _ _ HX); [reflexivity|]
  | |- sc (X _ (TCall "read_u32_be" _ _)) _ => eapply (call_read_u32_be _ _ _ _ _ HX); [reflexivity|]
  | |- sc (X _ (TCall "read_u64_le" _ _)) _ => eapply (call_read_u64_le _ _ _ _ _ HX); [reflexivity|]
  | |- sc (X _ (TCall "read_u64_be" _ _)) _ => eapply (call_read_u64_be _ _ _ _ _ HX); [reflexivity|]
  | |- sc (X _ (TCall "read_bytes" [_; VLit _] _)) _ => eapply (call_read_bytes_lit _ _ _ _ _ HX); [reflexivity|]
  | |- sc (X _ (TCall "read_bytes" _ _)) _ => eapply (call_read_bytes _ _ _ _ _ HX); [reflexivity|]
  | |- sc (X _ (TCall "read_string" _ _)) _ => eapply (call_read_string _ _ _ _ _ HX); [reflexivity|]
  | |- sc (X _ (TCall "read_guid" _ _)) _ =>
      match goal with Hb : 16 <= usize_bits _ |- _ => eapply (call_read_guid _ _ _ _ _ HX Hb); [reflexivity|] end
  end end; cbn [on_io].
Lemma fits_lt {B} c t n (p : prog (option B)) : n < 2 ^ width c t -> fits c t n p = p.
Proof. intros H. unfold fits. apply N.ltb_lt in H. now rewrite H. Qed.
Lemma for_n_S {B} n body s (k : env -> prog (option B)) : for_n (S n) body s k = body s (fun s' => for_n n body s' k).
Proof. reflexivity. Qed.
Lemma while_n_eq {B} n cond body s (k : env -> prog (option B)) :
  while_n n cond body s k
  = cond s (fun v s1 =>
      match v with
      | VBool true => body s1 (fun s2 => match n with O => PFuel | S m => while_n m cond body s2 k end)
      | VBool false => k s1
      | _ => stuck
      end).
Proof. destruct n; reflexivity. Qed.
Lemma loop_n_eq {B} n body s :
  loop_n (B := B) n body s = body s (fun s2 => match n with O => PFuel | S m => loop_n m body s2 end).
Proof. destruct n; reflexivity. Qed.
Lemma bval_inj0 x y : bval x = bval y -> x = y.
Proof. unfold bval. intros H.
  assert (Some x = Some y) by (rewrite <- (Byte.of_to_N x), <- (Byte.of_to_N y); now rewrite H). congruence. Qed.
Lemma ustr_eqb_us a b : ustr_eqb (us a) (us b) = String.eqb a b.
Proof.
  unfold us, bs. revert b. induction a as [|x a IH]; destruct b as [|y b]; try reflexivity.
  change (list_byte_of_string (String x a)) with (byte_of_ascii x :: list_byte_of_string a).
  change (list_byte_of_string (String y b)) with (byte_of_ascii y :: list_byte_of_string b).
  cbn [map ustr_eqb String.eqb]. rewrite IH.
  destruct (Ascii.eqb_spec x y) as [->|D].
  - now rewrite N.eqb_refl.
  - replace (bval (byte_of_ascii x) =? bval (byte_of_ascii y)) with false; [reflexivity|].
    symmetry. apply N.eqb_neq. intros E. apply D. apply bval_inj0 in E.
    rewrite <- (ascii_of_byte_of_ascii x), <- (ascii_of_byte_of_ascii y). now rewrite E.
Qed.

(** The first test of a condition. *)
Ltac leaf x := lazymatch x with
  | orb ?a _ => leaf a
  | andb ?a _ => leaf a
  | negb ?a => leaf a
  | _ => x
  end.
Lemma sc_case {B} (b : bool) (P : bool -> prog (option B)) Q :
  (b = true -> sc (P true) (Q true)) -> (b = false -> sc (P false) (Q false)) -> sc (P b) (Q b).
Proof. destruct b; auto. Qed.
Lemma sc_known {B} (b b' : bool) (P : bool -> prog (option B)) Q : b = b' -> sc (P b') (Q b') -> sc (P b) (Q b).
Proof. now intros ->. Qed.
Lemma sc_arith {B} c w r (k : N -> prog (option B)) q : r < 2 ^ w -> sc (k r) q -> sc (arith c w r k) q.
Proof. intros H. now rewrite arith_small. Qed.
Lemma sc_arith_sub {B} c w x y (k : N -> prog (option B)) q : y <= x -> sc (k (x - y)) q -> sc (arith_sub c w x y k) q.
Proof. intros H. unfold arith_sub. apply N.leb_le in H. now rewrite H. Qed.
Lemma sc_arith_i64 {B} c r (k : Z -> prog (option B)) q :
  (-9223372036854775808 <= r <= 9223372036854775807)%Z -> sc (k r) q -> sc (arith_i64 c r k) q.
Proof. intros H. now rewrite arith_i64_small. Qed.
Lemma sc_fits {B} c t n (p : prog (option B)) q : n < 2 ^ width c t -> sc p q -> sc (fits c t n p) q.
Proof. intros H. now rewrite fits_lt. Qed.
Lemma sc_fits_usize {B} c n (p : prog (option B)) q : 16 <= usize_bits c -> n < 65536 -> sc p q -> sc (fits c USize n p) q.
Proof. intros Hb H. rewrite fits_usize; [auto|exact Hb|now apply N.ltb_lt]. Qed.
Lemma sc_in_bounds {B} x (p : prog (option B)) q : x = true -> sc p q -> sc (in_bounds x p) q.
Proof. now intros ->. Qed.

Ltac arithmetic :=
  lazymatch goal with
  | |- sc (arith _ 64 (?a + ?b) _) (bindp (u64_add _ ?a ?b) _) => apply sc_add64; intros ? ?; rhs
  | |- sc (arith_sub _ 64 ?a ?b _) (bindp (u64_sub _ ?a ?b) _) => apply sc_sub64; [assumption|intros ? ?; rhs]
  | |- sc (arith_i64 _ _ _) (bindp (i64_sub _ _ _) _) => apply sc_sub_i64; intros ?; rhs
  | |- sc (arith _ _ _ _) _ => apply sc_arith; [num|lbeta]
  | |- sc (arith_sub _ _ _ _ _) _ => apply sc_arith_sub; [num|lbeta]
  | |- sc (arith_i64 _ _ _) _ => change (64 mod 2 ^ 16) with 64; apply sc_arith_i64; [unfold sat_sub; lia|lbeta]
  end.

(** What a test gave (hidden from [lia], which would split on it). *)
Definition known (y b : bool) : Prop := y = b.
Ltac learn E := lazymatch type of E with
  | (?a <? ?b) = true => let H := fresh "Hlt" in pose proof (proj1 (N.ltb_lt a b) E) as H
  | (?a <? ?b) = false => let H := fresh "Hge" in pose proof (proj1 (N.ltb_ge a b) E) as H
  | (?a <=? ?b) = true => let H := fresh "Hle" in pose proof (proj1 (N.leb_le a b) E) as H
  | (?a <=? ?b) = false => let H := fresh "Hgt" in pose proof (proj1 (N.leb_gt a b) E) as H
  | _ => idtac
  end;
  lazymatch type of E with ?y = ?b => change (known y b) in E end.
(** [sc (P y) q]: by cases on [y], unless it is known. *)
Ltac pick x p1 p2 := lazymatch x with true => p1 | false => p2 | _ => constr:(if x then p1 else p2) end.
Ltac case_if x y p1 p2 q :=
  let fx := eval pattern y in x in
  let fq := eval pattern y in q in
  lazymatch fx with ?F _ => lazymatch fq with ?Q _ =>
    let P := constr:(fun b : bool => if F b then p1 else p2) in
    let xt := eval cbn [orb andb negb] in (F true) in
    let xf := eval cbn [orb andb negb] in (F false) in
    let pt := pick xt p1 p2 in let pf := pick xf p1 p2 in
    let yes H := refine (sc_known y true P Q H _); change (sc pt (Q true)); rhs in
    let no H := refine (sc_known y false P Q H _); change (sc pf (Q false)); rhs in
    let either := refine (sc_case y P Q _ _); [let E := fresh "E" in intros E; learn E; change (sc pt (Q true)) | let E := fresh "E" in intros E; learn E; change (sc pf (Q false))]; rhs in
    lazymatch goal with
    | H : known y true |- _ => yes H
    | H : known y false |- _ => no H
    | _ =>
        lazymatch y with
        | (1 <=? N.shiftr 128 ?k) =>
            let H := fresh "Ht" in assert (H : y = true) by (apply N.leb_le, shiftr_128_pos; lia); yes H; clear H
        | (_ <? _) =>
            first [let H := fresh "Ht" in assert (H : y = true) by lia; yes H; clear H
                  |let H := fresh "Hf" in assert (H : y = false) by lia; no H; clear H
                  |either]
        | _ => either
        end
    end
  end end.
Ltac known_string x := lazymatch x with
  | context [ustr_eqb (us ?a) (us ?b)] => rewrite (ustr_eqb_us a b)
  | _ => idtac
  end.

(** Loops: their code as variables with equations. *)
Ltac abstract_env_fun f H := (* f : env -> _ -> _ *)
  assert (H : forall s kk, f s kk = ltac:(let t := eval cbv beta in (f s kk) in exact t)) by (intros; reflexivity);
  let g := fresh "code" in set (g := f) in H |- *; clearbody g.

Ltac drive :=
  lazymatch goal with
  | |- sc (Ret (Some _)) _ => rhs; apply sc_ret
  | |- sc PPanic _ => rhs; apply sc_panic
  | |- sc PFuel _ => rhs; apply sc_fuel
  | |- sc (PReadExact _ _) _ => io; [bounds|..]
  | |- sc (PRead _ _) _ => io
  | |- sc (PSeek _ _) _ => io
  | |- sc (PTell _) _ => io
  | |- sc (alloc_zeros ?c ?n ?p) ?q =>
      let q' := eval unfold read_guid, read_string, read_bytes, alloc in q in change (sc (alloc_zeros c n p) q');
      lazymatch goal with |- sc _ ?q => change (sc (if isize_max c <? n then PPanic else PAlloc n p) q);
        case_if (isize_max c <? n) (isize_max c <? n) (@PPanic (option (result FileFormat))) (PAlloc n p) q
      end
  | |- sc (PAlloc _ _) _ => rhs; apply sc_alloc; [reflexivity|]
  | |- sc (arith _ _ _ _) _ => rhs; arithmetic
  | |- sc (arith_sub _ _ _ _ _) _ => rhs; arithmetic
  | |- sc (arith_i64 _ _ _) _ => rhs; arithmetic
  | |- sc (while_n _ _ _ _ _) _ => match goal with IH : context [@while_n] |- _ => apply IH; clear IH; lia end
  | |- sc (loop_n _ _ _) _ => match goal with IH : context [@loop_n] |- _ => apply IH; clear IH; assumption end
  | |- sc (for_n ?n ?b _ _) _ => match goal with IH : context [@for_n] |- _ => apply IH end
  | |- sc (fits _ USize _ _) _ => apply sc_fits_usize; [assumption|lia|]
  | |- sc (fits _ _ _ _) _ => apply sc_fits; [cbn [width]; num|]
  | |- sc (in_bounds (lenN ?g <=? lenN (read_into 0 _ ?g)) _) _ =>
      apply sc_in_bounds; [rewrite lenN_read_into; lia|]; rewrite ?takeN_read_into by lia
  | |- sc (in_bounds _ _) _ => apply sc_in_bounds; [rewrite ?lenN_repeat; lia|]
  | |- sc (pure_call ?e _) _ =>
      lazymatch goal with
      | H : e = Done ?b |- _ => rewrite H; cbn [pure_call]; rhs
      | _ => let E := fresh "E" in destruct e eqn:E; cbn [pure_call bind_exec]; rhs
      end
  | |- sc (if ?x then _ else _) _ => known_string x;
      lazymatch goal with |- sc (if ?x then ?p1 else ?p2) ?q => let y := leaf x in case_if x y p1 p2 q end
  | |- sc (_ _ (TPat _ (VBytes (repeat x00 (N.to_nat ?n))) _ _)) _ =>
      let H := fresh "Hbuf" in pose proof (lenN_repeat x00 n) as H; revert H; generalize (repeat x00 (N.to_nat n)); intros ? H
  | |- sc (_ _ (TCall _ _ _)) _ => reader_call
  | |- sc (_ (N.pos _) _) _ => step
  | |- sc (?f ?s ?k) _ => match goal with H : (forall s kk, f s kk = _) |- _ => rewrite (H s k) end
  end.
