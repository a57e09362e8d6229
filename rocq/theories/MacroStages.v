(** What the texts of macros.rs, formats.rs and signatures.rs become, computed in stages: each stage is a value,
    which the kernel's conversion need not compute again. *)
From Coq Require Import List NArith Bool String.
From Verif Require Import Base Rust Macro RustEval Source.
Import ListNotations.
Local Open Scope N_scope.

Definition values {A} (o : option (list A)) : list A := match o with Some l => l | None => [] end.

Definition macros_tokens : list token := Eval vm_compute in values (lex_lines macros_rs).
Lemma macros_tokens_eq : lex_lines macros_rs = Some macros_tokens.
Proof. vm_cast_no_check (eq_refl (Some macros_tokens)). Qed.
Definition macros_trees : list tree := Eval vm_compute in values (nest macros_tokens [] []).
Lemma macros_nest : nest macros_tokens [] [] = Some macros_trees.
Proof. vm_cast_no_check (eq_refl (Some macros_trees)). Qed.
Lemma macros_trees_eq : trees_of macros_rs = Some macros_trees.
Proof. unfold trees_of. rewrite macros_tokens_eq. exact macros_nest. Qed.

Definition signatures_tokens : list token := Eval vm_compute in values (lex_lines signatures_rs).
Lemma signatures_tokens_eq : lex_lines signatures_rs = Some signatures_tokens.
Proof. vm_cast_no_check (eq_refl (Some signatures_tokens)). Qed.
Definition signatures_trees : list tree := Eval vm_compute in values (nest signatures_tokens [] []).
Lemma signatures_nest : nest signatures_tokens [] [] = Some signatures_trees.
Proof. vm_cast_no_check (eq_refl (Some signatures_trees)). Qed.
Lemma signatures_trees_eq : trees_of signatures_rs = Some signatures_trees.
Proof. unfold trees_of. rewrite signatures_tokens_eq. exact signatures_nest. Qed.

Definition formats_tokens : list token := Eval vm_compute in values (lex_lines formats_rs).
Lemma formats_tokens_eq : lex_lines formats_rs = Some formats_tokens.
Proof. vm_cast_no_check (eq_refl (Some formats_tokens)). Qed.
Definition formats_trees : list tree := Eval vm_compute in values (nest formats_tokens [] []).
Lemma formats_nest : nest formats_tokens [] [] = Some formats_trees.
Proof. vm_cast_no_check (eq_refl (Some formats_trees)). Qed.
Lemma formats_trees_eq : trees_of formats_rs = Some formats_trees.
Proof. unfold trees_of. rewrite formats_tokens_eq. exact formats_nest. Qed.

Definition formats_rule : list pat * list pat :=
  Eval vm_compute in match rule_of "formats" macros_trees with Some r => r | None => ([], []) end.
Lemma formats_rule_eq : rule_of "formats" macros_trees = Some formats_rule.
Proof. vm_cast_no_check (eq_refl (Some formats_rule)). Qed.
Definition formats_body : list tree := Eval vm_compute in values (invocation_of "formats" formats_trees).
Lemma formats_body_eq : invocation_of "formats" formats_trees = Some formats_body.
Proof. vm_cast_no_check (eq_refl (Some formats_body)). Qed.
Definition formats_bindings : option benv := Eval vm_compute in match_all (fst formats_rule) formats_body.
Lemma formats_bindings_eq : match_all (fst formats_rule) formats_body = formats_bindings.
Proof. vm_cast_no_check (eq_refl formats_bindings). Qed.
Definition formats_expanded : list tree :=
  Eval vm_compute in match formats_bindings with Some e => values (emit (snd formats_rule) e) | None => [] end.
Lemma formats_emitted : match formats_bindings with Some e => emit (snd formats_rule) e | None => None end = Some formats_expanded.
Proof. vm_cast_no_check (eq_refl (Some formats_expanded)). Qed.
Definition formats_parsed : list item := Eval vm_compute in values (items_of (S (List.length formats_expanded)) formats_expanded).
Lemma formats_items_parsed : items_of (S (List.length formats_expanded)) formats_expanded = Some formats_parsed.
Proof. vm_cast_no_check (eq_refl (Some formats_parsed)). Qed.

Lemma formats_compiled : compile "formats" macros_rs formats_rs = formats_parsed.
Proof.
  unfold compile, expand_file. rewrite macros_trees_eq, formats_trees_eq, formats_rule_eq, formats_body_eq.
  unfold expand. rewrite formats_bindings_eq. rewrite formats_emitted, formats_items_parsed. reflexivity.
Qed.
