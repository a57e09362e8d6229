(** Expansion and evaluation of [signatures!] for every table. *)
From Coq Require Import List NArith Bool String Lia.
From Verif Require Import Base BaseProofs Rust Macro RustEval Source SpecMacro SpecSig.
Import ListNotations.
Local Open Scope N_scope.

(** The rule in the text of macros.rs, computed. *)
Definition sig_rule : list pat * list pat :=
  Eval vm_compute in
    match trees_of macros_rs with
    | Some l => match rule_of "signatures" l with Some r => r | None => ([], []) end
    | None => ([], [])
    end.
Lemma sig_rule_eq : match trees_of macros_rs with Some l => rule_of "signatures" l | None => None end = Some sig_rule.
Proof. vm_compute. reflexivity. Qed.

Definition part_pats : list pat :=
  [PVar (bs "value") (bs "literal");
   PRep [PTok (ident "offset"); PTok (punct "="); PVar (bs "offset") (bs "literal")] None Quest].
Definition alt_pats : list pat := [PTok (ident "value"); PTok (punct "="); PRep part_pats (Some (punct ",")) Plus].
Definition entry_pats : list pat :=
  [PTok (ident "format"); PTok (punct "="); PVar (bs "format") (bs "ident"); PRep alt_pats None Plus].
Lemma sig_lhs : fst sig_rule = [PRep entry_pats None Star].
Proof. reflexivity. Qed.

(** ** Matching *)
Definition not_tok (t : token) (ts : list tree) : Prop :=
  match ts with Leaf t' :: _ => token_eqb t t' = false | _ => True end.

Definition off_bind (p : wpart) : bind := BSeq (match fst p with Some n => [BTree (Leaf (TInt n))] | None => [] end).
Definition val_bind (p : wpart) : bind := BTree (Leaf (TBytes (snd p))).
Definition env_part (p : wpart) : benv := [(bs "value", val_bind p); (bs "offset", off_bind p)].

Lemma match_part p rest : not_tok (ident "offset") rest ->
  match_seq match1 part_pats (write_part p ++ rest) = Some (env_part p, rest).
Proof.
  destruct p as [[n|] v]; intros H.
  - reflexivity.
  - cbn [write_part fst snd app]. destruct rest as [|[t|d l] r]; [reflexivity| |reflexivity].
    unfold not_tok in H. cbn - [token_eqb]. rewrite H. reflexivity.
Qed.

Definition stops (ts : list tree) : Prop :=
  not_tok (ident "offset") ts /\ not_tok (punct ",") ts.

Lemma parts_len ps : (List.length ps <= List.length (write_parts ps))%nat.
Proof.
  induction ps as [|p [|q ps] IH]; [cbn; lia|destruct p as [[n|] v]; cbn; lia|].
  change (write_parts (p :: q :: ps)) with (write_part p ++ pu "," :: write_parts (q :: ps)).
  rewrite app_length. cbn [List.length] in *. destruct p as [[n|] v]; cbn [write_part fst snd List.length] in *; lia.
Qed.
Lemma token_eqb_sym a b : token_eqb a b = token_eqb b a.
Proof.
  assert (Hb : forall x y, beqb x y = beqb y x).
  { induction x as [|c x IH]; intros [|e y]; cbn; auto. rewrite IH. f_equal.
    destruct (Byte.eqb c e) eqn:E.
    - symmetry. apply Byte.byte_dec_lb. symmetry. now apply Byte.byte_dec_bl.
    - symmetry. destruct (Byte.eqb e c) eqn:E2; [|reflexivity].
      apply Byte.byte_dec_bl in E2. subst. rewrite (Byte.byte_dec_lb eq_refl) in E. discriminate. }
  destruct a, b; cbn; auto using N.eqb_sym; destruct d; destruct d0; reflexivity.
Qed.

Lemma match_parts : forall ps rest n, ps <> [] -> stops rest -> (List.length ps <= n)%nat ->
  match_rep (match_seq match1 part_pats) (Some (punct ",")) n (write_parts ps ++ rest) = (map env_part ps, rest).
Proof.
  induction ps as [|p ps IH]; [congruence|]. intros rest n _ [Ho Hc] Hn.
  destruct n as [|n]; [cbn in Hn; lia|]. destruct ps as [|q ps].
  - cbn [write_parts]. cbn [match_rep]. rewrite match_part by assumption.
    destruct rest as [|[t|d l] r]; [reflexivity| |reflexivity].
    unfold not_tok in Hc. rewrite token_eqb_sym, Hc. reflexivity.
  - change (write_parts (p :: q :: ps)) with (write_part p ++ pu "," :: write_parts (q :: ps)).
    rewrite <- app_assoc. cbn [match_rep]. rewrite match_part by reflexivity.
    cbn [app]. unfold pu at 1. change (token_eqb (TPunct (bs ",")) (punct ",")) with true. cbn iota.
    rewrite (IH rest n); [|discriminate|now split|cbn [List.length] in *; lia]. reflexivity.
Qed.

Lemma gather_col {A} (g : A -> benv) (h : A -> bind) x l :
  (forall a, lookup x (g a) = Some (h a)) ->
  flat_map (fun e => match lookup x e with Some b => [b] | None => [] end) (map g l) = map h l.
Proof. intros H. induction l as [|a l IH]; [reflexivity|]. cbn [map flat_map]. rewrite H, IH. reflexivity. Qed.
Definition env_alt (a : list wpart) : benv :=
  [(bs "value", BSeq (map val_bind a)); (bs "offset", BSeq (map off_bind a))].
Lemma gather_parts a : gather [bs "value"; bs "offset"] (map env_part a) = env_alt a.
Proof.
  unfold gather, env_alt. cbn [map]. rewrite (gather_col env_part val_bind), (gather_col env_part off_bind) by reflexivity. reflexivity.
Qed.
Lemma match_alt a rest : a <> [] -> stops rest ->
  match_seq match1 alt_pats (write_alt a ++ rest) = Some (env_alt a, rest).
Proof.
  intros Ha Hr. unfold write_alt, alt_pats. cbn [app match_seq].
  change (match1 (PTok (ident "value")) (kw "value" :: pu "=" :: write_parts a ++ rest))
    with (Some (([] : benv), pu "=" :: write_parts a ++ rest)). cbn iota.
  change (match1 (PTok (punct "=")) (pu "=" :: write_parts a ++ rest)) with (Some (([] : benv), write_parts a ++ rest)).
  cbn iota. cbn [match1].
  rewrite match_parts; [|assumption|assumption|rewrite app_length; pose proof (parts_len a); lia].
  change (flat_map vars part_pats) with [bs "value"; bs "offset"]. rewrite gather_parts.
  destruct a as [|p a]; [congruence|]. cbn [map app]. rewrite app_nil_r. reflexivity.
Qed.

Definition stops_alt (ts : list tree) : Prop := stops ts /\ not_tok (ident "value") ts.
Lemma alts_stops alts rest : stops rest -> stops (flat_map write_alt alts ++ rest).
Proof. destruct alts; [auto|]. intros _. split; reflexivity. Qed.
Lemma match_alts : forall alts rest n, (forall a, In a alts -> a <> []) -> stops_alt rest -> (List.length alts <= n)%nat ->
  match_rep (match_seq match1 alt_pats) None n (flat_map write_alt alts ++ rest) = (map env_alt alts, rest).
Proof.
  induction alts as [|a alts IH]; intros rest n Ha [Hr Hv] Hn.
  - cbn [flat_map app map]. destruct n; [reflexivity|]. cbn [match_rep].
    replace (match_seq match1 alt_pats rest) with (@None (benv * list tree)); [reflexivity|].
    unfold alt_pats. cbn [match_seq]. destruct rest as [|[t|d l] r]; [reflexivity| |reflexivity].
    unfold not_tok in Hv. cbn [match1]. rewrite Hv. reflexivity.
  - destruct n as [|n]; [cbn in Hn; lia|]. cbn [flat_map map match_rep]. rewrite <- app_assoc.
    rewrite match_alt; [|apply Ha; now left|now apply alts_stops].
    rewrite IH; [reflexivity|intros; apply Ha; now right|now split|cbn in Hn; lia].
Qed.

Definition env_entry (e : wentry) : benv :=
  [(bs "format", BTree (Leaf (TIdent (fst e))));
   (bs "value", BSeq (map (fun a => BSeq (map val_bind a)) (snd e)));
   (bs "offset", BSeq (map (fun a => BSeq (map off_bind a)) (snd e)))].
Lemma gather_alts alts : gather [bs "value"; bs "offset"] (map env_alt alts) =
  [(bs "value", BSeq (map (fun a => BSeq (map val_bind a)) alts)); (bs "offset", BSeq (map (fun a => BSeq (map off_bind a)) alts))].
Proof.
  unfold gather. cbn [map]. rewrite (gather_col env_alt (fun a => BSeq (map val_bind a))) by reflexivity.
  rewrite (gather_col env_alt (fun a => BSeq (map off_bind a))) by reflexivity. reflexivity.
Qed.
Lemma alts_len alts : (List.length alts <= List.length (flat_map write_alt alts))%nat.
Proof. induction alts as [|a alts IH]; cbn [flat_map List.length]; [lia|]. rewrite app_length. cbn [write_alt List.length]. lia. Qed.

Lemma match_entry e rest : fst e <> bs "_" -> snd e <> [] -> (forall a, In a (snd e) -> a <> []) -> stops_alt rest ->
  match_seq match1 entry_pats (write_entry e ++ rest) = Some (env_entry e, rest).
Proof.
  intros Hf Hne Ha Hr. unfold write_entry, entry_pats. cbn [app match_seq].
  set (x := flat_map write_alt (snd e) ++ rest).
  change (match1 (PTok (ident "format")) (kw "format" :: pu "=" :: Leaf (TIdent (fst e)) :: x))
    with (Some (([] : benv), pu "=" :: Leaf (TIdent (fst e)) :: x)). cbn iota.
  change (match1 (PTok (punct "=")) (pu "=" :: Leaf (TIdent (fst e)) :: x)) with (Some (([] : benv), Leaf (TIdent (fst e)) :: x)).
  cbn iota. cbn [match1].
  replace (fits (bs "ident") (Leaf (TIdent (fst e)))) with true.
  2:{ cbn [fits]. now rewrite (proj2 (beqb_neq _ _) Hf). }
  unfold x. rewrite match_alts; [|assumption|assumption|rewrite app_length; pose proof (alts_len (snd e)); lia].
  change (flat_map vars alt_pats) with [bs "value"; bs "offset"]. rewrite gather_alts.
  destruct e as [f [|a alts]]; [cbn in Hne; congruence|]. cbn [snd map app]. reflexivity.
Qed.

Lemma entries_len t : (List.length t <= List.length (write_table t))%nat.
Proof.
  unfold write_table. induction t as [|a t IH]; cbn [flat_map List.length]; [lia|]. rewrite app_length.
  unfold write_entry at 1. cbn [List.length]. lia.
Qed.
Lemma match_entries b : forall t n, writable b t -> (List.length t <= n)%nat ->
  match_rep (match_seq match1 entry_pats) None n (write_table t) = (map env_entry t, []).
Proof.
  induction t as [|e t IH]; intros n Hw Hn; [destruct n; reflexivity|].
  destruct n as [|n]; [cbn in Hn; lia|]. cbn [write_table flat_map map match_rep]. fold (write_table t).
  destruct (Hw (fst e) (snd e)) as (H1 & H2 & H3); [left; now destruct e|].
  rewrite match_entry; [|assumption|assumption|intros a Ha; now apply H3| ].
  - rewrite IH; [reflexivity|intros f alts Hi; apply Hw; now right|cbn in Hn; lia].
  - destruct t; repeat split; reflexivity.
Qed.

Definition env_table (t : list wentry) : benv :=
  [(bs "format", BSeq (map (fun e => BTree (Leaf (TIdent (fst e)))) t));
   (bs "value", BSeq (map (fun e => BSeq (map (fun a => BSeq (map val_bind a)) (snd e))) t));
   (bs "offset", BSeq (map (fun e => BSeq (map (fun a => BSeq (map off_bind a)) (snd e))) t))].
Lemma gather_entries t : gather [bs "format"; bs "value"; bs "offset"] (map env_entry t) = env_table t.
Proof.
  unfold gather, env_table. cbn [map]. rewrite (gather_col env_entry (fun e => BTree (Leaf (TIdent (fst e))))) by reflexivity.
  rewrite (gather_col env_entry (fun e => BSeq (map (fun a => BSeq (map val_bind a)) (snd e)))) by reflexivity.
  rewrite (gather_col env_entry (fun e => BSeq (map (fun a => BSeq (map off_bind a)) (snd e)))) by reflexivity. reflexivity.
Qed.
Lemma match_table b t : writable b t -> match_all (fst sig_rule) (write_table t) = Some (env_table t).
Proof.
  intros Hw. rewrite sig_lhs. unfold match_all. cbn [match_seq match1].
  rewrite (match_entries b); [|assumption|apply entries_len].
  change (flat_map vars entry_pats) with [bs "format"; bs "value"; bs "offset"].
  rewrite gather_entries. reflexivity.
Qed.

(** ** Transcription *)
Fixpoint join (sep : list tree) (ls : list (list tree)) : list tree :=
  match ls with
  | [] => []
  | [a] => a
  | a :: ls' => a ++ sep ++ join sep ls'
  end.
Lemma emit_rep_ok {A} (body : benv -> option (list tree)) (sep : option token) (env : A -> benv) (out : A -> list tree) l :
  (forall a, In a l -> body (env a) = Some (out a)) ->
  emit_rep body sep (map env l) = Some (join (match sep with Some s => [Leaf s] | None => [] end) (map out l)).
Proof.
  induction l as [|a l IH]; intros H; [reflexivity|].
  cbn [map emit_rep]. rewrite (H a) by now left. rewrite IH by (intros; apply H; now right).
  destruct l as [|b l]; [cbn [map join]; now rewrite app_nil_r|]. cbn [map join]. destruct sep; reflexivity.
Qed.
Lemma rows_inner {A} x t y (g : A -> bind) z (h : A -> bind) l :
  rows (List.length l) [(x, BTree t); (y, BSeq (map g l)); (z, BSeq (map h l))] =
  map (fun a => [(x, BTree t); (y, g a); (z, h a)]) l.
Proof. induction l as [|a l IH]; [reflexivity|]. cbn [List.length map rows flat_map head_of tail_of app]. now rewrite IH. Qed.
Lemma rows_outer {A} x (f : A -> bind) y (g : A -> bind) z (h : A -> bind) l :
  rows (List.length l) [(x, BSeq (map f l)); (y, BSeq (map g l)); (z, BSeq (map h l))] =
  map (fun a => [(x, f a); (y, g a); (z, h a)]) l.
Proof. induction l as [|a l IH]; [reflexivity|]. cbn [List.length map rows flat_map head_of tail_of app]. now rewrite IH. Qed.

Definition plus_offset : pat := PRep [PVar (bs "offset") []; PTok (punct "+")] None Quest.
Definition len_pats : list pat := [PVar (bs "value") []; PTok (punct "."); PTok (ident "len"); PGroup Paren []].
Definition test_pats : list pat :=
  [PTok (ident "bytes"); PTok (punct "."); PTok (ident "len"); PGroup Paren []; PTok (punct ">="); plus_offset] ++ len_pats ++
  [PTok (punct "&&"); PTok (punct "&"); PTok (ident "bytes");
   PGroup Bracket ([PRep [PVar (bs "offset") []] None Quest; PTok (punct ".."); plus_offset] ++ len_pats);
   PTok (punct "=="); PVar (bs "value") []].
Definition if_pats : list pat :=
  [PTok (ident "if"); PRep [PRep test_pats (Some (punct "&&")) Star] (Some (punct "||")) Star;
   PGroup Brace [PTok (ident "return"); PTok (ident "Some"); PGroup Paren [PTok (ident "Self"); PTok (punct "::"); PVar (bs "format") []];
                 PTok (punct ";")]].
Definition fn_head : list pat :=
  [PTok (punct "#"); PGroup Bracket [PTok (ident "allow"); PGroup Paren [PTok (ident "clippy"); PTok (punct "::"); PTok (ident "int_plus_one")]];
   PTok (ident "pub"); PGroup Paren [PTok (ident "crate")]; PTok (ident "fn"); PTok (ident "from_signature");
   PGroup Paren [PTok (ident "bytes"); PTok (punct ":"); PTok (punct "&"); PGroup Bracket [PTok (ident "u8")]];
   PTok (punct "->"); PTok (ident "Option"); PTok (punct "<"); PTok (ident "Self"); PTok (punct ">")].
Lemma sig_rhs : snd sig_rule =
  [PTok (ident "impl"); PTok (ident "crate"); PTok (punct "::"); PTok (ident "FileFormat");
   PGroup Brace (fn_head ++ [PGroup Brace [PRep if_pats None Star; PTok (ident "None")]])].
Proof. reflexivity. Qed.

(** What is written for a part, an alternative, an entry. *)
Definition offset_plus (p : wpart) : list tree := match fst p with Some n => [Leaf (TInt n); pu "+"] | None => [] end.
Definition value_len (p : wpart) : list tree := [Leaf (TBytes (snd p)); pu "."; kw "len"; Group Paren []].
Definition ge_out (p : wpart) : list tree :=
  [kw "bytes"; pu "."; kw "len"; Group Paren []; pu ">="] ++ offset_plus p ++ value_len p.
Definition eq_out (p : wpart) : list tree :=
  [pu "&"; kw "bytes";
   Group Bracket (match fst p with Some n => [Leaf (TInt n)] | None => [] end ++ [pu ".."] ++ offset_plus p ++ value_len p);
   pu "=="; Leaf (TBytes (snd p))].
Definition part_out (p : wpart) : list tree := ge_out p ++ [pu "&&"] ++ eq_out p.
Definition alt_out (a : list wpart) : list tree := join [pu "&&"] (map part_out a).
Definition cond_out (alts : list (list wpart)) : list tree := join [pu "||"] (map alt_out alts).
Definition return_out (f : bytes) : tree :=
  Group Brace [kw "return"; kw "Some"; Group Paren [kw "Self"; pu "::"; Leaf (TIdent f)]; pu ";"].
Definition if_out (e : wentry) : list tree := kw "if" :: cond_out (snd e) ++ [return_out (fst e)].

Lemma emit_part t p :
  emit_seq emit1 test_pats [(bs "format", BTree t); (bs "value", val_bind p); (bs "offset", off_bind p)] = Some (part_out p).
Proof. destruct p as [[n|] v]; reflexivity. Qed.
Lemma emit_alt t a :
  emit_seq emit1 [PRep test_pats (Some (punct "&&")) Star]
    [(bs "format", BTree t); (bs "value", BSeq (map val_bind a)); (bs "offset", BSeq (map off_bind a))] = Some (alt_out a).
Proof.
  cbn [emit_seq emit1].
  change (count (flat_map vars test_pats) [(bs "format", BTree t); (bs "value", BSeq (map val_bind a)); (bs "offset", BSeq (map off_bind a))])
    with (Some (List.length (map off_bind a))). cbn iota. rewrite map_length, rows_inner.
  rewrite (emit_rep_ok _ _ _ part_out) by (intros; apply emit_part). now rewrite app_nil_r.
Qed.
Lemma emit_entry e : emit_seq emit1 if_pats (env_entry e) = Some (if_out e).
Proof.
  unfold if_pats. cbn [emit_seq]. cbn [emit1].
  change (count (flat_map vars [PRep test_pats (Some (punct "&&")) Star]) (env_entry e))
    with (Some (List.length (map (fun a => BSeq (map off_bind a)) (snd e)))). cbn iota. unfold env_entry at 1. rewrite map_length, rows_inner.
  rewrite (emit_rep_ok _ _ _ alt_out) by (intros; apply emit_alt).
  reflexivity.
Qed.

Definition fn_head_out : list tree :=
  [pu "#"; Group Bracket [kw "allow"; Group Paren [kw "clippy"; pu "::"; kw "int_plus_one"]];
   kw "pub"; Group Paren [kw "crate"]; kw "fn"; kw "from_signature";
   Group Paren [kw "bytes"; pu ":"; pu "&"; Group Bracket [kw "u8"]];
   pu "->"; kw "Option"; pu "<"; kw "Self"; pu ">"].
Definition ifs_out (t : list wentry) : list tree := flat_map if_out t ++ [kw "None"].
Definition table_out (t : list wentry) : list tree :=
  [kw "impl"; kw "crate"; pu "::"; kw "FileFormat"; Group Brace (fn_head_out ++ [Group Brace (ifs_out t)])].
Lemma join_nil ls : join [] ls = List.concat ls.
Proof. induction ls as [|a [|b ls] IH]; cbn in *; auto; [now rewrite app_nil_r|now rewrite IH]. Qed.
Lemma emit_table t : emit (snd sig_rule) (env_table t) = Some (table_out t).
Proof.
  rewrite sig_rhs. unfold emit.
  assert (E : emit1 (PRep if_pats None Star) (env_table t) = Some (flat_map if_out t)).
  { cbn [emit1]. change (count (flat_map vars if_pats) (env_table t))
      with (Some (List.length (map (fun e : wentry => BSeq (map (fun a => BSeq (map off_bind a)) (snd e))) t))).
    cbn iota. unfold env_table. rewrite map_length, rows_outer.
    rewrite (emit_rep_ok _ _ _ if_out) by (intros; apply emit_entry).
    rewrite join_nil. now rewrite flat_map_concat_map. }
  assert (E2 : emit1 (PGroup Brace [PRep if_pats None Star; PTok (ident "None")]) (env_table t) = Some [Group Brace (ifs_out t)]).
  { change (emit1 (PGroup Brace [PRep if_pats None Star; PTok (ident "None")]) (env_table t))
      with (match (match emit1 (PRep if_pats None Star) (env_table t) with
                   | Some a => Some (a ++ [kw "None"]) | None => None end) with Some b => Some [Group Brace b] | None => None end).
    rewrite E. reflexivity. }
  generalize dependent (PGroup Brace [PRep if_pats None Star; PTok (ident "None")]). intros last E2.
  unfold fn_head. cbn [emit_seq emit1 app]. rewrite E2. reflexivity.
Qed.

(** ** Parsing *)
Definition var_bytes : expr := EPath [bs "bytes"].
Definition len_ast (p : wpart) : expr :=
  match fst p with Some n => EAdd (EInt n) (ELen (EBytes (snd p))) | None => ELen (EBytes (snd p)) end.
Definition ge_ast (p : wpart) : expr := EGe (ELen var_bytes) (len_ast p).
Definition eq_ast (p : wpart) : expr :=
  EEq (ERef (ESlice var_bytes (match fst p with Some n => Some (EInt n) | None => None end) (Some (len_ast p)))) (EBytes (snd p)).

(** What can follow a comparison, an alternative. *)
Definition ends_atom (rest : list tree) : Prop :=
  match rest with
  | Leaf t :: _ => t = punct "&&" \/ t = punct "||"
  | Group Brace _ :: _ => True
  | _ => False
  end.
Definition ends_alt (rest : list tree) : Prop :=
  match rest with
  | Leaf t :: _ => t = punct "||"
  | Group Brace _ :: _ => True
  | _ => False
  end.
Lemma ends_alt_atom rest : ends_alt rest -> ends_atom rest.
Proof. destruct rest as [|[t|[| |] l] r]; cbn; auto. Qed.

Definition parses (a : list tree * expr) : Prop :=
  forall k rest, ends_atom rest -> expr_at (18 + k) 2 (fst a ++ rest) = Some (snd a, rest).
Lemma ge_parses p : parses (ge_out p, ge_ast p).
Proof.
  intros k rest H. destruct p as [[n|] v];
    (destruct rest as [|[t|[| |] l] r]; cbn in H; try contradiction; [destruct H as [-> | ->]|]); reflexivity.
Qed.
Lemma eq_parses p : parses (eq_out p, eq_ast p).
Proof.
  intros k rest H. destruct p as [[n|] v];
    (destruct rest as [|[t|[| |] l] r]; cbn in H; try contradiction; [destruct H as [-> | ->]|]); reflexivity.
Qed.

Lemma more_and : forall (atoms : list (list tree * expr)) acc rest fuel,
  (forall a, In a atoms -> parses a) -> ends_alt rest -> (19 + List.length atoms <= fuel)%nat ->
  more fuel 1 acc (flat_map (fun a => pu "&&" :: fst a) atoms ++ rest) = Some (fold_left EAnd (map snd atoms) acc, rest).
Proof.
  induction atoms as [|a atoms IH]; intros acc rest fuel Hp Hr Hf.
  - cbn [flat_map app map fold_left]. destruct fuel as [|fuel]; [cbn in Hf; lia|].
    destruct rest as [|[t|[| |] l] r]; cbn in Hr; try contradiction; [subst t|]; reflexivity.
  - cbn [flat_map map fold_left]. destruct fuel as [|fuel]; [cbn in Hf; lia|].
    cbn [app]. rewrite <- app_assoc. cbn [more]. unfold pu at 1.
    change (operator 1 (TPunct (bs "&&"))) with (Some EAnd). cbn iota.
    cbn [List.length] in Hf. replace fuel with (18 + (fuel - 18))%nat at 1 by lia.
    rewrite (Hp a (or_introl eq_refl)).
    + cbn [associates Nat.eqb negb]. apply IH; [intros; apply Hp; now right|assumption|lia].
    + destruct atoms; [apply ends_alt_atom; assumption|left; reflexivity].
Qed.
Lemma join_flat sep a ls : join [sep] (a :: ls) = a ++ flat_map (fun x => sep :: x) ls.
Proof.
  revert a. induction ls as [|b ls IH]; intros a; [cbn; now rewrite app_nil_r|].
  change (join [sep] (a :: b :: ls)) with (a ++ [sep] ++ join [sep] (b :: ls)). rewrite IH. reflexivity.
Qed.
Definition atoms_of (a : list wpart) : list (list tree * expr) :=
  flat_map (fun p => [(ge_out p, ge_ast p); (eq_out p, eq_ast p)]) a.
Lemma atoms_parse a x : In x (atoms_of a) -> parses x.
Proof.
  intros H. apply in_flat_map in H. destruct H as (p & _ & [<-|[<-|[]]]); [apply ge_parses|apply eq_parses].
Qed.
Lemma atoms_len a : List.length (atoms_of a) = (2 * List.length a)%nat.
Proof. induction a as [|p a IH]; cbn [atoms_of flat_map app List.length] in *; [reflexivity|]. fold (atoms_of a). rewrite IH. lia. Qed.

(** An alternative. *)
Definition alt_ast (a : list wpart) : expr :=
  match map snd (atoms_of a) with [] => EInt 0 | x :: l => fold_left EAnd l x end.
Lemma flat_map_map {A B C} (f : B -> list C) (g : A -> B) l : flat_map f (map g l) = flat_map (fun x => f (g x)) l.
Proof. induction l as [|a l IH]; cbn; [reflexivity|now rewrite IH]. Qed.
Lemma alt_atoms p a : alt_out (p :: a) = ge_out p ++ flat_map (fun x => pu "&&" :: fst x) ((eq_out p, eq_ast p) :: atoms_of a).
Proof.
  unfold alt_out. cbn [map]. rewrite join_flat. unfold part_out at 1. rewrite <- app_assoc. f_equal.
  cbn [flat_map fst app]. f_equal. f_equal. rewrite flat_map_map. unfold atoms_of.
  induction a as [|q a IH]; [reflexivity|]. cbn [flat_map app fst]. rewrite IH. unfold part_out.
  rewrite <- app_assoc. reflexivity.
Qed.
Lemma alt_parses a rest fuel : a <> [] -> ends_alt rest -> (20 + 2 * List.length a <= fuel)%nat ->
  expr_at fuel 1 (alt_out a ++ rest) = Some (alt_ast a, rest).
Proof.
  intros Ha Hr Hf. destruct a as [|p a]; [congruence|]. rewrite alt_atoms, <- app_assoc.
  destruct fuel as [|fuel]; [cbn in Hf; lia|]. cbn [List.length] in Hf. cbn [expr_at].
  replace fuel with (18 + (fuel - 18))%nat at 1 by lia.
  rewrite (ge_parses p) by (left; reflexivity). cbn [snd].
  rewrite more_and.
  - reflexivity.
  - intros x [<-|H]; [apply eq_parses|now apply (atoms_parse a)].
  - assumption.
  - cbn [List.length]. rewrite atoms_len. lia.
Qed.

(** A condition. *)
Definition cond_ast (alts : list (list wpart)) : expr :=
  match map alt_ast alts with [] => EInt 0 | x :: l => fold_left EOr l x end.
Definition size (alts : list (list wpart)) : nat := fold_right (fun a n => 1 + 2 * List.length a + n)%nat 0%nat alts.
Lemma size_in a alts : In a alts -> (2 * List.length a < size alts)%nat.
Proof. induction alts as [|b alts IH]; [easy|]. intros [->|H]; cbn [size fold_right]; fold (size alts); [lia|]. apply IH in H. lia. Qed.
Lemma more_or : forall (alts : list (list wpart)) acc b r fuel N,
  (forall a, In a alts -> a <> [] /\ (2 * List.length a < N)%nat) -> (22 + N + List.length alts <= fuel)%nat ->
  more fuel 0 acc (flat_map (fun a => pu "||" :: alt_out a) alts ++ Group Brace b :: r) =
  Some (fold_left EOr (map alt_ast alts) acc, Group Brace b :: r).
Proof.
  induction alts as [|a alts IH]; intros acc b r fuel N Ha Hf.
  - destruct fuel as [|fuel]; [lia|]. reflexivity.
  - cbn [flat_map map fold_left]. destruct fuel as [|fuel]; [lia|].
    cbn [app]. rewrite <- app_assoc. cbn [more]. unfold pu at 1.
    change (operator 0 (TPunct (bs "||"))) with (Some EOr). cbn iota. cbn [List.length] in Hf.
    destruct (Ha a (or_introl eq_refl)) as [H1 H2].
    rewrite alt_parses; [|assumption| |lia].
    + cbn [associates Nat.eqb negb]. apply (IH _ _ _ _ N); [intros; apply Ha; now right|lia].
    + destruct alts; exact I || reflexivity.
Qed.
Lemma cond_parses alts b r fuel : alts <> [] -> (forall a, In a alts -> a <> []) ->
  (24 + size alts + List.length alts <= fuel)%nat ->
  expr_at fuel 0 (cond_out alts ++ Group Brace b :: r) = Some (cond_ast alts, Group Brace b :: r).
Proof.
  intros Hne Ha Hf. destruct alts as [|a alts]; [congruence|]. unfold cond_out. cbn [map]. rewrite join_flat, <- app_assoc, flat_map_map.
  destruct fuel as [|fuel]; [lia|]. cbn [expr_at]. cbn [List.length] in Hf.
  pose proof (size_in a (a :: alts) (or_introl eq_refl)) as Hs.
  rewrite alt_parses; [|apply Ha; now left| |lia].
  - rewrite (more_or _ _ _ _ _ (size (a :: alts))); [reflexivity| |lia].
    intros x Hx. split; [apply Ha; now right|]. apply size_in. now right.
  - destruct alts; exact I || reflexivity.
Qed.

Lemma join_len sep ls : (List.length (List.concat ls) <= List.length (join sep ls))%nat.
Proof.
  induction ls as [|a [|b ls] IH]; cbn [List.concat join List.length] in *; [lia|rewrite app_nil_r; lia|].
  rewrite !app_length in *. cbn [join List.concat] in IH. lia.
Qed.
Lemma part_out_len p : (20 <= List.length (part_out p))%nat \/ (14 <= List.length (part_out p))%nat.
Proof. right. destruct p as [[n|] v]; cbn; lia. Qed.
Lemma alt_out_len a : (14 * List.length a <= List.length (alt_out a))%nat.
Proof.
  etransitivity; [|apply join_len]. induction a as [|p a IH]; [cbn; lia|]. cbn [map List.concat List.length]. rewrite app_length.
  destruct (part_out_len p); lia.
Qed.
Lemma cond_out_len alts : (forall a, In a alts -> a <> []) -> (size alts + List.length alts <= List.length (cond_out alts))%nat.
Proof.
  intros Ha. etransitivity; [|apply join_len]. induction alts as [|a alts IH]; [cbn; lia|].
  cbn [map List.concat List.length size fold_right]. fold (size alts). rewrite app_length. pose proof (alt_out_len a).
  assert (1 <= List.length a)%nat. { destruct a; [exfalso; apply (Ha []); [now left|reflexivity]|cbn; lia]. }
  specialize (IH (fun x Hx => Ha x (or_intror Hx))). lia.
Qed.

Definition ret_ast (f : bytes) : expr := ECall [bs "Some"] (EPath [bs "Self"; f]).
Definition chain_ast (t : list wentry) : list (expr * expr) := map (fun e => (cond_ast (snd e), ret_ast (fst e))) t.
Lemma chain_parses b : forall t fuel, writable b t -> (List.length t < fuel)%nat ->
  chain_of fuel (ifs_out t) = Some (chain_ast t, EPath [bs "None"]).
Proof.
  induction t as [|e t IH]; intros fuel Hw Hf; (destruct fuel as [|fuel]; [lia|]); [reflexivity|].
  destruct (Hw (fst e) (snd e)) as (H1 & H2 & H3); [left; now destruct e|].
  unfold ifs_out. cbn [flat_map]. unfold if_out at 1. rewrite <- !app_assoc. cbn [app chain_of]. unfold kw at 1.
  change (token_eqb (TIdent (bs "if")) (ident "if")) with true. cbn iota. rewrite <- !app_assoc. cbn [app].
  fold (ifs_out t). unfold return_out at 2.
  rewrite cond_parses; [|assumption|intros a Ha; now apply H3|].
  - cbn [chain_of]. unfold kw at 1. change (token_eqb (TIdent (bs "return")) (ident "return")) with true. cbn iota.
    change (expr_at (fuel_for [kw "Some"; Group Paren [kw "Self"; pu "::"; Leaf (TIdent (fst e))]; pu ";"]) 0
       [kw "Some"; Group Paren [kw "Self"; pu "::"; Leaf (TIdent (fst e))]; pu ";"])
      with (Some (ret_ast (fst e), [pu ";"])). cbn iota. unfold pu at 1.
    change (token_eqb (TPunct (bs ";")) (punct ";")) with true. cbn iota.
    rewrite IH; [reflexivity|intros f alts Hi; apply Hw; now right|cbn in Hf; lia].
  - unfold fuel_for. rewrite app_length. pose proof (cond_out_len (snd e) (fun a Ha => proj1 (H3 a Ha))). lia.
Qed.

Definition crate_file_format : list bytes := [bs "crate"; bs "FileFormat"].
Definition sig_fn (t : list wentry) : fn_item :=
  mkfn (bs "from_signature") [kw "bytes"; pu ":"; pu "&"; Group Bracket [kw "u8"]] (Chain (chain_ast t) (EPath [bs "None"])).
Lemma ifs_len t : (List.length t < List.length (ifs_out t))%nat.
Proof.
  unfold ifs_out. rewrite app_length. cbn [List.length]. assert (List.length t <= List.length (flat_map if_out t))%nat; [|lia].
  induction t as [|e t IH]; cbn [flat_map List.length]; [lia|]. rewrite app_length. unfold if_out at 1. cbn [List.length]. lia.
Qed.
Lemma alt_out_head p a : exists r, alt_out (p :: a) = kw "bytes" :: pu "." :: kw "len" :: r.
Proof. rewrite alt_atoms. eexists. reflexivity. Qed.
Lemma cond_out_head a alts : a <> [] -> exists r, cond_out (a :: alts) = kw "bytes" :: pu "." :: kw "len" :: r.
Proof.
  intros Ha. destruct a as [|p a]; [congruence|]. unfold cond_out. cbn [map]. rewrite join_flat.
  destruct (alt_out_head p a) as [r ->]. eexists. reflexivity.
Qed.
Lemma body_parses b t : writable b t -> body_of (ifs_out t) = Some (Chain (chain_ast t) (EPath [bs "None"])).
Proof.
  intros Hw. assert (E : chain_of (S (List.length (ifs_out t))) (ifs_out t) = Some (chain_ast t, EPath [bs "None"])).
  { apply (chain_parses b); [assumption|]. pose proof (ifs_len t). lia. }
  destruct t as [|e t]; [reflexivity|].
  destruct (Hw (fst e) (snd e)) as (H1 & H2 & H3); [left; now destruct e|].
  assert (Hh : exists r, ifs_out (e :: t) = kw "if" :: kw "bytes" :: pu "." :: r).
  { unfold ifs_out. cbn [flat_map]. unfold if_out at 1. destruct (snd e) as [|a alts] eqn:Es; [congruence|].
    destruct (cond_out_head a alts) as [r ->]; [apply H3; now left|]. eexists. reflexivity. }
  destruct Hh as [r Hr]. unfold body_of. rewrite Hr. unfold kw at 1 2, pu at 1.
  change (Leaf (TIdent (bs "if")) :: Leaf (TIdent (bs "bytes")) :: Leaf (TPunct (bs ".")) :: r)
    with (kw "if" :: kw "bytes" :: pu "." :: r). rewrite <- Hr, E. reflexivity.
Qed.
Lemma items_parse b t : writable b t ->
  items_of (S (List.length (table_out t))) (table_out t) = Some [Impl crate_file_format [sig_fn t]].
Proof.
  intros Hw. unfold table_out. cbn [List.length].
  assert (E : forall n, fns_of (S (S n)) (fn_head_out ++ [Group Brace (ifs_out t)]) = Some [sig_fn t]).
  { intros n. unfold fn_head_out. cbn [app].
    change (fns_of (S (S n)) _) with
      (match body_of (ifs_out t), fns_of (S n) [] with
       | Some bd, Some l => Some (mkfn (bs "from_signature") [kw "bytes"; pu ":"; pu "&"; Group Bracket [kw "u8"]] bd :: l)
       | _, _ => None end).
    rewrite (body_parses b) by assumption. reflexivity. }
  change (items_of 6 [kw "impl"; kw "crate"; pu "::"; kw "FileFormat"; Group Brace (fn_head_out ++ [Group Brace (ifs_out t)])]) with
    (match fns_of (S (List.length (fn_head_out ++ [Group Brace (ifs_out t)]))) (fn_head_out ++ [Group Brace (ifs_out t)]), items_of 5 [] with
     | Some l, Some is => Some (Impl crate_file_format l :: is)
     | _, _ => None end).
  change (List.length (fn_head_out ++ [Group Brace (ifs_out t)])) with 13%nat. rewrite E. reflexivity.
Qed.

(** The items of an invocation with this table. *)
Definition compiled (rule : list pat * list pat) (body : list tree) : list item :=
  match expand rule body with
  | Some ts => match items_of (S (List.length ts)) ts with Some is => is | None => [] end
  | None => []
  end.
Lemma compiled_table b t : writable b t -> compiled sig_rule (write_table t) = [Impl crate_file_format [sig_fn t]].
Proof.
  intros Hw. unfold compiled, expand. rewrite (match_table b) by assumption. rewrite emit_table, (items_parse b) by assumption.
  reflexivity.
Qed.

(** ** Evaluation *)
Definition fits_target (m : target) (b : N) : Prop := b <= 2 ^ width m.
Definition part_ok (l : bytes) (p : wpart) : bool :=
  (fst (part_of p) + lenN (snd p) <=? lenN l) && beqb (takeN (lenN (snd p)) (dropN (fst (part_of p)) l)) (snd p).

Section Eval.
Variables (m : target) (self : list bytes) (l : bytes).
Notation ev := (eval m self [(bs "bytes", VBytes l)]).

Lemma ev_bytes : ev var_bytes = Value (VBytes l).
Proof. reflexivity. Qed.
Lemma ev_len p : fst (part_of p) + lenN (snd p) < 2 ^ width m ->
  ev (len_ast p) = Value (VInt (fst (part_of p) + lenN (snd p))).
Proof.
  intros H. destruct p as [[n|] v]; cbn [part_of fst snd len_ast eval] in *; [|reflexivity].
  unfold add_usize. apply N.ltb_lt in H. now rewrite H.
Qed.
Lemma ev_ge p : fst (part_of p) + lenN (snd p) < 2 ^ width m ->
  ev (ge_ast p) = Value (VBool (fst (part_of p) + lenN (snd p) <=? lenN l)).
Proof. intros H. unfold ge_ast. cbn [eval]. fold var_bytes. rewrite ev_bytes. now rewrite ev_len. Qed.
Lemma ev_eq p : fst (part_of p) + lenN (snd p) < 2 ^ width m -> fst (part_of p) + lenN (snd p) <= lenN l ->
  ev (eq_ast p) = Value (VBool (beqb (takeN (lenN (snd p)) (dropN (fst (part_of p)) l)) (snd p))).
Proof.
  intros H Hl. unfold eq_ast. cbn [eval]. fold var_bytes. rewrite ev_bytes.
  assert (E : slice l (fst (part_of p)) (fst (part_of p) + lenN (snd p)) =
              Value (VBytes (takeN (lenN (snd p)) (dropN (fst (part_of p)) l)))).
  { unfold slice. replace (fst (part_of p) <=? fst (part_of p) + lenN (snd p)) with true by (symmetry; apply N.leb_le; lia).
    replace (fst (part_of p) + lenN (snd p) <=? lenN l) with true by (symmetry; apply N.leb_le; lia). cbn [andb].
    now replace (fst (part_of p) + lenN (snd p) - fst (part_of p)) with (lenN (snd p)) by lia. }
  destruct p as [[n|] v]; cbn [part_of fst snd] in *.
  - cbn [eval]. fold (ev (len_ast (Some n, v))). rewrite (ev_len (Some n, v)) by exact H. cbn [part_of fst snd]. now rewrite E.
  - fold (ev (len_ast (None, v))). rewrite (ev_len (None, v)) by exact H. cbn [part_of fst snd]. now rewrite E.
Qed.
Lemma ev_pair p acc x : fst (part_of p) + lenN (snd p) < 2 ^ width m -> ev acc = Value (VBool x) ->
  ev (EAnd (EAnd acc (ge_ast p)) (eq_ast p)) = Value (VBool (x && part_ok l p)).
Proof.
  intros H Ha. cbn [eval]. rewrite Ha. destruct x; [|reflexivity].
  rewrite ev_ge by assumption. unfold part_ok. destruct (_ <=? lenN l) eqn:E; [|reflexivity].
  rewrite ev_eq; [reflexivity|assumption|now apply N.leb_le].
Qed.
Lemma ev_parts : forall a acc x,
  (forall p, In p a -> fst (part_of p) + lenN (snd p) < 2 ^ width m) -> ev acc = Value (VBool x) ->
  ev (fold_left EAnd (map snd (atoms_of a)) acc) = Value (VBool (x && forallb (part_ok l) a)).
Proof.
  induction a as [|p a IH]; intros acc x Hp Ha; [cbn; now rewrite andb_true_r|].
  cbn [atoms_of flat_map app map snd fold_left forallb]. fold (atoms_of a).
  rewrite (IH _ (x && part_ok l p)); [now rewrite andb_assoc|intros; apply Hp; now right|].
  apply ev_pair; [apply Hp; now left|assumption].
Qed.
Lemma ev_alt a : a <> [] -> (forall p, In p a -> fst (part_of p) + lenN (snd p) < 2 ^ width m) ->
  ev (alt_ast a) = Value (VBool (forallb (part_ok l) a)).
Proof.
  intros Hne Hp. destruct a as [|p a]; [congruence|]. unfold alt_ast. cbn [atoms_of flat_map app map snd fold_left].
  fold (atoms_of a). rewrite (ev_parts a _ (part_ok l p)); [reflexivity|intros; apply Hp; now right|].
  cbn [eval]. rewrite ev_ge by (apply Hp; now left). unfold part_ok. destruct (_ <=? lenN l) eqn:E; [|reflexivity].
  rewrite ev_eq; [reflexivity|apply Hp; now left|now apply N.leb_le].
Qed.
Lemma ev_ors : forall alts acc x,
  (forall a, In a alts -> a <> [] /\ forall p, In p a -> fst (part_of p) + lenN (snd p) < 2 ^ width m) ->
  ev acc = Value (VBool x) ->
  ev (fold_left EOr (map alt_ast alts) acc) = Value (VBool (x || existsb (forallb (part_ok l)) alts)).
Proof.
  induction alts as [|a alts IH]; intros acc x Hp Ha; [cbn; now rewrite orb_false_r|].
  cbn [map fold_left existsb]. destruct (Hp a (or_introl eq_refl)) as [H1 H2].
  rewrite (IH _ (x || forallb (part_ok l) a)); [now rewrite orb_assoc|intros; apply Hp; now right|].
  cbn [eval]. rewrite Ha. destruct x; [reflexivity|]. now rewrite ev_alt.
Qed.
Lemma ev_cond alts : alts <> [] ->
  (forall a, In a alts -> a <> [] /\ forall p, In p a -> fst (part_of p) + lenN (snd p) < 2 ^ width m) ->
  ev (cond_ast alts) = Value (VBool (existsb (forallb (part_ok l)) alts)).
Proof.
  intros Hne Hp. destruct alts as [|a alts]; [congruence|]. unfold cond_ast. cbn [map]. destruct (Hp a (or_introl eq_refl)) as [H1 H2].
  rewrite (ev_ors alts _ (forallb (part_ok l) a)); [reflexivity|intros; apply Hp; now right|]. now apply ev_alt.
Qed.
End Eval.

(** The scan of a written table. *)
Fixpoint scan (t : list wentry) (l : bytes) : option bytes :=
  match t with
  | [] => None
  | e :: t' => if existsb (forallb (part_ok l)) (snd e) then Some (fst e) else scan t' l
  end.
Lemma run_table m b t l : writable b t -> b <= 2 ^ width m ->
  call m crate_file_format (compiled sig_rule (write_table t)) "from_signature" (VBytes l) =
  Value (match scan t l with Some f => VSome (VVariant crate_file_format f) | None => VNone end).
Proof.
  intros Hw Hb. rewrite (compiled_table b) by assumption.
  change (call m crate_file_format [Impl crate_file_format [sig_fn t]] "from_signature" (VBytes l))
    with (run_chain m crate_file_format [(bs "bytes", VBytes l)] (chain_ast t) (EPath [bs "None"])).
  induction t as [|e t IH]; [reflexivity|].
  destruct (Hw (fst e) (snd e)) as (H1 & H2 & H3); [left; now destruct e|].
  cbn [chain_ast map run_chain scan]. rewrite ev_cond.
  - destruct (existsb _ (snd e)); [reflexivity|]. apply IH. intros f alts Hi. apply Hw. now right.
  - assumption.
  - intros a Ha. destruct (H3 a Ha) as [H4 H5]. split; [assumption|]. intros p Hp. specialize (H5 p Hp). lia.
Qed.
