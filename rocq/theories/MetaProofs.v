(** Deciding the metadata predicates of SpecMeta.v. *)
From Coq Require Import NArith Bool String Ascii List Lia ZifyBool ZifyN.
From Verif Require Import SpecMeta.
Import ListNotations.
Local Open Scope string_scope.
Local Open Scope N_scope.

Fixpoint all_charsb (p : ascii -> bool) (s : string) : bool :=
  match s with EmptyString => true | String c t => p c && all_charsb p t end.
Lemma all_charsb_ok (p : ascii -> bool) (P : ascii -> Prop) s :
  (forall c, p c = true -> P c) -> all_charsb p s = true -> all_chars P s.
Proof.
  intros Hp. induction s as [|c t IH]; cbn; [trivial|]. intros H. apply andb_prop in H as [H1 H2]. auto.
Qed.
Definition between (a b : N) (c : ascii) : bool := (a <=? N_of_ascii c) && (N_of_ascii c <=? b).
Definition oneof (l : list ascii) (c : ascii) : bool := existsb (Ascii.eqb c) l.
Lemma oneof_in l c : oneof l c = true -> In c l.
Proof. unfold oneof. rewrite existsb_exists. intros (x & Hx & E). apply Ascii.eqb_eq in E. now subst. Qed.
Lemma between_ok a b c : between a b c = true -> a <= N_of_ascii c /\ N_of_ascii c <= b.
Proof. unfold between. lia. Qed.

Definition restricted_charb c := between 48 57 c || between 97 122 c || oneof ["!"; "#"; "$"; "&"; "-"; "^"; "_"; "."; "+"]%char c.
Lemma restricted_charb_ok c : restricted_charb c = true -> restricted_char c.
Proof.
  unfold restricted_charb, restricted_char, digit, lower. rewrite !orb_true_iff. intros [[H|H]|H].
  - left. now apply between_ok.
  - right; left. now apply between_ok.
  - right; right. now apply oneof_in.
Qed.
Definition restricted_nameb (s : string) : bool :=
  match s with EmptyString => false | String c _ => between 48 57 c || between 97 122 c end
  && all_charsb restricted_charb s && (N.of_nat (String.length s) <=? 127).
Lemma restricted_nameb_ok s : restricted_nameb s = true -> restricted_name s.
Proof.
  unfold restricted_nameb, restricted_name. rewrite !andb_true_iff. intros [[H1 H2] H3]. repeat split.
  - destruct s as [|c t]; [discriminate|]. exists c, t. split; [reflexivity|].
    apply orb_prop in H1 as [H|H]; [left|right]; now apply between_ok.
  - eapply all_charsb_ok; [|exact H2]. apply restricted_charb_ok.
  - lia.
Qed.

Definition tops : list string := ["application"; "audio"; "font"; "image"; "message"; "model"; "multipart"; "text"; "video"].
Fixpoint strip (p s : string) : option string :=
  match p, s with
  | EmptyString, _ => Some s
  | String a p', String b s' => if Ascii.eqb a b then strip p' s' else None
  | _, _ => None
  end.
Lemma strip_ok p : forall s r, strip p s = Some r -> s = p ++ r.
Proof.
  induction p as [|a p IH]; cbn; intros s r H; [congruence|].
  destruct s as [|b s]; [discriminate|]. destruct (Ascii.eqb a b) eqn:E; [|discriminate].
  apply Ascii.eqb_eq in E. subst. f_equal. auto.
Qed.
Definition media_typeb (s : string) : bool :=
  existsb (fun t => match strip t s with
                    | Some (String c u) => Ascii.eqb c "/" && restricted_nameb u
                    | _ => false end) tops.
Lemma media_typeb_ok s : media_typeb s = true -> is_media_type s.
Proof.
  unfold media_typeb. rewrite existsb_exists. intros (t & Ht & H).
  destruct (strip t s) as [[|c u]|] eqn:E; try discriminate.
  apply andb_prop in H as [H1 H2]. apply Ascii.eqb_eq in H1. subst c.
  exists t, u. split; [now apply strip_ok|]. split; [exact Ht|now apply restricted_nameb_ok].
Qed.

Definition extensionb (s : string) : bool :=
  negb (String.eqb s "") &&
  all_charsb (fun c => between 48 57 c || between 97 122 c || between 65 90 c || oneof ["_"; "-"; "+"]%char c) s.
Lemma extensionb_ok s : extensionb s = true -> is_extension s.
Proof.
  unfold extensionb, is_extension. rewrite andb_true_iff, negb_true_iff. intros [H1 H2]. split.
  - now apply String.eqb_neq.
  - eapply all_charsb_ok; [|exact H2]. intros c. cbn beta. rewrite !orb_true_iff.
    intros [[[H|H]|H]|H]; [left|right; left|right; right; left|right; right; right];
      try (now apply between_ok); now apply oneof_in.
Qed.

Fixpoint last_is (a : ascii) (s : string) : bool :=
  match s with EmptyString => false | String c EmptyString => Ascii.eqb a c | String _ t => last_is a t end.
Lemma last_is_app a t : last_is a (t ++ String a "") = true.
Proof.
  induction t as [|c t IH]; [cbn; apply Ascii.eqb_refl|].
  cbn. destruct (t ++ String a "") eqn:E; [destruct t; discriminate|]. exact IH.
Qed.
Definition labelb (s : string) : bool :=
  negb (String.eqb s "") && all_charsb (between 32 126) s &&
  negb (match strip " " s with Some _ => true | None => false end) && negb (last_is " " s).
Lemma labelb_ok s : labelb s = true -> is_label s.
Proof.
  unfold labelb, is_label. rewrite !andb_true_iff, !negb_true_iff. intros [[[H1 H2] H3] H4]. repeat split.
  - now apply String.eqb_neq.
  - eapply all_charsb_ok; [|exact H2]. intros c. apply between_ok.
  - intros t ->. now cbn in H3.
  - intros t ->. now rewrite last_is_app in H4.
Qed.

(** Lists of distinct strings. *)
Fixpoint distinctb (l : list string) : bool :=
  match l with [] => true | s :: t => negb (existsb (String.eqb s) t) && distinctb t end.
Lemma distinctb_ok l : distinctb l = true -> NoDup l.
Proof.
  induction l as [|s t IH]; cbn; [constructor|]. rewrite andb_true_iff, negb_true_iff. intros [H1 H2].
  constructor; [|auto]. intros Hin. assert (existsb (String.eqb s) t = true); [|congruence].
  rewrite existsb_exists. exists s. split; [exact Hin|apply String.eqb_refl].
Qed.
Lemma NoDup_map_inj {A} (f : A -> string) l : NoDup (map f l) -> forall x y, In x l -> In y l -> f x = f y -> x = y.
Proof.
  induction l as [|a l IH]; cbn; intros Hn x y Hx Hy E; [easy|]. inversion Hn as [|? ? Hna Hnl]; subst.
  destruct Hx as [->|Hx], Hy as [->|Hy]; auto.
  - exfalso. apply Hna. rewrite E. now apply in_map.
  - exfalso. apply Hna. rewrite <- E. now apply in_map.
Qed.
