(** C57, continued: the features of the model are the ones in the text of Cargo.toml. *)
From Coq Require Import List NArith Bool String.
From Verif Require Import Base Rust Toml Source Cargo.
Import ListNotations.
Local Open Scope N_scope.

(** Cargo.toml has no other tables (in particular no dependencies), its features are the model's, and no
    feature of the package is called "default". *)
Theorem C57_cargo_toml : exists package,
  toml_of cargo_toml =
    Some [([], []); (bs "package", package);
          (bs "features", map (fun e => (bs (fst e), TVArray (map bs (snd e)))) manifest)] /\
  In (bs "name", TVString (bs "file-format")) package /\ In (bs "version", TVString (bs "0.28.0")) package /\
  ~ In "default"%string (map fst manifest).
Proof.
  eexists. split; [vm_compute; reflexivity|]. split; [vm_compute; tauto|]. split; [vm_compute; tauto|].
  intros H. repeat (destruct H as [H|H]; [discriminate H|]). exact H.
Qed.
Print Assumptions C57_cargo_toml.
