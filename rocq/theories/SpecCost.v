(** The cost of searching (C64): what it means that a counted run is the run of the program. *)
From Coq Require Import List NArith Bool.
From Verif Require Import Base IO.
Local Open Scope N_scope.

(** [x] is [y] with additional information, which [erase] removes. *)
Definition erases_to {A B T} (erase : B -> A) (x : exec B * T) (y : exec A * T) : Prop :=
  y = (match fst x with Done b => Done (erase b) | Panicked => Panicked | OutOfFuel => OutOfFuel end, snd x).
