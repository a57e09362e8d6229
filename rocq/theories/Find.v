(** Model of the trait [FindBytes], /repo/src/readers.rs lines 1186-1271: Boyer-Moore-Horspool
    search, forwards and backwards.  Indexing out of range and subtraction below zero are
    explicit panics; the loops carry fuel. *)
From Coq Require Import List NArith Bool Arith.
From Verif Require Import Base IO.
Local Open Scope nat_scope.

Definition bind_exec {A B} (e : exec A) (f : A -> exec B) : exec B :=
  match e with Done a => f a | Panicked => Panicked | OutOfFuel => OutOfFuel end.

(** [data[i]]: panics when out of bounds. *)
Definition index {A} (l : list A) (i : nat) : exec A :=
  match nth_error l i with Some x => Done x | None => Panicked end.
(** [a - b] on [usize]: panics below zero (with overflow checks; without them the wrapped value
    would be an out-of-range index, so the model panics in both cases). *)
Definition usub (a b : nat) : exec nat :=
  if b <=? a then Done (a - b) else Panicked.

(** The array [[pat.len(); 256]] and its updates, as a function of the byte. *)
Definition shift_table := byte -> nat.
Definition set_shift (t : shift_table) (b : byte) (v : nat) : shift_table :=
  fun x => if Byte.eqb x b then v else t x.

(** readers.rs 1207-1209 (and 1250-1252 on the reversed pattern):
    for (index, &byte) in pat.iter().enumerate().take(pat.len() - 1)
      { shift_table[byte as usize] = pat.len() - 1 - index; } *)
Fixpoint fill_shift (plen : nat) (idx : nat) (l : bytes) (t : shift_table) : shift_table :=
  match l with
  | [] => t
  | b :: l' => fill_shift plen (S idx) l' (set_shift t b (plen - 1 - idx))
  end.
Definition forward_shift (pat : bytes) : shift_table :=
  fill_shift (length pat) 0 (firstn (length pat - 1) pat) (fun _ => length pat).
Definition backward_shift (pat : bytes) : shift_table :=
  fill_shift (length pat) 0 (firstn (length pat - 1) (rev pat)) (fun _ => length pat).

(** readers.rs 1212-1218, inner loop of [find]: compares backwards from [pat_index].
    Some i: match found at data index i; None: mismatch. *)
Fixpoint find_inner (pat data : bytes) (data_index pat_index : nat) : exec (option nat) :=
  bind_exec (index pat pat_index) (fun p =>
  bind_exec (usub data_index (length pat - 1 - pat_index)) (fun j =>
  bind_exec (index data j) (fun d =>
  if Byte.eqb p d then
    match pat_index with
    | O => bind_exec (usub data_index (length pat - 1)) (fun i => Done (Some i))
    | S pi => find_inner pat data data_index pi
    end
  else Done None))).

(** readers.rs 1210-1221, outer loop of [find]. *)
Fixpoint find_outer (fuel : nat) (t : shift_table) (pat data : bytes) (data_index : nat)
  : exec (option nat) :=
  if data_index <? length data then
    match fuel with
    | O => OutOfFuel
    | S f =>
        bind_exec (find_inner pat data data_index (length pat - 1)) (fun r =>
        match r with
        | Some i => Done (Some i)
        | None =>
            bind_exec (index data data_index) (fun d =>
            find_outer f t pat data (data_index + t d))
        end)
    end
  else Done None.

(** readers.rs 1190-1222: find. *)
Definition find (data pat : bytes) : exec (option nat) :=
  match pat with
  | [] => Done (Some 0)
  | _ =>
      if length data <? length pat then Done None
      else find_outer (S (length data)) (forward_shift pat) pat data (length pat - 1)
  end.

(** readers.rs 1225-1230: holds. *)
Definition holds (data pat : bytes) : exec bool :=
  bind_exec (find data pat) (fun r => Done (match r with Some _ => true | None => false end)).

(** readers.rs 1255-1261, inner loop of [rfind]: compares forwards from [pat_index];
    [n] is [pat.len() - pat_index], the structural measure. *)
Fixpoint rfind_inner (n : nat) (pat data : bytes) (data_index pat_index : nat)
  : exec (option nat) :=
  match n with
  | O => OutOfFuel
  | S n' =>
      bind_exec (index pat pat_index) (fun p =>
      bind_exec (index data (data_index + pat_index)) (fun d =>
      if Byte.eqb p d then
        if pat_index =? length pat - 1 then Done (Some data_index)
        else rfind_inner n' pat data data_index (S pat_index)
      else Done None))
  end.

(** readers.rs 1254-1267, outer loop of [rfind]. *)
Fixpoint rfind_outer (fuel : nat) (t : shift_table) (pat data : bytes) (data_index : nat)
  : exec (option nat) :=
  match fuel with
  | O => OutOfFuel
  | S f =>
      bind_exec (rfind_inner (length pat) pat data data_index 0) (fun r =>
      match r with
      | Some i => Done (Some i)
      | None =>
          bind_exec (index data data_index) (fun d =>
          if t d <=? data_index                   (* data_index.checked_sub(shift) *)
          then rfind_outer f t pat data (data_index - t d)
          else Done None)
      end)
  end.

(** readers.rs 1232-1269: rfind. *)
Definition rfind (data pat : bytes) : exec (option nat) :=
  match pat with
  | [] => Done (Some (length data))
  | _ =>
      if length data <? length pat then Done None
      else rfind_outer (S (length data)) (backward_shift pat) pat data
             (length data - length pat)
  end.
