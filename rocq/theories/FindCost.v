(** The searches of Find.v and the readers that search (readers.rs), with a counter: how many bytes of the data
    are compared with a byte of the pattern.  Erasing the counter gives Find.v and Readers.v (proved in
    PropertiesCost.v). *)
From Coq Require Import List NArith ZArith Bool Arith.
From Verif Require Import Base Formats IO Find Readers.
Local Open Scope nat_scope.

(** readers.rs 1212-1218, as [find_inner]; one comparison for each evaluation of the loop condition. *)
Fixpoint find_inner_counted (pat data : bytes) (data_index pat_index : nat) : exec (option nat * nat) :=
  bind_exec (index pat pat_index) (fun p =>
  bind_exec (usub data_index (length pat - 1 - pat_index)) (fun j =>
  bind_exec (index data j) (fun d =>
  if Byte.eqb p d then
    match pat_index with
    | O => bind_exec (usub data_index (length pat - 1)) (fun i => Done (Some i, 1))
    | S pi => bind_exec (find_inner_counted pat data data_index pi) (fun '(r, n) => Done (r, S n))
    end
  else Done (None, 1)))).

(** readers.rs 1210-1221, as [find_outer].  Result, rounds of the outer loop, comparisons. *)
Fixpoint find_outer_counted (fuel : nat) (t : shift_table) (pat data : bytes) (data_index : nat)
  : exec (option nat * nat * nat) :=
  if data_index <? length data then
    match fuel with
    | O => OutOfFuel
    | S f =>
        bind_exec (find_inner_counted pat data data_index (length pat - 1)) (fun '(r, n) =>
        match r with
        | Some i => Done (Some i, 1, n)
        | None =>
            bind_exec (index data data_index) (fun d =>
            bind_exec (find_outer_counted f t pat data (data_index + t d)) (fun '(r', a, n') =>
            Done (r', S a, n + n')))
        end)
    end
  else Done (None, 0, 0).

(** readers.rs 1190-1222, as [find]. *)
Definition find_counted (data pat : bytes) : exec (option nat * nat * nat) :=
  match pat with
  | [] => Done (Some 0, 0, 0)
  | _ =>
      if length data <? length pat then Done (None, 0, 0)
      else find_outer_counted (S (length data)) (forward_shift pat) pat data (length pat - 1)
  end.

(** readers.rs 1225-1230, as [holds]; comparisons only. *)
Definition holds_counted (data pat : bytes) : exec (bool * nat) :=
  bind_exec (find_counted data pat) (fun '(r, _, n) => Done (match r with Some _ => true | None => false end, n)).

(** readers.rs 1255-1261, as [rfind_inner]. *)
Fixpoint rfind_inner_counted (m : nat) (pat data : bytes) (data_index pat_index : nat)
  : exec (option nat * nat) :=
  match m with
  | O => OutOfFuel
  | S m' =>
      bind_exec (index pat pat_index) (fun p =>
      bind_exec (index data (data_index + pat_index)) (fun d =>
      if Byte.eqb p d then
        if pat_index =? length pat - 1 then Done (Some data_index, 1)
        else bind_exec (rfind_inner_counted m' pat data data_index (S pat_index)) (fun '(r, n) => Done (r, S n))
      else Done (None, 1)))
  end.

(** readers.rs 1254-1267, as [rfind_outer]. *)
Fixpoint rfind_outer_counted (fuel : nat) (t : shift_table) (pat data : bytes) (data_index : nat)
  : exec (option nat * nat * nat) :=
  match fuel with
  | O => OutOfFuel
  | S f =>
      bind_exec (rfind_inner_counted (length pat) pat data data_index 0) (fun '(r, n) =>
      match r with
      | Some i => Done (Some i, 1, n)
      | None =>
          bind_exec (index data data_index) (fun d =>
          if t d <=? data_index
          then bind_exec (rfind_outer_counted f t pat data (data_index - t d)) (fun '(r', a, n') =>
               Done (r', S a, n + n'))
          else Done (None, 1, n))
      end)
  end.

(** readers.rs 1232-1269, as [rfind]. *)
Definition rfind_counted (data pat : bytes) : exec (option nat * nat * nat) :=
  match pat with
  | [] => Done (Some (length data), 0, 0)
  | _ =>
      if length data <? length pat then Done (None, 0, 0)
      else rfind_outer_counted (S (length data)) (backward_shift pat) pat data (length data - length pat)
  end.

(** readers.rs 632-656, as [pdf_loop]: result, bytes read, comparisons. *)
Local Open Scope N_scope.
Fixpoint pdf_loop_counted (fuel : nat) (total_nread : N) (buf : bytes) (work : N)
  : prog (result FileFormat * N * N) :=
  if total_nread <? PDF_READ_LIMIT then
    bindp (read CHUNK_SIZE) (fun r =>
    match r with
    | Err e => Ret (Err e, total_nread, work)
    | Ok chunk =>
        let nread := lenN chunk in
        if nread =? 0 then Ret (Ok PortableDocumentFormat, total_nread, work)
        else
          let buf1 := takeN OVERLAP_SIZE buf ++ chunk ++ dropN (OVERLAP_SIZE + nread) buf in
          let start := if total_nread =? 0 then OVERLAP_SIZE else 0 in
          bindp (lift_exec (holds_counted (dropN start (takeN (OVERLAP_SIZE + nread) buf1)) AI_MARKER))
            (fun '(found, n) =>
          if found then Ret (Ok AdobeIllustratorArtwork, total_nread + nread, work + N.of_nat n)
          else
            let buf2 := rotate_right OVERLAP_SIZE (takeN (OVERLAP_SIZE + nread) buf1)
                        ++ dropN (OVERLAP_SIZE + nread) buf1 in
            match fuel with
            | O => PFuel
            | S f => pdf_loop_counted f (total_nread + nread) buf2 (work + N.of_nat n)
            end)
    end)
  else Ret (Ok PortableDocumentFormat, total_nread, work).

(** readers.rs 609-656, as [from_pdf_reader]. *)
Definition from_pdf_reader_counted (fuel : nat) : prog (result FileFormat * N * N) :=
  bindp (seek (FromStart 5)) (fun r =>
  match r with
  | Err e => Ret (Err e, 0, 0)
  | Ok _ => pdf_loop_counted fuel 0 (repeat x00 (N.to_nat (OVERLAP_SIZE + CHUNK_SIZE))) 0
  end).

(** readers.rs 726-746, as [from_sqlite3_reader]: result, comparisons. *)
Definition from_sqlite3_reader_counted : prog (result FileFormat * N) :=
  bindp (seek (FromStart 100)) (fun r =>
  match r with
  | Err e => Ret (Err e, 0)
  | Ok _ =>
      bindp (read 32768) (fun r =>
      match r with
      | Err e => Ret (Err e, 0)
      | Ok buf =>
          bindp (lift_exec (holds_counted buf SKETCH_MARKER)) (fun '(found, n) =>
          Ret (Ok (if found then Sketch else Sqlite3), N.of_nat n))
      end)
  end).

(** readers.rs 791-851, as [xeval] and [xml_chain]. *)
Fixpoint xeval_counted (buf : bytes) (x : xcond) : exec (bool * nat) :=
  match x with
  | XHolds s => holds_counted buf (bs s)
  | XOr a b => bind_exec (xeval_counted buf a) (fun '(r, n) => if r then Done (true, n)
      else bind_exec (xeval_counted buf b) (fun '(r', n') => Done (r', (n + n')%nat)))
  | XAnd a b => bind_exec (xeval_counted buf a) (fun '(r, n) => if r then
        bind_exec (xeval_counted buf b) (fun '(r', n') => Done (r', (n + n')%nat))
      else Done (false, n))
  end.
Fixpoint xml_chain_counted (buf : bytes) (rules : list (xcond * FileFormat)) : exec (FileFormat * nat) :=
  match rules with
  | [] => Done (ExtensibleMarkupLanguage, 0%nat)
  | (x, f) :: rules' =>
      bind_exec (xeval_counted buf x) (fun '(r, n) => if r then Done (f, n)
      else bind_exec (xml_chain_counted buf rules') (fun '(f', n') => Done (f', (n + n')%nat)))
  end.

(** readers.rs 779-852, as [from_xml_reader]. *)
Definition from_xml_reader_counted : prog (result FileFormat * N) :=
  bindp (seek (FromStart 5)) (fun r =>
  match r with
  | Err e => Ret (Err e, 0)
  | Ok _ =>
      bindp (read 8192) (fun r =>
      match r with
      | Err e => Ret (Err e, 0)
      | Ok buf =>
          bindp (lift_exec (xml_chain_counted buf xml_rules)) (fun '(f, n) => Ret (Ok f, N.of_nat n))
      end)
  end).

(** readers.rs 881-889, as [zip_find_eocd]. *)
Definition zip_find_eocd_counted (c : plat) (len : N) : prog (result N * N) :=
  let offset := sat_sub len EOCD_MAX_SIZE in
  bindp (seek (FromStart offset)) (fun r =>
  match r with
  | Err e => Ret (Err e, 0)
  | Ok _ =>
      bindp (read_bytes c (N.min (N.max (as_usize c len) EOCD_MIN_SIZE) EOCD_MAX_SIZE)) (fun r =>
      match r with
      | Err e => Ret (Err e, 0)
      | Ok buf =>
          bindp (lift_exec (rfind_counted buf EOCD_SIGNATURE)) (fun '(r, _, n) =>
          match r with
          | None => Ret (Err EInvalidData, N.of_nat n)
          | Some buf_index => bindp (u64_add c offset (N.of_nat buf_index)) (fun e => Ret (Ok e, N.of_nat n))
          end)
      end)
  end).
