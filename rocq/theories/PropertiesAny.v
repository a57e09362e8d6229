(** C53: from_reader on arbitrary implementations of [Read + Seek] (model: AnyReader.v, contracts:
    SpecAny.v).  The content may change under the reader, errors may come at any time. *)
From Coq Require Import NArith ZArith Bool String List Lia ZifyBool ZifyNat ZifyN.
From Verif Require Import Base BaseProofs Formats FormatsProofs Signatures IO Readers Lib Mem Documented Static
  ReaderStatic Spec SpecSig SpecText SpecApi LibProofs Ideal SigProofs CoreProofs Conf Glue ScanProofs AnyReader SpecAny AnyProofs
  PropertiesApi PropertiesWalk PropertiesMedia PropertiesBin.
Ltac Zify.zify_post_hook ::= idtac.
Local Open Scope N_scope.

(** ** What [from_reader] can return *)
Lemma any_from_reader {S} rd sk fuel (J : abuf S -> Prop) tp (c : cfg) s : read_contract rd -> seek_contract sk ->
  supported c -> alaw (a_buf_machine S rd sk fuel) J tp -> (forall d, J (mkabuf d [])) ->
  match rd 36870 s with
  | (Err e, _) => fst (a_from_reader S rd sk fuel c s) = Done (Err e)
  | (Ok [], _) => fst (a_from_reader S rd sk fuel c s) = Done (Ok Empty)
  | (Ok l, _) =>
      match fst (a_from_reader S rd sk fuel c s) with
      | Done (Ok g) =>
          match from_signature l with
          | None => g = ArbitraryBinaryData \/ (feat c FTxt = true /\ g = PlainText)
          | Some f =>
              match feature_of f with
              | Some x => if feat c x
                          then family x g \/ g = ArbitraryBinaryData \/ (feat c FTxt = true /\ g = PlainText)
                          else g = f
              | None => g = f
              end
          end
      | Done (Err _) => False
      | Panicked => exists x, feat c x = true /\ x <> FTxt /\ from_signature l = Some (container x) /\
          (may_panic c x \/ tp /\ tells x)
      | OutOfFuel => True
      end
  end.
Proof.
  intros Hrd Hsk Hc HM HJ. unfold a_from_reader. change window with 36870.
  destruct (rd 36870 s) as [[[|b l]|e] s1]; [reflexivity| |reflexivity].
  assert (Hg : forall s2, match fst (a_from_generic_reader S rd sk fuel c s2) with
    | Done g => g = ArbitraryBinaryData \/ (feat c FTxt = true /\ g = PlainText) | Panicked => False | OutOfFuel => True end).
  { intros s2. pose proof (a_generic_law rd sk fuel Hrd Hsk J tp c s2 Hc HM (HJ s2)) as K.
    destruct (fst _); auto. intuition. }
  destruct (from_signature (b :: l)) as [f|] eqn:Ef.
  - rewrite a_fmt_eq. destruct (feature_of f) as [x|] eqn:Ex; [|reflexivity].
    destruct (feat c x) eqn:Efx; [|reflexivity].
    pose proof (a_run_law rd sk fuel Hrd Hsk J tp c x s1 Hc HM (HJ s1)) as K. apply feature_of_some in Ex.
    destruct (a_run rd sk fuel x (reader_of c fuel x) s1) as [[[g|e]| |] s2]; cbn [fst expected] in *; auto.
    + specialize (Hg s2). destruct (a_from_generic_reader S rd sk fuel c s2) as [[g| |] s3]; cbn [fst] in *; auto. contradiction.
    + destruct Ex as [-> Ex]. eauto 8.
  - specialize (Hg s1). destruct (a_from_generic_reader S rd sk fuel c s1) as [[g| |] s3]; cbn [fst] in *; auto. contradiction.
Qed.
Lemma any_law {S} rd sk fuel : read_contract rd -> seek_contract sk -> alaw (a_buf_machine S rd sk fuel) (fun _ => True) True.
Proof. intros H1 H2. now apply any_buf_law. Qed.

(** An error is the error of the first [read], and only that. *)
Theorem C53_errors_only_from_first_read : forall S rd sk fuel (c : cfg) (s : S) e,
  read_contract rd -> seek_contract sk -> supported c ->
  (fst (a_from_reader S rd sk fuel c s) = Done (Err e) <-> fst (rd 36870 s) = Err e).
Proof.
  intros S rd sk fuel c s e H1 H2 Hc. pose proof (any_from_reader rd sk fuel _ _ c s H1 H2 Hc (any_law rd sk fuel H1 H2) (fun _ => I)) as K.
  destruct (rd 36870 s) as [[[|b l]|e'] s1]; cbn [fst].
  - rewrite K. split; discriminate.
  - split; [|discriminate]. intros E. rewrite E in K. contradiction.
  - rewrite K. split; intros [= ->]; reflexivity.
Qed.
Print Assumptions C53_errors_only_from_first_read.

(** [Empty] is reported exactly when the first [read] returns nothing. *)
Theorem C53_empty_iff : forall S rd sk fuel (c : cfg) (s : S),
  read_contract rd -> seek_contract sk -> supported c ->
  (fst (a_from_reader S rd sk fuel c s) = Done (Ok Empty) <-> fst (rd 36870 s) = Ok []).
Proof.
  intros S rd sk fuel c s H1 H2 Hc. pose proof (any_from_reader rd sk fuel _ _ c s H1 H2 Hc (any_law rd sk fuel H1 H2) (fun _ => I)) as K.
  destruct (rd 36870 s) as [[[|b l]|e'] s1]; cbn [fst].
  - rewrite K. split; reflexivity.
  - split; [|discriminate]. intros E. exfalso. rewrite E in K.
    assert (He : In Empty never_signed) by now left.
    destruct (from_signature (b :: l)) as [f|] eqn:Ef.
    + destruct (feature_of f) as [x|] eqn:Ex.
      * destruct (feat c x) eqn:Efx.
        -- destruct K as [K|[K|[_ K]]]; [|discriminate K|discriminate K].
           apply feature_of_some in Ex. apply (family_never x Empty); [apply Ex|exact K|exact He].
        -- subst f. exact (from_signature_never _ _ Ef He).
      * subst f. exact (from_signature_never _ _ Ef He).
    + destruct K as [K|[_ K]]; discriminate K.
  - rewrite K. split; intros; discriminate.
Qed.
Print Assumptions C53_empty_iff.

(** Every other result is the signature found in the first read, a documented refinement of it, or
    one of the two generic answers. *)
Theorem C53_result_is_documented : forall S rd sk fuel (c : cfg) (s : S) l g,
  read_contract rd -> seek_contract sk -> supported c ->
  fst (rd 36870 s) = Ok l -> l <> [] -> fst (a_from_reader S rd sk fuel c s) = Done (Ok g) ->
  (no_match signatures l /\ (g = ArbitraryBinaryData \/ (feat c FTxt = true /\ g = PlainText))) \/
  (exists f, first_match signatures l f /\
     (g = f \/
      exists x, feat c x = true /\ x <> FTxt /\ f = container x /\
        (In g (documented x) \/ g = ArbitraryBinaryData \/ (feat c FTxt = true /\ g = PlainText)))).
Proof.
  intros S rd sk fuel c s l g H1 H2 Hc Hl Hne Hg.
  pose proof (any_from_reader rd sk fuel _ _ c s H1 H2 Hc (any_law rd sk fuel H1 H2) (fun _ => I)) as K.
  destruct (rd 36870 s) as [[[|b l']|e'] s1]; cbn [fst] in Hl; [congruence| |discriminate].
  injection Hl as <-. rewrite Hg in K. destruct (from_signature (b :: l')) as [f|] eqn:E.
  - right. exists f. apply from_signature_some in E. split; [exact E|].
    destruct (feature_of f) as [x|] eqn:Ef; [|now left].
    apply feature_of_some in Ef. destruct Ef as [-> Hx].
    destruct (feat c x) eqn:Efx; [|now left].
    destruct K as [[->|K]|[->|[K1 ->]]]; [now left|right; exists x; repeat split; auto..].
  - left. apply from_signature_none in E. split; [exact E|]. destruct K as [->|[K1 ->]]; auto.
Qed.
Print Assumptions C53_result_is_documented.
(** Without signature and without the text reader the first read decides alone. *)
Theorem C53_signature_from_first_read : forall S rd sk fuel (c : cfg) (s : S) l,
  fst (rd 36870 s) = Ok l -> l <> [] ->
  (forall f, first_match signatures l f -> (forall x, feat c x = true -> x <> FTxt -> f <> container x) ->
    fst (a_from_reader S rd sk fuel c s) = Done (Ok f)) /\
  (no_match signatures l -> feat c FTxt = false -> fst (a_from_reader S rd sk fuel c s) = Done (Ok ArbitraryBinaryData)).
Proof.
  intros S rd sk fuel c s l Hl Hne. unfold a_from_reader. change window with 36870.
  destruct (rd 36870 s) as [[[|b l']|e'] s1]; cbn [fst] in Hl; [congruence| |discriminate].
  injection Hl as <-. split.
  - intros f Hf Hx. apply from_signature_some in Hf. rewrite Hf, a_fmt_eq.
    destruct (feature_of f) as [x|] eqn:Ex; [|reflexivity]. apply feature_of_some in Ex. destruct Ex as [Ex Ht].
    destruct (feat c x) eqn:Efx; [|reflexivity]. exfalso. exact (Hx x Efx Ht Ex).
  - intros Hn Ht. apply from_signature_none in Hn. rewrite Hn. unfold a_from_generic_reader. now rewrite Ht.
Qed.
Print Assumptions C53_signature_from_first_read.

(** ** Panics *)
Lemma owned_no_panic {S} rd sk fuel position (c : cfg) (s : S) : read_contract rd -> seek_contract sk -> own_cursor rd sk position ->
  supported c -> (forall x, feat c x = true -> ~ may_panic c x) -> fst (a_from_reader S rd sk fuel c s) <> Panicked.
Proof.
  intros H1 H2 H3 Hc Hp E.
  pose proof (any_from_reader rd sk fuel _ _ c s H1 H2 Hc (owned_buf_law rd sk fuel H1 H2 position H3)) as K.
  cbn [a_buf a_dev] in K. specialize (K ltac:(intros; rewrite lenN_nil; lia)).
  destruct (rd 36870 s) as [[[|b l]|e'] s1]; rewrite E in K; [discriminate| |discriminate].
  destruct K as (x & Hf & _ & _ & [K|[K _]]); [exact (Hp x Hf K)|exact K].
Qed.
(** A reader with its own cursor cannot make a release build panic, whatever its content does. *)
Theorem C53_own_cursor_never_panics : forall S rd sk position fuel (c : cfg) (s : S),
  read_contract rd -> seek_contract sk -> own_cursor rd sk position -> supported c ->
  ovf c = false -> usize_bits c = 64 \/ feat c FZip = false ->
  fst (a_from_reader S rd sk fuel c s) <> Panicked.
Proof.
  intros S rd sk position fuel c s H1 H2 H3 Hc Ho Hb. apply (owned_no_panic rd sk fuel position); auto.
  intros x Hx. unfold may_panic. rewrite Ho. destruct x; auto; try discriminate.
  intros [K|K]; [discriminate|]. destruct Hb as [Hb|Hb]; congruence.
Qed.
Print Assumptions C53_own_cursor_never_panics.
(** Nor a checked build without the four readers that do unchecked arithmetic. *)
Theorem C53_own_cursor_never_panics_checked : forall S rd sk position fuel (c : cfg) (s : S),
  read_contract rd -> seek_contract sk -> own_cursor rd sk position -> supported c ->
  feat c FAsf = false -> feat c FId3v2 = false -> feat c FMp4 = false -> feat c FZip = false ->
  fst (a_from_reader S rd sk fuel c s) <> Panicked.
Proof.
  intros S rd sk position fuel c s H1 H2 H3 Hc G1 G2 G3 G4. apply (owned_no_panic rd sk fuel position); auto.
  intros x Hx. destruct x; cbn; try congruence; auto.
Qed.
Print Assumptions C53_own_cursor_never_panics_checked.
(** Without that promise only the readers that ask for the position behind a buffer can panic. *)
Theorem C53_panic_needs_positions : forall S rd sk fuel (c : cfg) (s : S),
  read_contract rd -> seek_contract sk -> supported c ->
  ovf c = false -> usize_bits c = 64 \/ feat c FZip = false ->
  fst (a_from_reader S rd sk fuel c s) = Panicked ->
  exists l x, fst (rd 36870 s) = Ok l /\ signed c x l /\ (x = FAsf \/ x = FEbml \/ x = FMp4 \/ x = FRm).
Proof.
  intros S rd sk fuel c s H1 H2 Hc Ho Hb E.
  pose proof (any_from_reader rd sk fuel _ _ c s H1 H2 Hc (any_law rd sk fuel H1 H2) (fun _ => I)) as K.
  destruct (rd 36870 s) as [[[|b l]|e'] s1]; cbn [fst]; rewrite E in K; [discriminate| |discriminate].
  destruct K as (x & Hf & Hx & Hs & K). exists (b :: l), x. split; [reflexivity|].
  apply from_signature_some in Hs. split; [now split|]. destruct K as [K|[_ K]]; [|exact K].
  exfalso. revert K. unfold may_panic. rewrite Ho. destruct x; auto; try discriminate.
  intros [K|K]; [discriminate|]. destruct Hb as [Hb|Hb]; congruence.
Qed.
Print Assumptions C53_panic_needs_positions.

(** ** A result does not depend on the fuel of the model *)
Theorem C53_results_are_final : forall S rd sk fuel fuel' (c : cfg) (s : S), (fuel <= fuel')%nat ->
  fst (a_from_reader S rd sk fuel c s) <> OutOfFuel ->
  a_from_reader S rd sk fuel' c s = a_from_reader S rd sk fuel c s.
Proof.
  intros S rd sk fuel fuel' c s H Hn. pose proof (from_reader_mono S rd sk fuel fuel' c s H) as K.
  destruct (a_from_reader S rd sk fuel c s) as [[r| |] s']; cbn [oneop fst] in *; try (destruct K as (t & -> & <-); reflexivity).
  contradiction.
Qed.
Print Assumptions C53_results_are_final.
(** On the devices of IO.v this model is the other one. *)
Theorem C53_agrees_with_from_reader : forall (c : cfg) d fuel, supported c -> rust_slice (d_content d) -> d_max d < 2 ^ 64 ->
  (List.length (d_reads d) + List.length (d_content d) + 6 <= fuel)%nat ->
  a_from_reader dev dev_read dev_seek fuel c d = from_reader c d.
Proof.
  intros c d fuel Hc Hl Hm Hf. pose proof (device_from_reader fuel c d ltac:(lia)) as K.
  pose proof (from_reader_any c d Hc Hl Hm) as Hn.
  destruct (from_reader c d) as [[r| |] d']; cbn [oneop fst] in *; try (destruct K as (t & -> & <- & _); reflexivity).
  exfalso. destruct (dev_read window d) as [[[|b l]|e] d1]; [discriminate|contradiction|discriminate].
Qed.
Print Assumptions C53_agrees_with_from_reader.

(** ** Readers that are not byte strings *)
(** A log file that somebody writes to: before each call the next piece is appended. *)
Record growing : Set := mkgrowing { g_content : bytes; g_pos : N; g_future : list bytes }.
Definition grow (g : growing) : growing :=
  match g_future g with
  | [] => g
  | p :: t => mkgrowing (g_content g ++ p) (g_pos g) t
  end.
Definition g_read (n : N) (g0 : growing) : result bytes * growing :=
  let g := grow g0 in
  let l := takeN n (dropN (g_pos g) (g_content g)) in
  (Ok l, mkgrowing (g_content g) (g_pos g + lenN l) (g_future g)).
Definition g_seek (w : whence) (g0 : growing) : result N * growing :=
  let g := grow g0 in
  let t := seek_target (lenN (g_content g)) (g_pos g) w in
  if (t <? 0)%Z || (i64_max <? t)%Z then (Err EInvalidInput, g)
  else (Ok (Z.to_N t), mkgrowing (g_content g) (Z.to_N t) (g_future g)).
Lemma grow_pos g : g_pos (grow g) = g_pos g.
Proof. unfold grow. destruct (g_future g); reflexivity. Qed.
Lemma growing_reads : read_contract g_read.
Proof. intros n s l s'. unfold g_read. intros [= <- <-]. rewrite lenN_takeN. lia. Qed.
Lemma growing_seeks : seek_contract g_seek.
Proof.
  intros w s p s'. unfold g_seek. destruct (_ || _) eqn:E; [discriminate|]. intros [= <- <-].
  unfold i64_max in E. change (2 ^ 64) with 18446744073709551616. lia.
Qed.
Lemma growing_cursor : own_cursor g_read g_seek g_pos.
Proof.
  split.
  - intros n s l s'. unfold g_read. intros [= <- <-]. cbn [g_pos]. now rewrite grow_pos.
  - intros n s e s'. unfold g_read. discriminate.
  - intros w s p s'. unfold g_seek. destruct (_ || _); [discriminate|]. intros [= <- <-]. reflexivity.
  - intros w s e s'. unfold g_seek. destruct (_ || _); [|discriminate]. intros [= <- <-]. apply grow_pos.
  - intros s p s'. unfold g_seek. cbn [seek_target]. destruct (_ || _) eqn:E; [discriminate|]. intros [= <- <-].
    rewrite grow_pos. lia.
Qed.
(** So the theorems above apply to it; for instance to an executable whose second header is written
    while it is being examined. *)
Example C53_witness_growing :
  let s := mkgrowing (bs "MZ" ++ repeat x00 58 ++ [x40; x00; x00; x00]) 0 [[]; bs "NE..........."] in
  fst (g_read 36870 s) = Ok (bs "MZ" ++ repeat x00 58 ++ [x40; x00; x00; x00]) /\
  fst (a_from_reader growing g_read g_seek 20 cfg_all s) = Done (Ok NewExecutable) /\
  from_bytes cfg_all (g_content s) = Done MsDosExecutable.
Proof. cbv zeta. split; [vm_compute; reflexivity|]. split; vm_compute; reflexivity. Qed.

(** A handle shared with another thread: before each call the other thread may have moved the
    position. *)
Record shared : Set := mkshared { sh_pos : N; sh_other : list (option N) }.
Definition moved (s : shared) : shared :=
  match sh_other s with
  | [] => s
  | o :: t => mkshared match o with Some p => p | None => sh_pos s end t
  end.
Section Shared.
Variable content : bytes.
Definition sh_read (n : N) (s0 : shared) : result bytes * shared :=
  let s := moved s0 in
  let l := takeN n (dropN (sh_pos s) content) in
  (Ok l, mkshared (sh_pos s + lenN l) (sh_other s)).
Definition sh_seek (w : whence) (s0 : shared) : result N * shared :=
  let s := moved s0 in
  let t := seek_target (lenN content) (sh_pos s) w in
  if (t <? 0)%Z || (i64_max <? t)%Z then (Err EInvalidInput, s)
  else (Ok (Z.to_N t), mkshared (Z.to_N t) (sh_other s)).
Lemma shared_reads : read_contract sh_read.
Proof. intros n s l s'. unfold sh_read. intros [= <- <-]. rewrite lenN_takeN. lia. Qed.
Lemma shared_seeks : seek_contract sh_seek.
Proof.
  intros w s p s'. unfold sh_seek. destruct (_ || _) eqn:E; [discriminate|]. intros [= <- <-].
  unfold i64_max in E. change (2 ^ 64) with 18446744073709551616. lia.
Qed.
End Shared.
(** One rewind by the other thread, before the call number [k]. *)
Definition one_rewind (k : nat) : shared := mkshared 0 (repeat None k ++ [Some 0]).
(** "A legal reader cannot make from_reader panic" is false: the MP4, EBML, RealMedia and ASF readers
    ask a BufReader for its position, which panics when the handle stands before the buffered bytes. *)
Theorem C53_shared_handle_never_panics_refuted :
  forall x, x = FAsf \/ x = FEbml \/ x = FMp4 \/ x = FRm ->
  exists content k, read_contract (sh_read content) /\ seek_contract (sh_seek content) /\
    signed cfg_all x content /\ ovf cfg_all = false /\ usize_bits cfg_all = 64 /\
    (exists g, fst (a_from_reader shared (sh_read content) (sh_seek content) 20 cfg_all (mkshared 0 [])) = Done (Ok g)) /\
    forall fuel, (20 <= fuel)%nat ->
      fst (a_from_reader shared (sh_read content) (sh_seek content) fuel cfg_all (one_rewind k)) = Panicked.
Proof.
  assert (H : forall x content k g, signed cfg_all x content ->
    fst (a_from_reader shared (sh_read content) (sh_seek content) 20 cfg_all (mkshared 0 [])) = Done (Ok g) ->
    fst (a_from_reader shared (sh_read content) (sh_seek content) 20 cfg_all (one_rewind k)) = Panicked ->
    exists content k, read_contract (sh_read content) /\ seek_contract (sh_seek content) /\
    signed cfg_all x content /\ ovf cfg_all = false /\ usize_bits cfg_all = 64 /\
    (exists g, fst (a_from_reader shared (sh_read content) (sh_seek content) 20 cfg_all (mkshared 0 [])) = Done (Ok g)) /\
    forall fuel, (20 <= fuel)%nat ->
      fst (a_from_reader shared (sh_read content) (sh_seek content) fuel cfg_all (one_rewind k)) = Panicked).
  { intros x content k g H1 H2 H3. exists content, k. split; [apply shared_reads|]. split; [apply shared_seeks|].
    split; [exact H1|]. split; [reflexivity|]. split; [reflexivity|]. split; [exists g; exact H2|].
    intros fuel Hf. rewrite (C53_results_are_final _ _ _ 20 fuel) by (try exact Hf; rewrite H3; discriminate). exact H3. }
  intros x [->|[->|[->| ->]]].
  - apply (H _ (asf_sample asf_audio_only) 7%nat WindowsMediaAudio); [signed_by_computation|vm_compute; reflexivity ..].
  - apply (H _ ebml_cut 5%nat Webm); [signed_by_computation|vm_compute; reflexivity ..].
  - apply (H _ mp4_cut 8%nat Mpeg4Part14Audio); [signed_by_computation|vm_compute; reflexivity ..].
  - apply (H _ rm_cut 3%nat Realvideo); [signed_by_computation|vm_compute; reflexivity ..].
Qed.
Print Assumptions C53_shared_handle_never_panics_refuted.

(** ** Readers without an end *)
(** A stream that is nothing but ID3v2 tags of 16 bytes. *)
Definition tags : bytes := bs "ID3" ++ [x04; x00; x00; x00; x00; x00; x06] ++ repeat x00 6.
Definition tags_read (n p : N) : result bytes * N :=
  let l := takeN n (dropN (p mod 16) tags) in (Ok l, p + lenN l).
Definition tags_seek (w : whence) (p : N) : result N * N :=
  let t := seek_target 0 p w in
  if (t <? 0)%Z || (Z.of_N (u64_max1 - 1) <? t)%Z then (Err EInvalidInput, p) else (Ok (Z.to_N t), Z.to_N t).
Lemma tags_reads : read_contract tags_read.
Proof. intros n s l s'. unfold tags_read. intros [= <- <-]. rewrite lenN_takeN. lia. Qed.
Lemma tags_seeks : seek_contract tags_seek.
Proof.
  intros w s p s'. unfold tags_seek. destruct (_ || _) eqn:E; [discriminate|]. intros [= <- <-].
  unfold u64_max1 in E. change (2 ^ 64) with 18446744073709551616. lia.
Qed.
Lemma tags_cursor : own_cursor tags_read tags_seek (fun p => p).
Proof.
  split; unfold tags_read, tags_seek.
  - intros n s l s' [= <- <-]. reflexivity.
  - discriminate.
  - intros w s p s'. destruct (_ || _); [discriminate|]. now intros [= <- <-].
  - intros w s e s'. destruct (_ || _); [|discriminate]. now intros [= <- <-].
  - intros s p s'. cbn [seek_target]. destruct (_ || _); [discriminate|]. intros [= <- _]. lia.
Qed.
Lemma tags_seek_start p q : p < u64_max1 -> tags_seek (FromStart p) q = (Ok p, p).
Proof. intros H. unfold tags_seek. cbn [seek_target]. replace (_ || _) with false by lia. now rewrite N2Z.id. Qed.
Lemma tags_header p : p mod 16 = 0 -> tags_read 10 p = (Ok (takeN 10 tags), p + 10).
Proof. intros H. unfold tags_read. rewrite H. reflexivity. Qed.
Lemma tags_exact fuel p : p mod 16 = 0 ->
  read_exact_loop tags_read (S fuel) 10 [] p = (Done (Ok (takeN 10 tags)), p + 10).
Proof.
  intros H. cbn [read_exact_loop]. change (10 =? 0) with false. cbv iota. rewrite (tags_header p H).
  change (takeN 10 tags) with (x49 :: dropN 1 (takeN 10 tags)). cbv iota beta.
  change (10 - lenN (x49 :: dropN 1 (takeN 10 tags))) with 0. destruct fuel; reflexivity.
Qed.
Lemma wrap16 p : p mod 16 = 0 -> (((p + 10) mod u64_max1 + 6) mod u64_max1) mod 16 = 0.
Proof.
  intros Hm. rewrite N.add_mod_idemp_l by discriminate.
  pose proof (N.div_mod (p + 10 + 6) u64_max1 ltac:(discriminate)) as H.
  pose proof (N.div_mod p 16 ltac:(discriminate)) as Hd. rewrite Hm in Hd.
  assert (E : (p + 10 + 6) mod u64_max1 = 16 * (p / 16 + 1 - 1152921504606846976 * ((p + 10 + 6) / u64_max1)))
    by (unfold u64_max1 in *; lia).
  rewrite E, N.mul_comm. apply N.mod_mul. discriminate.
Qed.
Lemma tags_loop (c : plat) fuel : ovf c = false -> supported c -> forall n p q, p < u64_max1 -> p mod 16 = 0 ->
  exists s', arun (a_raw_machine N tags_read tags_seek (S fuel)) (id3v2_loop c n p) q = (OutOfFuel, s').
Proof.
  intros Ho Hc.
  assert (Hi : isize_max c <? 10 = false).
  { destruct Hc as [H|H]; unfold isize_max; rewrite H; reflexivity. }
  assert (Hadd : forall a b, exists r, u64_add c a b = Ret r /\ r = (a + b) mod u64_max1).
  { intros a b. unfold u64_add. rewrite Ho. destruct (N.ltb_spec (a + b) u64_max1) as [K|K]; eexists; (split; [reflexivity|]); auto.
    now rewrite N.mod_small. }
  induction n as [|n IH]; intros p q Hp Hm.
  all: cbn [id3v2_loop]; unfold seek, read_bytes, alloc, read_exact, bindio; rewrite Hi; cbn [bindp arun a_raw_machine am_seek am_read_exact];
    rewrite tags_seek_start by exact Hp; cbv iota beta; cbn [bindp arun am_read_exact]; 
    cbn [a_raw_machine am_read_exact]; rewrite tags_exact by exact Hm;
    cbn [bindp arun].
  all: change (negb (beqb (takeN 3 (takeN 10 tags)) (bs "ID3"))) with false; cbv iota;
    change (id3v2_tag_size (takeN 10 tags)) with 6; cbv zeta;
    change (bval (nth 5 (takeN 10 tags) x00)) with 0; change (negb (N.land 0 0x40 =? 0)) with false;
    change (negb (N.land 0 0x10 =? 0)) with false; cbv iota.
  all: destruct (Hadd p 10) as (r & -> & Er); cbn [bindp]; destruct (Hadd r 6) as (r2 & -> & Er2); cbn [bindp ok arun].
  - eauto.
  - apply IH.
    + subst r2. apply N.mod_lt. discriminate.
    + subst r2 r. now apply wrap16.
Qed.
Lemma fuel_below S rd sk f g (c : cfg) (s : S) : (f <= g)%nat ->
  fst (a_from_reader S rd sk g c s) = OutOfFuel -> fst (a_from_reader S rd sk f c s) = OutOfFuel.
Proof.
  intros Hfg H. pose proof (from_reader_mono S rd sk f g c s Hfg) as K.
  remember (a_from_reader S rd sk f c s) as x eqn:Ex. clear Ex.
  destruct x as [[r| |] s']; cbn [oneop fst] in *; try reflexivity; destruct K as (t & K & _); rewrite K in H; discriminate.
Qed.
(** "from_reader returns" is false for such a stream, in every release build with the ID3v2 reader. *)
Theorem C53_from_reader_always_returns_refuted : forall (c : cfg), supported c -> ovf c = false -> feat c FId3v2 = true ->
  read_contract tags_read /\ seek_contract tags_seek /\ own_cursor tags_read tags_seek (fun p => p) /\
  forall fuel, fst (a_from_reader N tags_read tags_seek fuel c 0) = OutOfFuel.
Proof.
  intros c Hc Ho Hf. split; [exact tags_reads|]. split; [exact tags_seeks|]. split; [exact tags_cursor|].
  assert (H : forall fuel, fst (a_from_reader N tags_read tags_seek (S fuel) c 0) = OutOfFuel).
  { intros fuel. unfold a_from_reader. change (tags_read window 0) with (@Ok bytes tags, 16).
    change tags with (x49 :: dropN 1 tags) at 1. cbv iota beta.
    change (from_signature (x49 :: dropN 1 tags)) with (from_signature tags).
    assert (E : from_signature tags = Some Id3v2) by (vm_compute; reflexivity). rewrite E.
    rewrite a_fmt_eq. cbn [feature_of]. rewrite Hf. unfold a_run. cbn [buffered reader_of]. unfold arun_raw, from_id3v2_reader, bindio.
    destruct (tags_loop c fuel Ho Hc (S fuel) 0 16) as (s' & K); [reflexivity|reflexivity|].
    rewrite arun_bindp, K. reflexivity. }
  intros [|fuel]; [|apply H]. exact (fuel_below N tags_read tags_seek 0 1 c 0 (le_S 0 0 (le_n 0)) (H 0%nat)).
Qed.
Print Assumptions C53_from_reader_always_returns_refuted.
