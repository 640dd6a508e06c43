(** Properties C01 - C06: the text parser.
    [fields], [annotated], [payload], [blank] are defined in Spec/TextSpec.v. *)
From Coq Require Import List NArith ZArith Bool Lia.
From Verif Require Import Py.Str Py.Res Py.Num Model.Dict Model.TextParser Model.ReadLoop
  Model.NARead Spec.TextSpec Spec.ZNum
  Proofs.StrLemmas Proofs.TextLemmas Proofs.ReadLoopLemmas Proofs.BlankLemmas.
Import ListNotations.
Open Scope Z_scope.

(** * C01 *)
(** The helper returns [p] exactly when [p] is the payload of the line: the part
    before a trailing annotation if there is one, the line itself otherwise;
    and there is at most one way to see a trailing annotation. *)
Theorem C01_right_strip :
  (forall l p, right_strip_braces l = p <-> payload l p) /\
  (forall l p g b p' g' b', annotated l p g b -> annotated l p' g' b' ->
     p = p' /\ g = g' /\ b = b').
Proof. split; [intros; symmetry; apply right_strip_payload | exact annotated_unique]. Qed.
Print Assumptions C01_right_strip.

Example C01_case :
  annotated (lit "1.0 2.0 {scale {x} factors} ") (lit "1.0 2.0 {scale ") [] [] -> False.
Proof. intros (E & _). discriminate. Qed.
Example C01_case2 :
  right_strip_braces (lit "1.0 2.0 {scale factors}  ") = lit "1.0 2.0 " /\
  right_strip_braces (lit "a{b}{c}") = lit "a{b}" /\
  right_strip_braces (lit "{only}") = lit "{only}" /\
  right_strip_braces (lit "a{x^y}") = lit "a{x^y}".
Proof. repeat split; vm_compute; reflexivity. Qed.

(** * C02 *)
(** For n >= 1 the reader either raises or returns n values, which are the
    conversions of the white-space separated fields of the payload of the line,
    in order; a blank payload counts as one empty field. *)
Theorem C02_fixed_count : forall (num : Type) (ops : NumOps num) l n t vs,
  1 <= n -> readItemsFromLine (num:=num) l n t = Ok vs ->
  Z.of_nat (length vs) = n /\
  exists p ws, payload l p /\ (fields p ws \/ (blank p /\ ws = [[]])) /\
    Forall2 (fun w v => conv t w = Ok v) ws vs.
Proof.
  intros num ops l n t vs Hn E. destruct (readItemsFromLine_ok _ _ _ _ Hn E) as (H1 & ws & H2 & H3).
  split; auto. exists (right_strip_braces l), ws. split; [now apply right_strip_payload|].
  split; auto. now apply mapR_forall2.
Qed.
Print Assumptions C02_fixed_count.

(** Conversely a line with exactly n convertible fields is accepted. *)
Theorem C02_fixed_count_complete : forall (num : Type) (ops : NumOps num) l p ws t vs,
  payload l p -> fields p ws -> ws <> [] ->
  Forall2 (fun w v => conv t w = Ok v) ws vs ->
  readItemsFromLine (num:=num) l (Z.of_nat (length ws)) t = Ok vs.
Proof.
  intros num ops l p ws t vs Hp Hf Hn Hv. apply mapR_forall2 in Hv. rewrite <- Hv.
  apply right_strip_payload in Hp. apply fields_iff in Hf.
  unfold readItemsFromLine. rewrite Hp, re_split_strip.
  assert (K : is_nil (strip p) = false).
  { apply is_nil_false. intros K. apply strip_nil_iff, split_ws_all_sp in K. congruence. }
  now rewrite K, Hf, Z.eqb_refl, andb_false_r.
Qed.
Print Assumptions C02_fixed_count_complete.

Example C02_case : readItemsFromLine (num:=Z) (lit " 1001  20 {NLHEAD FFI}") 2 TInt
  = Ok [PInt 1001; PInt 20].
Proof. vm_compute. reflexivity. Qed.

(** * C03 *)
(** Any layout of n >= 1 fields over lines (last line not blank) is read back
    as these n fields, and the following lines are left alone. *)
Theorem C03_any_layout : forall (num : Type) (ops : NumOps num) eof ls ps groups rest t vs,
  Forall2 payload ls ps -> Forall2 fields ps groups ->
  last groups [] <> [] ->
  Forall2 (fun w v => conv t w = Ok v) (concat groups) vs ->
  readItemsFromUnknownLines (num:=num) eof (ls ++ rest) (Z.of_nat (length (concat groups))) t
  = Ok (vs, rest).
Proof.
  intros num ops eof ls ps groups rest t vs Hp Hf Hl Hv.
  assert (E : map toks ls = groups).
  { clear - Hp Hf. revert groups Hf. induction Hp as [|l p ls ps H1 H2 IH]; intros groups Hf.
    - inversion Hf. reflexivity.
    - inversion Hf as [|? g ? gs F1 F2]; subst. simpl. f_equal; auto.
      unfold toks. apply right_strip_payload in H1. rewrite H1. now apply fields_split. }
  assert (Hls : ls <> []).
  { intros ->. simpl in E. subst groups. now apply Hl. }
  assert (Hla : toks (last ls []) <> []).
  { replace (toks (last ls [])) with (last groups []); auto. rewrite <- E.
    clear - Hls. induction ls as [|a ls IH]; [congruence|]. destruct ls as [|b ls]; auto.
    simpl map in *. change (last (toks a :: toks b :: map toks ls) []) with (last (toks b :: map toks ls) []).
    rewrite IH by congruence. reflexivity. }
  rewrite (readUnknown_exact eof _ t ls rest (concat groups)); auto.
  - apply mapR_forall2 in Hv. now rewrite Hv.
  - now rewrite E.
Qed.
Print Assumptions C03_any_layout.

Example C03_case :
  readItemsFromUnknownLines (num:=Z) EIndexError
    ([lit " 1  2 {first}"; lit ""; lit "3"] ++ [lit "next record"]) 3 TFloat
  = Ok ([PNum 1; PNum 2; PNum 3], [lit "next record"]).
Proof. vm_compute. reflexivity. Qed.

(** * C04 *)
(** False of the code: when the last line holds too many values for the record
    but not more than n by itself, the surplus is returned. *)
Theorem C04_exact_count_refuted : exists ls n vs rest,
  1 <= n /\ readItemsFromUnknownLines (num:=Z) EIndexError ls n TFloat = Ok (vs, rest) /\
  Z.of_nat (length vs) <> n.
Proof.
  exists [lit "1 2"; lit "3 4"], 3, [PNum 1; PNum 2; PNum 3; PNum 4], []. 
  split; [lia|]. split; [vm_compute; reflexivity|]. simpl. lia.
Qed.
Print Assumptions C04_exact_count_refuted.

(** What holds: the values returned are all the fields of the lines used, at
    least n, with fewer than n before the last line used; a single line with
    more than n fields is refused, so a record on one line gives exactly n.
    Missing from the full claim: no surplus when a record is wrapped. *)
Theorem C04_exact_count_partial : forall (num : Type) (ops : NumOps num) eof ls n t vs rest,
  1 <= n -> readItemsFromUnknownLines (num:=num) eof ls n t = Ok (vs, rest) ->
  exists used last_line ps pl groups g,
    ls = used ++ [last_line] ++ rest /\
    Forall2 payload used ps /\ Forall2 fields ps groups /\
    payload last_line pl /\ fields pl g /\
    Forall2 (fun w v => conv t w = Ok v) (concat groups ++ g) vs /\
    Z.of_nat (length (concat groups)) < n <= Z.of_nat (length vs) /\
    Z.of_nat (length g) <= n /\
    (used = [] -> Z.of_nat (length vs) = n).
Proof.
  intros num ops eof ls n t vs rest Hn. unfold readItemsFromUnknownLines.
  destruct (unknown_loop eof n [] None ls) as [[[rt ex] rest']|e] eqn:E; simpl; [|discriminate].
  destruct (unknown_loop_inv _ _ _ _ _ _ _ _ E) as (used & -> & -> & Hlen & Hex).
  destruct Hex as [[-> ->]|(u & l & -> & -> & Hu)]; [discriminate|].
  destruct (slice_from (toks l) n) as [|x xs] eqn:Ex; [|discriminate].
  simpl app. destruct (mapR (conv t) _) as [vs'|] eqn:Ev; simpl; [|discriminate].
  intros [= <- <-].
  assert (Hl : Z.of_nat (length (toks l)) <= n).
  { unfold slice_from in Ex. destruct (Z.ltb_spec n 0); [lia|].
    apply (f_equal (@length _)) in Ex. rewrite skipn_length in Ex. simpl in Ex. lia. }
  assert (Hs : concat (map (fun l => slice_to (toks l) n) u) = concat (map toks u)).
  { assert (G : Forall (fun l => Z.of_nat (length (toks l)) <= n) u).
    { simpl in Hu. clear - Hu Hn. induction u as [|a u IH]; auto. simpl in Hu.
      rewrite app_length in Hu. constructor; [|apply IH; lia].
      unfold slice_to in Hu. destruct (Z.ltb_spec n 0); [lia|]. rewrite firstn_length in Hu. lia. }
    clear - G. induction G as [|a u Ha _ IH]; simpl; auto. rewrite slice_to_ge by auto. now f_equal. }
  simpl in *. rewrite map_app, concat_app in *. simpl in *. rewrite app_nil_r in *.
  rewrite Hs in *. rewrite slice_to_ge in * by auto.
  exists u, l, (map right_strip_braces u), (right_strip_braces l), (map toks u), (toks l).
  assert (P : forall l, payload l (right_strip_braces l)) by (intros; now apply right_strip_payload).
  repeat split; auto.
  - now rewrite <- app_assoc.
  - clear - P. induction u; simpl; constructor; auto.
  - clear. induction u; simpl; constructor; auto. apply split_fields.
  - apply split_fields.
  - now apply mapR_forall2.
  - rewrite (mapR_length _ _ _ Ev). lia.
  - intros ->. rewrite (mapR_length _ _ _ Ev). simpl. simpl in Hlen. lia.
Qed.
Print Assumptions C04_exact_count_partial.

Example C04_case : readItemsFromUnknownLines (num:=Z) EIndexError [lit "1 2 3 4"] 3 TFloat
  = Err (ENappy E_CouldNotSplit).
Proof. vm_compute. reflexivity. Qed.

(** * C05 *)
(** A header that stops after the NV line: reading it never ends. *)
Definition truncated_file : str := unlines
  [lit "16 1001"; lit "Someone"; lit "Lab"; lit "Instrument"; lit "Mission"; lit "1 1";
   lit "2003 4 5 2004 1 1"; lit "1"; lit "time (s)"; lit "2"].

Theorem C05_header_terminates_refuted :
  (exists content, openNAFile_r (num:=Z) content 0 = Err EHang) /\
  (exists n ls, forall k, running n (after k n (mkL [] ls)) = true).
Proof.
  split.
  - exists truncated_file. vm_compute. reflexivity.
  - exists 2, []. apply (hang_iff_diverges (num:=Z) 2 [] TFloat). vm_compute. reflexivity.
Qed.
Print Assumptions C05_header_terminates_refuted.

(** What holds: the loop over file lines ends exactly when the rest of the file
    has at least n fields, and the result [EHang] of the model stands for an
    unbounded execution of the loop, nothing else.
    Missing from the full claim: termination on truncated files. *)
Theorem C05_header_terminates_partial :
  (forall n ls groups, Forall2 (fun l g => exists p, payload l p /\ fields p g) ls groups ->
     ((exists k, running n (after k n (mkL [] ls)) = false)
      <-> n <= Z.of_nat (length (concat groups)))) /\
  (forall (num : Type) (ops : NumOps num) n ls t,
     readItemsFromUnknownLines (num:=num) EHang ls n t = Err EHang
     <-> (forall k, running n (after k n (mkL [] ls)) = true)).
Proof.
  split; [|intros; apply hang_iff_diverges].
  intros n ls groups Hf. assert (E : map toks ls = groups).
  { induction Hf as [|l g ls gs (p & Hp & Hg) _ IH]; simpl; auto. f_equal; auto.
    unfold toks. apply right_strip_payload in Hp. rewrite Hp. now apply fields_split. }
  rewrite loop_total, E. reflexivity.
Qed.
Print Assumptions C05_header_terminates_partial.

Example C05_case : running 3 (after 2 3 (mkL [] [lit "1 2"; lit "3"])) = false.
Proof. vm_compute. reflexivity. Qed.

(** * C06 *)
(** The check returns the data lines up to trailing blank lines, unchanged, and
    raises exactly when a blank line is followed by a non-blank one. *)
Theorem C06_blank_lines :
  (forall ls r, checkForBlankLines false ls = Ok r <->
     exists b, ls = r ++ b /\ Forall (fun l => ~ blank l) r /\ Forall blank b) /\
  (forall ls, checkForBlankLines false ls = Err (ENappy E_EmptyLine) <->
     exists a x m y b, ls = a ++ x :: m ++ y :: b /\ blank x /\ ~ blank y) /\
  (forall ls e, checkForBlankLines false ls = Err e -> e = ENappy E_EmptyLine).
Proof.
  split; [exact check_ok|]. split; [|intros ls e; apply check_err_kind].
  intros ls. rewrite <- check_err. split; [eauto|]. intros [e He].
  rewrite He. f_equal. eapply check_err_kind; eauto.
Qed.
Print Assumptions C06_blank_lines.

Example C06_case :
  checkForBlankLines false [lit "1 2"; lit "3"; lit "  "; lit ""] = Ok [lit "1 2"; lit "3"] /\
  checkForBlankLines false [lit "1 2"; lit " "; lit "3"] = Err (ENappy E_EmptyLine).
Proof. split; vm_compute; reflexivity. Qed.
