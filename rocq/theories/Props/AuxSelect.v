(** C59 for auxiliary variables. *)
From Coq Require Import List NArith ZArith Bool Lia.
From Verif Require Import Py.Str Py.Res Py.Num Py.Arith Model.Dict Model.CommonUtils Model.Utils Model.NACore Model.NARead Model.NCWrite
  Model.Normalize Model.Xarray Model.Collector Model.ToXarray Spec.TextSpec Spec.ToXarraySpec Spec.ReadSpec Spec.Binary64
  Proofs.StrLemmas Proofs.NumLemmas Proofs.ReadFrame Proofs.ReadFile Proofs.CollectorLemmas Props.NormalizeProps Props.ToXarrayProps Props.ToXarrayMore.
Import ListNotations.

(** The name [n] is one of the names of the dictionary. *)
Definition is_known {num} (names : list (pyv num)) (n : str) : bool := existsb (fun v => match v with PStr t => str_eqb n t | _ => false end) names.

Section Aux.
Context {num : Type} {Num : NumOps num} {Ar : ArithOps num}.
Lemma known_position n : forall (l : list (pyv num)) i, is_known l n = match position n l i with Some _ => true | None => false end.
Proof.
  induction l as [| x t IH]; intros i; [reflexivity |]. unfold is_known in *. destruct x as [| | | u |]; cbn [existsb position]; try apply IH.
  destruct (str_eqb n u); [reflexivity | apply IH].
Qed.
Lemma aux_numbers cb ren d axes is (vs : list (xvar num)) : mapR (convertAux cb ren d axes) is = Ok vs ->
  Forall2 (fun i v => n_attr (v_info v) (lit "nasa_ames_aux_var_number") = Some (gint (Z.of_nat i)) /\ v_axes v = firstn 1 axes /\
                      exists values, index (attr d kA) i = Ok values) is vs.
Proof.
  intros R. assert (F := mapR_Forall2 _ _ _ R). clear R. induction F as [| i v l l' H F IH]; constructor; [| exact IH].
  unfold convertAux in H. destruct (convertVariable_inv _ _ _ _ _ _ _ _ _ H) as (w & vals & scal & Hi & Hv & Hs & A & B & C & _ & _ & D & _);
    try (intros Q; vm_compute in Q; discriminate Q). split; [exact D |]. split; [exact C |]. eauto.
Qed.
End Aux.

(** As C59_partial: all auxiliary variables, the given numbers, or the first
    auxiliary variable with each of the given names that are known; unknown names are
    left out.  Nothing is converted if the file has no auxiliary variables. *)
Theorem C59_aux_partial : forall num (Num : NumOps num) (Ar : ArithOps num) (s : settings (num := num)) d o,
  toXarray s d = Ok o ->
  ((forall n, attr d kNAUXV = PInt n -> (n <= 0)%Z) -> o_aux o = []) /\
  (forall n, attr d kNAUXV = PInt n -> (0 < n)%Z ->
   exists js, Forall2 (fun i v => n_attr (v_info v) (lit "nasa_ames_aux_var_number") = Some (gint (Z.of_nat i)) /\
                                  exists values, index (attr d kA) i = Ok values) js (o_aux o) /\
   (t_aux s = SAll -> js = seq 0 (Z.to_nat n)) /\
   (forall l, t_aux s = SNums l -> js = l) /\
   (forall l, t_aux s = SStrs l ->
      exists names, as_list (attr d kANAME) = Ok names /\
      Forall2 (fun n i => nth_error names i = Some (PStr n) /\ forall j, (j < i)%nat -> nth_error names j <> Some (PStr n)) (filter (is_known names) l) js)).
Proof.
  intros num Num Ar s d o R. destruct (toXarray_inv _ _ _ R) as (ffi & ren & axes & is & js & _ & _ & _ & _ & _ & _ & Hx & _ & Hj).
  split.
  - intros Nn. destruct Hj as [((n & En & L) & _) | (_ & ->)]; [specialize (Nn n En); lia |]. cbn in Hx. congruence.
  - intros n En L. destruct Hj as [(_ & Hj) | (Nn & _)]; [| specialize (Nn n En); lia].
    exists js. split.
    { assert (F := aux_numbers _ _ _ _ _ _ Hx). clear - F. induction F as [| i v l l' (A & _ & B) F IH]; constructor; auto. }
    split; [| split].
    + intros E. rewrite E in Hj. cbn in Hj. rewrite En in Hj. cbn [as_int bindR] in Hj. injection Hj as <-. reflexivity.
    + intros l E. rewrite E in Hj. destruct l; [discriminate Hj |]. injection Hj as <-. reflexivity.
    + intros l E. rewrite E in Hj. destruct l as [| x t]; [discriminate Hj |]. cbn [selected_aux] in Hj.
      destruct (as_list (attr d kANAME)) as [names |] eqn:La; [| discriminate Hj]. cbn [bindR] in Hj. injection Hj as <-.
      exists names. split; [reflexivity |].
      assert (G : forall l, Forall2 (fun n i => nth_error names i = Some (PStr n) /\ forall j, (j < i)%nat -> nth_error names j <> Some (PStr n))
        (filter (is_known names) l) (flat_map (fun y => match position y names 0 with Some i => [i] | None => [] end) l)).
      { clear. induction l as [| y l IH]; [constructor |]. cbn [filter flat_map]. rewrite (known_position y names 0).
        destruct (position y names 0) as [k |] eqn:P; [| exact IH]. cbn [app]. constructor; [| exact IH].
        destruct (position_spec _ _ _ _ P) as (k' & -> & A & B). auto. }
      exact (G (x :: t)).
Qed.
Print Assumptions C59_aux_partial.

Example C59_aux_example :
  names_of (converted (with_vars SAll SAll) f_aux) = ([lit "temp"], [lit "flag"]) /\
  names_of (converted (with_vars SAll (SStrs (map lit ["Ozone"; "flag (1)"; "flag"]%pylit))) f_aux) = ([lit "temp"], [lit "flag"]).
Proof. vm_compute. auto. Qed.

(** The settings [s] with other variables asked for. *)
Definition asking {num} (v a : select) (s : settings (num := num)) : settings (num := num) :=
  mkSet v a (t_globals s) (t_units s) (t_warning s) (t_answers s) (t_rename s) (t_callback s) (t_now s) (t_version s).
(** Asking for no variables at all, by an empty list, is refused with an
    IndexError, of a file that could be converted otherwise.  So it is with an
    empty list of auxiliary variables, if the file has some. *)
Theorem C59_none : forall num (Num : NumOps num) (Ar : ArithOps num) (s : settings (num := num)) d o,
  toXarray (asking SAll SAll s) d = Ok o ->
  (forall a, toXarray (asking (SNums []) a s) d = Err EIndexError /\ toXarray (asking (SStrs []) a s) d = Err EIndexError) /\
  (forall n, attr d kNAUXV = PInt n -> (0 < n)%Z ->
     toXarray (asking SAll (SNums []) s) d = Err EIndexError /\ toXarray (asking SAll (SStrs []) s) d = Err EIndexError).
Proof.
  intros num Num Ar s d o. unfold toXarray. cbn [asking t_now t_version t_globals t_callback t_warning t_units t_answers t_vars t_aux t_rename]. intros E.
  destruct (as_int (attr d kFFI)) as [ffi|]; cbn [bindR] in *; [|discriminate].
  destruct (existsb (Z.eqb ffi) [2110; 2160; 2310]%Z); [discriminate|]. cbv zeta in *.
  destruct (mapNACommentsToGlobalAttributes _ _ d _) as [g|]; cbn [bindR] in *; [|discriminate].
  destruct (convertAxes _ _ _ _ d) as [axes|]; cbn [bindR] in *; [|discriminate].
  split; [intros a; split; reflexivity |]. intros n En L.
  destruct (selected_main d SAll) as [is|]; cbn [bindR] in *; [|discriminate].
  destruct (mapR _ is) as [vars|]; cbn [bindR] in *; [|discriminate].
  rewrite En in *. apply Z.ltb_lt in L. rewrite L. split; reflexivity.
Qed.
Print Assumptions C59_none.
(** Numbers that are written as text stand for themselves. *)
Theorem C59_numerals : forall num (Num : NumOps num) (Ar : ArithOps num) (s : settings (num := num)) a d l,
  toXarray (asking (SStrs (map dec_of_nat l)) a s) d = toXarray (asking (SNums l) a s) d.
Proof.
  intros num Num Ar s a d l. unfold toXarray. cbn [asking t_now t_version t_globals t_callback t_warning t_units t_answers t_vars t_aux t_rename].
  assert (K : selected_main d (SStrs (map dec_of_nat l)) = selected_main d (SNums l)).
  { destruct l as [| n l]; [reflexivity |]. cbn [map selected_main].
    assert (D : match dec_of_nat n with c :: _ => is_digit c | [] => false end = true).
    { pose proof (dec_of_N_nonnil (N.of_nat n)) as Nn. pose proof (str_of_uint_digits (N.to_uint (N.of_nat n))) as Dg.
      unfold dec_of_nat, dec_of_N in *. destruct (str_of_uint _) as [| c t]; [contradiction |]. cbn [forallb] in Dg. apply andb_prop in Dg. apply Dg. }
    rewrite D. change (dec_of_nat n :: map dec_of_nat l) with (map dec_of_nat (n :: l)). generalize (n :: l). clear.
    induction l as [| n l IH]; [reflexivity |]. cbn [map mapR]. rewrite dec_of_nat_Z, int_of_str_dec. cbn [of_opt bindR].
    assert (Z.of_nat n <? 0 = false)%Z as -> by (apply Z.ltb_ge; lia). cbn [bindR]. rewrite IH, Nat2Z.id. reflexivity. }
  rewrite K. reflexivity.
Qed.
Print Assumptions C59_numerals.
Example C59_none_example :
  names_of (converted (with_vars (SStrs (map lit ["1"; "0"]%pylit)) SAll) f_two) = ([lit "3he"; lit "temp"], []) /\
  converted (with_vars (SNums []) SAll) f_two = Err EIndexError /\
  names_of (converted (with_vars SAll (SNums [])) f_two) = ([lit "temp"; lit "3he"], []) /\
  converted (with_vars SAll (SNums [])) f_aux = Err EIndexError.
Proof. vm_compute. auto. Qed.
