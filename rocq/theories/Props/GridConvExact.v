(** C106: the condition on the numbers of listed values is necessary. *)
From Coq Require Import List NArith ZArith Bool Lia.
From Verif Require Import Py.Str Py.Res Py.Num Py.Arith Model.Dict Model.CommonUtils Model.NAWrite Model.NARead Model.Normalize Spec.TextSpec Spec.Records
  Spec.RoundTripSpec Spec.RewriteSpec Model.Xarray Model.Collector Spec.ValuesSpec Spec.CollectorSpec Spec.NcRoundTripSpec Spec.GridSpec
  Spec.WholeNum Spec.Binary64 Proofs.CollectorLemmas Proofs.SampleOk Props.CollectorProps Props.AxisProps Props.NcRoundTrip Props.GridRoundTrip Props.GridExact.
Import ListNotations.

(** No file at all is read to the counts and axes of a converted dictionary of
    three or four dimensions whose numbers of listed values are not the same
    backwards; with C106_partial: the dictionaries that come back from their files
    are exactly those for which they are. *)
Theorem C106_exact_partial : forall num (Num : NumOps num) (Ar : ArithOps num) (E : env num) req globals (vars : list (xvar num)) cs c d a axes (g : num -> num),
  ~ In (lit "file_format_index") (map fst globals) ->
  convert E req globals vars = Ok (Some cs) -> In c cs -> grid_table (e_fill E) c d a axes ->
  forall file ignore d', read_file file ignore = Ok (grid_class axes, d') ->
    attr d' kNIV = attr d kNIV -> attr d' kNXDEF = attr d kNXDEF -> attr d' kX = map_nums g (attr d kX) ->
    exists l, attr d kNXDEF = PList l /\ rev l = l.
Proof.
  intros num Num Ar E req globals vars cs c d a axes g Nf R I (Nd & Lx & Hf & (v & rest & Ev & Va) & La & Pos & _) file ignore d' Er En Ed Ex.
  assert (If : In (Z.of_nat (1 + length axes) * 1000 + 10)%Z [2010; 3010; 4010]%Z).
  { destruct axes as [| ? [| ? [| ? [| ? ?]]]]; cbn in Lx; try lia; cbn; auto. }
  destruct (converted_axes _ _ _ E _ _ _ _ _ _ _ _ _ Nf R I Ev Nd Hf If) as (Ni & bx & axes' & ents & dx0 & nm0 & Va' & Fe & Cnx & Cnd & Cdx & Cx & Cn & Cb).
  rewrite Va in Va'. injection Va' as <- <-. rewrite Va in Ni. cbn [length] in Ni.
  assert (Hk : grid_class axes = C2010 \/ grid_class axes = C3010 \/ grid_class axes = C4010) by (unfold grid_class; destruct (length axes) as [| [| [| ?]]]; auto).
  destruct (C13_lengths _ _ _ _ _ _ Hk Er) as (niv & nxdef & x0 & xs & H1 & H2 & H3 & H4).
  rewrite Cnd in Ed |- *. rewrite Cx in Ex. rewrite Ni in En. unfold attr in Ed, Ex, En. rewrite H1 in En. rewrite H2 in Ed. rewrite H3 in Ex.
  injection En as ->. injection Ed as ->. unfold nums in Ex. cbn [map_nums map] in Ex. injection Ex as _ ->.
  specialize (H4 ltac:(lia)). eexists. split; [reflexivity |].
  assert (K : rev (map n_nd ents) = map n_nd ents).
  { apply rev_le. rewrite map_map, <- map_rev in H4. rewrite <- map_rev.
    assert (Le : Forall (fun e => exists xs, n_x e = map PNum xs /\ length xs = n_nd e) ents).
    { clear - Fe Pos. induction Fe as [| b e la le Q Fe IH]; [constructor |]. inversion Pos as [| ? ? (Tb & _) Pos']; subst. constructor; [| exact (IH Pos')].
      destruct (entry_num _ _ Q Tb) as (A & B). exists (xs_of e). split; [exact A |]. destruct B as [(-> & ->) | (-> & G & ->)]; [reflexivity |].
      rewrite firstn_length. unfold ax_len in G. lia. }
    apply Forall_rev in Le. revert Le H4. clear. generalize (rev ents) as b. induction ents as [| e l IH]; intros [| y b] Le F; cbn [map] in F |- *; inversion F as [| ? ? ? ? (k & x & K1 & K2 & K3) F']; subst; constructor.
    - inversion Le as [| ? ? (ys & Y1 & Y2) _]; subst. injection K1 as <-. rewrite Y1 in K2. cbn [map_nums] in K2. injection K2 as <-. rewrite !map_length in K3. lia.
    - apply IH; [inversion Le; assumption | exact F']. }
  rewrite <- map_rev. rewrite <- map_rev in K. clear - K.
  assert (G : forall b : list (ent (num:=num)), map n_nd b = map n_nd ents -> map (fun e => PInt (num:=num) (Z.of_nat (n_nd e))) b = map (fun e => PInt (Z.of_nat (n_nd e))) ents).
  { clear. induction ents as [| e l IH]; intros [| y b] Q; cbn [map] in *; try discriminate; [reflexivity |]. injection Q as -> Q. f_equal. apply IH, Q. }
  apply G, K.
Qed.
Print Assumptions C106_exact_partial.

(** Three latitudes and two levels: no file is read to this dictionary. *)
Local Ltac names := intros; repeat match goal with J : In _ _ |- _ => cbn [In map app] in J | J : _ \/ _ |- _ => destruct J as [<- | J] | J : False |- _ => destruct J end;
  match goal with J : getBestName _ = Ok _ |- _ => vm_compute in J; injection J as <- end; apply name_ok_of; reflexivity.
Local Ltac cells := repeat first [split; [reflexivity |] | eexists | constructor]; try reflexivity.
Example C106_exact_example : exists cs c d a axes,
  convert env_w None (gl (lit "Test")) [slab] = Ok (Some cs) /\ In c cs /\ grid_table (e_fill env_w) c d a axes /\
  forall file ignore d', read_file file ignore = Ok (grid_class axes, d') ->
    attr d' kNIV = attr d kNIV -> attr d' kNXDEF = attr d kNXDEF -> attr d' kX <> attr d kX.
Proof.
  destruct (one_grid slab (zw (lit "t") [10]%Z) (zw (lit "y") [1; 2; 3]%Z) [zw (lit "z") [1; 2]%Z] 3010) as (c & d & O & Nd & G).
  + reflexivity.
  + cbn; auto.
  + reflexivity.
  + reflexivity.
  + repeat (constructor; [split; [reflexivity | discriminate] |]); constructor.
  + split; [reflexivity |]. split; [discriminate |]. cells.
  + names.
  + names.
  + vm_compute; repeat split.
  + assert (T : match only slab with Ok (Some [c]) => match c_na c with Some d =>
        attr d kNXDEF = PList [PInt 3; PInt 2] /\ map_nums (fun x => x) (attr d kX) = attr d kX
      | None => False end | _ => False end) by (vm_compute; split; reflexivity).
    rewrite O, Nd in T. destruct T as (Q1 & Q2).
    exists [c], c, d, (zw (lit "t") [10]%Z), [zw (lit "y") [1; 2; 3]%Z; zw (lit "z") [1; 2]%Z].
    split; [exact O |]. split; [left; reflexivity |]. split; [exact G |]. intros file ignore d' Er E1 E2 E3.
    rewrite <- Q2 in E3.
    destruct (C106_exact_partial _ _ _ env_w None (gl (lit "Test")) [slab] [c] c d _ _ (fun x => x)
      ltac:(vm_compute; intuition discriminate) O (or_introl eq_refl) G file ignore d' Er E1 E2 E3) as (l & L1 & L2).
    rewrite Q1 in L1. injection L1 as <-. discriminate L2.
Qed.
