(** C128: the attributes for NetCDF in the file of local attributes, in a
    conversion to NASA Ames. *)
From Coq Require Import List NArith ZArith Bool Lia.
From Verif Require Import Py.Str Py.Res Py.Num Py.Arith Model.Dict Model.NCWrite Model.Xarray Model.Collector Model.ParseConfig Model.LocalAttrs
  Proofs.StrLemmas Proofs.ConfigLemmas Props.NcRoundTrip.
Import ListNotations.

(** The names on the left of the section [nc_to_na_map] of config/nappy.ini. *)
Definition mapped : list str :=
  map lit ["Conventions"; "source"; "title"; "institution"; "references"; "comment"; "history"; "file_format_index"; "no_of_nasa_ames_header_lines";
           "total_files_in_set"; "file_number_in_set"; "first_valid_date_of_data"]%pylit.
(** The configuration is the distributed one, and [text] is a file of local
    attributes with the attributes [atts] for NetCDF. *)
Definition configured (c : config) (text : str) (l : list (str * list (str * str))) (atts : list (str * str)) : Prop :=
  makeConfigDict (Some nappy_ini) = Got c /\ makeLocalAttributesConfigDict (Some text) = Got l /\ lookup (lit "nc_attributes") l = Some atts.

Lemma the_map : forall c m, makeConfigDict (Some nappy_ini) = Got c -> nc_to_na_map c = Ok m -> map fst m = map One mapped.
Proof.
  intros c m E M.
  assert (K : match makeConfigDict (Some nappy_ini) with
              | Got c => match nc_to_na_map c with Ok m => map fst m | Err _ => [] end
              | Bad _ => []
              end = map One mapped) by (vm_compute; reflexivity).
  rewrite E, M in K. exact K.
Qed.
Lemma has_map : forall c, makeConfigDict (Some nappy_ini) = Got c -> exists m, nc_to_na_map c = Ok m.
Proof.
  intros c E.
  assert (K : match makeConfigDict (Some nappy_ini) with
              | Got c => match nc_to_na_map c with Ok _ => true | Err _ => false end
              | Bad _ => false
              end = true) by (vm_compute; reflexivity).
  rewrite E in K. destruct (nc_to_na_map c) as [m|]; [exists m; reflexivity | discriminate K].
Qed.
Lemma one_eqb : forall a b, entry_eqb (One a) (One b) = str_eqb a b.
Proof. reflexivity. Qed.
Lemma is_mapped_iff : forall m l, map fst m = map One l -> forall a, is_mapped m a = true <-> In a l.
Proof.
  intros m l E a. unfold is_mapped.
  assert (X : existsb (fun p => entry_eqb (fst p) (One a)) m = existsb (fun e => entry_eqb e (One a)) (map fst m)) by (clear; induction m as [| x m IH]; cbn; [reflexivity | rewrite IH; reflexivity]).
  rewrite X, E. clear. induction l as [| x l IH]; cbn [map existsb].
  - split; [discriminate | intros []].
  - rewrite one_eqb, orb_true_iff, IH. split.
    + intros [Q | Q]; [left; apply str_eqb_eq, Q | right; exact Q].
    + intros [-> | Q]; [left; apply str_eqb_same | right; exact Q].
Qed.
Lemma extend_ok : forall m atts, (forall p, In p atts -> is_mapped m (fst p) = true) -> extend_map m atts = Ok m.
Proof.
  intros m atts. unfold extend_map. induction atts as [| p t IH]; intros A; cbn [forR]; [reflexivity |].
  rewrite (A p (or_introl eq_refl)). cbn [bindR]. apply IH. intros q I. apply A. right. exact I.
Qed.
Lemma extend_bad : forall m atts p, In p atts -> is_mapped m (fst p) = false -> extend_map m atts = Err EUnboundLocal.
Proof.
  intros m atts p I B. unfold extend_map. induction atts as [| q t IH]; [destruct I |]. cbn [forR].
  destruct (is_mapped m (fst q)) eqn:Q; cbn [bindR]; [| reflexivity]. apply IH. destruct I as [-> | I]; [congruence | exact I].
Qed.

Section C128.
Context {num : Type} `{NumOps num} `{ArithOps num}.

Lemma collect_known : forall (E : env num) c l atts m, nc_attributes l = Ok atts -> nc_to_na_map c = Ok m -> extend_map m atts = Ok m ->
  forall r g vars, collectNAContent_local E c l r g vars = collectNAContent E r g vars.
Proof.
  intros E c l atts m A M X r g vars. unfold collectNAContent_local, collectNAContent. destruct (analyseVariables E r vars) as [[a|]|]; cbn [bindR]; try reflexivity.
  destruct (defineNAVars _ _ _ _ _) as [d|]; cbn [bindR]; [| reflexivity]. destruct (defineNAAuxVars _ _ _) as [d'|]; cbn [bindR]; [| reflexivity].
  rewrite A. cbn [bindR]. rewrite M. cbn [bindR]. rewrite X. reflexivity.
Qed.
Lemma loop_known : forall (E : env num) c l r g, (forall vars, collectNAContent_local E c l r g vars = collectNAContent E r g vars) ->
  forall fuel vars, convert_loop_local E c l fuel r g vars = convert_loop E fuel r g vars.
Proof.
  intros E c l r g K fuel. induction fuel as [| fuel IH]; intros [| v t]; cbn [convert_loop_local convert_loop]; try reflexivity. rewrite K.
  destruct (collectNAContent E r g (v :: t)) as [q|]; cbn [bindR]; [| reflexivity]. rewrite IH. reflexivity.
Qed.
(** As long as every attribute for NetCDF has a name that the configuration maps
    anyway, the section changes nothing in a conversion to NASA Ames, whatever its
    values are. *)
Theorem C128_mapped_partial : forall (E : env num) c text l atts requested globals vars,
  configured c text l atts -> (forall p, In p atts -> In (fst p) mapped) ->
  convert_local E c l requested globals vars = convert E requested globals vars.
Proof.
  intros E c text l atts r g vars (Ec & _ & El) A. destruct (has_map c Ec) as (m & M). pose proof (the_map c m Ec M) as Mm.
  assert (A' : nc_attributes l = Ok atts) by (unfold nc_attributes; rewrite El; reflexivity).
  assert (X : extend_map m atts = Ok m) by (apply extend_ok; intros p I; apply (is_mapped_iff m mapped Mm), A, I).
  pose proof (fun vars => collect_known E c l atts m A' M X r g vars) as K. unfold convert_local, convert.
  destruct (mapR convertSingleton vars) as [vs|]; cbn [bindR]; [| reflexivity]. destruct (reorderVars vs) as [ws|]; cbn [bindR]; [| reflexivity].
  rewrite K. destruct (collectNAContent E r g ws) as [q|]; cbn [bindR]; [| reflexivity]. destruct (c_na q); [| reflexivity]. rewrite (loop_known E c l r g K). reflexivity.
Qed.
(** As soon as one of them has another name, no data set is converted any more:
    where there would be dictionaries, there is an exception. *)
Theorem C128_other_partial : forall (E : env num) c text l atts p requested globals vars cs,
  configured c text l atts -> In p atts -> ~ In (fst p) mapped ->
  convert E requested globals vars = Ok (Some cs) -> convert_local E c l requested globals vars = Err EUnboundLocal.
Proof.
  intros E c text l atts p r g vars cs (Ec & _ & El) I N C. destruct (has_map c Ec) as (m & M). pose proof (the_map c m Ec M) as Mm.
  assert (A' : nc_attributes l = Ok atts) by (unfold nc_attributes; rewrite El; reflexivity).
  assert (X : extend_map m atts = Err EUnboundLocal).
  { apply (extend_bad m atts p I). destruct (is_mapped m (fst p)) eqn:Q; [| reflexivity]. exfalso. apply N, (is_mapped_iff m mapped Mm), Q. }
  unfold convert in C. unfold convert_local. destruct (mapR convertSingleton vars) as [vs|]; cbn [bindR] in C |- *; [| discriminate C].
  destruct (reorderVars vs) as [ws|]; cbn [bindR] in C |- *; [| discriminate C].
  destruct (collectNAContent E r g ws) as [q|] eqn:Q; cbn [bindR] in C; [| discriminate C]. destruct (c_na q) as [d|] eqn:D; [| discriminate C]. clear C.
  unfold collectNAContent in Q. unfold collectNAContent_local. destruct (analyseVariables E r ws) as [[a|]|]; cbn [bindR] in Q |- *; try discriminate Q.
  - destruct (defineNAVars _ _ _ _ _) as [d1|]; cbn [bindR] in Q |- *; [| discriminate Q]. destruct (defineNAAuxVars _ _ _) as [d2|]; cbn [bindR] in Q |- *; [| discriminate Q].
    rewrite A'. cbn [bindR]. rewrite M. cbn [bindR]. rewrite X. reflexivity.
  - injection Q as <-. discriminate D.
Qed.
End C128.

(** A file of local attributes that says where the attribute [project] of a data
    set goes in the header.  The data set is converted without that file; with it,
    the conversion ends with an exception. *)
Definition project_ini : str := unlines (map lit ["[nc_attributes]"; "project = MNAME"; ""; "[na_attributes]"; ""]%pylit).
Theorem C128_refuted : exists c l cs, configured c project_ini l [(lit "project", lit "MNAME")] /\
  convert env_w None ([(lit "project", gstr (lit "Arctic"))] ++ gl (lit "Test")) [qw] = Ok (Some cs) /\ cs <> [] /\
  convert_local env_w c l None ([(lit "project", gstr (lit "Arctic"))] ++ gl (lit "Test")) [qw] = Err EUnboundLocal.
Proof.
  destruct (makeConfigDict (Some nappy_ini)) as [c|] eqn:Ec; [| exfalso; assert (K : match makeConfigDict (Some nappy_ini) with Got _ => true | _ => false end = true) by (vm_compute; reflexivity); rewrite Ec in K; discriminate K].
  set (r := convert env_w None ([(lit "project", gstr (lit "Arctic"))] ++ gl (lit "Test")) [qw]).
  assert (K : match r with Ok (Some (_ :: _)) => true | _ => false end = true) by (vm_compute; reflexivity).
  destruct r as [[[| q cs]|]|] eqn:R; try discriminate K.
  exists c, [(lit "nc_attributes", [(lit "project", lit "MNAME")]); (lit "na_attributes", [])], (q :: cs).
  assert (Cf : configured c project_ini [(lit "nc_attributes", [(lit "project", lit "MNAME")]); (lit "na_attributes", [])] [(lit "project", lit "MNAME")]).
  { split; [exact Ec |]. split; [vm_compute; reflexivity | reflexivity]. }
  split; [exact Cf |]. split; [reflexivity |]. split; [discriminate |].
  eapply C128_other_partial; [exact Cf | left; reflexivity | vm_compute; intuition discriminate | exact R].
Qed.
(** The distributed file of local attributes is of the harmless sort. *)
Example C128_example : exists c l atts, configured c local_attributes_ini l atts /\ atts <> [] /\ (forall p, In p atts -> In (fst p) mapped).
Proof.
  destruct (makeConfigDict (Some nappy_ini)) as [c|] eqn:Ec; [| exfalso; assert (K : match makeConfigDict (Some nappy_ini) with Got _ => true | _ => false end = true) by (vm_compute; reflexivity); rewrite Ec in K; discriminate K].
  destruct (makeLocalAttributesConfigDict (Some local_attributes_ini)) as [l|] eqn:El; [| exfalso; assert (K : match makeLocalAttributesConfigDict (Some local_attributes_ini) with Got _ => true | _ => false end = true) by (vm_compute; reflexivity); rewrite El in K; discriminate K].
  assert (K : match makeLocalAttributesConfigDict (Some local_attributes_ini) with Got l => option_map (map fst) (lookup (lit "nc_attributes") l) | Bad _ => None end = Some [lit "institution"]) by (vm_compute; reflexivity).
  rewrite El in K. destruct (lookup (lit "nc_attributes") l) as [atts|] eqn:A; [| discriminate K]. cbn [option_map] in K. injection K as K.
  exists c, l, atts. split; [split; [exact Ec | split; [exact El | exact A]] |]. split; [destruct atts; [discriminate K | discriminate] |].
  intros p I. apply (in_map fst) in I. rewrite K in I. destruct I as [<- | []]. vm_compute. tauto.
Qed.
Print Assumptions C128_mapped_partial.
Print Assumptions C128_other_partial.
Print Assumptions C128_refuted.
