(** The command line programs (C83 to C88). *)
From Coq Require Import List NArith ZArith Bool Lia Permutation.
From Verif Require Import Py.Str Py.Res Py.Num Model.CommonUtils Model.Utils Model.Getopt Model.Api Model.CommandLine
  Proofs.StrLemmas Proofs.NumLemmas Props.UtilProps Spec.CommandLineSpec.
Import ListNotations.

(** ** Lists of options *)
Lemma last_of_snoc {O A} (f : O -> option A) l o :
  last_of f (l ++ [o]) = match f o with Some x => Some x | None => last_of f l end.
Proof.
  unfold last_of. rewrite flat_map_app, rev_app_distr. cbn [flat_map]. rewrite app_nil_r.
  destruct (f o); reflexivity.
Qed.
Lemma given_snoc {O} (f : O -> bool) l o : given f (l ++ [o]) = f o || given f l.
Proof. unfold given. rewrite existsb_app. cbn [existsb]. rewrite orb_false_r. apply orb_comm. Qed.
Lemma each_app {A} (f : A -> option_value -> run A) l l' a : each f (l ++ l') a = bindX (each f l a) (each f l').
Proof.
  revert a. induction l as [|o l IH]; intros a; [reflexivity|]. cbn [app each].
  destruct (f a o) as [b| |e]; cbn [bindX]; auto.
Qed.
Lemma bindX_done {A} (m : run A) : bindX m Done = m.
Proof. now destruct m. Qed.

(** ** One option *)
Section One.
Variables (shorts : str) (longs : list str).
Local Notation loop := (getopt_loop).
Lemma loop_short fuel j c v rest : c <> c_dash -> short_has_arg c shorts = Opts true -> (j = true -> v <> []) ->
  loop (S fuel) shorts longs (short [c_dash; c] j v ++ rest) =
  bindO (loop fuel shorts longs rest) (fun q => Opts (([c_dash; c], v) :: fst q, snd q)).
Proof.
  intros Hc Hs Hv. assert (Ec : (c =? c_dash)%N = false) by now apply N.eqb_neq.
  assert (E2 : (c_dash =? c)%N = false) by (apply N.eqb_neq; congruence).
  destruct j; cbn [short app].
  - destruct v as [|x v]; [now specialize (Hv eq_refl)|].
    cbn [getopt_loop starts_with str_eqb skipn]. cbn [negb orb andb]. rewrite ?E2, ?Ec, ?N.eqb_refl. cbn [negb orb andb].
    cbn [do_shorts]. rewrite Hs. cbn [bindO fst snd]. reflexivity.
  - cbn [getopt_loop starts_with str_eqb skipn]. cbn [negb orb andb]. rewrite ?E2, ?Ec, ?N.eqb_refl. cbn [negb orb andb].
    cbn [do_shorts]. rewrite Hs. cbn [bindO fst snd]. reflexivity.
Qed.
Lemma loop_flag fuel c rest : c <> c_dash -> short_has_arg c shorts = Opts false ->
  loop (S fuel) shorts longs ([c_dash; c] :: rest) =
  bindO (loop fuel shorts longs rest) (fun q => Opts (([c_dash; c], []) :: fst q, snd q)).
Proof.
  intros Hc Hs. assert (E2 : (c_dash =? c)%N = false) by (apply N.eqb_neq; congruence).
  assert (Ec : (c =? c_dash)%N = false) by now apply N.eqb_neq.
  cbn [getopt_loop starts_with str_eqb skipn]. rewrite ?E2, ?Ec, ?N.eqb_refl. cbn [negb orb andb].
  cbn [do_shorts]. rewrite Hs. cbn [bindO fst snd do_shorts]. reflexivity.
Qed.
Lemma cut_name name v : ~ In c_equals name -> cut_equals (name ++ c_equals :: v) = (name, Some v) /\ cut_equals name = (name, None).
Proof.
  induction name as [|c t IH]; intros Hn; [now split|]. cbn [app cut_equals].
  destruct (c =? c_equals)%N eqn:E; [apply N.eqb_eq in E; subst; exfalso; apply Hn; now left|].
  destruct IH as [I1 I2]; [intros K; apply Hn; now right|]. now rewrite I1, I2.
Qed.
Lemma long_word name more : name <> [] ->
  negb (starts_with [c_dash] ([c_dash; c_dash] ++ name ++ more)) || str_eqb ([c_dash; c_dash] ++ name ++ more) [c_dash] = false /\
  str_eqb ([c_dash; c_dash] ++ name ++ more) [c_dash; c_dash] = false /\
  starts_with [c_dash; c_dash] ([c_dash; c_dash] ++ name ++ more) = true.
Proof. destruct name; [congruence|]. intros _. now repeat split. Qed.
Lemma loop_long fuel j name v rest : name <> [] -> ~ In c_equals name -> long_has_args name longs = Opts (true, name) ->
  loop (S fuel) shorts longs (long ([c_dash; c_dash] ++ name) j v ++ rest) =
  bindO (loop fuel shorts longs rest) (fun q => Opts (([c_dash; c_dash] ++ name, v) :: fst q, snd q)).
Proof.
  intros Hn He Hl. destruct (cut_name name v He) as [C1 C2]. destruct j; cbn [long].
  - destruct (long_word name (c_equals :: v) Hn) as (W1 & W2 & W3). rewrite <- app_assoc.
    change (lit "=" ++ v) with (c_equals :: v). cbn [app] in W1, W2, W3 |- *. cbn [getopt_loop]. rewrite W1, W2, W3.
    unfold do_longs. cbn [skipn]. rewrite C1, Hl. reflexivity.
  - destruct (long_word name [] Hn) as (W1 & W2 & W3). rewrite app_nil_r in *.
    cbn [app] in W1, W2, W3 |- *. cbn [getopt_loop]. rewrite W1, W2, W3.
    unfold do_longs. cbn [skipn]. rewrite C2, Hl. reflexivity.
Qed.
Lemma loop_long_flag fuel name rest : name <> [] -> ~ In c_equals name -> long_has_args name longs = Opts (false, name) ->
  loop (S fuel) shorts longs (([c_dash; c_dash] ++ name) :: rest) =
  bindO (loop fuel shorts longs rest) (fun q => Opts (([c_dash; c_dash] ++ name, []) :: fst q, snd q)).
Proof.
  intros Hn He Hl. destruct (cut_name name [] He) as [_ C2].
  destruct (long_word name [] Hn) as (W1 & W2 & W3). rewrite app_nil_r in *.
  cbn [app] in W1, W2, W3 |- *. cbn [getopt_loop]. rewrite W1, W2, W3.
  unfold do_longs. cbn [skipn]. rewrite C2, Hl. reflexivity.
Qed.
End One.

(** ** nc2na: the words of an option become the option *)
Definition nc_meaning (o : nc_opt) : option_value :=
  match o with
  | OIn f => (lit "-i", f) | OOut f => (lit "-o", f) | OVars l => (lit "-v", commas l)
  | OFfi z => (lit "--ffi", dec_of_Z z) | OFormat f => (lit "-f", f) | ODelim d => (lit "-d", d)
  | OExclude l => (lit "-e", commas l) | OMeta l => (lit "--overwrite-metadata", commas (flatten l))
  | ONamesOnly => (lit "--names-only", []) | ONoHeader => (lit "--no-header", []) | OAnnotated => (lit "--annotated", [])
  end.
Ltac no_eq := intros K; cbv in K; repeat destruct K as [K|K]; try discriminate K; contradiction.
Lemma nc_step fuel p rest : nc_sayable p ->
  getopt_loop (S fuel) nc_short nc_long (nc_words p ++ rest) =
  bindO (getopt_loop fuel nc_short nc_long rest) (fun q => Opts (nc_meaning (snd p) :: fst q, snd q)).
Proof.
  destruct p as [j o]. intros Hs. unfold nc_words, nc_meaning. cbn [fst snd]. unfold nc_sayable in Hs. cbn [fst snd] in Hs.
  destruct o; cbv beta iota zeta in Hs.
  1,2,5,6: (refine (loop_short _ _ fuel j _ _ rest _ _ _); [discriminate|reflexivity|exact Hs]).
  - destruct Hs as (_ & _ & Hs). refine (loop_short _ _ fuel j _ _ rest _ _ _); [discriminate|reflexivity|exact Hs].
  - refine (loop_long _ _ fuel j (lit "ffi") _ rest _ _ _); [discriminate|no_eq|reflexivity].
  - destruct Hs as (_ & _ & Hs). refine (loop_short _ _ fuel j _ _ rest _ _ _); [discriminate|reflexivity|exact Hs].
  - refine (loop_long _ _ fuel j (lit "overwrite-metadata") _ rest _ _ _); [discriminate|no_eq|reflexivity].
  - refine (loop_long_flag _ _ fuel (lit "names-only") rest _ _ _); [discriminate|no_eq|reflexivity].
  - refine (loop_long_flag _ _ fuel (lit "no-header") rest _ _ _); [discriminate|no_eq|reflexivity].
  - refine (loop_long_flag _ _ fuel (lit "annotated") rest _ _ _); [discriminate|no_eq|reflexivity].
Qed.
(** The options end at the end of the line, or at a word that is no option. *)
Definition no_option (w : str) : Prop := w = lit "-" \/ starts_with (lit "-") w = false.
Definition stops (rest : list str) : Prop := match rest with [] => True | w :: _ => no_option w end.
Lemma loop_stops fuel shorts longs rest : stops rest -> getopt_loop fuel shorts longs rest = Opts ([], rest).
Proof.
  intros Hs. destruct fuel; [reflexivity|]. destruct rest as [|w rest]; [reflexivity|]. cbn [getopt_loop].
  destruct Hs as [-> |E]; [reflexivity|]. change [c_dash] with (lit "-"). rewrite E. reflexivity.
Qed.
Lemma nc_getopt l rest fuel : Forall nc_sayable l -> stops rest -> (length l <= fuel)%nat ->
  getopt_loop fuel nc_short nc_long (flat_map nc_words l ++ rest) = Opts (map (fun p => nc_meaning (snd p)) l, rest).
Proof.
  intros Hl Hr. revert fuel. induction Hl as [|p l Hp _ IH]; intros fuel Hf; [now apply loop_stops|].
  destruct fuel as [|fuel]; [simpl in Hf; lia|]. cbn [flat_map]. rewrite <- app_assoc, nc_step by auto.
  rewrite IH by (simpl in Hf; lia). reflexivity.
Qed.
Lemma nc_words_length p : (1 <= length (nc_words p))%nat.
Proof. destruct p as [[] []]; cbn; lia. Qed.
Lemma words_length {A} (f : A -> list str) l rest : (forall p, 1 <= length (f p))%nat -> (length l <= length (flat_map f l ++ rest))%nat.
Proof.
  intros Hf. rewrite app_length. induction l as [|p l IH]; cbn [flat_map length]; [lia|]. rewrite app_length. specialize (Hf p). lia.
Qed.

(** ** nc2na: the effect of the options *)
(** The settings that a list of options asks for: of several values for a
    setting the last one. *)
Definition nc_asked (l : list nc_opt) : nc_cmd :=
  mkNcCmd (last_of f_in l) (last_of f_vars l) (last_of f_ffi l) (or_else (lit "%.10g") (last_of f_format l))
    (or_else (lit "    ") (last_of f_delim l)) None (or_else [] (last_of f_exclude l)) (or_else [] (last_of f_meta l))
    (given is_names_only l) (last_of f_out l) (given is_no_header l) (given is_annotated l).
Lemma dict_nodup l : NoDup (map fst l) -> fold_left (fun d p => sd_set d (fst p) (snd p)) l [] = l.
Proof.
  assert (K : forall l d, NoDup (map fst (d ++ l)) -> fold_left (fun d p => sd_set d (fst p) (snd p)) l d = d ++ l).
  { clear l. induction l as [|[k v] l IH]; intros d Hd; [now rewrite app_nil_r|]. cbn [fold_left fst snd].
    assert (E : sd_set d k v = d ++ [(k, v)]).
    { assert (Hk : ~ In k (map fst d)).
      { rewrite map_app in Hd. apply NoDup_remove_2 in Hd. rewrite in_app_iff in Hd. tauto. }
      clear - Hk. induction d as [|[k' v'] d IH]; [reflexivity|]. cbn [sd_set].
      destruct (str_eqb k k') eqn:E; [apply str_eqb_eq in E; subst; exfalso; apply Hk; now left|].
      cbn [app]. f_equal. apply IH. intros K. apply Hk. now right. }
    rewrite E, IH; rewrite <- app_assoc; auto. }
  apply (K l []).
Qed.
Lemma split_commas l : l <> [] -> Forall no_comma l -> split_chr c_comma (commas l) = l.
Proof.
  intros Hn Hc. apply split_chr_join; auto. eapply Forall_impl; [|exact Hc]. intros a. apply mem_chr_false.
Qed.
Lemma meta_dict l : l <> [] -> Forall no_comma (flatten l) -> NoDup (map fst l) ->
  makeDictFromCommaSepString (commas (flatten l)) = Ok l.
Proof.
  intros Hn Hc Hd. unfold makeDictFromCommaSepString, commas. change (lit ",") with [c_comma].
  assert (Hn' : flatten l <> []) by (destruct l as [|[]]; [congruence|discriminate]).
  rewrite count_items by auto. change flatten with UtilProps.flatten in *. rewrite flatten_even. cbn [negb].
  pose proof (split_commas _ Hn' Hc) as E. unfold commas in E. change (lit ",") with [c_comma] in E. rewrite E.
  rewrite pairs_flatten. cbn [bindR]. now rewrite dict_nodup.
Qed.
Ltac eq_lits := repeat match goal with |- context [str_eqb (lit ?a) (lit ?b)] =>
  let r := eval vm_compute in (str_eqb (lit a) (lit b)) in change (str_eqb (lit a) (lit b)) with r end; cbv iota.
Lemma nc_each l : Forall nc_sayable l ->
  each nc_option (map (fun p => nc_meaning (snd p)) l) nc_defaults = Done (nc_asked (map snd l)).
Proof.
  induction l as [|[j o] l IH] using rev_ind; intros Hl; [reflexivity|].
  apply Forall_app in Hl as [Hl Ho]. inversion Ho as [|? ? Hs _]; subst. clear Ho.
  rewrite map_app, each_app, IH by auto. cbn [bindX map each]. rewrite bindX_done.
  rewrite map_app. cbn [map snd]. unfold nc_asked. rewrite !last_of_snoc, !given_snoc.
  unfold nc_sayable in Hs. cbn [fst snd] in Hs. destruct o; cbv beta iota zeta in Hs; unfold nc_meaning;
    cbn [f_in f_out f_vars f_ffi f_format f_delim f_exclude f_meta is_names_only is_no_header is_annotated orb or_else];
    unfold nc_option; eq_lits; try reflexivity.
  - destruct Hs as (H1 & H2 & _). now rewrite split_commas.
  - now rewrite int_of_str_dec.
  - destruct Hs as (H1 & H2 & _). now rewrite split_commas.
  - destruct Hs as (H1 & H2 & H3). now rewrite meta_dict.
Qed.
Lemma nc_parse l rest : Forall nc_sayable l -> stops rest ->
  nc_parseArgs (flat_map nc_words l ++ rest) =
  match last_of f_in (map snd l) with Some (_ :: _) => Done (nc_asked (map snd l)) | _ => Exit end.
Proof.
  intros Hl Hr. unfold nc_parseArgs, getopt. rewrite nc_getopt by (auto; apply words_length, nc_words_length).
  rewrite nc_each by auto. reflexivity.
Qed.

(** * C83 *)
(** Every list of options, however often and in whatever order they come, each
    written as one word or as two, gives the settings they ask for.
    Missing from the full claim: the option -l of the usage text. *)
Theorem C83_options_partial : forall (l : list (bool * nc_opt)) f,
  Forall nc_sayable l -> last_of f_in (map snd l) = Some f -> f <> [] ->
  nc_parseArgs (flat_map nc_words l) = Done (nc_asked (map snd l)).
Proof.
  intros l f Hl Hf Hn. rewrite <- (app_nil_r (flat_map nc_words l)), nc_parse by (auto; exact I).
  rewrite Hf. destruct f; [congruence|reflexivity].
Qed.
(** Without an input file the program ends. *)
Theorem C83_needs_input : forall (l : list (bool * nc_opt)),
  Forall nc_sayable l -> (last_of f_in (map snd l) = None \/ last_of f_in (map snd l) = Some []) ->
  nc_parseArgs (flat_map nc_words l) = Exit.
Proof.
  intros l Hl Hf. rewrite <- (app_nil_r (flat_map nc_words l)), nc_parse by (auto; exact I).
  destruct Hf as [-> | ->]; reflexivity.
Qed.
(** The number of rows per file cannot be set at all: no command line gives a
    size limit. *)
Lemma option_limit a p b : nc_option a p = Done b -> fst p <> lit "--limit_ffi_1001_rows" -> x_size_limit b = x_size_limit a.
Proof.
  destruct p as [arg v], a. cbn [fst]. intros E Hn. unfold nc_option in E.
  repeat match type of E with (if ?c then _ else _) = _ => destruct c eqn:? end;
    try (injection E as <-; reflexivity); try discriminate.
  - destruct (int_of_str v); cbn in E; [injection E as <-; reflexivity|discriminate].
  - match goal with K : str_eqb arg (lit "--limit_ffi_1001_rows") = true |- _ => apply str_eqb_eq in K; contradiction end.
  - destruct (makeDictFromCommaSepString v); cbn in E; [injection E as <-; reflexivity|discriminate].
Qed.
Lemma each_limit l a b : each nc_option l a = Done b -> Forall (fun p => fst p <> lit "--limit_ffi_1001_rows") l ->
  x_size_limit b = x_size_limit a.
Proof.
  revert a. induction l as [|p l IH]; intros a E Hl; [cbn in E; now injection E as <-|].
  inversion Hl; subst. cbn [each] in E. destruct (nc_option a p) as [c| |] eqn:Ec; try discriminate. cbn [bindX] in E.
  rewrite (IH c) by auto. eapply option_limit; eauto.
Qed.
Lemma shorts_names s shorts args l rest : do_shorts s shorts args = Opts (l, rest) ->
  Forall (fun p : option_value => length (fst p) = 2%nat) l.
Proof.
  revert l rest. induction s as [|c t IH]; intros l rest E; cbn [do_shorts] in E; [injection E as <- <-; constructor|].
  destruct (short_has_arg c shorts) as [[]|]; try discriminate; cbn [bindO] in E.
  - destruct t as [|x t].
    + destruct args; [discriminate|]. injection E as <- <-. repeat constructor.
    + injection E as <- <-. repeat constructor.
  - destruct (do_shorts t shorts args) as [[l' r']|]; [|discriminate]. injection E as <- <-. constructor; [reflexivity|].
    now apply (IH l' r').
Qed.
Lemma long_name opt longs b name : long_has_args opt longs = Opts (b, name) -> In name (longs ++ map (@removelast chr) longs).
Proof.
  unfold long_has_args. destruct (filter (starts_with opt) longs) as [|f o] eqn:Ef; [discriminate|].
  assert (Hsub : forall x, In x (f :: o) -> In x longs).
  { intros x Hx. rewrite <- Ef in Hx. now apply filter_In in Hx. }
  rewrite in_app_iff.
  destruct (existsb (str_eqb opt) (f :: o)) eqn:E1.
  { intros E. injection E as <- <-. apply existsb_exists in E1 as (x & Hx & Ex). apply str_eqb_eq in Ex. subst x. left. auto. }
  destruct (existsb (str_eqb (opt ++ [c_equals])) (f :: o)) eqn:E2.
  { intros E. injection E as <- <-. apply existsb_exists in E2 as (x & Hx & Ex). apply str_eqb_eq in Ex. subst x. right.
    apply in_map_iff. exists (opt ++ [c_equals]). split; [apply removelast_last|auto]. }
  destruct o; [|discriminate]. destruct (last f 0 =? c_equals)%N; intros E; injection E as <- <-.
  - right. apply in_map. apply Hsub. now left.
  - left. apply Hsub. now left.
Qed.
Lemma loop_names fuel shorts longs args l rest : getopt_loop fuel shorts longs args = Opts (l, rest) ->
  Forall (fun p : option_value => length (fst p) = 2%nat \/ In (skipn 2 (fst p)) (longs ++ map (@removelast chr) longs)) l.
Proof.
  revert args l rest. induction fuel as [|fuel IH]; intros args l rest E; cbn [getopt_loop] in E; [injection E as <- <-; constructor|].
  destruct args as [|a args]; [injection E as <- <-; constructor|].
  destruct (negb (starts_with [c_dash] a) || str_eqb a [c_dash]); [injection E as <- <-; constructor|].
  destruct (str_eqb a [c_dash; c_dash]); [injection E as <- <-; constructor|].
  destruct (starts_with [c_dash; c_dash] a).
  - destruct (do_longs (skipn 2 a) longs args) as [[o r]|] eqn:Ed; [|discriminate]. cbn [bindO fst snd] in E.
    destruct (getopt_loop fuel shorts longs r) as [[l' r']|] eqn:El; [|discriminate]. injection E as <- <-.
    constructor; [|eapply IH; eauto]. right. unfold do_longs in Ed.
    destruct (cut_equals (skipn 2 a)) as [opt v]. destruct (long_has_args opt longs) as [[b name]|] eqn:Eh; [|discriminate].
    apply long_name in Eh. cbn [bindO] in Ed.
    destruct b, v, args; try discriminate; injection Ed as <- <-; exact Eh.
  - destruct (do_shorts (skipn 1 a) shorts args) as [[o r]|] eqn:Ed; [|discriminate]. cbn [bindO fst snd] in E.
    destruct (getopt_loop fuel shorts longs r) as [[l' r']|] eqn:El; [|discriminate]. injection E as <- <-.
    apply Forall_app. split; [|eapply IH; eauto]. apply shorts_names in Ed. eapply Forall_impl; [|exact Ed]. tauto.
Qed.
Theorem C83_no_size_limit : forall args c, nc_parseArgs args = Done c -> x_size_limit c = None.
Proof.
  intros args c E. unfold nc_parseArgs in E. destruct (getopt args nc_short nc_long) as [[l rest]|] eqn:Eg; [|discriminate].
  destruct (each nc_option l nc_defaults) as [a| |] eqn:Ea; try discriminate. cbn [bindX] in E.
  assert (a = c) by (destruct (x_nc_file a) as [[|]|]; congruence). subst a.
  apply each_limit in Ea; [exact Ea|]. apply loop_names in Eg. eapply Forall_impl; [|exact Eg]. clear.
  intros [n v] [K|K] Heq; cbn [fst] in *; subst n; [discriminate|].
  cbv in K. repeat destruct K as [K|K]; try discriminate K. contradiction.
Qed.
Theorem C83_refuted : exists args, args = map lit ["-i"; "a.nc"; "-l"; "100"]%pylit /\
  nc_parseArgs args = Exit /\ nc_parseArgs (firstn 2 args) <> Exit.
Proof. eexists. split; [reflexivity|]. split; [reflexivity|discriminate]. Qed.
Example C83_example :
  nc_parseArgs (map lit ["-v"; "temp,hum"; "--ffi=1001"; "-ia.nc"; "-d"; ";"; "--no-header"; "-i"; "b.nc";
                         "--overwrite-metadata"; "ONAME,Ann Other,ORG,Here"]%pylit) =
  Done (mkNcCmd (Some (lit "b.nc")) (Some (map lit ["temp"; "hum"]%pylit)) (Some 1001%Z) (lit "%.10g") (lit ";") None []
    [(lit "ONAME", lit "Ann Other"); (lit "ORG", lit "Here")] false None true false).
Proof.
  refine (C83_options_partial [(false, OVars (map lit ["temp"; "hum"]%pylit)); (true, OFfi 1001); (true, OIn (lit "a.nc"));
    (false, ODelim (lit ";")); (false, ONoHeader); (false, OIn (lit "b.nc"));
    (false, OMeta [(lit "ONAME", lit "Ann Other"); (lit "ORG", lit "Here")])] (lit "b.nc") _ _ _); [|reflexivity|discriminate].
  repeat constructor; cbn; try discriminate; try (intros K; cbv in K; repeat destruct K as [K|K]; try discriminate K; contradiction).
Qed.

(** * C84 *)
Lemma last_of_perm {O A} (f : O -> option A) (l l' : list O) : Permutation l l' ->
  (forall o o', In o l -> In o' l -> f o <> None -> f o' <> None -> o = o') -> NoDup l ->
  last_of f l = last_of f l'.
Proof.
  intros Hp Hu Hd. unfold last_of.
  set (F := flat_map (fun o => match f o with Some x => [x] | None => [] end)).
  assert (Hp' : Permutation (F l) (F l')) by now apply Permutation_flat_map.
  assert (H1 : (length (F l) <= 1)%nat).
  { clear Hp Hp' l'. induction l as [|o l IH]; [simpl; lia|]. unfold F. cbn [flat_map]. fold F. rewrite app_length.
    inversion Hd as [|? ? Hn Hd']; subst.
    destruct (f o) as [x|] eqn:Eo; cbn [length].
    - assert (F l = []) as ->; [|simpl; lia]. clear IH.
      assert (Hnone : forall o', In o' l -> f o' = None).
      { intros o' Ho'. destruct (f o') eqn:E'; [|reflexivity]. exfalso. apply Hn.
        rewrite (Hu o o'); [auto|now left|now right|congruence|congruence]. }
      clear - Hnone. induction l as [|o' l IH]; [reflexivity|]. unfold F. cbn [flat_map]. fold F.
      rewrite (Hnone o') by now left. apply IH. intros; apply Hnone; now right.
    - apply IH; auto. intros; apply Hu; auto; now right. }
  destruct (F l) as [|x [|]]; [|apply Permutation_length_1_inv in Hp' as ->; reflexivity|simpl in H1; lia].
  apply Permutation_nil in Hp' as ->. reflexivity.
Qed.
Lemma given_perm {O} (f : O -> bool) (l l' : list O) : Permutation l l' -> given f l = given f l'.
Proof.
  intros Hp. unfold given. induction Hp as [|x l l' _ IH|x y l|l l' l'' _ IH1 _ IH2]; cbn [existsb]; try congruence.
  now destruct (f x), (f y).
Qed.
Lemma kind_unique (l : list nc_opt) o o' : NoDup (map nc_kind l) -> In o l -> In o' l -> nc_kind o = nc_kind o' -> o = o'.
Proof.
  induction l as [|x l IH]; intros Hd Ho Ho' E; [destruct Ho|]. cbn [map] in Hd. inversion Hd as [|? ? Hn Hd']; subst.
  destruct Ho as [-> |Ho], Ho' as [-> |Ho']; auto.
  - exfalso. apply Hn. rewrite E. now apply in_map.
  - exfalso. apply Hn. rewrite <- E. now apply in_map.
Qed.
(** The order of the options, and how they are written, do not matter if no
    setting is made twice. *)
Theorem C84_order : forall (l l' : list (bool * nc_opt)),
  Forall nc_sayable l -> Forall nc_sayable l' -> Permutation (map snd l) (map snd l') -> NoDup (map nc_kind (map snd l)) ->
  nc_parseArgs (flat_map nc_words l) = nc_parseArgs (flat_map nc_words l').
Proof.
  intros l l' Hl Hl' Hp Hd.
  rewrite <- (app_nil_r (flat_map nc_words l)), <- (app_nil_r (flat_map nc_words l')), !nc_parse by (auto; exact I).
  assert (K : forall A (f : nc_opt -> option A) n, (forall o, f o <> None -> nc_kind o = n) -> last_of f (map snd l) = last_of f (map snd l')).
  { intros A f n Hf. apply last_of_perm; auto.
    - intros o o' H1 H2 H3 H4. apply (kind_unique (map snd l)); auto. now rewrite (Hf o), (Hf o').
    - now apply NoDup_map_inv in Hd. }
  unfold nc_asked. rewrite (K _ f_in 0%nat), (K _ f_out 1%nat), (K _ f_vars 2%nat), (K _ f_ffi 3%nat), (K _ f_format 4%nat), (K _ f_delim 5%nat),
    (K _ f_exclude 6%nat), (K _ f_meta 7%nat) by (intros []; cbn; congruence).
  rewrite (given_perm is_names_only _ _ Hp), (given_perm is_no_header _ _ Hp), (given_perm is_annotated _ _ Hp). reflexivity.
Qed.
Example C84_example :
  nc_parseArgs (map lit ["--annotated"; "-o"; "x.na"; "-i"; "a.nc"]%pylit) = nc_parseArgs (map lit ["-ia.nc"; "-ox.na"; "--annotated"]%pylit) /\
  nc_parseArgs (map lit ["-ia.nc"; "-ox.na"; "--annotated"]%pylit) <> Exit.
Proof.
  split; [|discriminate].
  refine (C84_order [(false, OAnnotated); (false, OOut (lit "x.na")); (false, OIn (lit "a.nc"))]
    [(true, OIn (lit "a.nc")); (true, OOut (lit "x.na")); (true, OAnnotated)] _ _ _ _).
  1,2: repeat constructor; discriminate.
  - cbn. apply (Permutation_rev [OAnnotated; OOut (lit "x.na"); OIn (lit "a.nc")]).
  - cbn. repeat constructor; simpl; intuition discriminate.
Qed.

(** * C85 *)
(** A word that is no option ends the options: it and all words after it are
    ignored, without a message. *)
Theorem C85_ignored_partial : forall (l : list (bool * nc_opt)) w rest,
  Forall nc_sayable l -> no_option w ->
  nc_parseArgs (flat_map nc_words l ++ w :: rest) = nc_parseArgs (flat_map nc_words l).
Proof.
  intros l w rest Hl Hw. rewrite nc_parse by auto.
  rewrite <- (app_nil_r (flat_map nc_words l)), nc_parse by (auto; exact I). reflexivity.
Qed.
Theorem C85_refuted : exists args c, args = map lit ["-i"; "a.nc"; "temp"; "-d"; ","]%pylit /\
  nc_parseArgs args = Done c /\ x_delimiter c = lit "    ".
Proof. do 2 eexists. split; [reflexivity|]. split; [reflexivity|]. reflexivity. Qed.
Example C85_example : Forall nc_sayable [(false, OIn (lit "a.nc")); (true, OAnnotated)] /\ no_option (lit "temp") /\
  nc_parseArgs (map lit ["-i"; "a.nc"; "--annotated"; "temp"; "-d"; ","]%pylit) = nc_parseArgs (map lit ["-i"; "a.nc"; "--annotated"]%pylit) /\
  nc_parseArgs (map lit ["-i"; "a.nc"; "--annotated"]%pylit) <> Exit.
Proof. split; [repeat constructor; discriminate|]. split; [right; reflexivity|]. split; [reflexivity|discriminate]. Qed.

(** * C86 *)
(** As installed (setup.py:70), nc2csv takes its options as nc2na does, so the
    delimiter is four spaces.  Run as a file it adds -d and a comma, which is
    without effect after a word that is no option or as the value of an option
    whose value is missing. *)
Theorem C86_installed_refuted : exists args c, args = map lit ["-i"; "a.nc"]%pylit /\
  nc_parseArgs args = Done c /\ x_delimiter c <> lit ",".
Proof. do 2 eexists. split; [reflexivity|]. split; [reflexivity|discriminate]. Qed.
Theorem C86_main_refuted : exists a1 a2 c1 c2,
  a1 = map lit ["-i"; "a.nc"; "x.csv"]%pylit /\ nc2csv_main a1 = Done c1 /\ x_delimiter c1 <> lit "," /\
  a2 = map lit ["-i"; "a.nc"; "-o"]%pylit /\ nc2csv_main a2 = Done c2 /\ x_delimiter c2 <> lit "," /\ x_na_file c2 = Some (lit "-d").
Proof.
  do 4 eexists. split; [reflexivity|]. split; [reflexivity|]. split; [discriminate|].
  split; [reflexivity|]. split; [reflexivity|]. split; [discriminate|reflexivity].
Qed.
(** Missing from the full claim: the installed program, and command lines with
    words after the options or with a missing value. *)
Theorem C86_main_partial : forall (l : list (bool * nc_opt)) f,
  Forall nc_sayable l -> last_of f_in (map snd l) = Some f -> f <> [] -> ~ In (lit "-d") (flat_map nc_words l) ->
  exists c, nc2csv_main (flat_map nc_words l) = Done c /\ x_delimiter c = lit "," /\ c = nc_asked (map snd l ++ [ODelim (lit ",")]).
Proof.
  intros l f Hl Hf Hn Hd. unfold nc2csv_main.
  replace (existsb (str_eqb (lit "-d")) (flat_map nc_words l)) with false.
  2:{ symmetry. destruct (existsb (str_eqb (lit "-d")) (flat_map nc_words l)) eqn:E; [|reflexivity].
      apply existsb_exists in E as (x & Hx & Ex). apply str_eqb_eq in Ex. subst x. contradiction. }
  assert (E : flat_map nc_words l ++ map lit ["-d"; ","]%pylit = flat_map nc_words (l ++ [(false, ODelim (lit ","))])).
  { now rewrite flat_map_app. }
  rewrite E, <- (app_nil_r (flat_map nc_words (l ++ _))), nc_parse.
  3: exact I.
  2: { apply Forall_app. split; auto. repeat constructor. discriminate. }
  rewrite map_app. cbn [map snd].
  assert (Ef : last_of f_in (map snd l ++ [ODelim (lit ",")]) = Some f) by (rewrite last_of_snoc; exact Hf).
  rewrite Ef. destruct f; [congruence|]. eexists. split; [reflexivity|].
  split; [|reflexivity]. unfold nc_asked. cbn [x_delimiter]. now rewrite last_of_snoc.
Qed.
Example C86_example : exists c, nc2csv_main (map lit ["-i"; "a.nc"; "-d;"]%pylit) = Done c /\ x_delimiter c = lit ",".
Proof.
  destruct (C86_main_partial [(false, OIn (lit "a.nc")); (true, ODelim (lit ";"))] (lit "a.nc")) as (c & K & Kd & _).
  - repeat constructor; discriminate.
  - reflexivity.
  - discriminate.
  - cbv. intuition discriminate.
  - eauto.
Qed.

(** * C87 *)
Definition na_meaning (o : na_opt) : option_value :=
  match o with
  | AIn f => (lit "-i", f) | AOut f => (lit "-o", f) | AMode m => (lit "-m", m)
  | AGlobals l => (lit "-g", commas (flatten l)) | ARename l => (lit "-r", commas (flatten l))
  | AUnits u => (lit "-t", u) | ANoWarning => (lit "-n", [])
  end.
Lemma commas_nonempty l : l <> [] -> commas (flatten l) <> [].
Proof. destruct l as [|[[|c a] b] l]; [congruence| |]; intros _; destruct (flatten l) eqn:E; unfold commas; cbn; rewrite ?E; discriminate. Qed.
Lemma na_step fuel p rest : na_sayable p ->
  getopt_loop (S fuel) na_short [] (na_words p ++ rest) =
  bindO (getopt_loop fuel na_short [] rest) (fun q => Opts (na_meaning (snd p) :: fst q, snd q)).
Proof.
  destruct p as [j o]. intros Hs. unfold na_words, na_meaning. cbn [fst snd]. unfold na_sayable in Hs. cbn [fst snd] in Hs.
  destruct o; cbv beta iota zeta in Hs.
  1-3,6: (refine (loop_short _ _ fuel j _ _ rest _ _ _); [discriminate|reflexivity|exact Hs]).
  - destruct Hs as (H1 & _). refine (loop_short _ _ fuel j _ _ rest _ _ _); [discriminate|reflexivity|intros _; now apply commas_nonempty].
  - destruct Hs as (H1 & _). refine (loop_short _ _ fuel j _ _ rest _ _ _); [discriminate|reflexivity|intros _; now apply commas_nonempty].
  - refine (loop_flag _ _ fuel _ rest _ _); [discriminate|reflexivity].
Qed.
Lemma na_getopt l rest fuel : Forall na_sayable l -> stops rest -> (length l <= fuel)%nat ->
  getopt_loop fuel na_short [] (flat_map na_words l ++ rest) = Opts (map (fun p => na_meaning (snd p)) l, rest).
Proof.
  intros Hl Hr. revert fuel. induction Hl as [|p l Hp _ IH]; intros fuel Hf; [now apply loop_stops|].
  destruct fuel as [|fuel]; [simpl in Hf; lia|]. cbn [flat_map]. rewrite <- app_assoc, na_step by auto.
  rewrite IH by (simpl in Hf; lia). reflexivity.
Qed.
Lemma na_words_length p : (1 <= length (na_words p))%nat.
Proof. destruct p as [[] []]; cbn; lia. Qed.
(** The settings that a list of options asks for, before a name for the output
    is made. *)
Definition na_asked (l : list na_opt) (nc_file : option str) : na_cmd :=
  mkNaCmd (last_of g_in l) (or_else (lit "w") (last_of g_mode l)) (or_else [] (last_of g_globals l)) (or_else [] (last_of g_rename l))
    (last_of g_units l) (negb (given is_no_warning l)) nc_file.
Lemma pairs_list l : l <> [] -> Forall no_comma (flatten l) -> makeListFromCommaSepString (commas (flatten l)) = Ok l.
Proof. intros Hn Hc. now destruct (C39_pairs l Hn Hc). Qed.
Lemma na_each l : Forall na_sayable l ->
  each na_option (map (fun p => na_meaning (snd p)) l) na_defaults = Done (na_asked (map snd l) (last_of g_out (map snd l))).
Proof.
  induction l as [|[j o] l IH] using rev_ind; intros Hl; [reflexivity|].
  apply Forall_app in Hl as [Hl Ho]. inversion Ho as [|? ? Hs _]; subst. clear Ho.
  rewrite map_app, each_app, IH by auto. cbn [bindX map each]. rewrite bindX_done.
  rewrite map_app. cbn [map snd]. unfold na_asked. rewrite !last_of_snoc, !given_snoc.
  unfold na_sayable in Hs. cbn [fst snd] in Hs. destruct o; cbv beta iota zeta in Hs; unfold na_meaning;
    cbn [g_in g_out g_mode g_globals g_rename g_units is_no_warning orb or_else];
    unfold na_option; eq_lits; try reflexivity.
  - destruct Hs as (H1 & H2). now rewrite pairs_list.
  - destruct Hs as (H1 & H2 & H3). now rewrite meta_dict.
Qed.
(** The output name that is made when none is given. *)
Definition nc_name (fn out : str) : Prop :=
  (exists base, fn = base ++ lit ".na" /\ out = base ++ lit ".nc") \/
  ((forall base, fn <> base ++ lit ".na") /\ out = fn ++ lit ".nc").
Lemma na_suffix fn : (exists base, fn = base ++ lit ".na" /\ str_eqb (slice_from fn (-3)%Z) (lit ".na") = true /\ slice_to fn (-3)%Z = base) \/
  ((forall base, fn <> base ++ lit ".na") /\ str_eqb (slice_from fn (-3)%Z) (lit ".na") = false).
Proof.
  destruct (str_eqb (slice_from fn (-3)%Z) (lit ".na")) eqn:E.
  - left. apply str_eqb_eq in E. exists (slice_to fn (-3)%Z). split; [|auto].
    rewrite <- E at 1. unfold slice_from, slice_to. cbn [Z.ltb Z.compare]. symmetry. apply firstn_skipn.
  - right. split; [|reflexivity]. intros base ->.
    assert (K : slice_from (base ++ lit ".na") (-3)%Z = lit ".na"); [|rewrite K in E; discriminate].
    unfold slice_from. cbn [Z.ltb Z.compare]. rewrite app_length. change (length (lit ".na")) with 3%nat.
    replace (Z.to_nat (Z.max 0 (Z.of_nat (length base + 3) + -3))) with (length base) by lia.
    rewrite skipn_app, skipn_all, Nat.sub_diag. reflexivity.
Qed.
Theorem C87_options : forall (l : list (bool * na_opt)) f,
  Forall na_sayable l -> last_of g_in (map snd l) = Some f -> f <> [] ->
  exists out, na_parseArgs (flat_map na_words l) = Done (na_asked (map snd l) (Some out)) /\
    match last_of g_out (map snd l) with Some ((_ :: _) as given) => out = given | _ => nc_name f out end.
Proof.
  intros l f Hl Hf Hn. unfold na_parseArgs, getopt. rewrite <- (app_nil_r (flat_map na_words l)).
  rewrite na_getopt by (auto; first [exact I|apply words_length, na_words_length]). rewrite na_each by auto. cbn [bindX].
  unfold na_asked at 1 2. cbn [y_na_file y_nc_file]. rewrite Hf. destruct f as [|c f]; [congruence|].
  assert (Auto : exists out, out = (if str_eqb (slice_from (c :: f) (-3)%Z) (lit ".na") then slice_to (c :: f) (-3)%Z else c :: f) ++ lit ".nc" /\
      nc_name (c :: f) out).
  { eexists. split; [reflexivity|].
    destruct (na_suffix (c :: f)) as [(b & E1 & E2 & E3)|[E1 E2]]; rewrite E2.
    - left. exists b. now rewrite E3.
    - right. auto. }
  destruct Auto as (out & Eout & Hout).
  destruct (last_of g_out (map snd l)) as [[|x y]|] eqn:Eo.
  - exists out. split; [rewrite Eout; unfold na_asked; cbn; rewrite Hf; reflexivity|exact Hout].
  - eexists. split; [unfold na_asked; rewrite Hf; reflexivity|reflexivity].
  - exists out. split; [rewrite Eout; unfold na_asked; cbn; rewrite Hf; reflexivity|exact Hout].
Qed.
Example C87_example :
  na_parseArgs (map lit ["-i"; "/data/a.na"; "-n"; "-g"; "a,b,a,c"; "-rt,temp"]%pylit) =
  Done (mkNaCmd (Some (lit "/data/a.na")) (lit "w") [(lit "a", lit "b"); (lit "a", lit "c")] [(lit "t", lit "temp")] None false
    (Some (lit "/data/a.nc"))).
Proof. reflexivity. Qed.
Example C87_conditions : exists out,
  na_parseArgs (map lit ["-i"; "/data/a.na"; "-n"; "-rt,temp"]%pylit) =
  Done (na_asked [AIn (lit "/data/a.na"); ANoWarning; ARename [(lit "t", lit "temp")]] (Some out)) /\ nc_name (lit "/data/a.na") out.
Proof.
  apply (C87_options [(false, AIn (lit "/data/a.na")); (false, ANoWarning); (true, ARename [(lit "t", lit "temp")])]); [|reflexivity|discriminate].
  repeat constructor; try discriminate; cbn; try (intros K; cbv in K; repeat destruct K as [K|K]; try discriminate K; contradiction).
Qed.

(** * C88 *)
(** The file that is read is never the file that is written, unless it is named
    with -o. *)
Theorem C88_other_file : forall (l : list (bool * na_opt)) c,
  Forall na_sayable l -> na_parseArgs (flat_map na_words l) = Done c -> last_of g_out (map snd l) = None ->
  y_nc_file c <> y_na_file c /\ exists b, y_nc_file c = Some (b ++ lit ".nc").
Proof.
  intros l c Hl E Ho.
  assert (Hf : exists f, last_of g_in (map snd l) = Some f /\ f <> []).
  { unfold na_parseArgs, getopt in E. rewrite <- (app_nil_r (flat_map na_words l)) in E.
    rewrite na_getopt in E by (auto; first [exact I|apply words_length, na_words_length]). rewrite na_each in E by auto. cbn [bindX] in E.
    unfold na_asked in E at 1. cbn [y_na_file] in E. destruct (last_of g_in (map snd l)) as [[|x f]|]; try discriminate.
    eexists; split; [reflexivity|discriminate]. }
  destruct Hf as (f & Hf & Hn). destruct (C87_options l f Hl Hf Hn) as (out & E' & Hout). rewrite Ho in Hout.
  rewrite E' in E. injection E as <-. unfold na_asked. cbn [y_nc_file y_na_file]. rewrite Hf.
  destruct Hout as [(b & -> & ->)|[_ ->]]; (split; [|eauto]); intros K.
  - assert (K' : b ++ lit ".nc" = b ++ lit ".na") by congruence. apply app_inv_head in K'. discriminate.
  - assert (K' : f ++ lit ".nc" = f) by congruence. apply (f_equal (@length _)) in K'. rewrite app_length in K'. cbn in K'. lia.
Qed.
Example C88_example : exists c, na_parseArgs (map lit ["-i"; "a.nc"]%pylit) = Done c /\ y_nc_file c = Some (lit "a.nc.nc") /\
  y_nc_file c <> y_na_file c.
Proof.
  eexists. split; [reflexivity|]. split; [reflexivity|].
  refine (proj1 (C88_other_file [(false, AIn (lit "a.nc"))] _ _ eq_refl eq_refl)). repeat constructor. discriminate.
Qed.

Print Assumptions C83_options_partial.
Print Assumptions C83_needs_input.
Print Assumptions C83_no_size_limit.
Print Assumptions C83_refuted.
Print Assumptions C84_order.
Print Assumptions C85_ignored_partial.
Print Assumptions C85_refuted.
Print Assumptions C86_installed_refuted.
Print Assumptions C86_main_refuted.
Print Assumptions C86_main_partial.
Print Assumptions C87_options.
Print Assumptions C88_other_file.
