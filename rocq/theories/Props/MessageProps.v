(** C139, C140: the messages of a conversion. *)
From Coq Require Import List NArith ZArith Bool Lia.
From Verif Require Import Py.Str Py.Res Py.Num Py.Arith Model.Dict Model.CommonUtils Model.NAWrite Model.Utils Model.NCWrite Model.Xarray Model.Collector Model.Api Model.Programs
  Model.Messages Spec.ZNum Spec.CollectorSpec Proofs.StrLemmas Proofs.ReadFrame Proofs.ConfigLemmas Proofs.CollectorLemmas Props.CollectorProps Props.ApiProps Props.ApiMore
  Props.HeaderDates.
Import ListNotations.

Lemma Ok_inj {A} (a b : A) : Ok a = Ok b -> a = b.
Proof. congruence. Qed.

Section Writing.
Context {num : Type} `{NumOps num} `{ArithOps num}.
Local Notation na := (na num).
Local Notation pyv := (pyv num).
Local Notation message := (message num).
Variable same : pyv -> pyv -> bool.

Lemma overrides_same r l : forall (d : na), bindR (override_messages same r l d) (fun q => Ok (snd q)) = forR l (fun p d => override r d p) d.
Proof.
  induction l as [| p l IH]; intros d; [reflexivity |]. cbn [override_messages forR]. destruct (override r d p) as [d' |]; cbn [bindR]; [| reflexivity].
  rewrite <- IH. destruct (override_messages same r l d'); reflexivity.
Qed.
Lemma prepare_messages (s : NCWrite.settings) (d : na) :
  bindR (bindR (override_messages same (st_rule s) (st_overriders s) d)
    (fun q => bindR (if st_headers s then updateWithColumnHeaders (snd q) else Ok (snd q)) (fun d' => Ok (fst q, d')))) (fun x => Ok (snd x)) = prepare s d.
Proof.
  unfold prepare. rewrite <- overrides_same. destruct (override_messages _ _ _ d) as [q |]; cbn [bindR]; [| reflexivity].
  destruct (st_headers s); [| reflexivity]. destruct (updateWithColumnHeaders (snd q)); reflexivity.
Qed.
(** ** C139 *)
(** The files are those of [write_all]. *)
Lemma messages_same fuel s (o : opts num) nh lim l : forall n fl fs,
  match write_messages same fuel s o nh lim l n fl fs, write_all fuel s o nh lim (map (fun x => (fst x, fst (snd x))) l) fs with
  | (Ok (_, files), fs'), (Ok (names, _), fs'') => files = fl ++ names /\ fs' = fs''
  | (Err e, fs'), (Err e', fs'') => e = e' /\ fs' = fs''
  | _, _ => False
  end.
Proof.
  induction l as [| (name, (d, v)) l IH]; intros n fl fs; cbn [write_messages write_all map fst snd]; [rewrite app_nil_r; auto |].
  pose proof (prepare_messages s d) as P. destruct (bindR (override_messages _ _ _ d) _) as [(ov, d') |]; cbn [bindR snd] in P; rewrite <- P; [| auto].
  destruct (write_one fuel o nh lim name d' fs) as [[names |] f1]; [| auto]. specialize (IH (n + Z.of_nat (length (fl ++ names)))%Z (fl ++ names) f1).
  destruct (write_messages _ _ _ _ _ _ l _ _ f1) as [[(ms, all) |] f2], (write_all _ _ _ _ _ (map _ l) f1) as [[(names', ds) |] f3]; try contradiction; [| auto].
  destruct IH as (-> & ->). rewrite app_assoc. auto.
Qed.
Theorem C139_same : forall fuel s (o : opts num) no_header limit l fs,
  match write_messages same fuel s o no_header limit l 1 [] fs, write_all fuel s o no_header limit (map (fun x => (fst x, fst (snd x))) l) fs with
  | (Ok (_, files), fs'), (Ok (names, _), fs'') => files = names /\ fs' = fs''
  | (Err e, fs'), (Err e', fs'') => e = e' /\ fs' = fs''
  | _, _ => False
  end.
Proof.
  intros fuel s o nh lim l fs. pose proof (messages_same fuel s o nh lim l 1 [] fs) as M.
  destruct (write_messages _ _ _ _ _ _ _ _ _ _) as [[(ms, all) |] f2], (write_all _ _ _ _ _ _ _) as [[(names', ds) |] f3]; try contradiction; exact M.
Qed.
Lemma overs_only r l : forall (d : na) q, override_messages same r l d = Ok q ->
  Forall (fun m => exists k v, m = MOverwritten k v /\ In k (map fst l) /\ k <> kSCOM /\ k <> kNCOM) (fst q).
Proof.
  induction l as [| p l IH]; intros d q Q; cbn [override_messages] in Q; [apply Ok_inj in Q; subst q; constructor |].
  bindE Q d' H1. bindE Q q' H2. apply Ok_inj in Q. subst q. cbn [fst]. apply Forall_app. split; [| eapply Forall_impl; [| exact (IH _ _ H2)]; intros m (k & v & E & I & K); exists k, v; cbn [map]; auto using in_cons].
  match goal with |- Forall _ (if ?b then _ else _) => destruct b eqn:B end; [| constructor]. constructor; [| constructor]. do 2 eexists. split; [reflexivity |]. split; [left; reflexivity |].
  apply andb_prop in B as [B _]. apply andb_prop in B as [_ B]. split; intros E; rewrite E in B; discriminate B.
Qed.
(** What is said about one dictionary after the name of its file; [given]: the items
    of the user. *)
Definition about (given : list key) (x : str * (na * names3)) (m : message) : Prop :=
  (exists k v, m = MOverwritten k v /\ In k given /\ k <> kSCOM /\ k <> kNCOM) \/ (exists n f, m = MSplit n f) \/ m = MWrote (m_main (snd (snd x))) \/ exists files, m = MReport (m_aux (snd (snd x))) (m_zero (snd (snd x))) files.
Definition reported (m : message) : Z := match m with MReport _ _ files => Z.of_nat (length files) | _ => 0%Z end.
Definition total (ms : list message) : Z := fold_right (fun m z => (reported m + z)%Z) 0%Z ms.
Lemma total_app a b : total (a ++ b) = (total a + total b)%Z.
Proof. induction a as [| m a IH]; cbn [app total fold_right]; [reflexivity |]. fold (total (a ++ b)) (total a). lia. Qed.
Lemma total_none ms : Forall (fun m => reported m = 0%Z) ms -> total ms = 0%Z.
Proof. induction 1; cbn [total fold_right]; [reflexivity |]. fold (total l). lia. Qed.
Lemma messages_blocks fuel s (o : opts num) nh lim l : forall n fl fs ms files fs', write_messages same fuel s o nh lim l n fl fs = (Ok (ms, files), fs') ->
  exists blocks, length blocks = length l /\ ms = concat (map (fun p => MWriting (fst (fst p)) :: snd p) (combine l blocks)) ++ [MCount (n - 1 + total ms)] /\
    (forall x b, In (x, b) (combine l blocks) -> Forall (about (map fst (st_overriders s)) x) b /\ In (MWrote (m_main (snd (snd x)))) b /\ exists fs, In (MReport (m_aux (snd (snd x))) (m_zero (snd (snd x))) fs) b) /\
    (lim = None -> (2 * total ms = Z.of_nat (length l) * (2 * Z.of_nat (length fl) + Z.of_nat (length l) + 1))%Z).
Proof.
  induction l as [| (name, (d, v)) l IH]; intros n fl fs ms files fs' Q; cbn [write_messages] in Q.
  - injection Q as <- <- <-. exists []. cbn [total fold_right reported combine map concat app length]. split; [reflexivity |]. split; [do 2 f_equal; lia |]. split; [intros x b [] |]. intros _. lia.
  - destruct (bindR (override_messages _ _ _ d) _) as [(ov, d') |] eqn:B; [| discriminate Q].
    destruct (write_one fuel o nh lim name d' fs) as [[names |] f1] eqn:W; [| discriminate Q]. cbv zeta in Q.
    destruct (write_messages _ _ _ _ _ _ l _ _ f1) as [[(ms', all) |] f2] eqn:R; [| discriminate Q]. injection Q as <- <- <-.
    destruct (IH _ _ _ _ _ _ R) as (blocks & Lb & Em & Ab & Tot). set (split := match lim with Some n0 => _ | None => _ end) in *.
    assert (Fo : Forall (fun m => exists k v, m = MOverwritten k v /\ In k (map fst (st_overriders s)) /\ k <> kSCOM /\ k <> kNCOM) ov). { bindE B q Hq. bindE B d1 Hd. injection B as <- _. exact (overs_only _ _ _ _ Hq). }
    assert (Fs : Forall (fun m => exists n f, m = MSplit n f) split).
    { unfold split. destruct lim as [z |]; [| constructor]. destruct (is_split _ _); [| constructor]. induction (every_second names); constructor; eauto. }
    assert (T : total (MWriting name :: ov ++ split ++ [MWrote (m_main v); MReport (m_aux v) (m_zero v) (fl ++ names)] ++ ms') = (Z.of_nat (length (fl ++ names)) + total ms')%Z).
    { change (MWriting name :: ov ++ split ++ [MWrote (m_main v); MReport (m_aux v) (m_zero v) (fl ++ names)] ++ ms') with ([MWriting name] ++ ov ++ split ++ [MWrote (m_main v); MReport (m_aux v) (m_zero v) (fl ++ names)] ++ ms').
      rewrite !total_app, (total_none ov), (total_none split); [cbn [total fold_right reported]; lia | |].
      - eapply Forall_impl; [| exact Fs]. intros m (a & b & ->). reflexivity.
      - eapply Forall_impl; [| exact Fo]. intros m (a & b & -> & _). reflexivity. }
    cbn [app] in T |- *.
    exists ((ov ++ split ++ [MWrote (m_main v); MReport (m_aux v) (m_zero v) (fl ++ names)]) :: blocks). split; [cbn; congruence |]. split; [| split].
    + cbn [combine map concat fst snd]. rewrite T. cbn [app]. f_equal. rewrite <- !app_assoc. do 3 f_equal. rewrite Em at 1. cbn [app]. do 3 f_equal. f_equal. f_equal. lia.
    + intros x b [Q | I]; [| exact (Ab x b I)]. injection Q as <- <-. cbn [snd]. split; [| split].
      * apply Forall_app. split; [eapply Forall_impl; [| exact Fo]; intros m K; left; exact K |]. apply Forall_app. split; [eapply Forall_impl; [| exact Fs]; intros m K; right; left; exact K |].
        constructor; [| constructor; [| constructor]]; unfold about; cbn [snd]; [right; right; left; reflexivity | right; right; right; eexists; reflexivity].
      * apply in_or_app. right. apply in_or_app. right. left. reflexivity.
      * exists (fl ++ names). apply in_or_app. right. apply in_or_app. right. right. left. reflexivity.
    + intros Hl. rewrite T. assert (Ln : length names = 1%nat).
      { unfold write_one in W. subst lim. destruct (put_file o nh name d' fs) as [[u |] g]; [injection W as <- _; reflexivity | discriminate W]. }
      specialize (Tot Hl). rewrite app_length, Ln in *. cbn [length]. lia.
Qed.
(** For every dictionary there is a message with the name of the file, followed by
    one with the names of its variables, and by others about items that were given
    and are not comments; one number of files comes last.
    Without a size limit it is k(k+1)/2 for k files. *)
Theorem C139_messages_partial : forall fuel s (o : opts num) no_header limit l fs ms files fs',
  write_messages same fuel s o no_header limit l 1 [] fs = (Ok (ms, files), fs') ->
  exists blocks n, length blocks = length l /\ ms = concat (map (fun p => MWriting (fst (fst p)) :: snd p) (combine l blocks)) ++ [MCount n] /\
    (forall x b, In (x, b) (combine l blocks) -> Forall (about (map fst (st_overriders s)) x) b /\ In (MWrote (m_main (snd (snd x)))) b /\ exists fs, In (MReport (m_aux (snd (snd x))) (m_zero (snd (snd x))) fs) b) /\
    (limit = None -> length files = length l /\ (2 * n = Z.of_nat (length files) * (Z.of_nat (length files) + 1))%Z).
Proof.
  intros fuel s o nh lim l fs ms files fs' Q. destruct (messages_blocks _ _ _ _ _ _ _ _ _ _ _ _ Q) as (blocks & Lb & Em & Ab & Tot).
  exists blocks, (total ms). split; [exact Lb |]. split; [rewrite Em at 1; do 3 f_equal; lia |]. split; [exact Ab |]. intros Hl.
  assert (Lf : length files = length l).
  { pose proof (C139_same fuel s o nh lim l fs) as M. rewrite Q in M. destruct (write_all _ _ _ _ _ _ fs) as [[(names, ds) |] g] eqn:W; [| destruct M]. destruct M as (-> & _).
    subst lim. apply write_all_get in W as (-> & _). rewrite !map_length. reflexivity. }
  split; [exact Lf |]. rewrite Lf. specialize (Tot Hl). cbn [length] in Tot. lia.
Qed.
(** The text has every name; those of auxiliary variables only when there is no
    variable of rank zero. *)
Lemma joined_in sep x : forall l, In x l -> exists a b, join sep l = a ++ x ++ b.
Proof.
  induction l as [| y l IH]; intros I; [destruct I |]. destruct I as [-> | I].
  - destruct l as [| z l]; [exists [], []; cbn; rewrite app_nil_r; reflexivity |]. exists []. eexists. cbn [join]. cbn [app]. reflexivity.
  - destruct (IH I) as (a & b & E). destruct l as [| z l]; [destruct I |]. exists (y ++ sep ++ a), b. change (join sep (y :: z :: l)) with (y ++ sep ++ join sep (z :: l)). rewrite E, <- !app_assoc. reflexivity.
Qed.
Theorem C139_text_partial : forall show (x : str),
  (forall l, In x l -> exists a b, render (num := num) show (MWrote l) = a ++ x ++ b) /\
  (forall aux zero files, In x zero \/ In x files \/ zero = [] /\ In x aux -> exists a b, render (num := num) show (MReport aux zero files) = a ++ x ++ b).
Proof.
  intros show x.
  assert (Li : forall t l, In x l -> exists a b, listed t l = a ++ x ++ b).
  { intros t l I. unfold listed. destruct (joined_in ([c_nl] ++ lit "  ") x l I) as (a & b & E). exists (t ++ [c_nl] ++ lit "  " ++ a), b. rewrite E, <- !app_assoc. reflexivity. }
  split; [intros l I; apply Li, I |]. intros aux zero files [I | [I | (-> & I)]]; cbn [render].
  - destruct zero as [| z zero]; [destruct I |]. cbn [is_nil]. destruct (Li ([c_nl] ++ lit "Wrote the following Singleton variables:") _ I) as (a & b & E). rewrite E. exists a. eexists. rewrite <- !app_assoc. reflexivity.
  - destruct files as [| f files]; [destruct I |]. cbn [is_nil]. destruct (joined_in [c_nl] x _ I) as (a & b & E). rewrite E.
    match goal with |- exists _ _, ?p ++ ?q ++ ?r ++ ?t ++ _ = _ => exists (p ++ q ++ r ++ t ++ a), b end. rewrite <- !app_assoc. reflexivity.
  - destruct aux as [| z aux]; [destruct I |]. cbn [is_nil]. destruct (Li ([c_nl] ++ lit "Wrote the following auxiliary variables:") _ I) as (a & b & E). rewrite E. exists a. eexists. rewrite <- !app_assoc. reflexivity.
Qed.
End Writing.
Print Assumptions C139_same.
Print Assumptions C139_messages_partial.
Print Assumptions C139_text_partial.

(** ** A conversion into two files *)
Definition two_files : list (xvar Z) :=
  [var (lit "density") [] [xs] (data [1; 2; 3; 4]%Z); var (lit "ozone") [] [ts; xs] (PList [data [1; 2; 3; 4]%Z; data [5; 6; 7; 8]%Z]);
   var (lit "zenith") [] [ts] (data [1; 2]%Z); var (lit "x") [] [xs] (data [1; 2; 3; 5]%Z); var (lit "level") [] [] (PNum 7%Z)].
Definition said (vars : list (xvar Z)) (over : list (key * pyv Z)) (limit : option Z) : Res (list (message Z) * list str) * disk :=
  messages_of_writing env_Z (fun _ _ => false) 10 None [] vars (mkSettings RReplace false over) (mkOpts (lit " ") dec_of_Z false (fun _ => None)) false limit (lit "a.na") [].
Definition texts (vars : list (xvar Z)) : list str := match said vars [] None with (Ok (ms, _), _) => map (render (fun _ => [])) ms | _ => [] end.
(** False of the code: three files are counted where two are written, and the
    auxiliary variable is not mentioned. *)
Theorem C139_refuted : exists (vars : list (xvar Z)) ms files fs, said vars [] None = (Ok (ms, files), fs) /\
  files = [lit "a_1.na"; lit "a_2.na"] /\ map fst fs = files /\ last ms MNothing = MCount 3 /\ render (fun _ => []) (last ms MNothing) = [c_nl] ++ lit "3 files written." /\
  match convert env_Z None [] vars with Ok (Some (c :: _)) => map v_name (c_aux c) = [lit "zenith"] | _ => False end /\
  forall m, In m ms -> contains (lit "zenith") (render (fun _ => []) m) = false.
Proof.
  exists two_files, (match said two_files [] None with (Ok (ms, _), _) => ms | _ => [] end), [lit "a_1.na"; lit "a_2.na"], (snd (said two_files [] None)).
  split; [vm_compute; reflexivity |]. split; [reflexivity |]. split; [vm_compute; reflexivity |]. split; [vm_compute; reflexivity |]. split; [vm_compute; reflexivity |].
  split; [vm_compute; reflexivity |]. intros m I. apply (in_map (fun m => contains (lit "zenith") (render (fun _ => []) m))) in I.
  match type of I with In ?b ?l => assert (A : forallb negb l = true) by (vm_compute; reflexivity); rewrite forallb_forall in A; specialize (A b I); destruct b; [discriminate A | reflexivity] end.
Qed.
Print Assumptions C139_refuted.
Example C139_example : texts (skipn 1 two_files) = map (fun s => [c_nl] ++ s)
  [lit "Writing output NASA Ames file: a.na"; lit "Wrote the following variables:" ++ [c_nl] ++ lit "  ozone";
   lit "Wrote the following Singleton variables:" ++ [c_nl] ++ lit "  level" ++ [c_nl; c_nl] ++ lit "NASA Ames file(s) written successfully: " ++ [c_nl] ++ lit "a.na";
   lit "1 file written."].
Proof. vm_compute. reflexivity. Qed.
(** With a size limit every part is counted twice. *)
Example C139_parts : match said [var (lit "density") [] [xs] (data [1; 2; 3; 4]%Z)] [(kORG, PStr (lit "Org")); (kSCOM, PList [PStr (lit "C")])] (Some 2%Z) with
  | (Ok (ms, files), fs) => map fst fs = [lit "a-001.na"; lit "a-002.na"] /\ length files = 4%nat /\
      ms = [MWriting (lit "a.na"); MOverwritten kORG (PStr (lit "Org")); MSplit 2 (lit "a-001.na"); MSplit 2 (lit "a-002.na"); MWrote [lit "density"]; MReport [] [] files; MCount 4]
  | _ => False
  end.
Proof. vm_compute. auto. Qed.
Example C139_nothing : texts [] = [[c_nl] ++ lit "No files created after variables parsed."; [c_nl] ++ lit "No files created after variables parsed."; [c_nl] ++ lit "0 files written."].
Proof. vm_compute. reflexivity. Qed.

(** ** C140 *)
Section Dates.
Context {num : Type} `{NumOps num} `{ArithOps num}.
Variable E : env num.
(** The first date cannot be found: no numbers, no units or units that are not
    understood on a time axis; no attribute otherwise. *)
Definition date_unknown (globals : list (str * gval num)) (ax0 : axis num) : Prop :=
  match ax_time ax0 with
  | Some nums => nums = [] \/ n_enc_units (ax_info ax0) = [] \/ exists x l, nums = x :: l /\ e_date E x (n_enc_units (ax_info ax0)) = None
  | None => ~ In date_attribute (map fst globals)
  end.
Lemma undated_unknown globals (c : collected num) d v vs ax0 axs : c_na c = Some d -> c_main c = v :: vs -> v_axes v = ax0 :: axs ->
  (undated E globals c = true <-> date_unknown globals ax0).
Proof.
  intros Ed Em Ea. unfold undated, date_unknown, is_time, ax_nums. rewrite Ed, Em, Ea. destruct (ax_time ax0) as [nums |].
  - destruct nums as [| x l]; [split; auto |]. destruct (n_enc_units (ax_info ax0)) as [| u us] eqn:U; cbn [is_nil orb]; [split; auto |]. destruct (e_date E x (u :: us)) as [date |] eqn:D; split; intros Q.
    + discriminate Q.
    + destruct Q as [Q | [Q | (y & m & Q & N)]]; try discriminate Q. injection Q as <- <-. congruence.
    + right. right. eauto.
    + reflexivity.
  - fold date_attribute. rewrite negb_true_iff. split.
    + intros Q I. apply mem_str_in in I. congruence.
    + intros N. destruct (mem_str date_attribute (map fst globals)) eqn:M; [| reflexivity]. apply mem_str_in in M. contradiction.
Qed.
Lemma loop_warned req globals : forall fuel unused l, convert_loop E fuel req globals unused = Ok l ->
  exists ms, loop_messages E fuel req globals unused = Ok ms /\ (In MNoDate ms <-> exists c, In c l /\ undated E globals c = true).
Proof.
  induction fuel as [| fuel IH]; intros [| u us] l Q; cbn [convert_loop loop_messages] in Q |- *; try discriminate Q.
  - apply Ok_inj in Q. subst l. exists []. split; [reflexivity |]. split; [intros [] | intros (c & [] & _)].
  - apply Ok_inj in Q. subst l. exists []. split; [reflexivity |]. split; [intros [] | intros (c & [] & _)].
  - bindE Q c Hc. bindE Q rest Hr. apply Ok_inj in Q. subst l. destruct (IH _ _ Hr) as (ms & Em & W). try rewrite Hc. cbn [bindR]. rewrite Em. cbn [bindR]. eexists. split; [reflexivity |].
    unfold collector_messages. rewrite !in_app_iff, W. assert (N : ~ In (@MNoDate num) (map (fun v => MAnalysing (v_name v)) (u :: us))) by (intros I; apply in_map_iff in I as (v & Q & _); discriminate Q).
    destruct (undated E globals c) eqn:U.
    + assert (Kc : exists d, c_na c = Some d) by (unfold undated in U; destruct (c_na c) as [d |]; [eauto | discriminate U]). destruct Kc as (d & ->).
      split; [intros _; exists c; split; [left; reflexivity | exact U] | intros _; left; right; left; reflexivity].
    + split.
      * intros [[I | []] | (c' & I & U')]; [destruct (N I) |]. exists c'. split; [| exact U']. destruct (c_na c); [right; exact I | exact I].
      * intros (c' & I & U'). right. exists c'. split; [| exact U']. destruct (c_na c); [| exact I]. destruct I as [-> | I]; [congruence | exact I].
Qed.
(** The user is warned exactly when the date of a file after the first one cannot
    be found; it is then 999 999 999. *)
Theorem C140_later_partial : forall req globals vars c0 cs, NoDup (map fst globals) -> convert E req globals vars = Ok (Some (c0 :: cs)) ->
  exists ms, convert_messages E req globals vars = Ok ms /\
    (In MNoDate ms <-> exists c v vs ax0 axs, In c cs /\ c_main c = v :: vs /\ v_axes v = ax0 :: axs /\ date_unknown globals ax0) /\
    forall c v vs ax0 axs, In c (c0 :: cs) -> c_main c = v :: vs -> v_axes v = ax0 :: axs -> date_unknown globals ax0 ->
      exists d, c_na c = Some d /\ d kDATE = Some (three 999 999 999).
Proof.
  intros req globals vars c0 cs Nd R.
  assert (Hd : forall c, In c (c0 :: cs) -> exists d v vs ax0 axs, c_na c = Some d /\ c_main c = v :: vs /\ v_axes v = ax0 :: axs /\ (date_unknown globals ax0 -> d kDATE = Some (three 999 999 999))).
  { intros c I. destruct (C131_header _ _ _ E _ _ _ _ _ R I Nd) as (d & v & vs & ax & axs & A1 & A2 & A3 & _ & _ & _ & _ & T & _ & G). exists d, v, vs, ax, axs. do 3 (split; [assumption |]).
    unfold date_unknown. intros U. destruct (ax_time ax) as [nums |] eqn:Et; [| apply G; auto]. apply (T nums eq_refl). exact U. }
  unfold convert in R. unfold convert_messages. bindE R vs1 H1. bindE R vs2 H2. bindE R c Hc. rewrite ?H1. cbn [bindR]. rewrite ?H2. cbn [bindR]. rewrite ?Hc. cbn [bindR].
  destruct (c_na c) as [d |] eqn:Ec; [| discriminate R]. bindE R rest Hr. injection R as <- <-. destruct (loop_warned _ _ _ _ _ Hr) as (ms & Em & W). rewrite Em. exists ms. split; [reflexivity |]. split.
  - rewrite W. split.
    + intros (c' & I & U). destruct (Hd c' (or_intror I)) as (d' & v & vs & ax & axs & A1 & A2 & A3 & _). exists c', v, vs, ax, axs. do 3 (split; [assumption |]). exact (proj1 (undated_unknown _ _ _ _ _ _ _ A1 A2 A3) U).
    + intros (c' & v & vs & ax & axs & I & A2 & A3 & U). destruct (Hd c' (or_intror I)) as (d' & _ & _ & _ & _ & A1 & _). exists c'. split; [exact I |]. exact (proj2 (undated_unknown _ _ _ _ _ _ _ A1 A2 A3) U).
  - intros c' v vs ax axs I A2 A3 U. destruct (Hd c' I) as (d' & v' & vs' & ax' & axs' & A1 & B2 & B3 & G). exists d'. split; [exact A1 |]. apply G. congruence.
Qed.
End Dates.
Print Assumptions C140_later_partial.
(** False of the code: no warning for the first file. *)
Theorem C140_refuted : exists vars c d v vs ax0 axs, convert env_Z None [] vars = Ok (Some [c]) /\ c_na c = Some d /\ c_main c = v :: vs /\ v_axes v = ax0 :: axs /\
  date_unknown env_Z [] ax0 /\ d kDATE = Some (three 999 999 999) /\ convert_messages env_Z None [] vars = Ok [].
Proof.
  set (v := var (lit "density") [] [xs] (data [1; 2; 3; 4]%Z)). exists [v].
  destruct (convert env_Z None [] [v]) as [[[| c [| c' cs]] |] |] eqn:C; try (vm_compute in C; discriminate C).
  destruct (c_na c) as [d |] eqn:D; [| vm_compute in C; injection C as <-; discriminate D].
  exists c, d, v, [], xs, []. split; [reflexivity |]. split; [exact D |]. vm_compute in C. injection C as <-. injection D as <-.
  split; [reflexivity |]. split; [reflexivity |]. split; [intros [] |]. split; [reflexivity |]. vm_compute. reflexivity.
Qed.
Print Assumptions C140_refuted.
(** The second file is warned of. *)
Example C140_example : convert_messages env_Z None [] two_files = Ok [MAnalysing (lit "density"); MNoDate] /\
  convert_messages env_Z None [(date_attribute, mkG false (three 1999 1 1))] two_files = Ok [MAnalysing (lit "density")] /\
  match convert env_Z None [] two_files with Ok (Some [_; _]) => True | _ => False end.
Proof. vm_compute. auto. Qed.
