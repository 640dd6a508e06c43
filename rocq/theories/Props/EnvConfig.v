(** C118: the files of annotations and local attributes named by the environment. *)
From Coq Require Import List NArith ZArith Bool Lia.
From Verif Require Import Py.Str Py.Res Model.Xarray Model.ParseConfig Model.EnvConfig Proofs.StrLemmas Props.ConfigProps.
Import ListNotations.

(** The file to be read: the one named by an environment variable, or the one
    of the configuration in the directory [base]. *)
Inductive named (base : str) (c : config) (variable item : str) (o : os) : str -> Prop :=
| FromEnvironment f : o_env o variable = Some f -> f <> [] -> named base c variable item o f
| FromConfiguration f : (o_env o variable = None \/ o_env o variable = Some []) -> main_item c item = Got f ->
    named base c variable item o (path_join base f).
(** The files say [d], if they are read now. *)
Definition annotations_now base c o d := exists f, named base c (lit "NAPPY_ANNOTATIONS") (lit "annotations_file") o f /\ makeAnnotationsConfigDict (o_files o f) = Got d.
Definition attributes_now base c o d := exists f, named base c (lit "NAPPY_LOCAL_ATTRIBUTES") (lit "local_attributes_file") o f /\ makeLocalAttributesConfigDict (o_files o f) = Got d.
(** The environment and the files after [l]. *)
Fixpoint after (l : list event) (o : os) : os :=
  match l with
  | [] => o
  | SetEnv n v :: t => after t (mkOs (set_in (o_env o) n v) (o_files o))
  | SetFile n v :: t => after t (mkOs (o_env o) (set_in (o_files o) n v))
  | _ :: t => after t o
  end.

Section C118.
Variables (base : str) (c : config).

Lemma file_named variable item o f : file_of base c variable item o = Got f <-> named base c variable item o f.
Proof.
  unfold file_of. split.
  - destruct (o_env o variable) as [[|x n]|] eqn:E; intros Q.
    + destruct (main_item c item) as [m|e] eqn:M; cbn [bindI] in Q; [|discriminate Q]. assert (path_join base m = f) as <- by congruence. apply FromConfiguration; auto.
    + assert (x :: n = f) as <- by congruence. constructor; [assumption|discriminate].
    + destruct (main_item c item) as [m|e] eqn:M; cbn [bindI] in Q; [|discriminate Q]. assert (path_join base m = f) as <- by congruence. apply FromConfiguration; auto.
  - intros [g E N | g E M].
    + rewrite E. destruct g; [congruence|reflexivity].
    + rewrite M. destruct E as [-> | ->]; reflexivity.
Qed.

Definition state_after (l : list event) : os -> globals -> globals :=
  (fix go l o g := match l with
    | [] => g
    | SetEnv n v :: t => go t (mkOs (set_in (o_env o) n v) (o_files o)) g
    | SetFile n v :: t => go t (mkOs (o_env o) (set_in (o_files o) n v)) g
    | GetAnnotations :: t => go t o (snd (getAnnotationsConfigDict base c o g))
    | GetAttributes :: t => go t o (snd (getLocalAttributesConfigDict base c o g))
    end) l.
Lemma answers_app l l' : forall o g, answers base c (l ++ l') o g = answers base c l o g ++ answers base c l' (after l o) (state_after l o g).
Proof.
  induction l as [|[n v|n v| |] l IH]; intros o g; cbn [app answers after state_after]; try apply IH; try reflexivity.
  - destruct (getAnnotationsConfigDict base c o g) as [r g']. cbn [app snd]. f_equal. apply IH.
  - destruct (getLocalAttributesConfigDict base c o g) as [r g']. cbn [app snd]. f_equal. apply IH.
Qed.

(** Annotations. *)
Lemma ann_other o g : g_annotations (snd (getLocalAttributesConfigDict base c o g)) = g_annotations g.
Proof.
  unfold getLocalAttributesConfigDict. destruct (file_of _ _ _ _ _); [|reflexivity]. destruct (g_attributes g); [reflexivity|]. destruct (makeLocalAttributesConfigDict _); reflexivity.
Qed.
Lemma ann_none l : forall o g, g_annotations g = None ->
  (forall l1 l2 d, l = l1 ++ GetAnnotations :: l2 -> ~ annotations_now base c (after l1 o) d) ->
  g_annotations (state_after l o g) = None /\ forall d, ~ In (Annotations (Got d)) (answers base c l o g).
Proof.
  induction l as [|x l IH]; intros o g Q F; [split; [exact Q|intros d []]|].
  assert (F' : forall l1 l2 d, l = l1 ++ GetAnnotations :: l2 -> ~ annotations_now base c (after (x :: l1) o) d).
  { intros l1 l2 d E. apply (F (x :: l1) l2 d). now rewrite E. }
  destruct x as [n v|n v| |]; cbn [answers state_after after] in *.
  - apply IH; assumption.
  - apply IH; assumption.
  - assert (N := F [] l). cbn [app after] in N. specialize (fun d => N d eq_refl).
    assert (E : exists e, getAnnotationsConfigDict base c o g = (Bad e, g)).
    { unfold getAnnotationsConfigDict. rewrite Q. destruct (file_of base c _ _ o) as [f|e] eqn:Ef; [|eauto]. destruct (makeAnnotationsConfigDict (o_files o f)) as [d|e] eqn:Em; [|eauto].
      exfalso. apply (N d). exists f. split; [now apply file_named|exact Em]. }
    destruct E as [e E]. rewrite E. cbn [snd]. destruct (IH o g Q F') as [A B]. split; [exact A|]. intros d [I|I]; [discriminate I|]. now apply (B d).
  - pose proof (ann_other o g) as K. destruct (getLocalAttributesConfigDict base c o g) as [r g']. cbn [snd] in *. rewrite Q in K. destruct (IH o g' K F') as [A B].
    split; [exact A|]. intros d [I|I]; [discriminate I|]. now apply (B d).
Qed.
Lemma ann_some d l : forall o g, g_annotations g = Some d -> forall r, In (Annotations r) (answers base c l o g) ->
  r = Got d \/ exists e, r = Bad e /\ main_item c (lit "annotations_file") = Bad e.
Proof.
  induction l as [|x l IH]; intros o g Q r I; [destruct I|]. destruct x as [n v|n v| |]; cbn [answers] in I; try (eapply IH; [|exact I]; exact Q).
  - destruct (file_of base c (lit "NAPPY_ANNOTATIONS") (lit "annotations_file") o) as [f|e] eqn:Ef.
    + assert (E : getAnnotationsConfigDict base c o g = (Got d, g)) by (unfold getAnnotationsConfigDict; now rewrite Ef, Q). rewrite E in I.
      destruct I as [I|I]; [left; congruence|]. eapply IH; [|exact I]; exact Q.
    + assert (E : getAnnotationsConfigDict base c o g = (Bad e, g)) by (unfold getAnnotationsConfigDict; now rewrite Ef). rewrite E in I.
      destruct I as [I|I]; [right|eapply IH; [|exact I]; exact Q]. exists e. split; [congruence|]. unfold file_of in Ef.
      destruct (o_env o _) as [[|y m]|]; [|discriminate Ef|]; (destruct (main_item c _); cbn [bindI] in Ef; [discriminate Ef|congruence]).
  - pose proof (ann_other o g) as K. destruct (getLocalAttributesConfigDict base c o g) as [r' g']. cbn [snd] in K. rewrite Q in K. destruct I as [I|I]; [discriminate I|]. eapply IH; eauto.
Qed.
(** As long as the files could not be read, nothing is returned; the first call
    that can read them returns what they say, and all later calls return the same,
    whatever happens to the environment and the files. *)
Theorem C118_annotations_partial : forall o l1 l2,
  (forall m1 m2 d, l1 = m1 ++ GetAnnotations :: m2 -> ~ annotations_now base c (after m1 o) d) ->
  (forall d, ~ In (Annotations (Got d)) (answers base c l1 o (mkGlobals None None))) /\
  (forall d, annotations_now base c (after l1 o) d ->
   exists later, answers base c (l1 ++ GetAnnotations :: l2) o (mkGlobals None None) = answers base c l1 o (mkGlobals None None) ++ Annotations (Got d) :: later /\
   (forall r, In (Annotations r) later -> r = Got d \/ exists e, r = Bad e /\ main_item c (lit "annotations_file") = Bad e)).
Proof.
  intros o l1 l2 F. destruct (ann_none l1 o (mkGlobals None None) eq_refl F) as [Q N]. split; [exact N|]. intros d (f & Hf & Hm).
  rewrite answers_app. cbn [answers]. apply file_named in Hf.
  set (g := state_after l1 o (mkGlobals None None)) in *. set (o' := after l1 o) in *.
  assert (E : getAnnotationsConfigDict base c o' g = (Got d, mkGlobals (Some d) (g_attributes g))) by (unfold getAnnotationsConfigDict; now rewrite Hf, Q, Hm).
  rewrite E. eexists. split; [reflexivity|]. intros r I. eapply ann_some; [|exact I]. reflexivity.
Qed.

(** Local attributes. *)
Lemma att_other o g : g_attributes (snd (getAnnotationsConfigDict base c o g)) = g_attributes g.
Proof.
  unfold getAnnotationsConfigDict. destruct (file_of _ _ _ _ _); [|reflexivity]. destruct (g_annotations g); [reflexivity|]. destruct (makeAnnotationsConfigDict _); reflexivity.
Qed.
Lemma att_none l : forall o g, g_attributes g = None ->
  (forall l1 l2 d, l = l1 ++ GetAttributes :: l2 -> ~ attributes_now base c (after l1 o) d) ->
  g_attributes (state_after l o g) = None /\ forall d, ~ In (Attributes (Got d)) (answers base c l o g).
Proof.
  induction l as [|x l IH]; intros o g Q F; [split; [exact Q|intros d []]|].
  assert (F' : forall l1 l2 d, l = l1 ++ GetAttributes :: l2 -> ~ attributes_now base c (after (x :: l1) o) d).
  { intros l1 l2 d E. apply (F (x :: l1) l2 d). now rewrite E. }
  destruct x as [n v|n v| |]; cbn [answers state_after after] in *.
  - apply IH; assumption.
  - apply IH; assumption.
  - pose proof (att_other o g) as K. destruct (getAnnotationsConfigDict base c o g) as [r g']. cbn [snd] in *. rewrite Q in K. destruct (IH o g' K F') as [A B].
    split; [exact A|]. intros d [I|I]; [discriminate I|]. now apply (B d).
  - assert (N := F [] l). cbn [app after] in N. specialize (fun d => N d eq_refl).
    assert (E : exists e, getLocalAttributesConfigDict base c o g = (Bad e, g)).
    { unfold getLocalAttributesConfigDict. rewrite Q. destruct (file_of base c _ _ o) as [f|e] eqn:Ef; [|eauto]. destruct (makeLocalAttributesConfigDict (o_files o f)) as [d|e] eqn:Em; [|eauto].
      exfalso. apply (N d). exists f. split; [now apply file_named|exact Em]. }
    destruct E as [e E]. rewrite E. cbn [snd]. destruct (IH o g Q F') as [A B]. split; [exact A|]. intros d [I|I]; [discriminate I|]. now apply (B d).
Qed.
Lemma att_some d l : forall o g, g_attributes g = Some d -> forall r, In (Attributes r) (answers base c l o g) ->
  r = Got d \/ exists e, r = Bad e /\ main_item c (lit "local_attributes_file") = Bad e.
Proof.
  induction l as [|x l IH]; intros o g Q r I; [destruct I|]. destruct x as [n v|n v| |]; cbn [answers] in I; try (eapply IH; [|exact I]; exact Q).
  - pose proof (att_other o g) as K. destruct (getAnnotationsConfigDict base c o g) as [r' g']. cbn [snd] in K. rewrite Q in K. destruct I as [I|I]; [discriminate I|]. eapply IH; eauto.
  - destruct (file_of base c (lit "NAPPY_LOCAL_ATTRIBUTES") (lit "local_attributes_file") o) as [f|e] eqn:Ef.
    + assert (E : getLocalAttributesConfigDict base c o g = (Got d, g)) by (unfold getLocalAttributesConfigDict; now rewrite Ef, Q). rewrite E in I.
      destruct I as [I|I]; [left; congruence|]. eapply IH; [|exact I]; exact Q.
    + assert (E : getLocalAttributesConfigDict base c o g = (Bad e, g)) by (unfold getLocalAttributesConfigDict; now rewrite Ef). rewrite E in I.
      destruct I as [I|I]; [right|eapply IH; [|exact I]; exact Q]. exists e. split; [congruence|]. unfold file_of in Ef.
      destruct (o_env o _) as [[|y m]|]; [|discriminate Ef|]; (destruct (main_item c _); cbn [bindI] in Ef; [discriminate Ef|congruence]).
Qed.
Theorem C118_attributes_partial : forall o l1 l2,
  (forall m1 m2 d, l1 = m1 ++ GetAttributes :: m2 -> ~ attributes_now base c (after m1 o) d) ->
  (forall d, ~ In (Attributes (Got d)) (answers base c l1 o (mkGlobals None None))) /\
  (forall d, attributes_now base c (after l1 o) d ->
   exists later, answers base c (l1 ++ GetAttributes :: l2) o (mkGlobals None None) = answers base c l1 o (mkGlobals None None) ++ Attributes (Got d) :: later /\
   (forall r, In (Attributes r) later -> r = Got d \/ exists e, r = Bad e /\ main_item c (lit "local_attributes_file") = Bad e)).
Proof.
  intros o l1 l2 F. destruct (att_none l1 o (mkGlobals None None) eq_refl F) as [Q N]. split; [exact N|]. intros d (f & Hf & Hm).
  rewrite answers_app. cbn [answers]. apply file_named in Hf.
  set (g := state_after l1 o (mkGlobals None None)) in *. set (o' := after l1 o) in *.
  assert (E : getLocalAttributesConfigDict base c o' g = (Got d, mkGlobals (g_annotations g) (Some d))) by (unfold getLocalAttributesConfigDict; now rewrite Hf, Q, Hm).
  rewrite E. eexists. split; [reflexivity|]. intros r I. eapply att_some; [|exact I]. reflexivity.
Qed.
End C118.

(** The distributed configuration, a file of the user and no variables. *)
Definition nappy_config : config := match makeConfigDict (Some nappy_ini) with Got c => c | Bad _ => [] end.
Definition files_there (n : str) : option str :=
  if str_eqb n (lit "/nappy/config/annotations.ini") then Some (unlines (map lit ["[annotations]"; "MNAME = Mission"]%pylit))
  else if str_eqb n (lit "mine.ini") then Some (unlines (map lit ["[annotations]"; "MNAME = Campaign"]%pylit)) else None.
Definition bare_os : os := mkOs (fun _ => None) files_there.
Definition base_there := lit "/nappy/config".
Definition user_file : event := SetEnv (lit "NAPPY_ANNOTATIONS") (Some (lit "mine.ini")).
(** A file named after the first call is not read. *)
Theorem C118_refuted : exists o l d d',
  annotations_now base_there nappy_config (after l o) d' /\ d <> d' /\
  answers base_there nappy_config (l ++ [GetAnnotations]) o (mkGlobals None None) = [Annotations (Got d); Annotations (Got d)].
Proof.
  exists bare_os, [GetAnnotations; user_file], [(lit "MNAME", lit "Mission")], [(lit "MNAME", lit "Campaign")]. split; [|split].
  - exists (lit "mine.ini"). split; [|vm_compute; reflexivity]. constructor; [reflexivity|discriminate].
  - discriminate.
  - vm_compute. reflexivity.
Qed.
(** A missing file of the user, then a good one, then none. *)
Example C118_example : let l1 := [SetEnv (lit "NAPPY_ANNOTATIONS") (Some (lit "none.ini")); GetAnnotations; user_file] in
  (forall m1 m2 d, l1 = m1 ++ GetAnnotations :: m2 -> ~ annotations_now base_there nappy_config (after m1 bare_os) d) /\
  annotations_now base_there nappy_config (after l1 bare_os) [(lit "MNAME", lit "Campaign")] /\
  named base_there nappy_config (lit "NAPPY_ANNOTATIONS") (lit "annotations_file") bare_os (lit "/nappy/config/annotations.ini").
Proof.
  cbv zeta. split; [|split].
  - intros m1 m2 d E (f & Hf & Hm). destruct m1 as [|x1 [|x2 [|x3 [|x4 m1]]]]; cbn [app] in E; try discriminate E.
    assert (x1 = SetEnv (lit "NAPPY_ANNOTATIONS") (Some (lit "none.ini"))) as -> by congruence. apply file_named in Hf. vm_compute in Hf.
    assert (f = lit "none.ini") as -> by (vm_compute; congruence). vm_compute in Hm. discriminate Hm.
  - exists (lit "mine.ini"). split; [|vm_compute; reflexivity]. constructor; [reflexivity|discriminate].
  - change (lit "/nappy/config/annotations.ini") with (path_join base_there (lit "annotations.ini")). apply FromConfiguration; [now left|]. vm_compute. reflexivity.
Qed.

Print Assumptions C118_annotations_partial.
Print Assumptions C118_attributes_partial.
Print Assumptions C118_refuted.
