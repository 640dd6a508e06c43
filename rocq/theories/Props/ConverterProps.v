(** Properties C123 to C125: a converter object that is used more than once. *)
From Coq Require Import List NArith ZArith Bool Lia.
From Verif Require Import Py.Str Py.Res Py.Num Py.Arith Model.Dict Model.CommonUtils Model.NAWrite Model.Utils Model.NCWrite Model.Xarray Model.Collector
  Model.Api Model.Lifecycle Model.Converter Proofs.ReadFrame Proofs.WriteSim Proofs.ConfigLemmas Proofs.ReadData Spec.WriteSpec Spec.ConverterSpec.
From Verif Require Import Props.WriteProps Props.NCWriteProps.
From Verif Require Props.UtilProps Props.GridRoundTrip Props.NcRoundTrip Proofs.StrLemmas.
From Verif Require Import Spec.WholeNum.
Local Notation wnan := NcRoundTrip.wnan.
Import ListNotations.

Section Names.
Context {num : Type} {Num : NumOps num} {Ar : ArithOps num}.
Local Notation na := (na num).
Local Notation conv := (conv num).

Definition fixed (x y : conv) : Prop :=
  cv_env y = cv_env x /\ cv_vars y = cv_vars x /\ cv_globals y = cv_globals x /\ cv_ffi y = cv_ffi x /\ cv_settings y = cv_settings x /\ cv_nc_file y = cv_nc_file x.
Definition result (x : conv) := convert (cv_env x) (cv_ffi x) (cv_globals x) (cv_vars x).
(** [P d d'] is what is known about a dictionary [d'] of the list. *)
Definition inv (P : na -> na -> Prop) (x y : conv) : Prop :=
  fixed x y /\
  (cv_converted y = false /\ cv_list y = cv_list x \/
   cv_converted y = true /\ exists cs ds, result x = Ok (Some cs) /\ cv_list y = Some ds /\ Forall2 P (na_dicts (Some cs)) ds).

Lemma write_list_rel (R : na -> na -> Prop) fuel s o nh lim :
  (forall d, R d d) -> (forall d r d', prepare_in s d = (r, d') -> R d d') ->
  (forall d r d' name fs r' d'' fs', prepare_in s d = (r, d') -> write_one_in fuel o nh lim name d' fs = (r', d'', fs') -> R d d'') ->
  forall l fs r ds fs', write_list (num := num) fuel s o nh lim l fs = (r, ds, fs') -> Forall2 R (map snd l) ds.
Proof.
  intros R0 R1 R2. assert (Rl : forall l, Forall2 R l l) by (induction l; auto).
  induction l as [| [name d] l IH]; intros fs r ds fs' E; cbn [write_list map snd] in E |- *.
  - injection E as <- <- <-. constructor.
  - destruct (prepare_in s d) as [[u |] d'] eqn:Ep.
    + destruct (write_one_in fuel o nh lim name d' fs) as [[[ns |] d''] f] eqn:Ew.
      * destruct (write_list fuel s o nh lim l f) as [[r' ds'] f'] eqn:El. injection E as <- <- <-. constructor; [eapply R2; eauto | eapply IH; eauto].
      * injection E as <- <- <-. constructor; [eapply R2; eauto | apply Rl].
    + injection E as <- <- <-. constructor; [eapply R1; eauto | apply Rl].
Qed.
Lemma combine_snd {A B} (l : list A) : forall m : list B, length l = length m -> map snd (combine l m) = m.
Proof. induction l as [| a l IH]; intros [| b m] E; try discriminate E; [reflexivity |]. cbn. f_equal. apply IH. cbn in E. lia. Qed.

(** The ways in which one call of the object changes the dictionaries. *)
Definition respects (P : na -> na -> Prop) (s : NCWrite.settings (num := num)) : Prop :=
  (forall d, P d d) /\ (forall d0 d r d', P d0 d -> prepare_in s d = (r, d') -> P d0 d') /\
  (forall d0 d r d' fuel o nh lim name fs r' d'' fs', P d0 d -> prepare_in s d = (r, d') -> write_one_in fuel o nh lim name d' fs = (r', d'', fs') -> P d0 d'').
Lemma respects_true s : respects (fun _ _ => True) s.
Proof. repeat split. Qed.

Lemma ensure_inv (P : na -> na -> Prop) x y r y' : (forall d, P d d) -> inv P x y -> ensure y = (r, y') -> inv P x y' /\ (cv_converted y' = false -> y' = y).
Proof.
  intros R0 Same E. pose proof Same as (F & I). unfold ensure, do_convert in E. destruct (cv_converted y) eqn:C.
  - injection E as <- <-. split; [exact Same | reflexivity].
  - destruct F as (F1 & F2 & F3 & F4 & F5 & F6). rewrite F1, F2, F3, F4 in E. 
    fold (result x) in E. destruct (result x) as [[cs |] | e] eqn:Q; injection E as <- <-; try (split; [exact Same | reflexivity]).
    split; [| cbn; discriminate]. split; [repeat split; auto |]. right. split; [reflexivity |]. exists cs, (na_dicts (Some cs)). split; [exact Q |]. split; [reflexivity |].
    generalize (na_dicts (Some cs)). induction l; auto.
Qed.
(** What the names are computed from does not depend on the history. *)
Lemma names_inv (P : na -> na -> Prop) x y f : (forall d, P d d) -> inv P x y -> fst (do_names y f) = fst (do_names x f) \/ cv_converted x = true.
Proof.
  intros R0 (F & I). destruct (cv_converted x) eqn:Cx; [right; reflexivity | left]. destruct F as (F1 & F2 & F3 & F4 & F5 & F6).
  unfold do_names, ensure, do_convert. rewrite Cx, F1, F2, F3, F4. fold (result x). destruct I as [(I & L) | (I & cs & ds & Q & L & G)]; rewrite I.
  - destruct (result x) as [[cs |] | e]; cbn [fst bindR]; unfold names_now; cbn [with_list cv_nc_file cv_list]; rewrite ?F6, ?L; reflexivity.
  - rewrite Q. cbn [fst bindR]. unfold names_now. cbn [with_list cv_nc_file cv_list]. rewrite F6, L.
    assert (N : length ds = length (na_dicts (Some cs))) by (clear - G; induction G; cbn; congruence). cbn [of_opt bindR]. rewrite N. reflexivity.
Qed.
Lemma call_inv (P : na -> na -> Prop) x y fs c : (forall l, cv_list x = Some l -> l = []) -> respects P (cv_settings x) -> inv P x y -> inv P x (fst (call (y, fs) c)).
Proof.
  intros Em (R0 & R1 & R2) I. destruct c as [| f | fuel w]; cbn [call fst snd].
  - unfold do_convert. destruct (cv_converted y) eqn:C; [exact I |]. destruct (ensure y) as [r y'] eqn:E. destruct (ensure_inv P x y r y' R0 I E) as (J & _).
    unfold ensure, do_convert in E. rewrite C in E. destruct (convert _ _ _ _) as [[cs |] |]; injection E as <- <-; exact J.
  - unfold do_names. destruct (ensure y) as [[u |] y'] eqn:E; destruct (ensure_inv P x y _ y' R0 I E) as (J & _); exact J.
  - unfold do_write. destruct (date_clash _ _); [exact I |]. destruct (ensure y) as [[u |] y1] eqn:E; destruct (ensure_inv P x y _ y1 R0 I E) as (J & _); [| exact J].
    unfold do_names. destruct (ensure y1) as [[v |] y2] eqn:E'; destruct (ensure_inv P x y1 _ y2 R0 J E') as (K & _); [| exact K].
    destruct (names_now y2 (wa_file w)) as [names |] eqn:N; [| exact K]. destruct (cv_list y2) as [l |] eqn:L; [| exact K].
    destruct (write_list _ _ _ _ _ _ _) as [[r l'] fs'] eqn:W.
    assert (Ln : length names = length l).
    { unfold names_now in N. rewrite L in N. destruct (match wa_file w with Some f => _ | None => _ end) as [f |]; [| discriminate N]. cbn [bindR of_opt] in N. injection N as <-. apply C42_distinct. }
    assert (G : inv P x (with_list y2 (cv_converted y2) (Some l') (match r with Ok files => Some files | Err _ => cv_files y2 end))).
    { destruct K as (F & K). pose proof F as (F1 & F2 & F3 & F4 & F5 & F6). split; [exact F |]. cbn [with_list cv_converted cv_list].
      destruct K as [(C & K) | (C & cs & ds & Q & K & G)].
      - left. split; [exact C |]. rewrite <- K, L. f_equal. rewrite L in K. symmetry in K. rewrite (Em _ K) in W |- *.
        destruct names; cbn [combine write_list] in W; injection W as _ <- _; reflexivity.
      - right. split; [exact C |]. rewrite L in K. injection K as <-. exists cs, l'. split; [exact Q |]. split; [reflexivity |].
        rewrite F5 in W. assert (T : Forall2 (fun d d' => forall d0, P d0 d -> P d0 d') (map snd (combine names l)) l').
        { eapply write_list_rel; [| | | exact W]; eauto. }
        rewrite combine_snd in T by exact Ln. clear - G T. revert l' T. induction G as [| a b la lb p G IH]; intros l' T; inversion T; subst; constructor; auto. }
    destruct r; exact G.
Qed.
Lemma calls_inv (P : na -> na -> Prop) x l : (forall l, cv_list x = Some l -> l = []) -> respects P (cv_settings x) ->
  forall y fs, inv P x y -> inv P x (fst (calls (y, fs) l)).
Proof.
  intros Em R. induction l as [| c l IH]; intros y fs I; [exact I |]. unfold calls. cbn [fold_left].
  pose proof (call_inv P x y fs c Em R I) as J. destruct (call (y, fs) c) as [y' fs']. exact (IH y' fs' J).
Qed.
Lemma inv_new (P : na -> na -> Prop) x : new x -> inv P x x /\ cv_converted x = false /\ forall l, cv_list x = Some l -> l = [].
Proof.
  intros (E & vars & globals & ffi & s & nc & [-> | [-> | ->]]); (split; [split; [repeat split | left; split; reflexivity] | split; [reflexivity | cbn; intros l Q; congruence]]).
Qed.

Lemma write_list_get fuel s (o : opts num) nh : forall l fs names ds fs', write_list fuel s o nh None l fs = (Ok names, ds, fs') ->
  (forall n, In n names -> sd_get fs' n <> None) /\ forall n, ~ In n names -> sd_get fs' n = sd_get fs n.
Proof.
  induction l as [| [n d] l IH]; intros fs names ds fs' W; cbn [write_list] in W.
  - injection W as <- _ <-. split; [intros n [] | reflexivity].
  - destruct (prepare_in _ d) as [[u |] d']; [| discriminate W]. unfold write_one_in in W. destruct (put_in _ _ n d' fs) as [[[v |] d''] g1] eqn:Ep; [| discriminate W].
    destruct (write_list _ _ _ _ _ l g1) as [[[fl' |] ds1] g2] eqn:W'; cbn [bindR] in W; [| discriminate W]. injection W as <- _ <-. cbn [app].
    destruct (IH _ _ _ _ W') as (I1 & I2). unfold put_in in Ep. destruct (openNAFile_w d') as [[c e] |]; [| discriminate Ep].
    destruct (write_body _ _ _ _) as [r st]. injection Ep as -> _ <-. split.
    + intros m I. destruct (in_dec (list_eq_dec N.eq_dec) m fl') as [J | J]; [exact (I1 m J) |]. destruct I as [<- | I]; [| contradiction].
      rewrite I2, sd_get_set, str_eqb_same by exact J. discriminate.
    + intros m I. rewrite I2 by (intros J; apply I; right; exact J). rewrite sd_get_set. rewrite str_eqb_diff; [reflexivity |]. intros ->. apply I. left. reflexivity.
Qed.
(** ** C123 *)
(** The names that a converter announces do not depend on what was done with it
    before: conversions, announcements, files written or exceptions. *)
Theorem C123_names : forall (x : conv) f l fs, new x -> fst (do_names (fst (calls (x, fs) l)) f) = fst (do_names x f).
Proof.
  intros x f l fs N. destruct (inv_new (fun _ _ => True) x N) as (I & C & Em).
  destruct (names_inv _ x (fst (calls (x, fs) l)) f (fun _ => Logic.I) (calls_inv _ x l Em (respects_true _) x fs I)) as [Q | Q]; [exact Q | congruence].
Qed.
(** Without a name the one of the NetCDF file is used, with .na for .nc. *)
Theorem C123_default : forall (x : conv) nc, cv_nc_file x = Some nc ->
  (forall base, nc = base ++ lit ".nc" -> do_names x None = do_names x (Some (base ++ lit ".na"))) /\
  ((forall base, nc <> base ++ lit ".nc") -> do_names x None = do_names x (Some (nc ++ lit ".na"))).
Proof.
  intros x nc E. destruct (C42_default nc) as (A & B).
  assert (K : forall f, default_na_file nc = f -> do_names x None = do_names x (Some f)).
  { intros f <-. unfold do_names. destruct (ensure x) as [[u |] x'] eqn:En; [| reflexivity]. assert (E' : cv_nc_file x' = Some nc).
    { unfold ensure, do_convert in En. destruct (cv_converted x); [injection En as _ <-; exact E |].
      destruct (convert _ _ _ _) as [[cs |] |]; cbn [bindR] in En; injection En; intros; subst; try exact E; discriminate. }
    unfold names_now. rewrite E'. reflexivity. }
  split; [intros base Q; apply K, A, Q | intros N; apply K, B, N].
Qed.
(** Without a size limit they are the files that are written, at any time. *)
Theorem C123_files : forall (x : conv) l fs fuel w files y fs', new x -> wa_limit w = None ->
  do_write fuel (fst (calls (x, fs) l)) w (snd (calls (x, fs) l)) = (Ok files, y, fs') ->
  fst (do_names x (wa_file w)) = Ok files /\ cv_files y = Some files /\ forall n, In n files -> sd_get fs' n <> None.
Proof.
  intros x l fs fuel w files y fs' N Hl E. rewrite <- (C123_names x (wa_file w) l fs N). destruct (calls (x, fs) l) as [z g]. cbn [fst snd] in E |- *.
  unfold do_write in E. destruct (date_clash _ _); [discriminate E |]. unfold do_names at 1. destruct (ensure z) as [[u |] z1] eqn:E1; [| discriminate E].
  destruct (do_names z1 (wa_file w)) as [[names |] z2] eqn:E2; [| discriminate E].
  assert (Q : names_now z1 (wa_file w) = Ok names /\ z2 = z1).
  { unfold do_names in E2. destruct (cv_converted z1) eqn:C1.
    - unfold ensure in E2. rewrite C1 in E2. injection E2 as -> <-. auto.
    - unfold ensure, do_convert in E1. destruct (cv_converted z) eqn:Cz; [injection E1 as _ <-; congruence |].
      destruct (convert _ _ _ _) as [[cs |] |] eqn:Ec; [injection E1 as _ <-; discriminate C1 | | discriminate E1]. injection E1 as _ <-.
      unfold ensure, do_convert in E2. rewrite Cz, Ec in E2. cbn [bindR] in E2. injection E2 as -> <-. auto. }
  destruct Q as (Q & ->). rewrite Hl in E. destruct (cv_list z1) as [ds |] eqn:L; [| discriminate E].
  destruct (write_list _ _ _ _ _ _ _) as [[[fl |] ds'] g'] eqn:W; [| discriminate E]. injection E as <- <- <-. split; [| split; [reflexivity |]].
  - assert (Ln : length names = length ds).
    { unfold names_now in Q. rewrite L in Q. destruct (match wa_file w with Some f => _ | None => _ end) as [f |]; [| discriminate Q]. cbn [bindR of_opt] in Q. injection Q as <-. apply C42_distinct. }
    rewrite Q. cbn [fst]. f_equal. clear - W Ln. revert ds ds' g g' fl W Ln. induction names as [| n names IH]; intros [| d ds] ds' g g' fl W Ln; try discriminate Ln; cbn [combine write_list] in W.
    + injection W as <- _ _. reflexivity.
    + destruct (prepare_in _ d) as [[u |] d']; [| discriminate W]. unfold write_one_in in W. destruct (put_in _ _ n d' g) as [[[v |] d''] g1]; [| discriminate W].
      destruct (write_list _ _ _ _ _ (combine names ds) g1) as [[[fl' |] ds1] g2] eqn:W'; cbn [bindR] in W; [| discriminate W]. injection W as <- _ _. cbn [app]. f_equal. eapply IH; [exact W' | cbn in Ln; lia].
  - exact (proj1 (write_list_get _ _ _ _ _ _ _ _ _ W)).
Qed.

(** ** C124 *)
(** As long as nothing is written, every call of [convert] gives the same. *)
Lemma quiet_inv (x : conv) l : Forall no_write l -> forall y fs, inv eq x y -> inv eq x (fst (calls (y, fs) l)).
Proof.
  induction 1 as [| c l Hc F IH]; intros y fs I; [exact I |]. unfold calls. cbn [fold_left]. assert (J : inv eq x (fst (call (y, fs) c))).
  { destruct c as [| f | fuel w]; cbn [call fst snd].
    - unfold do_convert. destruct (cv_converted y) eqn:C; [exact I |]. destruct (ensure y) as [r y'] eqn:E. destruct (ensure_inv eq x y r y' (@eq_refl _) I E) as (J & _).
      unfold ensure, do_convert in E. rewrite C in E. destruct (convert _ _ _ _) as [[cs |] |]; injection E as <- <-; exact J.
    - unfold do_names. destruct (ensure y) as [[u |] y'] eqn:E; destruct (ensure_inv eq x y _ y' (@eq_refl _) I E) as (J & _); exact J.
    - destruct (Hc fuel w eq_refl). }
  destruct (call (y, fs) c) as [y' fs']. exact (IH y' fs' J).
Qed.
Theorem C124_quiet_partial : forall (x : conv) l fs, new x -> Forall no_write l -> fst (do_convert (fst (calls (x, fs) l))) = fst (do_convert x).
Proof.
  intros x l fs N Q. destruct (inv_new eq x N) as (I & C & _). pose proof (quiet_inv x l Q x fs I) as ((F1 & F2 & F3 & F4 & _) & K).
  unfold do_convert. rewrite C. destruct K as [(K & L) | (K & cs & ds & R & L & G)]; rewrite K.
  - rewrite F1, F2, F3, F4. destruct (convert _ _ _ _) as [[cs |] |]; reflexivity.
  - unfold result in R. rewrite R, L. cbn [fst]. do 2 f_equal. clear - G. induction G; congruence.
Qed.
Lemma upd_kept (d : na) k v : In k touched -> kept d (upd d k v).
Proof. intros I k' N _. apply upd_other. intros ->. contradiction. Qed.
Lemma kept_trans (a b c : na) : kept a b -> kept b c -> kept a c.
Proof. intros P Q k N F. rewrite (Q k N); [exact (P k N F) |]. intros ->. rewrite (P kFFI N F). exact (F eq_refl). Qed.
Lemma kept_refl (a : na) : kept a a.
Proof. intros k _ _. reflexivity. Qed.
Lemma override_kept r (d d' : na) p : override r d p = Ok d' -> kept d d'.
Proof.
  destruct p as [k v]. unfold override. destruct (NCWrite.key_in k permitted) eqn:Pk; cbn [negb]; [| intros E; injection E as <-; apply kept_refl].
  destruct (if NCWrite.key_in k _ then _ else _) as [new |]; [| discriminate]. cbn [bindR]. intros E.
  assert (T : In k touched). { unfold NCWrite.key_in in Pk. apply existsb_exists in Pk as (k' & I & B). apply key_beq_true in B. subst k'. unfold touched. cbn in I |- *. tauto. }
  assert (U : Ok (upd d k new) = Ok d' -> kept d d') by (intros U; injection U as <-; apply upd_kept; exact T).
  destruct k; try (exact (U E)); clear U; cbn [key_beq] in E; repeat inv_bind E; injection E as <-; (eapply kept_trans; [eapply upd_kept; exact T | apply upd_kept; cbn; tauto]).
Qed.
Lemma prepare_kept s (d d' : na) r : prepare_in s d = (r, d') -> kept d d'.
Proof.
  unfold prepare_in. assert (O : forall l (e : na) r' e', override_all (st_rule s) l e = (r', e') -> kept e e').
  { induction l as [| p l IH]; intros e r' e' E; cbn in E; [injection E as <- <-; apply kept_refl |]. destruct (override _ e p) as [f |] eqn:Eo; [| injection E as <- <-; apply kept_refl].
    eapply kept_trans; [exact (override_kept _ _ _ _ Eo) | exact (IH _ _ _ E)]. }
  destruct (override_all _ _ d) as [[u |] e] eqn:Eo; [| intros E; injection E as <- <-; exact (O _ _ _ _ Eo)].
  destruct (st_headers s); [| intros E; injection E as <- <-; exact (O _ _ _ _ Eo)].
  destruct (updateWithColumnHeaders e) as [g |] eqn:Eh; intros E; injection E as <- <-; [| exact (O _ _ _ _ Eo)].
  eapply kept_trans; [exact (O _ _ _ _ Eo) |]. unfold updateWithColumnHeaders in Eh.
  destruct (get e kFFI) as [ffi |]; [| discriminate Eh]. cbn [bindR] in Eh. destruct (match ffi with PInt _ => _ | _ => _ end) as [b |]; [| discriminate Eh]. cbn [bindR] in Eh.
  destruct b; [| injection Eh as <-; apply kept_refl]. repeat inv_bind Eh. injection Eh as <-. eapply kept_trans; [apply (upd_kept e kNCOM) | apply upd_kept]; cbn; tauto.
Qed.
Lemma put_kept o nh name (d d' : na) fs r fs' : put_in o nh name d fs = (r, d', fs') -> kept d d'.
Proof.
  unfold put_in. destruct (openNAFile_w d) as [[c e] |] eqn:Eo; [| intros E; injection E as <- <- <-; apply kept_refl].
  destruct (write_body o c nh (mkW [] [] e)) as [r' st] eqn:Ew. intros E. injection E as <- <- <-. intros k N F. unfold shared.
  assert (Q : e k = d k).
  { unfold openNAFile_w in Eo. destruct (d kFFI) as [v |] eqn:Ef.
    - destruct v; try (repeat inv_bind Eo; injection Eo as <- <-; apply upd_other; intros <-; destruct (F eq_refl) as (z & Z); congruence).
      destruct (getNAFileClass z) as [c0 |]; [| discriminate Eo]. injection Eo as _ <-. reflexivity.
    - repeat inv_bind Eo. injection Eo as <- <-. apply upd_other. intros <-. destruct (F eq_refl) as (z & Z). congruence. }
  destruct (C18_dict_unchanged_partial _ _ _ _ _ _ _ _ Ew) as (_ & K & _). rewrite (K k), <- Q; [destruct (e k); reflexivity |]. intros I. apply N. unfold touched. cbn in I |- *. tauto.
Qed.
Lemma one_kept fuel o nh lim name (d d' : na) fs r fs' : write_one_in fuel o nh lim name d fs = (r, d', fs') -> kept d d'.
Proof.
  unfold write_one_in. destruct (put_in o nh name d fs) as [[q e] g] eqn:Ep. pose proof (put_kept _ _ _ _ _ _ _ _ Ep) as K.
  assert (W : forall r', match q with Ok _ => (Ok [name], e, g) | Err x => (Err x, e, g) end = (r', d', fs') -> kept d d') by (destruct q; intros r' E; injection E as _ <- _; exact K).
  destruct lim as [n |]; [| destruct q; exact (W r)].
  destruct (bindR (get d kFFI) _) as [[|] |].
  - destruct (writeNAFileSubsets _ _ _ _ _ _) as [r1 f1]. intros E. injection E as _ <- _. apply kept_refl.
  - destruct q; exact (W r).
  - intros E. injection E as _ <- _. apply kept_refl.
Qed.
(** Whatever is done, the values and all items but those of the header named in
    [touched] stay what the conversion made them. *)
Theorem C124_kept_partial : forall (x : conv) l fs ds ds', new x -> fst (do_convert x) = Ok (Some ds) -> fst (do_convert (fst (calls (x, fs) l))) = Ok (Some ds') ->
  Forall2 kept ds ds'.
Proof.
  intros x l fs ds ds' N Q Q'. destruct (inv_new kept x N) as (I & C & Em).
  assert (R : respects kept (cv_settings x)).
  { split; [exact kept_refl |]. split.
    - intros d0 d r d' K E. eapply kept_trans; [exact K | exact (prepare_kept _ _ _ _ E)].
    - intros d0 d r d' fuel o nh lim name g r' d'' g' K E E'. eapply kept_trans; [exact K |]. eapply kept_trans; [exact (prepare_kept _ _ _ _ E) | exact (one_kept _ _ _ _ _ _ _ _ _ _ E')]. }
  pose proof (calls_inv kept x l Em R x fs I) as ((F1 & F2 & F3 & F4 & _) & K). unfold do_convert in Q, Q'. rewrite C in Q. fold (result x) in Q.
  destruct (result x) as [[cs |] |] eqn:Rx; try discriminate Q. injection Q as <-.
  destruct K as [(K & L) | (K & cs' & es & R' & L & G)]; rewrite K in Q'.
  - rewrite F1, F2, F3, F4 in Q'. fold (result x) in Q'. rewrite Rx in Q'. injection Q' as <-. generalize (flat_map (fun c => match c_na c with Some d => [d] | None => [] end) cs). induction l0; constructor; auto using kept_refl.
  - cbn [fst] in Q'. rewrite L in Q'. injection Q' as <-. injection R' as <-. exact G.
Qed.

(** ** C125 *)
Definition put_all (l : list (key * pyv num)) (d : na) : na := fold_left (fun d p => upd d (fst p) (snd p)) l d.
Fixpoint last_put (l : list (key * pyv num)) (k : key) : option (pyv num) :=
  match l with [] => None | (a, v) :: t => match last_put t k with Some w => Some w | None => if key_beq a k then Some v else None end end.
Lemma put_all_get l : forall d k, put_all l d k = match last_put l k with Some v => Some v | None => d k end.
Proof.
  induction l as [| [a v] l IH]; intros d k; [reflexivity |]. unfold put_all in *. cbn [fold_left fst snd last_put]. rewrite IH. destruct (last_put l k); [reflexivity |].
  unfold upd. destruct (key_beq a k); reflexivity.
Qed.
Lemma put_all_app l m d : put_all (l ++ m) d = put_all m (put_all l d).
Proof. apply fold_left_app. Qed.
(** What is given for the header does not depend on the dictionary. *)
Lemma override_const r p (d d' : na) : r = RReplace \/ (fst p <> kSCOM /\ fst p <> kNCOM) -> override r d p = Ok d' ->
  exists l, (forall e : na, override r e p = Ok (put_all l e)) /\ d' = put_all l d /\ forall q, In q l -> In (fst q) touched /\ ~ In (fst q) [kDX; kNX; kXNAME].
Proof.
  destruct p as [k v]. cbn [fst]. intros H E. unfold override in *. destruct (NCWrite.key_in k permitted) eqn:Pk; cbn [negb] in *; [| injection E as <-; exists []; split; [reflexivity |]; split; [reflexivity |]; intros q []].
  destruct (if NCWrite.key_in k _ then _ else _) as [new |]; [| discriminate]. cbn [bindR] in *.
  assert (T : In k touched /\ ~ In k [kDX; kNX; kXNAME]).
  { unfold NCWrite.key_in in Pk. apply existsb_exists in Pk as (k' & I & B). apply key_beq_true in B. subst k'. unfold touched. cbn in I |- *. intuition congruence. }
  assert (U : Ok (upd d k new) = Ok d' -> d' = put_all [(k, new)] d /\ forall q, In q [(k, new)] -> In (fst q) touched /\ ~ In (fst q) [kDX; kNX; kXNAME]).
  { intros U. injection U as <-. split; [reflexivity |]. intros q [<- | []]. exact T. }
  destruct k; try (eexists; split; [intros e | exact (U E)]; reflexivity).
  all: destruct H as [-> | H]; [| exfalso; destruct H; congruence]; destruct (copied new) as [c |]; [| discriminate E]; cbn [bindR] in *; destruct (as_list c) as [x |]; [| discriminate E]; cbn [bindR key_beq] in *; injection E as <-.
  - exists [(kNCOM, c); (kNNCOML, PInt (Z.of_nat (length x)))]. split; [intros e; reflexivity |]. split; [reflexivity |]. intros q [<- | [<- | []]]; cbn; intuition discriminate.
  - exists [(kSCOM, c); (kNSCOML, PInt (Z.of_nat (length x)))]. split; [intros e; reflexivity |]. split; [reflexivity |]. intros q [<- | [<- | []]]; cbn; intuition discriminate.
Qed.
Lemma override_all_const r l : (r = RReplace \/ forall p, In p l -> fst p <> kSCOM /\ fst p <> kNCOM) -> forall d d' : na, override_all r l d = (Ok tt, d') ->
  exists m, (forall e : na, override_all r l e = (Ok tt, put_all m e)) /\ d' = put_all m d /\ forall q, In q m -> In (fst q) touched /\ ~ In (fst q) [kDX; kNX; kXNAME].
Proof.
  induction l as [| p l IH]; intros H d d' E; cbn [override_all] in E.
  - injection E as <-. exists []. split; [reflexivity |]. split; [reflexivity |]. intros q [].
  - destruct (override r d p) as [e |] eqn:Ep; [| discriminate E]. destruct (override_const r p d e) as (m1 & A1 & A2 & A3).
    { destruct H as [H | H]; [left; exact H | right; apply H; left; reflexivity]. } { exact Ep. }
    destruct (IH (match H with or_introl q => or_introl q | or_intror q => or_intror (fun p' I => q p' (or_intror I)) end) e d' E) as (m2 & B1 & B2 & B3).
    exists (m1 ++ m2). split; [| split].
    + intros f. cbn [override_all]. rewrite A1, B1, put_all_app. reflexivity.
    + rewrite put_all_app. congruence.
    + intros q I. apply in_app_or in I as [I | I]; auto.
Qed.
Definition same (d d' : na) : Prop := forall k, d' k = d k.
Lemma put_all_again m (d e : na) : same (put_all m d) e -> same e (put_all m e).
Proof. intros S k. rewrite put_all_get. pose proof (S k) as Q. rewrite put_all_get in Q. destruct (last_put m k); congruence. Qed.
Lemma put_all_other m (d : na) k : (forall q, In q m -> fst q <> k) -> put_all m d k = d k.
Proof.
  intros H. rewrite put_all_get. assert (L : last_put m k = None).
  { induction m as [| [a v] m IH]; [reflexivity |]. cbn [last_put]. rewrite IH by (intros q I; apply H; right; exact I). rewrite key_beq_neq; [reflexivity |]. apply (H (a, v)). left. reflexivity. }
  rewrite L. reflexivity.
Qed.
(** One dictionary: writing it changes it to what was given for the header, and
    writing that gives the same text and changes nothing more. *)
Lemma one_again s (o : opts num) nh (d d1 d2 : na) name fs fs' : steady s nh d -> prepare_in s d = (Ok tt, d1) -> put_in o nh name d1 fs = (Ok tt, d2, fs') ->
  exists text, fs' = sd_set fs name text /\
    forall e g, same d2 e -> exists e1 e2, prepare_in s e = (Ok tt, e1) /\ put_in o nh name e1 g = (Ok tt, e2, sd_set g name text) /\ same d2 e2.
Proof.
  intros St Ep Ew. pose proof St as (Hc & z & Fz & Hh & Hp). unfold prepare_in in Ep.
  destruct (override_all (st_rule s) (st_overriders s) d) as [[[] |] d0] eqn:Eo; [| discriminate Ep].
  destruct (override_all_const _ _ Hc _ _ Eo) as (m & M1 & M2 & M3).
  assert (Keep : forall (e : na) k, k = kFFI \/ k = kNAUXV \/ In k [kDX; kNX; kXNAME] -> put_all m e k = e k).
  { intros e k K. apply put_all_other. intros q I Q. destruct (M3 q I) as (T & T'). rewrite Q in T, T'. destruct K as [-> | [-> | K]]; [| | contradiction]; cbn in T; intuition discriminate. }
  assert (Off : forall e : na, e kFFI = d kFFI -> e kNAUXV = d kNAUXV -> (if st_headers s then match updateWithColumnHeaders e with Err x => (Err x, e) | Ok e' => (Ok tt, e') end else (Ok tt, e)) = (Ok tt, e)).
  { intros e Q1 Q2. destruct (st_headers s); [| reflexivity]. destruct Hh as [Hh | Hh]; [discriminate Hh |]. unfold updateWithColumnHeaders, get. rewrite Q1, Fz. cbn [of_opt bindR].
    destruct Hh as [N | (n & Nn & Pn)].
    - destruct (existsb (Z.eqb z) [1001; 1010; 2110]%Z) eqn:X; [| reflexivity]. apply existsb_exists in X as (y & I & Q). apply Z.eqb_eq in Q. subst y. contradiction.
    - rewrite Q2, Nn. cbn [of_opt bindR as_int]. destruct (existsb _ _); [| reflexivity]. cbn [bindR]. apply Z.ltb_lt in Pn. rewrite Pn. reflexivity. }
  rewrite Off in Ep by (rewrite M2; apply Keep; auto). injection Ep as <-.
  assert (F0 : d0 kFFI = Some (PInt z)) by (rewrite M2, Keep by auto; exact Fz).
  unfold put_in, openNAFile_w in Ew. rewrite F0 in Ew. destruct (getNAFileClass z) as [c |] eqn:Ec; [| discriminate Ew]. cbn [bindR] in Ew.
  destruct (write_body o c nh (mkW [] [] d0)) as [r st] eqn:Eb. injection Ew as -> <- <-. exists (w_file st). split; [reflexivity |].
  assert (Un : forall (e : na) st', (forall k, In k [kDX; kNX; kXNAME] -> e k = d k) -> write_body o c nh (mkW [] [] e) = (Ok tt, st') -> same e (shared e (w_na st'))).
  { intros e st' Qe Eb' k. unfold shared. destruct (C18_dict_unchanged_partial _ _ _ _ _ _ _ _ Eb') as (_ & _ & K). destruct (K eq_refl) as (K1 & K2). clear K.
    assert (W : w_na st' k = e k).
    { destruct (in_dec key_eq_dec k (left_reversed c nh)) as [I | I]; [| exact (K2 k I)]. destruct (K1 k I) as (l & L1 & L2). rewrite L2, L1. do 2 f_equal.
      apply (Hp c eq_refl k I). unfold attr. rewrite <- Qe, L1; [reflexivity |]. destruct c, nh; cbn in I |- *; intuition congruence. }
    rewrite W. destruct (e k); reflexivity. }
  assert (Ud : same d0 (shared d0 (w_na st))) by (apply Un; [intros k I; rewrite M2; apply Keep; auto | exact Eb]).
  intros e g Se. assert (Se' : same d0 e) by (intros k; rewrite Se; apply Ud).
  set (e1 := put_all m e). assert (S1 : same e e1) by (apply (put_all_again m d); rewrite <- M2; exact Se').
  assert (S2 : same d0 e1) by (intros k; rewrite S1; apply Se').
  destruct (write_same o c nh [] [] [] [] d0 e1) as (W1 & t & T1 & T2); [intros k; symmetry; apply S2 |].
  destruct (write_body o c nh (mkW [] [] e1)) as [r' st'] eqn:Eb'. rewrite Eb in W1, T1. cbn [fst snd app] in W1, T1, T2.
  exists e1, (shared e1 (w_na st')). split; [| split].
  - unfold prepare_in. rewrite M1. fold e1. apply Off; [rewrite S2, M2; apply Keep; auto | rewrite S2, M2; apply Keep; auto].
  - unfold put_in, openNAFile_w. rewrite S2, F0, Ec. cbn [bindR]. rewrite Eb', <- W1, T1, T2. reflexivity.
  - intros k. rewrite (Un e1 st'); [rewrite S2; symmetry; apply Ud | intros j J; rewrite S2, M2; apply Keep; auto | rewrite Eb', <- W1; reflexivity].
Qed.
Definition put_files (t : list (str * str)) (fs : disk) : disk := fold_left (fun d p => sd_set d (fst p) (snd p)) t fs.
Lemma list_again fuel s (o : opts num) nh : forall names ds fs files ds' fs', Forall (steady s nh) ds -> length names = length ds ->
  write_list fuel s o nh None (combine names ds) fs = (Ok files, ds', fs') ->
  exists t, fs' = put_files t fs /\ length ds' = length ds /\ forall es g, Forall2 same ds' es -> exists es', write_list fuel s o nh None (combine names es) g = (Ok files, es', put_files t g).
Proof.
  induction names as [| n names IH]; intros [| d ds] fs files ds' fs' F L W; try discriminate L; cbn [combine write_list] in W.
  - injection W as <- <- <-. exists []. split; [reflexivity |]. split; [reflexivity |]. intros es g Q. inversion Q. exists []. reflexivity.
  - destruct (prepare_in s d) as [[[] |] d1] eqn:Ep; [| discriminate W]. unfold write_one_in in W. destruct (put_in o nh n d1 fs) as [[[[] |] d2] f] eqn:Eu; [| discriminate W].
    destruct (write_list fuel s o nh None (combine names ds) f) as [[[fl |] ds1] f1] eqn:El; cbn [bindR] in W; [| discriminate W]. injection W as <- <- <-.
    inversion F as [| ? ? S1 F1]; subst. destruct (one_again _ _ _ _ _ _ _ _ _ S1 Ep Eu) as (text & -> & A). cbn in L.
    destruct (IH ds _ _ _ _ F1 (f_equal pred L) El) as (t & -> & Ld & B). exists ((n, text) :: t). split; [reflexivity |]. split; [cbn; congruence |].
    intros es g Q. inversion Q as [| ? e ? es1 Q1 Q2]; subst. destruct (A e g Q1) as (e1 & e2 & A1 & A2 & _). destruct (B es1 (sd_set g n text) Q2) as (es' & B1).
    exists (e2 :: es'). cbn [combine write_list]. rewrite A1. unfold write_one_in. rewrite A2. rewrite B1. reflexivity.
Qed.
(** Writing once more with the same converter writes the same files. *)
Theorem C125_again_partial : forall (x : conv) l fs0 y fs fuel w files y1 fs1, new x -> calls (x, fs0) l = (y, fs) ->
  (forall ds, fst (do_convert y) = Ok (Some ds) -> Forall (steady (cv_settings x) (wa_no_header w)) ds) -> wa_limit w = None ->
  do_write fuel y w fs = (Ok files, y1, fs1) ->
  exists y2 fs2, do_write fuel y1 w fs1 = (Ok files, y2, fs2) /\ forall n, sd_get fs2 n = sd_get fs1 n.
Proof.
  intros x l fs0 y fs fuel w files y1 fs1 N C St Hl E. destruct (inv_new (fun _ _ => True) x N) as (I & _ & Em).
  pose proof (calls_inv _ x l Em (respects_true _) x fs0 I) as J. rewrite C in J. cbn [fst] in J. destruct J as ((F1 & F2 & F3 & F4 & F5 & F6) & J).
  unfold do_write in E. destruct (date_clash (cv_globals y) (cv_settings y)) eqn:Dc; [discriminate E |]. rewrite Hl in E. destruct (ensure y) as [[u |] z] eqn:Ez; [| discriminate E].
  assert (Z : do_names z (wa_file w) = (names_now z (wa_file w), z) /\ ensure z = (Ok tt, z) /\ cv_settings z = cv_settings x /\ date_clash (cv_globals z) (cv_settings z) = false /\
    forall ds, cv_list z = Some ds -> Forall (steady (cv_settings x) (wa_no_header w)) ds /\ (cv_converted z = false -> ds = [])).
  { unfold ensure in Ez. unfold do_convert in Ez, St. destruct (cv_converted y) eqn:Cy.
    - injection Ez as <- <-. unfold do_names, ensure. rewrite Cy. do 4 (split; [auto |]). intros ds D. split; [apply St; cbn [fst]; congruence | congruence].
    - destruct J as [(_ & Ly) | (J & _)]; [| discriminate J]. destruct (convert _ _ _ _) as [[cs |] |] eqn:Ec; [| | discriminate Ez]; injection Ez as <- <-.
      + unfold do_names, ensure. cbn [with_list cv_converted cv_settings cv_globals cv_list]. do 4 (split; [auto |]). intros ds D. injection D as <-. split; [apply St; reflexivity | discriminate].
      + unfold do_names, ensure, do_convert. rewrite Cy, Ec. cbn [bindR]. do 4 (split; [auto |]). intros ds D. rewrite (Em ds) by congruence. split; [constructor | reflexivity]. }
  destruct Z as (Zn & Ze & Zs & Zc & Zd). rewrite Zn in E. destruct (names_now z (wa_file w)) as [names |] eqn:Nn; [| discriminate E].
  destruct (cv_list z) as [ds |] eqn:Lz; [| discriminate E]. destruct (Zd ds eq_refl) as (Sd & Un).
  assert (Ln : length names = length ds).
  { unfold names_now in Nn. rewrite Lz in Nn. destruct (match wa_file w with Some f => _ | None => _ end) as [f |]; [| discriminate Nn]. cbn [bindR of_opt] in Nn. injection Nn as <-. apply C42_distinct. }
  destruct (write_list _ _ _ _ _ _ _) as [[[fl |] ds'] f] eqn:W; [| discriminate E]. injection E as <- <- <-. rewrite Zs in W.
  destruct (list_again _ _ _ _ _ _ _ _ _ _ Sd Ln W) as (t & -> & Ld & B). destruct (B ds' (put_files t fs)) as (es & W2). { clear. induction ds'; constructor; auto. intros k. reflexivity. }
  exists (with_list (with_list z (cv_converted z) (Some ds') (Some fl)) (cv_converted z) (Some es) (Some fl)), (put_files t (put_files t fs)). split.
  - set (z' := with_list z (cv_converted z) (Some ds') (Some fl)).
    assert (Nz : names_now z' (wa_file w) = Ok names). { rewrite <- Nn. unfold names_now. cbn [z' with_list cv_nc_file cv_list]. rewrite Lz. cbn [of_opt bindR]. rewrite Ld. reflexivity. }
    assert (Ee : exists r, ensure z' = (Ok r, z')).
    { unfold ensure, do_convert in Ze |- *. cbn [z' with_list cv_converted cv_env cv_ffi cv_globals cv_vars cv_files]. destruct (cv_converted z) eqn:Cz; [eexists; reflexivity |].
      destruct (convert _ _ _ _) as [[cs |] |]; try discriminate Ze; [exfalso; injection Ze as Ze; apply (f_equal cv_converted) in Ze; cbn in Ze; congruence | eexists; reflexivity]. }
    destruct Ee as (r & Ee). unfold do_write, do_names. change (cv_globals z') with (cv_globals z). change (cv_settings z') with (cv_settings z). rewrite Zc, Ee. rewrite Ee, Nz, Hl. cbn [z' with_list cv_list cv_settings cv_converted]. rewrite Zs, W2. reflexivity.
  - intros n. unfold put_files. rewrite !UtilProps.fold_get. match goal with |- context [match ?v with Some _ => _ | None => _ end] => destruct v end; reflexivity.
Qed.

(** With column headers every call of [writeNAFiles] adds one more line of them
    to the comments of a file of one independent variable, also when writing
    fails. *)
Lemma headers_line (d : na) ffi names vs l : d kFFI = Some (PInt ffi) -> In (ffi, names) [(1001, true); (1010, false)]%Z -> d kNAUXV = Some (PInt 0) -> d kNCOM = Some (PList l) ->
  (forall x, names = true -> vs <> [] -> hd [] vs = x -> exists xs, d kXNAME = Some (PList (PStr x :: xs))) ->
  d kVNAME = Some (PList (map PStr (if names then tl vs else vs))) -> (names = true -> vs <> []) ->
  updateWithColumnHeaders d = Ok (upd (upd d kNCOM (PList (l ++ [PStr (join [c_comma] vs)]))) kNNCOML (PInt (Z.of_nat (S (length l))))).
Proof.
  intros Hf I Hn Hc Hx Hv Ne. unfold updateWithColumnHeaders, get. rewrite Hf, Hn, Hc, Hv. cbn [of_opt bindR].
  assert (M : forall ss : list str, mapR NACore.as_str (map (@PStr num) ss) = Ok ss) by (induction ss as [| a ss IH]; [reflexivity | cbn [map mapR NACore.as_str bindR]; rewrite IH; reflexivity]).
  assert (L : Z.of_nat (length (l ++ [@PStr num (join [c_comma] vs)])) = Z.of_nat (S (length l))) by (rewrite app_length; cbn; lia).
  destruct I as [I | [I | []]]; injection I as <- <-; cbn [existsb Z.eqb Pos.eqb orb bindR as_int Z.ltb Z.compare negb].
  - destruct vs as [| x vs]; [destruct (Ne eq_refl); reflexivity |]. destruct (Hx x eq_refl (Ne eq_refl) eq_refl) as (xs & ->).
    cbn [of_opt bindR index as_list nth_res nth_error NACore.as_str tl]. rewrite M. cbn [bindR app_item as_list app]. f_equal. f_equal. f_equal. exact L.
  - cbn [as_list bindR tl]. rewrite M. cbn [bindR app_item as_list app]. f_equal. f_equal. f_equal. exact L.
Qed.
(** The dictionary has the column names [vs]. *)
Definition columns (d : na) (vs : list str) : Prop :=
  d kNAUXV = Some (PInt 0) /\
  (d kFFI = Some (PInt 1001) /\ (exists x xs ws, vs = x :: ws /\ d kXNAME = Some (PList (PStr x :: xs)) /\ d kVNAME = Some (PList (map PStr ws))) \/
   d kFFI = Some (PInt 1010) /\ d kVNAME = Some (PList (map PStr vs))).
Definition commented (d : na) (l : list (pyv num)) (d' : na) : Prop :=
  d' kNCOM = Some (PList l) /\ d' kNNCOML = Some (PInt (Z.of_nat (length l))) /\ forall k, k <> kNCOM -> k <> kNNCOML -> d' k = d k.
Lemma columns_step (d d' : na) vs l : columns d vs -> commented d l d' -> exists d'', updateWithColumnHeaders d' = Ok d'' /\ commented d (l ++ [PStr (join [c_comma] vs)]) d'' /\ In (d'' kFFI) [Some (PInt 1001); Some (PInt 1010)].
Proof.
  intros (C0 & C) (A & B & O). eexists. split.
  - destruct C as [(Cf & x & xs & ws & -> & Cx & Cv) | (Cf & Cv)].
    + apply (headers_line d' 1001 true (x :: ws) l); [rewrite O by discriminate; exact Cf | left; reflexivity | rewrite O by discriminate; exact C0 | exact A | | rewrite O by discriminate; exact Cv | discriminate].
      intros y _ _ <-. exists xs. rewrite O by discriminate. exact Cx.
    + apply (headers_line d' 1010 false vs l); [rewrite O by discriminate; exact Cf | right; left; reflexivity | rewrite O by discriminate; exact C0 | exact A | discriminate | rewrite O by discriminate; exact Cv | discriminate].
  - split; [split; [| split] |].
    + reflexivity.
    + cbn [upd]. rewrite app_length. cbn. do 3 f_equal. lia.
    + intros k N1 N2. rewrite !upd_other by congruence. apply O; assumption.
    + rewrite !upd_other by discriminate. rewrite O by discriminate. destruct C as [(-> & _) | (-> & _)]; cbn; auto.
Qed.
Lemma put_same o nh name (d : na) fs : In (d kFFI) [Some (PInt 1001); Some (PInt 1010)] -> exists r fs' d', put_in o nh name d fs = (r, d', fs') /\ same d d'.
Proof.
  intros I. unfold put_in, openNAFile_w.
  assert (K : forall c, In c [C1001; C1010; C1020] -> exists r fs' d', (let (r, st) := write_body o c nh (mkW [] [] d) in (r, shared d (w_na st), sd_set fs name (w_file st))) = (r, d', fs') /\ same d d').
  { intros c J. destruct (write_body o c nh (mkW [] [] d)) as [r st] eqn:E. do 3 eexists. split; [reflexivity |]. destruct (C18_dict_unchanged_partial _ _ _ _ _ _ _ _ E) as (Q & _).
    intros k. unfold shared. rewrite (Q J). destruct (d k); reflexivity. }
  destruct I as [I | [I | []]]; rewrite <- I; [apply (K C1001) | apply (K C1010)]; cbn; auto.
Qed.
Theorem C125_headers_partial : forall ws (x : conv) fs d vs l, cv_converted x = true -> cv_list x = Some [d] -> st_headers (cv_settings x) = true -> st_overriders (cv_settings x) = [] ->
  columns d vs -> d kNCOM = Some (PList l) -> d kNNCOML = Some (PInt (Z.of_nat (length l))) -> Forall (fun w : nat * wargs num => wa_file (snd w) <> None) ws ->
  exists d', cv_list (fst (calls (x, fs) (map (fun w => CWrite (fst w) (snd w)) ws))) = Some [d'] /\
    d' kNCOM = Some (PList (l ++ repeat (PStr (join [c_comma] vs)) (length ws))) /\ d' kNNCOML = Some (PInt (Z.of_nat (length l + length ws))) /\
    forall k, k <> kNCOM -> k <> kNNCOML -> d' k = d k.
Proof.
  intros ws x fs d vs l C0 L0 H0 O0 Cd N1 N2 F.
  assert (G : forall ws x fs d0 l, Forall (fun w : nat * wargs num => wa_file (snd w) <> None) ws -> cv_converted x = true -> cv_list x = Some [d0] -> commented d l d0 ->
    st_headers (cv_settings x) = true -> st_overriders (cv_settings x) = [] ->
    exists d', cv_list (fst (calls (x, fs) (map (fun w => CWrite (fst w) (snd w)) ws))) = Some [d'] /\ commented d (l ++ repeat (PStr (join [c_comma] vs)) (length ws)) d').
  { clear - Cd. induction ws as [| [fuel w] ws IH]; intros x fs d0 l F C L K H O.
    - exists d0. rewrite app_nil_r. split; [exact L | exact K].
    - inversion F as [| ? ? Fw F']; subst. unfold calls. cbn [map fold_left fst snd call].
      destruct (wa_file w) as [f |] eqn:Wf; [| cbn in Fw; congruence].
      destruct (columns_step d d0 vs l Cd K) as (d1 & U & K1 & I1).
      assert (P : prepare_in (cv_settings x) d0 = (Ok tt, d1)). { unfold prepare_in. rewrite O, H. cbn [override_all]. rewrite U. reflexivity. }
      assert (W : exists r x' fs', do_write fuel x w fs = (r, x', fs') /\ cv_converted x' = true /\ cv_settings x' = cv_settings x /\ exists d2, cv_list x' = Some [d2] /\ same d1 d2).
      { unfold do_write, date_clash, do_names, ensure. rewrite O. cbn [existsb]. rewrite andb_false_r, C. rewrite C, Wf. unfold names_now. rewrite L. cbn [of_opt bindR length]. unfold constructNAFileNames. cbn [Nat.eqb combine write_list]. rewrite P.
        destruct (put_same (wa_opts w) (wa_no_header w) f d1 fs I1) as (r2 & f2 & d2 & Q2 & S2).
        assert (W : exists r3 f3 d3, write_one_in fuel (wa_opts w) (wa_no_header w) (wa_limit w) f d1 fs = (r3, d3, f3) /\ same d1 d3).
        { unfold write_one_in. rewrite Q2. assert (Wh : exists r3 f3 d3, match r2 with Ok _ => (Ok [f], d2, f2) | Err e => (Err e, d2, f2) end = (r3, d3, f3) /\ same d1 d3) by (destruct r2; do 3 eexists; split; eauto).
          destruct (wa_limit w) as [n |]; [| destruct r2; exact Wh]. destruct (bindR (get d1 kFFI) _) as [[|] |].
          - destruct (writeNAFileSubsets _ _ _ _ _ _) as [r4 f4]. do 3 eexists. split; [reflexivity |]. intros k. reflexivity.
          - destruct r2; exact Wh.
          - do 3 eexists. split; [reflexivity |]. intros k. reflexivity. }
        destruct W as (r3 & f3 & d3 & -> & S3). destruct r3; cbn [bindR map]; do 3 eexists; (split; [reflexivity |]); (split; [exact C |]); (split; [reflexivity |]); exists d3; split; reflexivity || exact S3. }
      destruct W as (r & x' & fs' & -> & C' & Q' & d2 & L2 & S2).
      assert (K2 : commented d (l ++ [PStr (join [c_comma] vs)]) d2). { destruct K1 as (A & B & D). split; [| split]; [rewrite S2; exact A | rewrite S2; exact B |]. intros k M1 M2. rewrite S2. apply D; assumption. }
      destruct (IH x' fs' d2 _ F' C' L2 K2 ltac:(congruence) ltac:(congruence)) as (d' & Y1 & Y2). exists d'. split; [exact Y1 |]. rewrite <- app_assoc in Y2. exact Y2. }
  destruct (G ws x fs d l F C0 L0 (conj N1 (conj N2 (fun k _ _ => eq_refl))) H0 O0) as (d' & A & (B1 & B2 & B3)). exists d'. split; [exact A |]. split; [exact B1 |]. split; [| exact B3].
  rewrite B2, app_length, repeat_length. reflexivity.
Qed.
End Names.
Print Assumptions C123_names.
Print Assumptions C123_files.
Print Assumptions C124_quiet_partial.
Print Assumptions C124_kept_partial.
Print Assumptions C125_again_partial.
Print Assumptions C125_headers_partial.

(** ** Witnesses *)
Definition plain_settings (headers : bool) : NCWrite.settings (num := wnan) := mkSettings RInsert headers [(kONAME, PStr (lit "A. Miller"))].
Definition converter (headers : bool) (vars : list (xvar wnan)) : conv wnan :=
  new_xarray NcRoundTrip.env_w vars (NcRoundTrip.gl (lit "Test")) None (plain_settings headers).
Definition out : wargs wnan := mkWargs (Some (lit "a.na")) NcRoundTrip.opts_wnan false None.
Definition columns_var : xvar wnan := NcRoundTrip.qw.
Definition grid_var : xvar wnan := mkVar (mkNamed (lit "p") [] []) [GridRoundTrip.zw (lit "u") [1; 2; 4]%Z; GridRoundTrip.zw (lit "z") [1; 2]%Z] (GridRoundTrip.rows [[1; 2]; [3; 4]; [5; 6]]%Z) None None.
(** What [convert] returns is changed by writing: the column headers are there. *)
Theorem C124_refuted : exists (x : conv wnan) fuel w ds ds', new x /\ fst (do_convert x) = Ok (Some ds) /\
  fst (do_convert (fst (calls (x, []) [CWrite fuel w]))) = Ok (Some ds') /\ map (fun d => d kNNCOML) ds' <> map (fun d => d kNNCOML) ds.
Proof.
  exists (converter true [columns_var]), 0%nat, out.
  destruct (fst (do_convert (converter true [columns_var]))) as [[ds |] |] eqn:A; vm_compute in A; try discriminate A.
  destruct (fst (do_convert (fst (calls (converter true [columns_var], []) [CWrite 0 out])))) as [[ds' |] |] eqn:B; vm_compute in B; try discriminate B.
  exists ds, ds'. split; [do 5 eexists; exists []; left; reflexivity |]. split; [reflexivity |]. split; [reflexivity |]. injection A as <-. injection B as <-. vm_compute. discriminate.
Qed.
(** Written twice under the same name, the file has two lines of column headers. *)
Theorem C125_refuted : exists (x : conv wnan) fuel w files y fs y' fs', new x /\ do_write fuel x w [] = (Ok files, y, fs) /\ do_write fuel y w fs = (Ok files, y', fs') /\
  exists n, In n files /\ sd_get fs n <> None /\ sd_get fs' n <> sd_get fs n.
Proof.
  exists (converter true [columns_var]), 0%nat, out.
  destruct (do_write 0 (converter true [columns_var]) out []) as [[r y] fs] eqn:A.
  destruct (do_write 0 y out fs) as [[r' y'] fs'] eqn:B.
  assert (Q : r = Ok [lit "a.na"] /\ r' = Ok [lit "a.na"] /\ sd_get fs (lit "a.na") <> None /\ sd_get fs' (lit "a.na") <> sd_get fs (lit "a.na")).
  { vm_compute in A. injection A as <- <- <-. vm_compute in B. injection B as <- <- <-. vm_compute. repeat split; discriminate. }
  destruct Q as (-> & -> & Q1 & Q2). exists [lit "a.na"], y, fs, y', fs'. split; [do 5 eexists; exists []; left; reflexivity |]. split; [reflexivity |]. split; [exact B |].
  exists (lit "a.na"). split; [left; reflexivity |]. split; assumption.
Qed.
(** Two files with column headers and without; three times the same names. *)
Definition answers (x : conv wnan) : list (Res (list str)) :=
  let y := fst (calls (x, []) [CConvert; CWrite 0 out; CNames None; CWrite 0 out]) in
  [fst (do_names x (Some (lit "b.na"))); fst (do_names y (Some (lit "b.na"))); fst (do_names y None)].
Definition texts (x : conv wnan) : list (option str) :=
  let p := calls (x, []) [CWrite 0 out] in let q := calls p [CWrite 0 out] in
  flat_map (fun n => [sd_get (snd p) n; sd_get (snd q) n]) [lit "a.na"].
Example C123_example : answers (converter true [columns_var; grid_var]) = [Ok [lit "b_1.na"; lit "b_2.na"]; Ok [lit "b_1.na"; lit "b_2.na"]; Err EAttributeError] /\
  answers (new_nc NcRoundTrip.env_w (lit "c.nc") [columns_var] (NcRoundTrip.gl (lit "Test")) None (plain_settings true)) = [Ok [lit "b.na"]; Ok [lit "b.na"]; Ok [lit "c.na"]].
Proof. split; vm_compute; reflexivity. Qed.
Example C125_example : (match texts (converter false [columns_var]) with [Some a; Some b] => a = b | _ => False end) /\
  match texts (converter true [columns_var]) with [Some a; Some b] => a <> b /\ length b = (length a + 4)%nat | _ => False end.
Proof. split; [vm_compute; reflexivity |]. vm_compute. split; [discriminate | reflexivity]. Qed.
(** The premises of [C125_again_partial] hold without column headers, those of
    [C125_headers_partial] with them. *)
Example C125_premises : exists ds, fst (do_convert (converter false [columns_var])) = Ok (Some ds) /\ ds <> [] /\ Forall (steady (plain_settings false) false) ds /\
  exists d l, ds = [d] /\ columns d (map lit ["t"; "q"]%pylit) /\ d kNCOM = Some (PList l) /\ d kNNCOML = Some (PInt (Z.of_nat (length l))).
Proof.
  destruct (fst (do_convert (converter false [columns_var]))) as [[ds |] |] eqn:A; vm_compute in A; try discriminate A. injection A as <-.
  eexists. split; [reflexivity |]. split; [discriminate |]. split.
  - constructor; [| constructor]. split; [right; intros p [<- | []]; cbn; split; discriminate |]. exists 1001%Z. split; [reflexivity |]. split; [left; reflexivity |].
    intros c E. injection E as <-. intros k [].
  - eexists. eexists. split; [reflexivity |]. split; [| split; [reflexivity |]].
    + split; [reflexivity |]. left. split; [reflexivity |]. do 3 eexists. split; [reflexivity |]. split; [vm_compute; reflexivity |]. vm_compute. reflexivity.
    + vm_compute. reflexivity.
Qed.
(** Asked twice without writing, and asked after writing: the values are the same. *)
Definition returned_items (k : key) (r : Res (option (list (na wnan)))) : list (option (pyv wnan)) :=
  match r with Ok (Some ds) => map (fun d => d k) ds | _ => [] end.
Example C124_example : Forall no_write [CConvert; CNames None; @CConvert wnan] /\
  returned_items kNNCOML (fst (do_convert (fst (calls (converter true [columns_var], []) [CConvert; CNames None; CConvert])))) = [Some (PInt 0)] /\
  returned_items kNNCOML (fst (do_convert (fst (calls (converter true [columns_var], []) [CWrite 0 out])))) = [Some (PInt 1)] /\
  returned_items kV (fst (do_convert (fst (calls (converter true [columns_var], []) [CWrite 0 out])))) = returned_items kV (fst (do_convert (converter true [columns_var]))) /\
  length (returned_items kV (fst (do_convert (converter true [columns_var])))) = 1%nat.
Proof. split; [repeat constructor; intros; discriminate|]. vm_compute. repeat split. Qed.
Print Assumptions C124_refuted.
Print Assumptions C125_refuted.

(** ** C126 *)
(** The functions of the API for xarray objects and dictionaries never do what
    they say: a module and a class that they use do not exist. *)
Theorem C126_never_partial : forall num (Num : NumOps num) (Ar : ArithOps num) fuel (E : env num) vars globals ffi s file o nh limit fs (d : na num),
  convertXarrayObjectsToNA fuel E vars globals ffi s file o nh limit fs = (Err EImportError, fs) /\
  convertXarrayObjectsToCSV fuel E vars globals ffi s file o nh limit fs = (Err EImportError, fs) /\
  writeNADictToNC na_to_xarray_classes d = Err EAttributeError.
Proof. intros. repeat split. Qed.
(** The arguments are not the reason: the class that was meant writes the file. *)
Theorem C126_refuted : exists fuel (E : env wnan) vars globals ffi s file o nh limit e files y fs',
  convertXarrayObjectsToNA fuel E vars globals ffi s file o nh limit [] = (Err e, []) /\
  do_write fuel (new_objects E vars globals ffi s) (mkWargs (Some file) o nh limit) [] = (Ok files, y, fs') /\ files = [file] /\ sd_get fs' file <> None.
Proof.
  exists 0%nat, NcRoundTrip.env_w, [columns_var], (NcRoundTrip.gl (lit "Test")), None, (plain_settings false), (lit "a.na"), NcRoundTrip.opts_wnan, false, None, EImportError.
  destruct (do_write 0 (new_objects NcRoundTrip.env_w [columns_var] (NcRoundTrip.gl (lit "Test")) None (plain_settings false)) (mkWargs (Some (lit "a.na")) NcRoundTrip.opts_wnan false None) []) as [[r y] fs] eqn:A.
  assert (Q : r = Ok [lit "a.na"] /\ sd_get fs (lit "a.na") <> None) by (vm_compute in A; injection A as <- <- <-; vm_compute; split; [reflexivity | discriminate]).
  destruct Q as (-> & Q). exists [lit "a.na"], y, fs. split; [reflexivity |]. split; [reflexivity |]. split; [reflexivity | exact Q].
Qed.
(** With any modules: the import is all that fails.  Where the module is there, the
    function does what convert and writeNAFiles do, and never passes on a size
    limit; where it is not, nothing happens.  The same for the class of
    [writeNADictToNC]. *)
Theorem C126_modules_partial : forall num (Num : NumOps num) (Ar : ArithOps num) modules fuel (E : env num) vars globals ffi s file o nh limit fs (d : na num),
  (~ In (lit "xarray_objs_to_na_file") modules -> convertXarrayObjects modules fuel E vars globals ffi s file o nh limit fs = (Err EImportError, fs)) /\
  (In (lit "xarray_objs_to_na_file") modules -> forall r x, do_convert (new_objects E vars globals ffi s) = (r, x) ->
    (forall e, r = Err e -> convertXarrayObjects modules fuel E vars globals ffi s file o nh limit fs = (Err e, fs)) /\
    (forall a r' x' fs', r = Ok a -> do_write fuel x (mkWargs (Some file) o nh None) fs = (r', x', fs') ->
      convertXarrayObjects modules fuel E vars globals ffi s file o nh limit fs = (r', fs'))) /\
  (~ In (lit "NAToXarray") modules -> writeNADictToNC modules d = Err EAttributeError).
Proof.
  intros num Num Ar modules fuel E vars globals ffi s file o nh limit fs d.
  assert (H : forall n, has_name n modules = true <-> In n modules).
  { intros n. unfold has_name. rewrite existsb_exists. split; [intros (x & I & Q); apply StrLemmas.str_eqb_eq in Q as ->; exact I | intros I; exists n; split; [exact I | apply str_eqb_same]]. }
  unfold convertXarrayObjects, writeNADictToNC. split; [| split].
  - intros N. destruct (has_name (lit "xarray_objs_to_na_file") modules) eqn:Q; [exfalso; apply N, H, Q | reflexivity].
  - intros I r x C. apply H in I. rewrite I, C. split; [intros e ->; reflexivity | intros a r' x' fs' -> W; rewrite W; reflexivity].
  - intros N. destruct (has_name (lit "NAToXarray") modules) eqn:Q; [exfalso; apply N, H, Q | reflexivity].
Qed.
Example C126_modules_example : ~ In (lit "xarray_objs_to_na_file") nc_modules /\ ~ In (lit "NAToXarray") na_to_xarray_classes /\
  (let r := convertXarrayObjects (lit "xarray_objs_to_na_file" :: nc_modules) 0 NcRoundTrip.env_w [columns_var] (NcRoundTrip.gl (lit "Test")) None (plain_settings false) (lit "a.na") NcRoundTrip.opts_wnan false (Some 1%Z) [] in
   fst r = Ok [lit "a.na"] /\ map fst (snd r) = [lit "a.na"]).
Proof. split; [| split]; [intros Q; repeat destruct Q as [Q | Q]; vm_compute in Q; solve [discriminate Q | exact Q] .. | vm_compute; split; reflexivity]. Qed.
Print Assumptions C126_modules_partial.
Print Assumptions C126_never_partial.
Print Assumptions C126_refuted.
Print Assumptions C123_default.
