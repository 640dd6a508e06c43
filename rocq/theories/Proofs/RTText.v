(** Round trip, text level: lines made of tokens and names, and how the text
    parser reads them back. *)
From Coq Require Import List NArith ZArith Bool Lia.
From Verif Require Import Py.Str Py.Res Py.Num Model.Dict Model.TextParser Model.CommonUtils
  Model.NAWrite Model.NARead Spec.TextSpec Spec.Records
  Proofs.StrLemmas Proofs.NumLemmas Proofs.TextLemmas.
Import ListNotations.

(** Lines as delivered by readlines. *)
Definition nls (ls : list str) : list str := map (fun l => l ++ nl) ls.
Lemma nls_app a b : nls (a ++ b) = nls a ++ nls b.
Proof. apply map_app. Qed.

Lemma blank_app a b : blank (a ++ b) <-> blank a /\ blank b.
Proof. unfold blank. now rewrite Forall_app. Qed.
Lemma blank_nl : blank nl.
Proof. constructor; [reflexivity|constructor]. Qed.

Lemma one_line_app a b : one_line (a ++ b) <-> one_line a /\ one_line b.
Proof. unfold one_line. rewrite !in_app_iff. tauto. Qed.
Lemma one_line_nil : one_line [].
Proof. split; intros []. Qed.
Lemma one_line_concat l : Forall one_line l -> one_line (concat l).
Proof.
  induction 1 as [|a l Ha Hl IH]; simpl; [apply one_line_nil|]. now apply one_line_app.
Qed.
Lemma one_line_join d l : one_line d -> Forall one_line l -> one_line (join d l).
Proof.
  intros Hd Hl. induction Hl as [|a l Ha Hl IH]; [apply one_line_nil|].
  destruct l as [|b l]; [exact Ha|]. cbn [join]. apply one_line_app. split; auto.
  apply one_line_app. split; auto.
Qed.
Lemma one_line_incl a b : incl a b -> one_line b -> one_line a.
Proof. intros Hi [H1 H2]. split; intros Hx; [apply H1|apply H2]; auto. Qed.
Lemma one_line_word w : Forall (fun c => is_space c = false) w -> one_line w.
Proof.
  rewrite Forall_forall. intros Hw. split; intros Hi; apply Hw in Hi; discriminate.
Qed.
Lemma one_line_sp : one_line (lit " ").
Proof. split; intros [E|[]]; discriminate. Qed.

Lemma token_word t : token_ok t -> t <> [] /\ no_sp t = true.
Proof. intros [Hw _]. now apply word_no_sp. Qed.
Lemma token_one_line t : token_ok t -> one_line t.
Proof. intros [[_ Hw] _]. now apply one_line_word. Qed.
Lemma token_dec z : token_ok (dec_of_Z z).
Proof.
  split; [|split; [|split]].
  - apply word_no_sp. split; [apply dec_of_Z_nonnil|apply dec_of_Z_no_sp].
  - intros Hi. pose proof (dec_of_Z_chars z) as K. rewrite forallb_forall in K. specialize (K _ Hi). discriminate.
  - intros Hi. pose proof (dec_of_Z_chars z) as K. rewrite forallb_forall in K. specialize (K _ Hi). discriminate.
  - intros Hi. pose proof (dec_of_Z_chars z) as K. rewrite forallb_forall in K. specialize (K _ Hi). discriminate.
Qed.
Lemma token_dec_nat n : token_ok (dec_of_nat n).
Proof. rewrite dec_of_nat_Z. apply token_dec. Qed.
Lemma dec_one_line z : one_line (dec_of_Z z).
Proof. apply token_one_line, token_dec. Qed.

(** No closing brace: the annotation remover does nothing. *)
Lemma toks_plain l : ~ In c_rbrace l -> toks l = split_ws l.
Proof. intros Hl. unfold toks. now rewrite right_strip_id by now apply mem_chr_false. Qed.

Lemma split_ws_tokens_blank d ts b : d <> [] -> blank d -> Forall token_ok ts -> blank b ->
  split_ws (join d ts ++ b) = ts.
Proof.
  intros Hn Hd Ht Hb. rewrite split_ws_trail by now apply blank_all_sp.
  apply split_ws_join; auto; [now apply blank_all_sp|].
  eapply Forall_impl; [|exact Ht]. intros t. apply token_word.
Qed.

Lemma In_join c d ts : In c (join d ts) -> In c d \/ exists t, In t ts /\ In c t.
Proof.
  induction ts as [|t ts IH]; [intros []|]. destruct ts as [|t2 ts].
  - cbn [join]. intros Hi. right. exists t. simpl. auto.
  - cbn [join] in *. rewrite !in_app_iff. intros [Hi|[Hi|Hi]]; auto.
    + right. exists t. simpl. auto.
    + destruct (IH Hi) as [K|(t' & K1 & K2)]; auto. right. exists t'. simpl in *. auto.
Qed.

Lemma blank_no c s : blank s -> is_space c = false -> ~ In c s.
Proof. unfold blank. rewrite Forall_forall. intros Hs Hc Hi. apply Hs in Hi. congruence. Qed.

Lemma toks_join d ts b : delim_ok d -> Forall token_ok ts -> blank b -> toks (join d ts ++ b) = ts.
Proof.
  intros (Hn & Hd & _) Ht Hb. rewrite toks_plain.
  - now apply split_ws_tokens_blank.
  - intros Hi. apply in_app_iff in Hi as [Hi|Hi].
    + apply In_join in Hi as [Hi|(t & Ht1 & Ht2)].
      * revert Hi. now apply blank_no.
      * rewrite Forall_forall in Ht. destruct (Ht _ Ht1) as (_ & _ & K & _). contradiction.
    + revert Hi. now apply blank_no.
Qed.

(** The data lines: every token followed by the delimiter, then rstrip. *)
Definition row_line (d : str) (ts : list str) : str := rstrip_sc (concat (map (fun t => t ++ d) ts)).

Lemma concat_join d ts : ts <> [] -> concat (map (fun t => t ++ d) ts) = join d ts ++ d.
Proof.
  induction ts as [|t ts IH]; [congruence|]. intros _. destruct ts as [|t2 ts].
  - simpl. now rewrite app_nil_r.
  - change (concat (map (fun t => t ++ d) (t :: t2 :: ts)))
      with ((t ++ d) ++ concat (map (fun t => t ++ d) (t2 :: ts))).
    rewrite IH by congruence. cbn [join]. now rewrite <- !app_assoc.
Qed.

Lemma rstrip_sc_decomp s : ~ In c_comma s -> exists b, s = rstrip_sc s ++ b /\ blank b.
Proof.
  intros Hc. unfold rstrip_sc. destruct (rstrip_by_decomp is_sp_comma s) as (b & Hb & Hs & _).
  exists b. split; auto. apply Forall_forall. intros c Hi. rewrite forallb_forall in Hb.
  specialize (Hb _ Hi). unfold is_sp_comma in Hb. apply orb_true_iff in Hb as [Hb|Hb]; apply N.eqb_eq in Hb; subst c.
  - reflexivity.
  - exfalso. apply Hc. rewrite Hs. apply in_or_app. now right.
Qed.

Lemma row_chars d ts : delim_ok d -> Forall token_ok ts ->
  ~ In c_comma (concat (map (fun t => t ++ d) ts)) /\ ~ In c_rbrace (concat (map (fun t => t ++ d) ts))
  /\ one_line (concat (map (fun t => t ++ d) ts)).
Proof.
  intros (Hn & Hb & Ho) Ht. induction Ht as [|t ts Ht Hts IH]; simpl.
  - split; [tauto|]. split; [tauto|]. apply one_line_nil.
  - destruct IH as (I1 & I2 & I3). rewrite !in_app_iff.
    pose proof (blank_no c_comma d Hb eq_refl). pose proof (blank_no c_rbrace d Hb eq_refl).
    destruct Ht as (Hw & H1 & H2 & _). split; [tauto|]. split; [tauto|].
    apply one_line_app. split; auto. apply one_line_app. split; auto. apply one_line_word, Hw.
Qed.

Lemma row_line_decomp d ts : delim_ok d -> Forall token_ok ts ->
  exists b, blank b /\ concat (map (fun t => t ++ d) ts) = row_line d ts ++ b.
Proof.
  intros Hd Ht. destruct (row_chars d ts Hd Ht) as (H1 & _).
  destruct (rstrip_sc_decomp _ H1) as (b & E & Hb). eauto.
Qed.

Lemma toks_row d ts b : delim_ok d -> Forall token_ok ts -> blank b -> toks (row_line d ts ++ b) = ts.
Proof.
  intros Hd Ht Hb. destruct (row_chars d ts Hd Ht) as (H1 & H2 & _).
  destruct (row_line_decomp d ts Hd Ht) as (b' & Hb' & E).
  rewrite toks_plain.
  - rewrite split_ws_trail by now apply blank_all_sp.
    rewrite <- (split_ws_trail _ b') by now apply blank_all_sp. rewrite <- E.
    destruct ts as [|t ts].
    + reflexivity.
    + rewrite concat_join by congruence. destruct Hd as (Hn & Hd & _). now apply split_ws_tokens_blank.
  - intros Hi. apply in_app_iff in Hi as [Hi|Hi].
    + apply H2. rewrite E. apply in_or_app. now left.
    + revert Hi. now apply blank_no.
Qed.
Lemma row_one_line d ts : delim_ok d -> Forall token_ok ts -> one_line (row_line d ts).
Proof.
  intros Hd Ht. destruct (row_chars d ts Hd Ht) as (_ & _ & Ho).
  destruct (row_line_decomp d ts Hd Ht) as (b' & Hb' & E). rewrite E in Ho. now apply one_line_app in Ho.
Qed.

(** ** Names *)
Lemma trimmed_strip s : trimmed s -> strip s = s.
Proof.
  intros [H1 H2]. unfold strip, rstrip, lstrip.
  replace (lstrip_by is_space s) with s.
  - destruct s as [|c s] using rev_ind; [reflexivity|]. apply rstrip_by_last. now apply (H2 c s).
  - destruct s as [|c s]; [reflexivity|]. symmetry. apply lstrip_by_head. now apply (H1 c s).
Qed.
Lemma strip_trimmed s : trimmed (strip s).
Proof.
  destruct (strip_decomp s) as (a & b & Ha & Hb & Hs & [E|[(c & t & E1 & E2) (t' & c' & E3 & E4)]]).
  - rewrite E. split; intros c t K; [discriminate|]. symmetry in K. now apply app_eq_nil in K as [_ K].
  - split; intros x y K.
    + rewrite E1 in K. now injection K as -> _.
    + rewrite E3 in K. apply app_inj_tail in K as [_ <-]. exact E4.
Qed.

Lemma name_right_strip s : name_ok s -> right_strip_braces s = s.
Proof.
  intros (_ & Ha & _). apply right_strip_payload. right. split; auto.
Qed.
Lemma name_right_strip_nl s : name_ok s -> right_strip_braces (s ++ nl) = s ++ nl.
Proof.
  intros (_ & Ha & _). apply right_strip_payload. right. split; auto.
  intros p g b (E & H1 & H2 & H3 & H4 & H5 & Hb).
  destruct b as [|c b _] using rev_ind.
  - rewrite app_nil_r in E. unfold nl in E. rewrite !app_assoc in E. apply app_inj_tail in E as [_ E]. discriminate.
  - unfold nl in E. rewrite !app_assoc in E. apply app_inj_tail in E as [E _].
    apply (Ha p g b). repeat split; auto; [now rewrite <- !app_assoc in E|]. now apply blank_app in Hb.
Qed.
Lemma name_no_quotes s : (forall t, s <> t ++ [1%N]) -> no_quotes_sub s = s.
Proof.
  intros Hl. destruct s as [|c t]; auto. unfold no_quotes_sub.
  destruct (last_chr t) as [e|] eqn:E.
  - unfold last_chr in E. destruct t as [|y t _] using rev_ind; [discriminate|].
    rewrite rev_app_distr in E. simpl in E. injection E as ->.
    destruct (N.eqb_spec e 1) as [->|Hne]; [exfalso; now apply (Hl (c :: t))|].
    now rewrite andb_false_r.
  - now rewrite andb_false_r.
Qed.

Section Items.
Context {num : Type} `{NumOps num}.

Lemma name_item s : name_ok s -> readItemFromLine (num:=num) (s ++ nl) TStr = Ok (PStr s).
Proof.
  intros Hn. unfold readItemFromLine. rewrite name_right_strip_nl by auto.
  rewrite strip_app_sp by reflexivity. destruct Hn as ((_ & Ht) & _ & Hq).
  rewrite trimmed_strip, name_no_quotes by auto. reflexivity.
Qed.
Lemma name_item0 s : name_ok s -> readItemFromLine (num:=num) s TStr = Ok (PStr s).
Proof.
  intros Hn. unfold readItemFromLine. rewrite name_right_strip by auto. destruct Hn as ((_ & Ht) & _ & Hq).
  rewrite trimmed_strip, name_no_quotes by auto. reflexivity.
Qed.
Lemma names_items l : Forall name_ok l ->
  readItemsFromLines (num:=num) l = Ok (map PStr l).
Proof.
  intros Hl. unfold readItemsFromLines. apply mapR_ok. intros s Hi. rewrite Forall_forall in Hl.
  rewrite name_right_strip by auto. now apply name_item0, Hl.
Qed.

(** A token is a name as far as the reader is concerned. *)
Lemma token_item t ty v : token_ok t -> conv (num:=num) ty t = Ok v ->
  readItemFromLine (num:=num) (t ++ nl) ty = Ok v.
Proof.
  intros Ht Hv. unfold readItemFromLine. pose proof Ht as (Hw & _ & Hb & Hl).
  rewrite right_strip_id.
  2:{ apply mem_chr_false. rewrite in_app_iff. intros [K|[K|[]]]; [contradiction|discriminate]. }
  rewrite strip_app_sp by reflexivity. apply token_word in Ht as [Hn Hs].
  rewrite no_sp_strip by auto. rewrite name_no_quotes; auto.
  intros t' ->. apply Hl, in_or_app. right. now left.
Qed.

Lemma int_item z : readItemFromLine (num:=num) (dec_of_Z z ++ nl) TInt = Ok (PInt z).
Proof.
  apply token_item; [apply token_dec|].
  simpl. now rewrite int_of_str_dec.
Qed.

Lemma items_toks l n t ws : toks l = ws -> ws <> [] -> n = Z.of_nat (length ws) ->
  readItemsFromLine (num:=num) l n t = mapR (conv t) ws.
Proof.
  intros E Hn ->. unfold readItemsFromLine. rewrite re_split_strip. unfold toks in E. rewrite E.
  assert (K : is_nil (strip (right_strip_braces l)) = false).
  { apply is_nil_false. intros K. apply strip_nil_iff, split_ws_all_sp in K. congruence. }
  now rewrite K, Z.eqb_refl, andb_false_r.
Qed.
End Items.
