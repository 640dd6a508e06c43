(** Round trip: reading back the header sections. *)
From Coq Require Import List NArith ZArith Bool Lia.
From Verif Require Import Py.Str Py.Res Py.Num Model.Dict Model.TextParser Model.CommonUtils
  Model.NAWrite Model.NARead Spec.TextSpec Spec.Records
  Proofs.StrLemmas Proofs.NumLemmas Proofs.TextLemmas Proofs.RTText Proofs.RTHead.
Import ListNotations.

Lemma nls_app a b : nls (a ++ b) = nls a ++ nls b.
Proof. apply map_app. Qed.
Lemma nls_cons a b : nls (a :: b) = (a ++ nl) :: nls b.
Proof. reflexivity. Qed.

Section RD.
Context {num : Type} `{NumOps num}.
Variable dl : str.
Hypothesis Hd : delim_ok dl.
Hypothesis Hs : str_law.
Local Notation R := (R num).
Variable o : opts num.
Hypothesis Eo : o_delim o = dl.

Definition eats {A} (m : R A) (d : na num) (L : list str) (d' : na num) (a : A) : Prop :=
  forall rest, m (mkR (nls L ++ rest) d) = Ok (a, mkR rest d').
Lemma eats_bind {A B} (m : R A) (k : A -> R B) d L d1 a L2 d2 b :
  eats m d L d1 a -> eats (k a) d1 L2 d2 b -> eats (bindRd m k) d (L ++ L2) d2 b.
Proof.
  intros H1 H2 rest. unfold bindRd. rewrite nls_app, <- app_assoc, H1. apply H2.
Qed.
Lemma eats_seq {B} (m : R unit) (k : R B) d L d1 L2 d2 b :
  eats m d L d1 tt -> eats k d1 L2 d2 b -> eats (bindRd m (fun _ => k)) d (L ++ L2) d2 b.
Proof. intros H1 H2. eapply eats_bind; eauto. Qed.

Lemma eats_get_int k d z : attr d k = PInt z -> eats (get_int k) d [] d z.
Proof. intros E rest. unfold get_int, bindRd, get, liftR. simpl. rewrite E. reflexivity. Qed.
Lemma eats_get_list k d l : attr d k = PList l -> eats (get_list k) d [] d l.
Proof. intros E rest. unfold get_list, bindRd, get, liftR. simpl. rewrite E. reflexivity. Qed.
Lemma eats_set k v d : eats (set k v) d [] (upd d k v) tt.
Proof. intros rest. reflexivity. Qed.
Lemma eats_lift {A} (r : Res A) a d : r = Ok a -> eats (liftR r) d [] d a.
Proof. intros -> rest. reflexivity. Qed.

Lemma eats_item_line l t v d : readItemFromLine (l ++ nl) t = Ok v -> eats (item_line t) d [l] d v.
Proof. intros E rest. unfold item_line, bindRd, readline. simpl. now rewrite E. Qed.
Lemma eats_items_line l n t ws vs d : toks (l ++ nl) = ws -> ws <> [] -> n = Z.of_nat (length ws) ->
  mapR (conv t) ws = Ok vs -> eats (items_line n t) d [l] d vs.
Proof.
  intros E1 E2 E3 E4 rest. unfold items_line, bindRd, readline. simpl.
  unfold liftR. rewrite (items_toks (num:=num) (l ++ nl) n t ws E1 E2 E3), E4. reflexivity.
Qed.
Lemma eats_items_unknown l n t ws vs d : toks (l ++ nl) = ws -> ws <> [] -> n = Z.of_nat (length ws) ->
  mapR (conv t) ws = Ok vs -> eats (items_unknown n t) d [l] d vs.
Proof.
  intros E1 E2 E3 E4 rest. unfold items_unknown. simpl r_lines. simpl r_na.
  rewrite (readUnknown_exact (num:=num) EHang n t [l ++ nl] rest ws); auto.
  - now rewrite E4.
  - discriminate.
  - cbn [last]. now rewrite E1.
  - cbn [map concat]. now rewrite E1, app_nil_r.
Qed.
(** one value per line, as many as wanted *)
Lemma eats_items_unknown_lines ws n t vs d : Forall token_ok ws -> ws <> [] -> n = Z.of_nat (length ws) ->
  mapR (conv t) ws = Ok vs -> eats (items_unknown n t) d ws d vs.
Proof.
  intros Hw E2 E3 E4 rest. unfold items_unknown. simpl r_lines. simpl r_na.
  assert (T : forall w, token_ok w -> toks (w ++ nl) = [w]).
  { intros w Ht. change (w ++ nl) with (join [] [w] ++ nl).
    apply (toks_join (lit " ") [w]); auto using blank_nl.
    split; [discriminate|]. split; [now apply blank_all_sp|]. split; intros [K|[]]; discriminate. }
  rewrite (readUnknown_exact (num:=num) EHang n t (nls ws) rest ws); auto.
  - now rewrite E4.
  - destruct ws; [congruence|discriminate].
  - destruct ws as [|w ws _] using rev_ind; [congruence|]. rewrite nls_app. cbn [nls map]. rewrite last_last.
    apply Forall_app in Hw as [_ Hw]. inversion Hw; subst. rewrite T by auto. discriminate.
  - clear - Hw T. induction Hw as [|w ws H1 H2 IH]; [reflexivity|]. cbn [nls map concat]. rewrite T by auto.
    cbn [app]. f_equal. exact IH.
Qed.

Lemma read_n_lines_nls ls (d : na num) : Forall trimmed ls ->
  forall rest, read_n_lines (length ls) (mkR (nls ls ++ rest) d) = Ok (ls, mkR rest d).
Proof.
  induction 1 as [|l ls Hl Hls IH]; intros rest; [reflexivity|].
  cbn [length read_n_lines]. unfold bindRd at 1, readline. rewrite nls_cons. cbn [app r_lines r_na].
  unfold bindRd. rewrite IH. unfold retR. rewrite strip_app_sp by reflexivity. now rewrite trimmed_strip.
Qed.
Lemma read_n_lines_strip ls (d : na num) : forall rest, read_n_lines (length ls) (mkR (nls ls ++ rest) d) = Ok (map strip ls, mkR rest d).
Proof.
  induction ls as [|l ls IH]; intros rest; [reflexivity|].
  cbn [length read_n_lines]. unfold bindRd at 1, readline. rewrite nls_cons. cbn [app r_lines r_na].
  unfold bindRd. rewrite IH. unfold retR. now rewrite strip_app_sp by reflexivity.
Qed.
Lemma eats_readLines_strip ls n d : n = Z.of_nat (length ls) -> eats (readLines n) d ls d (map strip ls).
Proof. intros -> rest. unfold readLines. rewrite Nat2Z.id. apply read_n_lines_strip. Qed.
Lemma eats_readLines ls n d : Forall trimmed ls -> n = Z.of_nat (length ls) ->
  eats (readLines n) d ls d ls.
Proof. intros Hl -> rest. unfold readLines. rewrite Nat2Z.id. now apply read_n_lines_nls. Qed.
Lemma names_trimmed l : Forall name_ok l -> Forall trimmed l.
Proof. apply Forall_impl. intros s K. apply K. Qed.
Lemma eats_names ls n d : Forall name_ok ls -> n = Z.of_nat (length ls) ->
  eats (names n) d ls d (map PStr ls).
Proof.
  intros Hl Hn rest. unfold names, bindRd. rewrite eats_readLines by auto using names_trimmed.
  unfold liftR. now rewrite names_items.
Qed.

(** ** Sections *)
Definition upd_common (n ffi : Z) (c : common) (d : na num) : na num :=
  let d := upd d kIGN (PList []) in
  let d := upd (upd (upd d kNLHEAD (PInt n)) kFFI (PInt ffi)) kNIV (PInt (Z.quot ffi 1000)) in
  let d := upd (upd d kONAME (PStr (c_oname c))) kORG (PStr (c_org c)) in
  let d := upd (upd d kSNAME (PStr (c_sname c))) kMNAME (PStr (c_mname c)) in
  let d := upd (upd d kIVOL (PInt (c_ivol c))) kNVOL (PInt (c_nvol c)) in
  let d := upd (upd d kDATE (date_pv (c_date c))) kRDATE (date_pv (c_rdate c)) in
  upd d kNLHEAD (PInt n).

Lemma toks_two a b : token_ok a -> token_ok b -> toks ((a ++ dl ++ b) ++ nl) = [a; b].
Proof. intros Ha Hb. apply (toks_join dl [a; b]); auto using blank_nl. Qed.
Lemma toks_top n ffi : toks (top_line o n ffi ++ nl) = [dec_of_Z n; dec_of_Z ffi].
Proof. unfold top_line. rewrite Eo. apply toks_two; apply token_dec. Qed.

Lemma blank_sp : blank (lit " ").
Proof. now apply blank_all_sp. Qed.
Lemma word_sp a b s : token_ok a -> blank b -> b <> [] -> split_ws (a ++ b ++ s) = a :: split_ws s.
Proof.
  intros Ht Hb Hn. apply token_word in Ht as [Hn' Hs']. apply blank_all_sp in Hb.
  rewrite split_ws_app_sp by auto. now rewrite split_ws_word.
Qed.
Lemma toks_dates a b : toks ((date_str a ++ dl ++ date_str b) ++ nl) =
  let '(x, y, z) := a in let '(u, v, w) := b in map dec_of_Z [x; y; z; u; v; w].
Proof.
  destruct a as [[x y] z], b as [[u v] w]. unfold date_str. destruct Hd as (Hn & Hb & _).
  rewrite toks_plain.
  - rewrite <- !app_assoc.
    do 5 (rewrite word_sp by (auto using token_dec, blank_sp; discriminate)).
    pose proof (split_ws_tokens_blank dl [dec_of_Z w] nl Hn Hb) as K. cbn [join] in K.
    cbn [map]. rewrite K; auto using blank_nl. constructor; auto using token_dec.
  - assert (Nd : forall z, ~ In c_rbrace (dec_of_Z z)) by (intros q; apply token_dec).
    assert (Nb : ~ In c_rbrace dl) by (now apply blank_no).
    assert (Ns : ~ In c_rbrace (lit " ")) by (intros [K|[]]; discriminate).
    assert (Nn : ~ In c_rbrace nl) by (intros [K|[]]; discriminate).
    rewrite !in_app_iff. intuition eauto.
Qed.

Lemma eats_common n ffi c d : common_ok c ->
  eats (readCommonHeader 0) d (top_line o n ffi :: common_lines o c) (upd_common n ffi c d) tt.
Proof.
  intros (T1 & T2 & T3 & T4 & _). unfold readCommonHeader, common_lines, upd_common. cbv zeta. rewrite Eo.
  set (d0 := upd d kIGN (PList [])).
  set (d1 := upd (upd (upd d0 kNLHEAD (PInt n)) kFFI (PInt ffi)) kNIV (PInt (Z.quot ffi 1000))).
  apply (eats_seq _ _ d [] d0). { intros rest. reflexivity. }
  apply (eats_seq _ _ d0 [_] d1).
  { unfold readTopLine. eapply (eats_bind _ _ d0 [_] d0 _ []).
    - eapply (eats_items_line _ _ _ _ [PInt n; PInt ffi]); [apply toks_top|discriminate|reflexivity|].
      apply (conv_ints [n; ffi]).
    - intros rest. reflexivity. }
  assert (P : forall k s d, title_ok s -> eats (bindRd (item_line TStr) (fun v => set k v)) d [s] (upd d k (PStr s)) tt).
  { intros k s d' Hk. apply (eats_bind _ _ d' [s] d' (PStr s) []); [apply eats_item_line, name_item, Hk|apply eats_set]. }
  do 4 (eapply (eats_seq _ _ _ [_]); [apply P; auto|]).
  match goal with |- eats _ ?D _ _ _ =>
    eapply (eats_seq _ _ D [_] (upd (upd D kIVOL (PInt (c_ivol c))) kNVOL (PInt (c_nvol c)))) end.
  { eapply (eats_bind _ _ _ [_] _ _ []).
    - eapply (eats_items_line _ _ _ _ [PInt (c_ivol c); PInt (c_nvol c)]);
        [apply toks_two; apply token_dec|discriminate|reflexivity|].
      apply (conv_ints [c_ivol c; c_nvol c]).
    - intros rest. reflexivity. }
  match goal with |- eats _ ?D _ _ _ =>
    eapply (eats_seq _ _ D [_] (upd (upd D kDATE (date_pv (c_date c))) kRDATE (date_pv (c_rdate c))) []) end.
  { pose proof (toks_dates (c_date c) (c_rdate c)) as K.
    destruct (c_date c) as [[x1 y1] z1], (c_rdate c) as [[x2 y2] z2].
    eapply (eats_bind _ _ _ [_] _ _ []).
    - eapply (eats_items_line _ _ _ _ (map PInt [x1; y1; z1; x2; y2; z2]));
        [exact K|discriminate|reflexivity|apply conv_ints].
    - intros rest. reflexivity. }
  eapply (eats_bind _ _ _ [] _ n []).
  - apply eats_get_int. reflexivity.
  - rewrite Z.add_0_r. apply eats_set.
Qed.

Lemma toks_num l : l <> [] -> toks (num_line o l ++ nl) = map s_of l /\ map s_of l <> [].
Proof.
  intros Hl. split; [apply toks_num_line; auto; now rewrite Eo|].
  destruct l; [congruence|discriminate].
Qed.
Lemma eats_num_line l n d : l <> [] -> n = Z.of_nat (length l) ->
  eats (items_line n TFloat) d [num_line o l] d (map pv (map head_num l)).
Proof.
  intros Hl Hn. destruct (toks_num l Hl) as [E1 E2].
  apply (eats_items_line _ _ _ (map s_of l)); auto; [now rewrite map_length|]. now apply conv_s_ofs.
Qed.
Lemma eats_num_unknown l n d : l <> [] -> n = Z.of_nat (length l) ->
  eats (items_unknown n TFloat) d [num_line o l] d (map pv (map head_num l)).
Proof.
  intros Hl Hn. destruct (toks_num l Hl) as [E1 E2].
  apply (eats_items_unknown _ _ _ (map s_of l)); auto; [now rewrite map_length|]. now apply conv_s_ofs.
Qed.
Lemma eats_int_line l n d : l <> [] -> n = Z.of_nat (length l) ->
  eats (items_line n TInt) d [int_line o l] d (map PInt l).
Proof.
  intros Hl Hn. apply (eats_items_line _ _ _ (map dec_of_Z l)); auto.
  - apply toks_int_line. now rewrite Eo.
  - destruct l; [congruence|discriminate].
  - now rewrite map_length.
  - apply conv_ints.
Qed.
Lemma eats_int_unknown l n d : l <> [] -> n = Z.of_nat (length l) ->
  eats (items_unknown n TInt) d [int_line o l] d (map PInt l).
Proof.
  intros Hl Hn. apply (eats_items_unknown _ _ _ (map dec_of_Z l)); auto.
  - apply toks_int_line. now rewrite Eo.
  - destruct l; [congruence|discriminate].
  - now rewrite map_length.
  - apply conv_ints.
Qed.
Lemma eats_int_set k z d :
  eats (bindRd (item_line TInt) (fun v => set k v)) d [dec_of_Z z] (upd d k (PInt z)) tt.
Proof. apply (eats_bind _ _ d [_] d (PInt z) []); [apply eats_item_line, int_item|apply eats_set]. Qed.

Definition upd_vars (vs : list (var num)) (d : na num) : na num :=
  upd (upd (upd (upd d kNV (len_pv vs)) kVSCAL (nums_pv (map v_scal vs))) kVMISS (nums_pv (map v_miss vs)))
    kVNAME (strs_pv (map v_name vs)).
Lemma eats_set_list {A} (m : R A) (f : A -> pyv num) k d L d1 a : eats m d L d1 a ->
  eats (bindRd m (fun l => set k (f l))) d L (upd d1 k (f a)) tt.
Proof. intros E. rewrite <- (app_nil_r L). eapply eats_bind; [exact E|apply eats_set]. Qed.
Lemma head_scal vs : map head_num (map v_scal vs) = map v_scal (map (norm_var (num:=num)) vs).
Proof. rewrite !map_map. reflexivity. Qed.
Lemma head_miss vs : map head_num (map v_miss vs) = map v_miss (map (norm_var (num:=num)) vs).
Proof. rewrite !map_map. reflexivity. Qed.
Lemma head_name vs : map v_name vs = map v_name (map (norm_var (num:=num)) vs).
Proof. rewrite map_map. reflexivity. Qed.
Lemma norm_len vs : len_pv (num:=num) vs = len_pv (map (norm_var (num:=num)) vs).
Proof. unfold len_pv. now rewrite map_length. Qed.

Lemma eats_vars vs d : vars_ok vs ->
  eats readVariablesHeaderSection d (var_lines o vs) (upd_vars (map norm_var vs) d) tt.
Proof.
  intros [Hn Ho]. unfold readVariablesHeaderSection, var_lines, upd_vars.
  rewrite <- !head_scal, <- !head_miss, <- !head_name, <- norm_len.
  assert (Hm : forall f : var num -> number num, map f vs <> []) by (intros f; destruct vs; [congruence|discriminate]).
  apply (eats_seq _ _ d [_] (upd d kNV (len_pv vs))); [apply eats_int_set|].
  apply (eats_bind _ _ _ [] (upd d kNV (len_pv vs)) (Z.of_nat (length vs))); [apply eats_get_int; reflexivity|].
  eapply (eats_seq _ _ _ [_]).
  { apply (eats_set_list _ PList), eats_num_unknown; auto. now rewrite map_length. }
  eapply (eats_seq _ _ _ [_]).
  { apply (eats_set_list _ PList), eats_num_unknown; auto. now rewrite map_length. }
  apply (eats_set_list _ PList), eats_names; [|now rewrite map_length].
  apply Forall_map. exact Ho.
Qed.

Definition upd_aux (vs : list (var num)) (d : na num) : na num :=
  let d := upd d kNAUXV (len_pv vs) in
  match vs with
  | [] => d
  | _ => upd (upd (upd d kASCAL (nums_pv (map v_scal vs))) kAMISS (nums_pv (map v_miss vs)))
    kANAME (strs_pv (map v_name vs))
  end.
Lemma eats_aux vs d : auxs_ok vs ->
  eats readAuxVariablesHeaderSection d (aux_lines o vs) (upd_aux (map norm_var vs) d) tt.
Proof.
  intros Ho. unfold readAuxVariablesHeaderSection, aux_lines, upd_aux. cbv zeta.
  rewrite <- norm_len.
  apply (eats_seq _ _ d [_] (upd d kNAUXV (len_pv vs))); [apply eats_int_set|].
  apply (eats_bind _ _ _ [] (upd d kNAUXV (len_pv vs)) (Z.of_nat (length vs))); [apply eats_get_int; reflexivity|].
  destruct vs as [|v vs].
  - intros rest. reflexivity.
  - change (0 <? Z.of_nat (length (v :: vs)))%Z with true. cbv iota.
    cbn [map]. change (norm_var v :: map norm_var vs) with (map norm_var (v :: vs)).
    rewrite <- !head_scal, <- !head_miss, <- !head_name.
    eapply (eats_seq _ _ _ [_]).
    { apply (eats_set_list _ PList), eats_num_unknown; [discriminate|]. cbn [length]; now rewrite ?map_length. }
    eapply (eats_seq _ _ _ [_]).
    { apply (eats_set_list _ PList), eats_num_unknown; [discriminate|]. cbn [length]; now rewrite ?map_length. }
    apply (eats_set_list _ PList), eats_names; [|cbn [length]; now rewrite ?map_length].
    apply (proj2 (Forall_map v_name name_ok (v :: vs))). exact Ho.
Qed.

Definition upd_comments (c : common) (d : na num) : na num :=
  upd (upd (upd (upd d kNSCOML (len_pv (c_scom (norm_common c)))) kSCOM (strs_pv (c_scom (norm_common c))))
    kNNCOML (len_pv (c_ncom (norm_common c)))) kNCOM (strs_pv (c_ncom (norm_common c))).
Lemma eats_comments c d : eats readComments d (comment_lines c) (upd_comments c d) tt.
Proof.
  unfold readComments, comment_lines, upd_comments. cbn [norm_common c_scom c_ncom].
  assert (L : forall l : list str, len_pv (num:=num) (map strip l) = len_pv l) by (intros l; unfold len_pv; now rewrite map_length).
  rewrite !L.
  eapply (eats_seq _ _ _ [_]); [apply eats_int_set|].
  eapply (eats_seq _ _ _ (c_scom c)).
  { eapply (eats_bind _ _ _ [] _ (Z.of_nat (length (c_scom c)))); [apply eats_get_int; reflexivity|].
    apply (eats_set_list _ (fun l => PList (map PStr l))), eats_readLines_strip; auto. }
  eapply (eats_seq _ _ _ [_]); [apply eats_int_set|].
  eapply (eats_bind _ _ _ [] _ (Z.of_nat (length (c_ncom c)))); [apply eats_get_int; reflexivity|].
  apply (eats_set_list _ (fun l => PList (map PStr l))), eats_readLines_strip; auto.
Qed.

(** ** Opening the file *)
Definition file_text (L : list str) : str := unlines L.
Lemma readlines_file L : Forall one_line L -> readlines (unlines L) = nls L.
Proof.
  intros Hl. unfold readlines. rewrite readlines_no_cr.
  - apply lines_unlines. eapply Forall_impl; [|exact Hl]. intros l K. apply mem_chr_false, K.
  - apply mem_chr_false. intros Hi. unfold unlines in Hi. apply in_concat in Hi as (l & Hi & Hc).
    apply in_map_iff in Hi as (l' & <- & Hi). rewrite Forall_forall in Hl. apply in_app_iff in Hc as [Hc|[Hc|[]]].
    + now apply (Hl l' Hi).
    + discriminate.
Qed.
Lemma open_file c ffi body rows d :
  Forall one_line body -> Forall one_line rows -> getNAFileClass ffi = Ok c ->
  eats (readHeader c 0) na_new (header o ffi body) d tt ->
  openNAFile_r (unlines (header o ffi body ++ rows)) 0 = Ok (c, d).
Proof.
  intros Hb Hr Hc He. unfold openNAFile_r, readFFI.
  assert (Ht : one_line (top_line o (Z.of_nat (S (length body))) ffi)) by (apply top_line_one_line; now rewrite Eo).
  assert (Hh : Forall one_line (header o ffi body)) by (unfold header; constructor; auto).
  rewrite readlines_file by (apply Forall_app; auto).
  rewrite nls_app. unfold header at 1. rewrite nls_cons. cbn [Z.to_nat app nth].
  rewrite (items_toks (num:=num) _ 2 TInt _ (toks_top _ _)) by (discriminate || reflexivity).
  rewrite (conv_ints [_; ffi] : mapR (conv TInt) [_; dec_of_Z ffi] = _).
  cbn [bindR map nth_res nth_error of_opt as_int]. rewrite Hc. cbn [bindR].
  rewrite He. reflexivity.
Qed.
End RD.
