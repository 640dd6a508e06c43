(** C63: which files are converted to xarray objects. *)
From Coq Require Import List NArith ZArith Bool Lia.
From Verif Require Import Py.Str Py.Res Py.Num Py.Arith Model.Dict Model.CommonUtils Model.NARead Model.NACore Model.Normalize
  Model.Xarray Model.Collector Model.ToXarray Spec.ReadSpec Spec.Binary64 Proofs.ReadFrame Proofs.ReadFile Proofs.StrLemmas Proofs.CollectorLemmas
  Props.ReadProps Props.NormalizeProps Props.ToXarrayProps Props.ToXarrayMore Proofs.Convertible.
Import ListNotations.

(** Every variable is wanted and the user is never asked for time units. *)
Definition everything {num} (s : settings (num := num)) : Prop :=
  t_vars s = SAll /\ t_aux s = SAll /\ (t_warning s = false \/ t_units s <> None).

Section C63.
Context {num : Type} {Num : NumOps num} {Ar : ArithOps num}.

(** A file of FFI 1001 or 1010 is converted exactly when it has a data record. *)
Theorem C63_plain : forall (s : settings (num := num)) content ignore c d,
  read_file content ignore = Ok (c, d) -> In c [C1001; C1010] -> everything s ->
  ((exists o, toXarray s d = Ok o) <-> exists x xs, attr d kX = PList (x :: xs)).
Proof.
  intros s content ignore c d R I (Sv & Sa & Sw). destruct (read_file_inv _ _ _ _ R) as (h & line & Hh & D & Fr & F & V).
  assert (Hniv : attr d kNIV = PInt 1) by (rewrite V; destruct I as [<- | [<- | []]]; reflexivity).
  destruct (C24_rectangular h c content d) as (nv & xs & Nv & X & Nx & Cv & Ca); [cbn in I |- *; tauto|exact D|].
  assert (Hnorm : normalized d = Ok d) by (unfold normalized; rewrite F; destruct I as [<- | [<- | []]]; reflexivity).
  split.
  - intros [o E]. destruct (toXarray_inv _ _ _ E) as (ffi & ren & axes & is & js & _ & _ & _ & Hx & _).
    unfold convertAxes in Hx. rewrite Hniv in Hx. cbn [as_int bindR] in Hx. change (0 <? 1)%Z with true in Hx. cbn iota in Hx. rewrite Hnorm in Hx. cbn [bindR] in Hx.
    bindE Hx r Hr. destruct r as [as0 k0]. change (range 1) with (seq 0 1) in Hr.
    destruct (axes_loop_inv _ _ _ _ Hniv 1 0 _ _ _ _ Hr) as (as' & -> & L & A).
    destruct as' as [|x [|]]; try discriminate. destruct (A 0%nat x eq_refl) as (l & A1 & _ & A2 & _).
    unfold axis_values in A1. change (1 =? 1)%Z with true in A1. cbn iota in A1. injection A1 as A1. rewrite A1 in X. injection X as ->.
    destruct xs as [|y ys]; [congruence|]. rewrite A1. eauto.
  - intros (x & xr & X'). rewrite X in X'. injection X' as ->.
    destruct (axes_loop_ok (t_callback s) (t_warning s) d 1 [length (x :: xr)] Hniv 1 0 [] (mkAsked (t_units s) (t_answers s))) as (as' & k' & E & L).
    + destruct Sw as [-> | Sw]; [left; reflexivity|right; exact Sw].
    + intros i Hi. assert (i = 0)%nat as -> by lia. destruct (hr_xname _ _ _ _ Hh) as (niv & xn & X1 & X2 & X3 & X4).
      assert (niv = 1%Z). { unfold attr in Hniv. rewrite Fr in Hniv by (cbn; intuition discriminate). rewrite X1 in Hniv. congruence. } subst niv.
      destruct xn as [|n0 xn]; [discriminate|]. inversion X4 as [|? ? (t & ->) _]; subst.
      exists (x :: xr), t. unfold axis_values. change (1 =? 1)%Z with true. cbn iota. split; [now rewrite X|]. split; [exact Nx|].
      split; [discriminate|]. split; [|reflexivity]. unfold attr. rewrite Fr by (cbn; intuition discriminate). rewrite X2. reflexivity.
    + eapply (toXarray_ok s h d line c ignore _ as' [length (x :: xr)]); try eassumption.
      * destruct I as [<- | [<- | []]]; discriminate.
      * destruct I as [<- | [<- | []]]; cbn; intuition discriminate.
      * unfold convertAxes. rewrite Hniv. cbn [as_int bindR]. change (0 <? 1)%Z with true. cbn iota. rewrite Hnorm. cbn [bindR].
        unfold axes_loop in E. change (range 1) with (seq 0 1). rewrite E. reflexivity.
      * constructor; [cbn; lia|constructor].
      * exists nv. destruct Cv as (Vs & V1 & V2 & V3). exists Vs. split; [exact Nv|]. split; [exact V1|]. split; [exact V2|].
        eapply Forall_impl; [|exact V3]. intros v (l & -> & Ll & Fl). exists l. split; [reflexivity|]. split; [|exact Fl].
        rewrite Ll. destruct I as [<- | [<- | []]]; cbn [per_mark]; lia.
      * destruct I as [<- | [<- | []]]; [left; reflexivity|right]. destruct Ca as (n & A1 & A2); [discriminate|].
        exists n, (length (x :: xr)), []. auto.
Qed.
(** What the reader has stored for FFI 2010, 3010 and 4010. *)
Lemma bounded_read : forall content ignore c (d : na num), read_file content ignore = Ok (c, d) -> In c [C2010; C3010; C4010] ->
  exists m nv nauxv nx V marks x0 xr,
    attr d kNIV = PInt (Z.of_nat (S m)) /\ attr d kX = PList (PList x0 :: xr) /\ length x0 = marks /\ Forall is_num x0 /\
    attr d kNX = PList (map PInt nx) /\ length nx = m /\ length xr = m /\ (0 < nv)%Z /\
    attr d kNV = PInt nv /\ attr d kV = PList V /\ length V = Z.to_nat nv /\ Forall (shaped (marks :: map Z.to_nat nx)) V /\
    attr d kNAUXV = PInt nauxv /\ columns nauxv marks (attr d kA) /\ forall i, (i < m)%nat -> listed d i.
Proof.
  intros content ignore c d R I.
  destruct (read_file_inv _ _ _ _ R) as (h0 & line & _ & _ & _ & _ & V).
  unfold read_file in R. destruct (openNAFile_r content ignore) as [[c0 h]|] eqn:Eo; cbn [bindR fst snd] in R; [|discriminate].
  destruct (readData h c0 content) as [d0|] eqn:D; cbn [bindR] in R; [|discriminate]. assert (c0 = c) as -> by congruence. assert (d0 = d) as -> by congruence.
  assert (Fr := readData_frame _ _ _ _ D). destruct (top_line_read _ _ _ _ Eo) as (_ & _ & _ & Hh & _).
  unfold openNAFile_r in Eo. destruct (readFFI content ignore) as [f|]; cbn [bindR] in Eo; [|discriminate].
  destruct (getNAFileClass f) as [c'|]; cbn [bindR] in Eo; [|discriminate].
  destruct (readHeader c' ignore _) as [[u st]|] eqn:Er; cbn [bindR snd] in Eo; [|discriminate].
  assert (c' = c) as -> by congruence. assert (r_na st = h) as <- by congruence. clear Eo R.
  assert (Er' : readHeader_2010 ignore (mkR (readlines content) na_new) = Ok (u, st)) by (destruct I as [<- | [<- | [<- | []]]]; exact Er).
  destruct (header_2010 _ _ _ _ Er') as (niv & dx & nxv & nxd & xs & N1 & N2 & N3 & N4 & N5 & N6 & N7 & N8 & N9 & N10 & N11 & N12 & N13).
  assert (Hm : exists m, niv = Z.of_nat (S (S m))).
  { unfold attr in V. rewrite Fr, N1 in V by (cbn; intuition discriminate). injection V as ->.
    destruct I as [<- | [<- | [<- | []]]]; [exists 0%nat | exists 1%nat | exists 2%nat]; reflexivity. }
  destruct Hm as [m ->].
  destruct (C25_blocks _ _ _ _ I D) as (nv & nauxv & nx & Vs & marks & B1 & B2 & B3 & B4 & B5 & B6 & B7 & B8).
  assert (Hdx : attr d kDX = PList dx /\ attr d kNX = PList nxv).
  { pose proof D as D'. unfold readData in D'. destruct (setupArrays (r_na st) c); cbn [bindR] in D'; [|discriminate].
    destruct (h_int (r_na st) kNLHEAD); cbn [bindR] in D'; [|discriminate]. destruct (checkForBlankLines _ _); cbn [bindR] in D'; [|discriminate].
    destruct (data_loop _ _ _ _ _ _); cbn [bindR] in D'; [|discriminate]. match type of D' with Ok ?q = Ok d => assert (Q : q = d) by congruence end.
    unfold attr. rewrite <- Q. destruct I as [<- | [<- | [<- | []]]]; cbv [store upd key_beq]; rewrite N2, N5; auto. }
  destruct Hdx as [Hdx Hnx]. rewrite Hnx in B3. cbn [as_list] in B3. injection B3 as ->.
  rewrite map_length in N7.
  assert (Hx : exists x0, attr d kX = PList (PList x0 :: xs) /\ length x0 = marks /\ Forall is_num x0).
  { assert (HX : attr (r_na st) kX = PList (PList [] :: xs)) by (unfold attr; rewrite N11; reflexivity). rewrite HX in B8. destruct B8 as [[-> B8] | (p & q & xr & P1 & P2 & P3 & P4)].
    - exists []. auto.
    - injection P1 as <- <-. exists q. auto. }
  destruct Hx as (x0 & X1 & X2 & X3). exists (S m), nv, nauxv, nx, Vs, marks, x0, xs.
  split. { unfold attr. rewrite Fr, N1 by (cbn; intuition discriminate). reflexivity. }
  split; [exact X1|]. split; [exact X2|]. split; [exact X3|]. split; [exact Hnx|]. split; [specialize (N7 ltac:(lia)); lia|].
  split; [specialize (N12 ltac:(lia)); lia|].
  split. { destruct (hr_vars _ _ _ _ Hh) as (nv' & vs & vm & vn & Rv). pose proof (vr_nv _ _ _ _ _ Rv) as Q. pose proof (vr_pos _ _ _ _ _ Rv).
           unfold attr in B1. rewrite Fr, Q in B1 by (cbn; intuition discriminate). congruence. }
  split; [exact B1|]. split; [exact B4|]. split; [exact B5|]. split; [exact B6|]. split; [exact B2|]. split; [exact B7|].
  intros i Hi. unfold listed.
  destruct (nth_typed _ _ i N9) as (a & A1 & (za & ->)); [specialize (N10 ltac:(lia)); lia|].
  destruct (nth_typed _ _ i N6) as (b & A2 & (zb & ->)); [rewrite map_length; specialize (N7 ltac:(lia)); lia|].
  destruct (nth_typed _ _ (S i) N3) as (dd & A3 & (dv & ->)); [specialize (N4 ltac:(lia)); lia|].
  destruct (nth_error xs i) as [l|] eqn:El; [|apply nth_error_None in El; specialize (N12 ltac:(lia)); lia].
  rewrite Forall_forall in N13. destruct (N13 l (nth_error_In _ _ El)) as (l' & -> & L1 & L2).
  exists za, zb, dv, l'. split; [unfold attr; rewrite Fr, N8 by (cbn; intuition discriminate); exact A1|]. rewrite Hnx, Hdx, X1. split; [exact A2|].
  split; [exact A3|]. split; [eauto|]. split; [unfold index; cbn [as_list bindR]; unfold nth_res; cbn [nth_error]; now rewrite El|]. auto.
Qed.
Lemma normalized_bounded c (d : na num) : In c [C2010; C3010; C4010] -> attr d kFFI = PInt (cls_ffi c) -> normalized d = normalizeIndVars_2010 d.
Proof. intros I F. unfold normalized. rewrite F. destruct I as [<- | [<- | [<- | []]]]; reflexivity. Qed.

(** A file of FFI 2010, 3010 or 4010 is converted exactly when it has a data
    record, every bounded axis has at least one value, and an axis that the
    header says to be listed completely is. *)
Theorem C63_bounded : forall (s : settings (num := num)) content ignore c d,
  read_file content ignore = Ok (c, d) -> In c [C2010; C3010; C4010] -> everything s ->
  ((exists o, toXarray s d = Ok o) <->
   (exists x xs r, attr d kX = PList (PList (x :: xs) :: r)) /\
   forall i nx nxdef l, index (attr d kNX) i = Ok (PInt nx) -> index (attr d kNXDEF) i = Ok (PInt nxdef) ->
     index (attr d kX) (S i) = Ok (PList l) -> (1 <= nx)%Z /\ (nxdef = nx -> Z.of_nat (length l) = nx)).
Proof.
  intros s content ignore c d R I (Sv & Sa & Sw). destruct (read_file_inv _ _ _ _ R) as (h & line & Hh & _ & Fr & F & _).
  destruct (bounded_read _ _ _ _ R I) as (m & nv & nauxv & nx & V & marks & x0 & xr & Hniv & X & Lx & Nx & HNX & Ln & Lr & Pv & Nv & HV & LV & SV & Na & Ca & Ls).
  assert (Nidx : forall i z, index (attr d kNX) i = Ok (PInt z) <-> nth_error nx i = Some z).
  { intros i z. rewrite HNX. unfold index. cbn [as_list bindR]. unfold nth_res. rewrite nth_error_map. destruct (nth_error nx i); cbn; split; congruence. }
  assert (HcA : convertAxes (t_callback s) (t_warning s) (t_units s) (t_answers s) d =
    (do d' <- normalizeIndVars_2010 d;
     do r <- axes_loop (t_callback s) (t_warning s) d' (seq 0 (S m)) ([], mkAsked (t_units s) (t_answers s)); Ok (fst r))%res).
  { unfold convertAxes. rewrite Hniv. cbn [as_int bindR]. replace (0 <? Z.of_nat (S m))%Z with true by (symmetry; apply Z.ltb_lt; lia).
    rewrite (normalized_bounded c d I F). unfold range. rewrite Nat2Z.id. reflexivity. }
  assert (Hnorm : normalizeIndVars_2010 d = forR (seq 0 m) normalize_axis d).
  { unfold normalizeIndVars_2010. rewrite Hniv. cbn [as_int bindR]. unfold range. replace (Z.to_nat (Z.of_nat (S m) - 1)) with m by lia. reflexivity. }
  assert (Hav : forall d' i, (forall k, k <> kX -> d' k = d k) -> attr d' kNIV = PInt (Z.of_nat (S m)) ->
            (0 < m)%nat -> axis_values d' (Z.of_nat (S m)) i = index (attr d' kX) i).
  { intros d' i _ _ Hm. unfold axis_values. destruct (Z.eqb_spec (Z.of_nat (S m)) 1); [lia|reflexivity]. }
  assert (Hm : (0 < m)%nat).
  { destruct (read_file_inv _ _ _ _ R) as (_ & _ & _ & _ & _ & _ & V0). rewrite Hniv in V0. destruct I as [<- | [<- | [<- | []]]]; cbn in V0; injection V0; lia. }
  split.
  - intros [o E]. destruct (toXarray_inv _ _ _ E) as (ffi & ren & axes & is & js & _ & _ & _ & Hx & Hsel & Hv & _).
    rewrite HcA in Hx. bindE Hx d' Hd. bindE Hx r Hr. destruct r as [as0 k0]. cbn [fst] in Hx. injection Hx as <-.
    rewrite Hnorm in Hd. destruct (normalize_loop _ _ _ _ Hd) as (A & B & C).
    assert (Hniv' : attr d' kNIV = PInt (Z.of_nat (S m))) by (unfold attr; rewrite B by discriminate; exact Hniv).
    destruct (axes_loop_inv _ _ _ _ Hniv' _ _ _ _ _ _ Hr) as (as' & Q & L & Ax). cbn [app] in Q. subst as0.
    rewrite Sv in Hsel. unfold selected_main in Hsel. rewrite Nv in Hsel. cbn [as_int bindR] in Hsel. injection Hsel as <-.
    assert (Hdims : map ax_len as' = marks :: map Z.to_nat nx).
    { assert (exists k, Z.to_nat nv = S k) as [k Hk] by (exists (pred (Z.to_nat nv)); lia). unfold range in Hv. rewrite Hk in Hv. cbn [seq mapR] in Hv.
      bindE Hv v0 Hv0. unfold convertMain in Hv0. destruct (convertVariable_inv _ _ _ _ _ _ _ _ _ Hv0) as (w & vals & sc & _ & Iv & _ & _ & _ & _ & _ & Sh & _);
        try (intros Q; vm_compute in Q; discriminate Q).
      rewrite HV in Iv. unfold index in Iv. cbn [as_list bindR] in Iv. unfold nth_res in Iv. destruct (nth_error V 0) as [v1|] eqn:E1; cbn [of_opt] in Iv; [|discriminate].
      injection Iv as ->. eapply shape_shaped; [|rewrite Forall_forall in SV; apply SV; eapply nth_error_In, E1|exact Sh].
      apply Forall_forall. intros z Hz. apply in_map_iff in Hz as (x & <- & Hz). apply In_nth_error in Hz as [j Hj].
      destruct (Ax j x Hj) as (l & _ & _ & Ne & ->). destruct l; [congruence|cbn; lia]. }
    assert (Lens : forall j k, nth_error (marks :: map Z.to_nat nx) j = Some k -> exists l, index (attr d' kX) j = Ok (PList l) /\ l <> [] /\ length l = k).
    { intros j k Hj. rewrite <- Hdims, nth_error_map in Hj. destruct (nth_error as' j) as [x|] eqn:Ej; [|discriminate]. cbn in Hj. injection Hj as <-.
      destruct (Ax j x Ej) as (l & A1 & _ & A2 & A3). rewrite Hav in A1; auto. exists l. auto. }
    split.
    + destruct (Lens 0%nat marks eq_refl) as (l & L1 & L2 & L3). rewrite C, X in L1 by lia. cbn in L1. injection L1 as ->. destruct l; [congruence|]. eauto.
    + intros i z zd l I1 I2 I3. apply Nidx in I1. destruct (Lens (S i) (Z.to_nat z)) as (l' & L1 & L2 & L3); [cbn; rewrite nth_error_map, I1; reflexivity|].
      split; [destruct l'; [congruence|cbn in L3; lia]|]. intros ->. assert (Hi : (i < m)%nat) by (rewrite <- Ln; apply nth_error_Some; congruence).
      destruct (A i) as (a & b & A1 & A2 & A3 & _); [lia|]. rewrite I2 in A1. injection A1 as <-. apply Nidx in A2. rewrite I1 in A2. injection A2 as <-.
      rewrite A3, I3 in L1 by reflexivity. injection L1 as ->. destruct l'; [congruence|]. cbn [length] in L3 |- *. lia.
  - intros ((y & ys & r & X') & Hax). rewrite X in X'. injection X' as -> ->. cbn [length] in Lx. subst marks.
    destruct (normalize_loop_ok m 0 d Ls) as (d' & Ed & Ls'). destruct (normalize_loop _ _ _ _ Ed) as (A & B & C).
    assert (Hniv' : attr d' kNIV = PInt (Z.of_nat (S m))) by (unfold attr; rewrite B by discriminate; exact Hniv).
    set (dims := S (length ys) :: map Z.to_nat nx) in *.
    assert (Pos : Forall (fun k => 0 < k)%nat dims).
    { constructor; [lia|]. apply Forall_forall. intros z Hz. apply in_map_iff in Hz as (w & <- & Hz). apply In_nth_error in Hz as [j Hj].
      assert (j < m)%nat by (rewrite <- Ln; apply nth_error_Some; congruence). destruct (Ls j) as (a & b & dv & l & L1 & L2 & _ & _ & L3 & _); [lia|].
      assert (L2' := proj1 (Nidx _ _) L2). destruct (Hax j b a l L2 L1 L3) as [P _]. rewrite Hj in L2'. injection L2' as <-. lia. }
    destruct (axes_loop_ok (t_callback s) (t_warning s) d' (Z.of_nat (S m)) dims Hniv' (S m) 0 [] (mkAsked (t_units s) (t_answers s))) as (as' & k' & E & L).
    + destruct Sw as [-> | Sw]; [left; reflexivity|right; exact Sw].
    + intros i Hi. destruct (hr_xname _ _ _ _ Hh) as (niv & xn & X1 & X2 & X3 & X4).
      assert (niv = Z.of_nat (S m)). { unfold attr in Hniv. rewrite Fr in Hniv by (cbn; intuition discriminate). rewrite X1 in Hniv. congruence. } subst niv.
      destruct (nth_typed _ _ i X4) as (xv & Y1 & (t & ->)); [lia|].
      assert (Hxn : index (attr d' kXNAME) i = Ok (PStr t)).
      { unfold attr. rewrite B, Fr, X2 by (discriminate || (cbn; intuition discriminate)). exact Y1. }
      rewrite Hav; auto. destruct i as [|i].
      * exists (y :: ys), t. rewrite C, X by lia. split; [reflexivity|]. split; [exact Nx|]. split; [discriminate|]. split; [exact Hxn|reflexivity].
      * destruct (Ls' i) as (a & b & dv & l' & L1 & L2 & _ & _ & L4 & L5 & L6); [lia|]. exists l', t. split; [exact L4|]. split; [exact L6|]. split; [exact L5|]. split; [exact Hxn|].
        assert (Kk : forall k, k <> kX -> attr d' k = attr d k) by (intros k Hk; unfold attr; now rewrite B).
        rewrite Kk in L1, L2 by discriminate. assert (L2' := proj1 (Nidx _ _) L2). cbn [dims nth_error]. rewrite nth_error_map, L2'. cbn [option_map]. f_equal.
        destruct (A i) as (a' & b' & A1 & A2 & A3 & A4); [lia|]. rewrite L1 in A1. injection A1 as <-. rewrite L2 in A2. injection A2 as <-.
        destruct (Ls i) as (_ & _ & _ & l & _ & _ & _ & _ & M4 & M5 & _); [lia|]. destruct (Hax i b a l L2 L1 M4) as [P Q].
        destruct (Z.eq_dec a b) as [-> | Nab].
        -- rewrite A3, M4 in L4 by reflexivity. injection L4 as <-. specialize (Q eq_refl). lia.
        -- destruct (A4 Nab) as (x & x' & Z1 & Z2 & Z3). rewrite M4 in Z1. injection Z1 as <-. rewrite L4 in Z2. injection Z2 as <-.
           destruct l as [|l0 l]; [congruence|]. cbn [firstn] in Z3. apply extend_spec in Z3; [|cbn; lia|reflexivity|intros [|k] v Hk; discriminate].
           destruct Z3 as (_ & Z3 & _). rewrite Z3. cbn [length]. lia.
    + eapply (toXarray_ok s h d line c ignore _ as' dims); try eassumption.
      * destruct I as [<- | [<- | [<- | []]]]; discriminate.
      * destruct I as [<- | [<- | [<- | []]]]; cbn; intuition discriminate.
      * rewrite HcA, Hnorm, Ed. cbn [bindR]. rewrite E. reflexivity.
      * rewrite L. cbn [skipn]. rewrite firstn_all2; [reflexivity|]. cbn [dims length]. rewrite map_length. lia.
      * exists nv, V. auto.
      * right. exists nauxv, (S (length ys)), (map Z.to_nat nx). auto.
Qed.
End C63.

(** The files that meet the conditions, and a readable one of each kind that
    does not. *)
Definition f_empty : str := file_1001 (lit "height (m)") (lit "1") (lit "-9999") [lit "temp (K)"] [].
Definition f_3010 (nx nxdef : str) (axes data : list str) : str :=
  unlines ((dec_of_nat (20 + length axes) ++ lit " 3010") ::
    map lit ["A, B"; "Org"; "Src"; "Mission"; "1 1"; "1999 1 1 2000 2 2"; "0 1 0"]%pylit ++ [nx; nxdef] ++ axes ++
    map lit ["x (m)"; "y (m)"; "time (s)"; "1"; "1"; "-9999"; "temp (K)"; "0"; "0"; "0"]%pylit ++ data).
Definition kinds (f : str) : Res (cls * list (list nat)) :=
  bindR (read_file (num := b64) f 0) (fun p => bindR (toXarray plain_settings (snd p)) (fun o => Ok (fst p, map (fun v => shape v) (o_vars o)))).
Example C63_plain_example : everything plain_settings /\ kinds f_two = Ok (C1001, [[2]; [2]])%nat /\
  (exists d, read_file (num := b64) f_empty 0 = Ok (C1001, d)) /\ kinds f_empty = Err EIndexError.
Proof.
  split; [repeat split; left; reflexivity|]. split; [vm_compute; reflexivity|]. split; [|vm_compute; reflexivity].
  assert (K : match read_file (num := b64) f_empty 0 with Ok (C1001, _) => True | _ => False end) by (vm_compute; exact I).
  destruct (read_file (num := b64) f_empty 0) as [[c d]|]; [|destruct K]. destruct c; try (destruct K; fail). exists d. reflexivity.
Qed.
(** Three values of y of which two are listed; then a file that lists four
    values of y where three are announced. *)
Example C63_bounded_example :
  kinds (f_3010 (lit "2 3") (lit "2 2") (map lit ["5 6"; "1 2"]%pylit) (map lit ["0"; "1 2"; "3 4"; "5 6"]%pylit)) = Ok (C3010, [[1; 3; 2]])%nat /\
  kinds (f_3010 (lit "2 3") (lit "3 3") (map lit ["5 6 7"; "1 2"; "3 4"]%pylit) (map lit ["0"; "1 2"; "3 4"; "5 6"]%pylit)) = Err EValueError.
Proof. split; vm_compute; reflexivity. Qed.

Print Assumptions C63_plain.
Print Assumptions C63_bounded.
