(** Properties C22 to C27: opening and reading arbitrary files. *)
From Coq Require Import List NArith ZArith Bool Lia.
From Verif Require Import Py.Str Py.Res Py.Num Model.Dict Model.TextParser Model.CommonUtils Model.NAWrite
  Model.NARead Spec.TextSpec Spec.ReadSpec Spec.ZNum Spec.Samples Proofs.StrLemmas Proofs.NumLemmas Proofs.TextLemmas
  Proofs.WriteFrame Proofs.WriteSim Proofs.HeaderLemmas Proofs.ReadData Proofs.ReadTwice Proofs.ReadRecords Props.WriteProps Props.TextProps.
Import ListNotations.

(** * C22 *)
Section C22.
Context {num : Type} `{NumOps num}.

Lemma Forall_firstn {A} (P : A -> Prop) n l : Forall P l -> Forall P (firstn n l).
Proof. intros Hl. rewrite <- (firstn_skipn n l) in Hl. now apply Forall_app in Hl. Qed.
Lemma no_inner_prefix p t : no_inner_space (p ++ t) -> no_inner_space p.
Proof.
  intros (a & w & b & E & Ha & Hb & Hw). pose (n := length p).
  exists (firstn n a), (firstn (n - length a) w), (firstn (n - length a - length w) b). split.
  - assert (Ep : p = firstn n (p ++ t)) by (unfold n; rewrite firstn_app, firstn_all, Nat.sub_diag; cbn; now rewrite app_nil_r).
    rewrite Ep, E. now rewrite !firstn_app.
  - repeat split; now apply Forall_firstn.
Qed.
Lemma no_inner_fields p ws : no_inner_space p -> fields p ws -> (length ws <= 1)%nat.
Proof.
  intros (a & w & b & -> & Ha & Hb & Hw) F. apply fields_iff in F. destruct w as [|c w].
  - assert (G : fields (a ++ b) []) by (constructor; unfold blank; apply Forall_app; auto).
    apply fields_iff in G. cbn in F. rewrite G in F. subst. cbn. lia.
  - assert (G : fields (a ++ (c :: w) ++ b) [c :: w]).
    { constructor; auto; [split; [discriminate|exact Hw]| |now constructor].
      destruct Hb; [exact I|assumption]. }
    apply fields_iff in G. rewrite G in F. subst. cbn. lia.
Qed.
(** A file whose first line has no white space inside is refused. *)
Theorem C22_rejected : forall content ignore,
  no_inner_space (nth (Z.to_nat ignore) (readlines content) []) ->
  openNAFile_r (num:=num) content ignore = Err (ENappy E_IncorrectItems).
Proof.
  intros content ignore Hn. unfold openNAFile_r, readFFI. set (l := nth _ _ _) in *.
  assert (E : readItemsFromLine (num:=num) l 2 TInt = Err (ENappy E_IncorrectItems)).
  { unfold readItemsFromLine. rewrite re_split_strip. cbn [Z.eqb negb andb].
    assert (Hl : (length (split_ws (right_strip_braces l)) <= 1)%nat).
    { apply (no_inner_fields (right_strip_braces l)); [|apply split_fields].
      destruct (right_strip_payload l (right_strip_braces l)) as [_ K]. specialize (K eq_refl).
      destruct K as [(g & b & Ep & _) | [_ Ep]]; [|now rewrite Ep]. rewrite Ep in Hn. now apply no_inner_prefix in Hn. }
    destruct (is_nil _); [reflexivity|]. destruct (split_ws (right_strip_braces l)) as [|x [|y ws]]; cbn in Hl; [reflexivity|reflexivity|]. lia. }
  rewrite E. reflexivity.
Qed.

(** In particular a file written with a delimiter without white space. *)
Theorem C22_csv_rejected : forall (o : opts num) c d st,
  o_annot o = false -> Forall (fun x => is_space x = false) (o_delim o) ->
  c <> C2160 \/ attr d kIGN = PNone \/ attr d kIGN = PList [] ->
  write_body o c false (mkW [] [] d) = (Ok tt, st) ->
  openNAFile_r (num:=num) (w_file st) 0 = Err (ENappy E_IncorrectItems).
Proof.
  intros o c d st Ho Hd Hi E. apply C22_rejected.
  destruct (C29_header_atomic_partial o c [] [] d _ _ E Hi) as [(e & K & _) | (s1 & data & E1 & Ef & _)]; [discriminate|].
  destruct (header_good o c _ _ E1) as (si & Ei & Ed & ann & ffi & body & n & Eh & Ha & Hf & Hb & Hn).
  rewrite (ign_nil c d Hi) in Ei. injection Ei as <-. cbn [w_file app] in Eh.
  unfold getAnnotation in Ha. rewrite Ho in Ha. cbn in Ha. injection Ha as <-. cbn [app] in Eh.
  assert (Hffi : exists z, ffi = dec_of_Z z).
  { unfold fmt_d in Hf. destruct (attr _ kFFI); try discriminate; [|destruct (num_trunc _); try discriminate];
      injection Hf as <-; eauto. }
  destruct Hffi as [z ->].
  assert (Hdec : forall z, Forall (fun x => is_space x = false) (dec_of_Z z)).
  { intros y. pose proof (dec_of_Z_no_sp y) as K. apply Forall_forall. intros x Hx.
    apply (proj1 (forallb_forall _ _) K) in Hx. unfold nonsp in Hx. now destruct (is_space x). }
  pose (top := dec_of_nat n ++ o_delim o ++ dec_of_Z z).
  assert (Htop : Forall (fun x => is_space x = false) top).
  { unfold top. rewrite dec_of_nat_Z. repeat (apply Forall_app; split); auto. }
  assert (Hf' : w_file st = top ++ nl ++ (body ++ data)).
  { rewrite Ef, Eh. unfold top. now rewrite <- !app_assoc. }
  rewrite Hf'. clear -Htop.
  assert (Hno : forall x, is_space x = true -> mem_chr x top = false).
  { intros x Hx. destruct (mem_chr x top) eqn:E; [|reflexivity]. apply mem_chr_In in E. rewrite Forall_forall in Htop. rewrite Htop in Hx by exact E. discriminate. }
  assert (El : exists rest, readlines (top ++ nl ++ body ++ data) = (top ++ nl) :: rest).
  { unfold readlines. exists (lines (univ_newlines (body ++ data))).
    rewrite app_assoc, univ_newlines_app; [|unfold ends_nl; right; eauto].
    rewrite univ_newlines_id.
    - unfold nl. rewrite <- app_assoc. cbn [app]. apply lines_cons_nonl. now apply Hno.
    - rewrite mem_chr_app, Hno by reflexivity. reflexivity. }
  destruct El as [rest ->]. cbn [nth Z.to_nat]. exists [], top, nl. repeat split; auto; repeat constructor.
Qed.
End C22.
Print Assumptions C22_rejected.
Print Assumptions C22_csv_rejected.

Definition opts_csv : opts Z := mkOpts (lit ",") dec_of_Z false (fun _ => None).
Example C22_case :
  fst (write_body opts_csv C1001 false (mkW [] [] d1001)) = Ok tt /\
  openNAFile_r (num:=Z) (w_file (snd (write_body opts_csv C1001 false (mkW [] [] d1001)))) 0 = Err (ENappy E_IncorrectItems).
Proof. split; vm_compute; reflexivity. Qed.

(** * C26 *)
Section C26.
Context {num : Type} `{NumOps num}.
Variables (h : na num) (c : cls).
(** The loop of [readData] without any bound: [ends ls m s r] when the loop,
    started in state [s] at mark [m] on the lines [ls], ends with result [r]. *)
Inductive ends : list str -> nat -> dst -> Res dst -> Prop :=
| ends_done m s : ends [] m s (Ok s)
| ends_err1 l ls m s e : readData1 h c (l :: ls) m s = Err e -> ends (l :: ls) m s (Err e)
| ends_err2 l ls m s s1 l1 e : readData1 h c (l :: ls) m s = Ok (s1, l1) ->
    readData2 h c l1 m s1 = Err e -> ends (l :: ls) m s (Err e)
| ends_step l ls m s s1 l1 s2 l2 r : readData1 h c (l :: ls) m s = Ok (s1, l1) ->
    readData2 h c l1 m s1 = Ok (s2, l2) -> ends l2 (S m) s2 r -> ends (l :: ls) m s r.

(** Every record uses at least one line, the loop ends for every state and all
    lines, and the model's bound on the number of iterations is never reached. *)
Theorem C26_terminates :
  (forall ls m s s1 l1 s2 l2, readData1 h c ls m s = Ok (s1, l1) -> readData2 h c l1 m s1 = Ok (s2, l2) ->
     (length l2 < length ls)%nat) /\
  (forall ls m s, ends ls m s (data_loop h c (length ls) ls m s)) /\
  (forall content, readData h c content <> Err EHang).
Proof.
  split; [|split].
  - intros ls m s s1 l1 s2 l2 E1 E2. apply readData1_shorter in E1. apply readData2_shorter in E2. lia.
  - intros ls. remember (length ls) as n eqn:En. assert (Hn : (length ls <= n)%nat) by lia. clear En. revert ls Hn.
    induction n as [|n IH]; intros [|l ls] Hn m s; cbn [data_loop]; try constructor; [cbn in Hn; lia|].
    destruct (readData1 h c (l :: ls) m s) as [[s1 l1]|] eqn:E1; cbn [bindR fst snd]; [|now constructor].
    destruct (readData2 h c l1 m s1) as [[s2 l2]|] eqn:E2; cbn [bindR fst snd]; [|eapply ends_err2; eauto].
    eapply ends_step; eauto. apply IH. apply readData1_shorter in E1. apply readData2_shorter in E2. cbn in *. lia.
  - intros content E. unfold readData in E.
    destruct (setupArrays h c) as [s0|] eqn:Es; cbn [bindR] in E; [|injection E as ->; exact (nh_setup h c Es)].
    destruct (h_int h kNLHEAD) as [n|] eqn:En; cbn [bindR] in E; [|injection E as ->; exact (nh_h_int h _ En)].
    destruct (checkForBlankLines false _) as [ls|] eqn:Eb; cbn [bindR] in E; [|injection E as ->; exact (nh_blank _ _ Eb)].
    destruct (data_loop h c (length ls) ls 0 s0) as [s|] eqn:El; cbn [bindR] in E; [discriminate|].
    injection E as ->. exact (data_loop_nh h c _ _ _ _ (le_n _) El).
Qed.
End C26.
Print Assumptions C26_terminates.

(** Zero and negative counts: an error, not an endless loop. *)
Definition with_counts (nv nauxv : Z) : na Z :=
  upd (upd (upd d1010 kNV (PInt nv)) kNAUXV (PInt nauxv)) kNLHEAD (PInt 0).
Example C26_case :
  is_ok (readData (with_counts 0 1) C1010 (lit "1 2" ++ nl ++ lit "3" ++ nl)) = false /\
  is_ok (readData (with_counts (-3) 1) C1010 (lit "1 2" ++ nl ++ lit "3" ++ nl)) = false /\
  is_ok (readData (with_counts 1 (-1)) C1010 (lit "1 2" ++ nl ++ lit "3" ++ nl)) = false /\
  is_ok (readData (with_counts 1 1) C1010 (lit "1 2" ++ nl ++ lit "3" ++ nl)) = true.
Proof. repeat split; vm_compute; reflexivity. Qed.

(** * C24 *)
Section C24.
Context {num : Type} `{NumOps num}.

Lemma attr_int (h : na num) k z : h_int h k = Ok z -> attr h k = PInt z.
Proof. unfold h_int. destruct (attr h k); cbn; try discriminate. congruence. Qed.

(** Whatever the lines are: when the data of FFI 1001, 1010 or 1020 can be
    read, there are NV variables with one number per mark (NVPM for 1020), and
    NAUXV auxiliary variables with one number per mark. *)
Theorem C24_rectangular : forall (h : na num) c content d, In c [C1001; C1010; C1020] ->
  readData h c content = Ok d ->
  exists nv xs, attr d kNV = PInt nv /\ attr d kX = PList xs /\ Forall is_num xs /\
    columns nv (length xs * per_mark c d) (attr d kV) /\
    (c <> C1001 -> exists na, attr d kNAUXV = PInt na /\ columns na (length xs) (attr d kA)).
Proof.
  intros h c content d Hc E. destruct (readData_split _ _ _ _ E) as (s0 & nlh & ls & s & Es & En & Eb & El & ->).
  destruct Hc as [<- | Hc].
  - cbn [setupArrays] in Es. unfold setup_1001 in Es.
    destruct (h_int h kNV) as [nv|] eqn:Ev; cbn [bindR] in Es; [|discriminate]. injection Es as <-.
    destruct (loop_inv h C1001 (fun m _ s => inv1001 nv m s)) with (3 := El) as [M HM].
    + intros ls' m' t t1 l1 t2 l2 Hi E1 E2. cbn in E1, E2. injection E2 as <- <-. eapply step_1001; eauto.
    + repeat split; cbn; auto; apply empties_cols.
    + destruct HM as (Hx & Hxn & Hv & Hvn). exists nv, (d_X s). cbn. split; [exact (attr_int _ _ _ Ev)|].
      split; [reflexivity|]. split; [exact Hxn|]. split; [|congruence]. exists (d_V s). rewrite Hx, Nat.mul_1_r. auto.
  - assert (Es' : setup_1010 h = Ok s0) by (destruct Hc as [<-|[<-|[]]]; exact Es). unfold setup_1010 in Es'.
    destruct (h_int h kNV) as [nv|] eqn:Ev; cbn [bindR] in Es'; [|discriminate].
    destruct (h_int h kNAUXV) as [na|] eqn:Ea; cbn [bindR] in Es'; [|discriminate]. injection Es' as <-.
    assert (HM : exists M, inv1010 nv na (per_mark c h) M s).
    { apply (loop_inv h c (fun m _ s => inv1010 nv na (per_mark c h) m s)) with (3 := El).
      - intros ls' m' t t1 l1 t2 l2 Hi E1 E2.
        assert (E1' : readData1_1010 h ls' m' t = Ok (t1, l1)) by (destruct Hc as [<-|[<-|[]]]; exact E1).
        destruct (step_1010 h nv na _ _ _ _ _ _ Ea Hi E1') as (G1 & G2 & G3 & G4 & G5).
        destruct Hi as (_ & _ & (Hv & Hvn) & _). rewrite <- G1 in Hv, Hvn.
        destruct Hc as [<-|[<-|[]]]; cbn [readData2] in E2.
        + cbn [per_mark] in Hvn |- *. rewrite Nat.mul_1_r in Hvn.
          destruct (step2_1010 h nv _ _ _ _ _ Ev Hv Hvn E2) as (F1 & F2 & F3 & F4).
          unfold inv1010. rewrite F1, F2, Nat.mul_1_r. auto.
        + pose proof E2 as E3. unfold readData2_1020 in E3. rewrite Ev in E3. cbn [bindR] in E3.
          destruct (h_int h kNVPM) as [pm|] eqn:Ep; cbn [bindR] in E3; [|discriminate]. clear E3.
          assert (Epm : per_mark C1020 h = Z.to_nat pm) by (cbn; now rewrite (attr_int _ _ _ Ep)).
          rewrite Epm in *. destruct (step2_1020 h nv pm _ _ _ _ _ Ev Ep Hv Hvn E2) as (F1 & F2 & F3 & F4).
          unfold inv1010. rewrite F1, F2. auto.
      - unfold inv1010. cbn. repeat split; auto; apply empties_cols. }
    destruct HM as (M & Hx & Hxn & (Hv & Hvn) & Ha & Han).
    assert (Hpm : per_mark c (store h c s) = per_mark c h).
    { destruct Hc as [<-|[<-|[]]]; reflexivity. }
    exists nv, (d_X s). rewrite Hpm.
    split; [rewrite (store_counts h c s) by (cbn; tauto); exact (attr_int _ _ _ Ev)|].
    split; [destruct Hc as [<-|[<-|[]]]; reflexivity|]. split; [exact Hxn|]. split.
    + exists (d_V s). rewrite Hx. split; [destruct Hc as [<-|[<-|[]]]; reflexivity|auto].
    + intros _. exists na. split; [rewrite (store_counts h c s) by (cbn; tauto); exact (attr_int _ _ _ Ea)|].
      exists (d_A s). rewrite Hx. split; [destruct Hc as [<-|[<-|[]]]; reflexivity|auto].
Qed.
End C24.
Print Assumptions C24_rectangular.

(** The data of a file with too few values on its last line is refused; here
    are six rows of 1020 data, two variables with two values per mark. *)
Definition h1020 : na Z := upd (upd (upd (upd na_empty kNV (PInt 2)) kNAUXV (PInt 1)) kNVPM (PInt 2)) kNLHEAD (PInt 0).
Example C24_case : exists d, readData h1020 C1020 (unlines (map lit ["1 5"; "1 2 3 4"; "2 6"; "5 6"; "7 8"]%pylit)) = Ok d /\
  attr d kX = nms [1; 2]%Z /\ attr d kV = ls [nms [1; 2; 5; 6]%Z; nms [3; 4; 7; 8]%Z] /\ attr d kA = ls [nms [5; 6]%Z].
Proof. eexists. split; [vm_compute; reflexivity|]. repeat split; vm_compute; reflexivity. Qed.

(** * C25 *)
Section C25.
Context {num : Type} `{NumOps num}.

(** FFI 2010, 3010, 4010: every variable has one block per mark, of the sizes
    NX; the marks have been appended to X[0]. *)
Theorem C25_blocks : forall (h : na num) c content d, In c [C2010; C3010; C4010] ->
  readData h c content = Ok d ->
  exists nv nauxv nx vs marks,
    attr d kNV = PInt nv /\ attr d kNAUXV = PInt nauxv /\ as_list (attr d kNX) = Ok (map PInt nx) /\
    attr d kV = PList vs /\ length vs = Z.to_nat nv /\ Forall (blocks (shaped (map Z.to_nat nx)) marks) vs /\
    columns nauxv marks (attr d kA) /\
    ((marks = 0%nat /\ attr d kX = attr h kX) \/
     exists p q xr, attr h kX = PList (PList p :: xr) /\ attr d kX = PList (PList (p ++ q) :: xr) /\
       length q = marks /\ Forall is_num q).
Proof.
  intros h c content d Hc E. destruct (readData_split _ _ _ _ E) as (s0 & nlh & ls & s & Es & En & Eb & El & ->).
  assert (Es' : setup_2010 h = Ok s0) by (destruct Hc as [<-|[<-|[<-|[]]]]; exact Es). unfold setup_2010 in Es'.
  destruct (h_list h kNX) as [nxl|] eqn:Enx; cbn [bindR] in Es'; [|discriminate].
  destruct (mapR as_int nxl) as [nx|] eqn:Enz; cbn [bindR] in Es'; [|discriminate].
  destruct (h_int h kNV) as [nv|] eqn:Ev; cbn [bindR] in Es'; [|discriminate].
  destruct (h_int h kNAUXV) as [na|] eqn:Ea; cbn [bindR] in Es'; [|discriminate].
  destruct (h_mut h kX) as [X|] eqn:Ex; cbn [bindR] in Es'; [|discriminate]. injection Es' as <-.
  assert (HX : attr h kX = PList X) by (unfold h_mut in Ex; destruct (attr h kX); congruence).
  assert (Hnx : nxl = map PInt nx).
  { clear -Enz. revert nx Enz. induction nxl as [|v l IH]; intros nx Enz; cbn in Enz.
    - injection Enz as <-. reflexivity.
    - destruct v; cbn in Enz; try discriminate. destruct (mapR as_int l) as [t|]; cbn in Enz; [|discriminate]. injection Enz as <-.
      cbn. now rewrite <- (IH t). }
  pose (s0 := mkD X (empties nv) (empties na) nxl (@nil (pyv num))). fold s0 in El.
  assert (HM : exists M, (M = 0%nat /\ s = s0) \/ exists p xr, X = PList p :: xr /\ inv2010 nx p xr nv na M s).
  { apply (loop_inv h c (fun m _ s => (m = 0%nat /\ s = s0) \/ exists p xr, X = PList p :: xr /\ inv2010 nx p xr nv na m s))
      with (3 := El); [|auto].
    intros ls' m' t t1 l1 t2 l2 Hi E1 E2.
    assert (E1' : readData1_2010 h ls' m' t = Ok (t1, l1)) by (destruct Hc as [<-|[<-|[<-|[]]]]; exact E1).
    assert (E2' : readData2_2010 h l1 m' t1 = Ok (t2, l2)) by (destruct Hc as [<-|[<-|[<-|[]]]]; exact E2).
    clear E1 E2.
    assert (Hi' : exists p xr, X = PList p :: xr /\ inv2010 nx p xr nv na m' t).
    { destruct Hi as [[-> ->] | Hi]; [|exact Hi].
      assert (G : exists p xr, X = PList p :: xr).
      { unfold readData1_2010 in E1'. rewrite Ea in E1'. cbn [bindR] in E1'.
        destruct (items_from ls' (1 + na) TFloat) as [[xa rest]|]; cbn [bindR] in E1'; [|discriminate].
        destruct (nth_res xa 0) as [x|]; cbn [bindR] in E1'; [|discriminate]. cbn [d_X s0] in E1'.
        destruct X as [|v xr]; [discriminate|]. cbn [modify_nth] in E1'. destruct v; try discriminate. eauto. }
      destruct G as (p & xr & ->). exists p, xr. split; [reflexivity|]. unfold inv2010, s0. cbn [d_X d_V d_A d_NX].
      split; [exists []; rewrite app_nil_r; auto|]. split.
      - unfold empties. rewrite repeat_length. split; [reflexivity|]. apply Forall_forall. intros v Hv. apply repeat_spec in Hv as ->.
        exists []. auto.
      - split; [split; apply empties_cols|exact Enz]. }
    right. destruct Hi' as (p & xr & -> & Hi'). exists p, xr. split; [reflexivity|].
    destruct (step1_2010 h _ _ _ _ _ _ _ _ _ _ Ea Hi' E1') as (G1 & G2 & G3 & G4 & G5).
    destruct Hi' as (_ & (Hv & Hvn) & _ & Hz). rewrite <- G1 in Hv, Hvn. rewrite <- G2 in Hz.
    destruct (step2_2010 h nx nv _ _ _ _ _ Ev Hz Hv Hvn E2') as (F1 & F2 & F3 & F4 & F5).
    unfold inv2010. rewrite F1, F2, F3. auto. }
  destruct HM as [M HM].
  assert (Hst : attr (store h c s) kX = PList (d_X s) /\ attr (store h c s) kV = PList (d_V s) /\ attr (store h c s) kA = PList (d_A s)
    /\ attr (store h c s) kNX = attr h kNX).
  { destruct Hc as [<-|[<-|[<-|[]]]]; repeat split; reflexivity. }
  destruct Hst as (S1 & S2 & S3 & S4).
  assert (Hfin : (length (d_V s) = Z.to_nat nv /\ Forall (blocks (shaped (map Z.to_nat nx)) M) (d_V s))
     /\ (length (d_A s) = Z.to_nat na /\ Forall (column M) (d_A s))).
  { destruct HM as [[-> ->] | (p & xr & _ & _ & HV & HA & _)]; [|auto]. unfold s0. cbn [d_V d_A]. split.
    - unfold empties. rewrite repeat_length. split; [reflexivity|]. apply Forall_forall. intros v Hv. apply repeat_spec in Hv as ->.
      exists []. auto.
    - split; apply empties_cols. }
  exists nv, na, nx, (d_V s), M. rewrite S1, S2, S3, S4, !(store_counts h c s) by (cbn; tauto).
  split; [exact (attr_int _ _ _ Ev)|]. split; [exact (attr_int _ _ _ Ea)|].
  split; [unfold h_list in Enx; now rewrite Enx, Hnx|]. split; [reflexivity|]. split; [apply Hfin|]. split; [apply Hfin|].
  split; [exists (d_A s); split; [reflexivity|apply Hfin]|].
  destruct HM as [[-> ->] | (p & xr & -> & (q & Hq & Hql & Hqn) & _)].
  - left. split; [reflexivity|]. now rewrite HX.
  - right. exists p, q, xr. rewrite Hq. auto.
Qed.

(** The auxiliary values of the FFIs 2110, 2160 and 2310.  In a 2160 file the
    last NAUXC variables are texts. *)
Definition aux_ok (c : cls) (d : na num) (nauxv : Z) (marks : nat) (A : list (pyv num)) : Prop :=
  length A = Z.to_nat nauxv /\
  match c with
  | C2160 => marks = 0%nat /\ Forall (column 0) A \/ exists nauxc B C, attr d kNAUXC = PInt nauxc /\ (0 <= nauxc < nauxv)%Z /\ A = B ++ C /\
      length C = Z.to_nat nauxc /\ Forall (column marks) B /\ Forall (str_column marks) C
  | _ => Forall (column marks) A
  end.
Definition mark_ok (c : cls) (k : nat) (v : pyv num) : Prop :=
  match c with
  | C2310 => mark_with_start v
  | C2160 => mark_with_points is_word k v
  | _ => mark_with_points is_num k v
  end.
(** FFI 2110, 2160, 2310: every mark has its own number of points NX[m], the
    integer part of its first auxiliary value; its X entry and its block of
    every variable have that many values (2310: X has the first point). *)
Theorem C25_own_sizes : forall (h : na num) c content d, In c [C2110; C2160; C2310] ->
  readData h c content = Ok d ->
  exists nv nauxv nx xs vs A,
    attr d kNV = PInt nv /\ attr d kNAUXV = PInt nauxv /\ attr d kNX = PList (map PInt nx) /\
    attr d kX = PList xs /\ Forall2 (mark_ok c) (map Z.to_nat nx) xs /\
    attr d kV = PList vs /\ length vs = Z.to_nat nv /\ Forall (ragged (map Z.to_nat nx)) vs /\
    attr d kA = PList A /\ aux_ok c d nauxv (length nx) A /\
    (forall a0 ar, A = PList a0 :: ar -> Forall2 (fun v z => int_of v = Ok z) a0 nx).
Proof.
  intros h c content d Hc E. destruct (readData_split _ _ _ _ E) as (s0 & nlh & ls & s & Es & En & Eb & El & ->).
  assert (Es' : setup_2110 h = Ok s0) by (destruct Hc as [<-|[<-|[<-|[]]]]; exact Es). unfold setup_2110 in Es'.
  destruct (h_int h kNV) as [nv|] eqn:Ev; cbn [bindR] in Es'; [|discriminate].
  destruct (h_int h kNAUXV) as [na|] eqn:Ea; cbn [bindR] in Es'; [|discriminate].
  destruct (h_list h kDX) as [dx|] eqn:Ed; cbn [bindR] in Es'; [|discriminate]. injection Es' as <-.
  set (s0 := mkD [] (empties nv) (empties na) [] dx) in *.
  assert (Hst : attr (store h c s) kX = PList (d_X s) /\ attr (store h c s) kV = PList (d_V s) /\ attr (store h c s) kA = PList (d_A s)
    /\ attr (store h c s) kNX = PList (d_NX s) /\ attr (store h c s) kNAUXC = attr h kNAUXC).
  { destruct Hc as [<-|[<-|[<-|[]]]]; repeat split; reflexivity. }
  destruct Hst as (S1 & S2 & S3 & S4 & S5).
  assert (Hv0 : length (empties (num:=num) nv) = Z.to_nat nv /\ Forall (ragged (nats [])) (empties (num:=num) nv)).
  { unfold empties. rewrite repeat_length. split; [reflexivity|]. apply Forall_forall. intros v Hv. apply repeat_spec in Hv as ->.
    exists []. split; [reflexivity|constructor]. }
  assert (Hx0 : nx_is_aux [] (empties na)).
  { intros a0 ar E0. unfold empties in E0. destruct (Z.to_nat na); [discriminate|]. cbn in E0. injection E0 as <- _. constructor. }
  assert (HM : exists M, inv2110 (mark_ok c) (fun m A => aux_ok c h na m A) nv M s).
  { destruct Hc as [<-|[<-|[<-|[]]]].
    - apply (loop_inv h C2110 (fun m _ s => inv2110 (mark_ok C2110) (aux_ok C2110 h na) nv m s)) with (3 := El).
      + intros ls' m' t t1 l1 t2 l2 Hi E1 E2. cbn in E1, E2.
        apply (step2_2110 h _ (auxcols na) nv l1 m' t1 t2 l2 Ev); [|exact E2]. eapply step1_2110; eauto.
      + exists []. cbn. split; [reflexivity|]. split; [reflexivity|]. split; [constructor|]. split; [exact Hv0|]. split; [|exact Hx0].
        split; apply empties_cols.
    - assert (Hnc : forall ls' m' t t1 l1, readData1_2160 h ls' m' t = Ok (t1, l1) -> exists nc, h_int h kNAUXC = Ok nc).
      { intros ls' m' t t1 l1 E1. unfold readData1_2160 in E1. rewrite Ea in E1. cbn [bindR] in E1.
        destruct (h_int h kNAUXC); [eauto|discriminate]. }
      assert (Hi0 : forall nc, inv2110 (mark_with_points is_word) (auxcols_2160 na nc) nv 0 s0).
      { intros nc. exists []. cbn. split; [reflexivity|]. split; [reflexivity|]. split; [constructor|]. split; [exact Hv0|]. split; [|exact Hx0].
        split; [unfold empties; now rewrite repeat_length|auto]. }
      assert (Hor : exists M, (M = 0%nat /\ s = s0) \/ exists nc, h_int h kNAUXC = Ok nc /\ inv2110 (mark_with_points is_word) (auxcols_2160 na nc) nv M s).
      { apply (loop_inv h C2160 (fun m _ s => (m = 0%nat /\ s = s0) \/
            exists nc, h_int h kNAUXC = Ok nc /\ inv2110 (mark_with_points is_word) (auxcols_2160 na nc) nv m s)) with (3 := El); [|auto].
        intros ls' m' t t1 l1 t2 l2 Hi E1 E2. cbn in E1, E2. destruct (Hnc _ _ _ _ _ E1) as [nc Ec].
        assert (Hi' : inv2110 (mark_with_points is_word) (auxcols_2160 na nc) nv m' t).
        { destruct Hi as [[-> ->] | (nc' & Ec' & Hi)]; [apply Hi0|]. rewrite Ec in Ec'. injection Ec' as <-. exact Hi. }
        right. exists nc. split; [exact Ec|].
        apply (step2_2110 h _ (auxcols_2160 na nc) nv l1 m' t1 t2 l2 Ev); [|exact E2]. eapply step1_2160; eauto. }
      destruct Hor as (M & [[-> ->] | (nc & Ec & Hi)]).
      + exists 0%nat. destruct (Hi0 0%Z) as (zs & K1 & K2 & K3 & K4 & (K5 & _) & K6). exists zs. repeat (split; [assumption|]). split; [|exact K6]. split; [exact K5|]. left. split; [reflexivity|]. apply empties_cols.
      + exists M. destruct Hi as (zs & K1 & K2 & K3 & K4 & (K5 & K7) & K6). exists zs. repeat (split; [assumption|]). split; [|exact K6]. split; [exact K5|].
        destruct K7 as [[-> ->] | (Hlt & B & C & -> & _ & HC & HB & HCn)]; [left; split; [reflexivity|apply empties_cols]|]. right. exists nc, B, C. rewrite (attr_int _ _ _ Ec). auto 10.
    - assert (G : exists M, inv2110 (fun _ => mark_with_start) (auxcols na) nv M s /\ dx_read dx M s).
      { apply (loop_inv h C2310 (fun m _ s => inv2110 (fun _ => mark_with_start) (auxcols na) nv m s /\ dx_read dx m s)) with (3 := El).
        + intros ls' m' t t1 l1 t2 l2 [Hi Hdx] E1 E2. cbn in E1, E2.
          destruct (step1_2310 h dx nv na _ _ _ _ _ Ea Hi Hdx E1) as [G1 G2]. eapply step2_2310; eauto.
        + split; [|exists []; rewrite app_nil_r; auto].
          exists []. cbn. split; [reflexivity|]. split; [reflexivity|]. split; [constructor|]. split; [exact Hv0|]. split; [|exact Hx0].
          split; apply empties_cols. }
      destruct G as (M & G & _). exists M. exact G. }
  destruct HM as (M & zs & Hm & Hnx & HX & (Hv & Hvn) & HA & Haux).
  exists nv, na, zs, (d_X s), (d_V s), (d_A s). rewrite S1, S2, S3, S4, !(store_counts h c s) by (cbn; tauto).
  split; [exact (attr_int _ _ _ Ev)|]. split; [exact (attr_int _ _ _ Ea)|]. split; [now rewrite Hnx|]. split; [reflexivity|].
  split; [exact HX|]. split; [reflexivity|]. split; [exact Hv|]. split; [exact Hvn|]. split; [reflexivity|]. split; [|exact Haux].
  rewrite Hm. destruct HA as [HA1 HA2]. split; [exact HA1|]. destruct c; exact HA2.
Qed.
End C25.
Print Assumptions C25_blocks.
Print Assumptions C25_own_sizes.

Definition h3010 : na Z := upd (upd (upd (upd (upd na_empty kNV (PInt 1)) kNAUXV (PInt 0)) kNX (its [2; 3]%Z)) kX (ls [ls []; nms [0; 1]%Z; nms [0; 1; 2]%Z])) kNLHEAD (PInt 0).
Example C25_case_blocks :
  exists d, readData h3010 C3010 (unlines (map lit ["10"; "1 2 3"; "4 5 6"; "20"; "7"; "8"; "9"; "1 1"; "1"]%pylit)) = Ok d /\
  attr d kV = ls [ls [ls [nms [1; 2; 3]%Z; nms [4; 5; 6]%Z]; ls [nms [7; 8; 9]%Z; nms [1; 1; 1]%Z]]] /\
  attr d kX = ls [nms [10; 20]%Z; nms [0; 1]%Z; nms [0; 1; 2]%Z].
Proof. eexists. split; [vm_compute; reflexivity|]. repeat split; vm_compute; reflexivity. Qed.
Definition h2110 : na Z := upd (upd (upd (upd na_empty kNV (PInt 2)) kNAUXV (PInt 1)) kDX (nms [0; 0]%Z)) kNLHEAD (PInt 0).
Example C25_case_own :
  exists d, readData h2110 C2110 (unlines (map lit ["10 2"; "1 5 6"; "2 7 8"; "11 0"; "12 1"; "3"; "1 2"]%pylit)) = Ok d /\
  attr d kNX = its [2; 0; 1]%Z /\
  attr d kX = ls [ls [nm 10; nms [1; 2]%Z]; ls [nm 11; nms []]; ls [nm 12; nms [3]%Z]] /\
  attr d kV = ls [ls [nms [5; 7]%Z; nms []; nms [1]%Z]; ls [nms [6; 8]%Z; nms []; nms [2]%Z]].
Proof. eexists. split; [vm_compute; reflexivity|]. repeat split; vm_compute; reflexivity. Qed.

(** * C23 *)
(** False for FFI 2010: the marks are appended to X[0] again.  False for FFI
    2310: the steps are appended to DX again. *)
Theorem C23_refuted :
  (exists (h : na Z) content d d', readData h C2010 content = Ok d /\ readData d C2010 content = Ok d' /\
     attr d kX = ls [nms [1; 2]%Z; nms [5]%Z] /\ attr d' kX = ls [nms [1; 2; 1; 2]%Z; nms [5]%Z]) /\
  (exists (h : na Z) content d d', readData h C2310 content = Ok d /\ readData d C2310 content = Ok d' /\
     attr d kDX = ls [nm 0; it 3] /\ attr d' kDX = ls [nm 0; it 3; it 3]).
Proof.
  split.
  - exists (upd (upd (upd (upd (upd na_empty kNV (PInt 1)) kNAUXV (PInt 0)) kNX (its [1]%Z)) kX (ls [ls []; nms [5]%Z])) kNLHEAD (PInt 0)),
      (unlines (map lit ["1"; "10"; "2"; "20"]%pylit)). eexists. eexists.
    split; [vm_compute; reflexivity|]. split; [vm_compute; reflexivity|]. split; vm_compute; reflexivity.
  - exists (upd (upd (upd (upd na_empty kNV (PInt 1)) kNAUXV (PInt 3)) kDX (nms [0]%Z)) kNLHEAD (PInt 0)),
      (unlines (map lit ["1 2 7 3"; "10 20"]%pylit)). eexists. eexists.
    split; [vm_compute; reflexivity|]. split; [vm_compute; reflexivity|]. split; vm_compute; reflexivity.
Qed.
Print Assumptions C23_refuted.

Section C23.
Context {num : Type} `{NumOps num}.
(** What holds, for every file and header: the second call succeeds, and all
    items are as after the first call, except that for FFI 2010, 3010 and 4010
    the marks just read stand twice in X[0], and for FFI 2310 the steps just
    read stand twice at the end of DX.  Missing from the full claim: equality
    of these two items. *)
Theorem C23_twice_partial : forall (h : na num) c content d, readData h c content = Ok d ->
  (In c [C1001; C1010; C1020; C2110; C2160] ->
     exists d', readData d c content = Ok d' /\ forall k, d' k = d k) /\
  (In c [C2010; C3010; C4010] -> forall q xr, attr d kX = PList (PList q :: xr) ->
     exists d' p marks, readData d c content = Ok d' /\ q = p ++ marks /\ attr h kX = PList (PList p :: xr) /\
       attr d' kX = PList (PList (p ++ marks ++ marks) :: xr) /\ forall k, k <> kX -> d' k = d k) /\
  (c = C2310 -> exists d' p dxs, readData d c content = Ok d' /\ as_list (attr h kDX) = Ok p /\
       attr d kDX = PList (p ++ dxs) /\ attr d' kDX = PList (p ++ dxs ++ dxs) /\ forall k, k <> kDX -> d' k = d k).
Proof.
  intros h c content d E. split; [|split].
  - intros Hc. apply (readData_twice_plain h); [|exact E]. cbn in Hc. destruct Hc as [<-|[<-|[<-|[<-|[<-|[]]]]]]; reflexivity.
  - intros Hc. apply (readData_twice_2010 h); [|exact E]. cbn in Hc. destruct Hc as [<-|[<-|[<-|[]]]]; reflexivity.
  - intros ->. now apply (readData_twice_2310 h).
Qed.
End C23.
Print Assumptions C23_twice_partial.
Example C23_case : exists d, readData h2110 C2110 (unlines (map lit ["10 2"; "1 5 6"; "2 7 8"; "11 0"]%pylit)) = Ok d /\
  exists d', readData d C2110 (unlines (map lit ["10 2"; "1 5 6"; "2 7 8"; "11 0"]%pylit)) = Ok d' /\ attr d' kX = attr d kX.
Proof. eexists. split; [vm_compute; reflexivity|]. eexists. split; [vm_compute; reflexivity|]. vm_compute. reflexivity. Qed.

(** * C27 *)
(** A record wrapped over two lines: the value 4 disappears. *)
Definition h1001 : na Z := upd (upd na_empty kNV (PInt 2)) kNLHEAD (PInt 0).
Theorem C27_refuted :
  exists d, readData h1001 C1001 (unlines (map lit ["1 2"; "3 4"]%pylit)) = Ok d /\
    attr d kX = nms [1]%Z /\ attr d kV = ls [nms [2]%Z; nms [3]%Z].
Proof. eexists. split; [vm_compute; reflexivity|]. split; vm_compute; reflexivity. Qed.
Print Assumptions C27_refuted.

Section C27.
Context {num : Type} `{NumOps num}.

Lemma toks_words g : words g (concat (map toks g)).
Proof.
  exists (map right_strip_braces g), (map toks g). split; [|split; [|reflexivity]].
  - induction g; cbn; constructor; auto. now apply right_strip_payload.
  - induction g; cbn; constructor; auto. apply split_fields.
Qed.
Lemma blank_lines_spec ls r : checkForBlankLines false ls = Ok r ->
  exists b, ls = r ++ b /\ Forall (fun l => strip l <> []) r /\ Forall (fun l => strip l = []) b.
Proof.
  assert (G : forall ls r, checkForBlankLines true ls = Ok r -> r = [] /\ Forall (fun l => strip l = []) ls).
  { clear. induction ls as [|l ls IH]; intros r E; cbn [checkForBlankLines] in E; [injection E as <-; auto|].
    destruct (is_nil (strip l)) eqn:El; [|discriminate]. apply is_nil_true in El. apply IH in E as [-> E]. auto. }
  revert r. induction ls as [|l ls IH]; intros r E; cbn [checkForBlankLines] in E.
  - injection E as <-. exists []. auto.
  - destruct (is_nil (strip l)) eqn:El.
    + apply is_nil_true in El. apply G in E as [-> E]. exists (l :: ls). auto.
    + destruct (checkForBlankLines false ls) as [t|]; cbn [bindR] in E; [|discriminate]. injection E as <-.
      destruct (IH t eq_refl) as (b & -> & Hr & Hb). exists b. split; [reflexivity|]. split; [|exact Hb]. constructor; [|exact Hr].
      intros K. rewrite K in El. discriminate.
Qed.
(** Record [i] (mark and values) is made of the words [ws]. *)
Definition record_is (X V : list (pyv num)) (nv : Z) (i : nat) (ws : list str) : Prop :=
  exists x xs, Forall2 (fun w y => num_parse w = Some y) ws (x :: xs) /\ length xs = Z.to_nat nv /\
    nth_error X i = Some (PNum x) /\ forall j y, nth_error xs j = Some y -> cell V j i = Some (PNum y).

(** What holds: the data lines (those after the header, up to blank lines at
    the end) are consecutive groups, one per mark; record i consists of the
    first 1+NV words of group i; a group has no more lines than needed and no
    line with more than 1+NV words.  So nothing is lost when every group has
    exactly 1+NV words, in particular when every line has: then record i is
    line i.  Missing from the full claim: surplus words at the end of a group. *)
Theorem C27_records_partial : forall (h : na num) content d, readData h C1001 content = Ok d ->
  exists nlh nv lines blanks X V groups,
    attr d kNLHEAD = PInt nlh /\ attr d kNV = PInt nv /\ attr d kX = PList X /\ attr d kV = PList V /\
    slice_from (readlines content) nlh = lines ++ blanks /\
    Forall (fun l => strip l <> []) lines /\ Forall (fun l => strip l = []) blanks /\
    lines = concat groups /\ length groups = length X /\
    (forall i g, nth_error groups i = Some g -> exists ws used rest u l wu wl,
       words g ws /\ ws = used ++ rest /\ Z.of_nat (length used) = (1 + nv)%Z /\ record_is X V nv i used /\
       g = u ++ [l] /\ words u wu /\ (Z.of_nat (length wu) < 1 + nv)%Z /\ words [l] wl /\ (Z.of_nat (length wl) <= 1 + nv)%Z) /\
    ((forall l ws, In l lines -> words [l] ws -> Z.of_nat (length ws) = (1 + nv)%Z) ->
       length lines = length X /\
       forall i l, nth_error lines i = Some l -> exists ws, words [l] ws /\ record_is X V nv i ws).
Proof.
  intros h content d E. destruct (readData_split _ _ _ _ E) as (s0 & nlh & ls & s & Es & En & Eb & El & ->).
  cbn [setupArrays] in Es. unfold setup_1001 in Es.
  destruct (h_int h kNV) as [nv|] eqn:Ev; cbn [bindR] in Es; [|discriminate]. injection Es as <-.
  destruct (loop_inv h C1001 (fun m l s => inv_rec h nv ls m l s)) with (3 := El) as [M HM].
  { intros ls' m' t t1 l1 t2 l2 Hi E1 E2. cbn in E1, E2. injection E2 as <- <-. eapply rec_step; eauto. }
  { split.
    - repeat split; cbn; auto; apply empties_cols.
    - exists []. split; [reflexivity|]. split; [reflexivity|]. intros [|i] g Hg; discriminate. }
  destruct HM as ((Hx & _ & Hv & _) & groups & H0 & Hg & HG). rewrite app_nil_r in H0.
  destruct (blank_lines_spec _ _ Eb) as (b & Eb1 & Eb2 & Eb3).
  assert (Hrec : forall i g, nth_error groups i = Some g -> exists used rest u l,
    concat (map toks g) = used ++ rest /\ Z.of_nat (length used) = (1 + nv)%Z /\ record_is (d_X s) (d_V s) nv i used /\
    g = u ++ [l] /\ (Z.of_nat (length (concat (map toks u))) < 1 + nv)%Z /\ (Z.of_nat (length (toks l)) <= 1 + nv)%Z).
  { intros i g Eg. destruct (HG i g Eg) as (vs & u & l & F1 & F2 & F3 & F4 & F5 & F6 & F7).
    pose (k := Z.to_nat (1 + nv)). set (ws := concat (map toks g)) in *.
    assert (Hlen : length vs = length ws) by (now apply mapR_length in F1).
    exists (firstn k ws), (skipn k ws), u, l. split; [now rewrite firstn_skipn|].
    split; [rewrite firstn_length; lia|]. split; [|auto].
    apply mapR_forall2 in F1.
    assert (Hnum : exists ys, vs = map PNum ys /\ Forall2 (fun w y => num_parse w = Some y) ws ys).
    { clear -F1. induction F1 as [|w v a b Hw _ (ys & -> & IH)]; [exists []; auto|].
      cbn in Hw. destruct (num_parse w) as [y|] eqn:Ey; [|discriminate]. injection Hw as <-. exists (y :: ys). auto. }
    destruct Hnum as (ys & -> & Hys). rewrite map_length in *.
    destruct ys as [|x ys]; [cbn [length] in F2; lia|].
    assert (Hk : k = S (Z.to_nat nv)) by (cbn [length] in F2; lia).
    exists x, (firstn (Z.to_nat nv) ys). split.
    - rewrite Hk. change (x :: firstn (Z.to_nat nv) ys) with (firstn (S (Z.to_nat nv)) (x :: ys)).
      clear -Hys. revert Hys. generalize (S (Z.to_nat nv)) as n, (x :: ys) as zs. intros n zs Hys. revert n.
      induction Hys; intros [|n]; cbn; constructor; auto.
    - split; [rewrite firstn_length; cbn [length] in F2; lia|]. split; [exact F6|].
      intros j y Hj. assert (Hjl : (j < Z.to_nat nv)%nat).
      { assert (K : nth_error (firstn (Z.to_nat nv) ys) j <> None) by congruence. apply nth_error_Some in K. rewrite firstn_length in K. lia. }
      rewrite F7 by exact Hjl. cbn [map nth_error]. rewrite nth_error_map.
      assert (Hy : nth_error ys j = Some y).
      { rewrite <- Hj. rewrite <- (firstn_skipn (Z.to_nat nv) ys) at 1. rewrite nth_error_app1; [reflexivity|].
        apply nth_error_Some. congruence. }
      now rewrite Hy. }
  exists nlh, nv, ls, b, (d_X s), (d_V s), groups.
  split; [exact En|]. split; [exact (attr_int _ _ _ Ev)|]. split; [reflexivity|]. split; [reflexivity|]. split; [exact Eb1|].
  split; [exact Eb2|]. split; [exact Eb3|]. split; [exact H0|]. split; [congruence|]. split.
  - intros i g Eg. destruct (Hrec i g Eg) as (used & rest & u & l & F1 & F2 & F3 & F4 & F5 & F6).
    exists (concat (map toks g)), used, rest, u, l, (concat (map toks u)), (toks l).
    assert (Wl : words [l] (toks l)).
    { pose proof (toks_words [l]) as W. cbn [map concat] in W. now rewrite app_nil_r in W. }
    repeat (split; [first [assumption|apply toks_words]|]). exact F6.
  - intros Hall.
    assert (Hone : forall i g, nth_error groups i = Some g -> exists l, g = [l] /\ record_is (d_X s) (d_V s) nv i (toks l)).
    { intros i g Eg. destruct (Hrec i g Eg) as (used & rest & u & l & F1 & F2 & F3 & F4 & F5 & F6). subst g.
      assert (Hin : forall y, In y (u ++ [l]) -> Z.of_nat (length (toks y)) = (1 + nv)%Z).
      { intros y Hy. apply Hall with (l := y).
        - rewrite H0. apply in_concat. exists (u ++ [l]). split; [eapply nth_error_In; eauto|exact Hy].
        - pose proof (toks_words [y]) as W. cbn [map concat] in W. now rewrite app_nil_r in W. }
      destruct u as [|y u].
      - exists l. split; [reflexivity|]. cbn in F1. rewrite app_nil_r in F1.
        assert (Hr : rest = []).
        { specialize (Hin l (or_introl eq_refl)). rewrite F1, app_length in Hin. destruct rest; [reflexivity|]. cbn [length] in Hin. lia. }
        rewrite Hr, app_nil_r in F1. now rewrite F1.
      - specialize (Hin y (or_introl eq_refl)). cbn [map concat] in F5. rewrite app_length in F5. lia. }
    assert (Hsing : ls = concat groups /\ length (concat groups) = length groups /\
      forall i l, nth_error (concat groups) i = Some l -> nth_error groups i = Some [l]).
    { split; [exact H0|].
      assert (G : Forall (fun g => exists l, g = [l]) groups).
      { apply Forall_forall. intros g Hin. apply In_nth_error in Hin as [i Hin]. destruct (Hone i g Hin) as (l & -> & _). eauto. }
      clear -G. induction G as [|g gs (l & ->) _ [IH1 IH2]]; [split; [reflexivity|intros [|i] ? K; discriminate]|]. cbn. split; [congruence|].
      intros [|i] y; cbn; [congruence|apply IH2]. }
    destruct Hsing as (_ & Hl & Hnth). rewrite H0 at 1. split; [congruence|].
    intros i l Hi. rewrite H0 in Hi. apply Hnth in Hi. destruct (Hone _ _ Hi) as (y & [= <-] & Hy). exists (toks l). split; [|exact Hy].
    pose proof (toks_words [l]) as W. cbn [map concat] in W. now rewrite app_nil_r in W.
Qed.
End C27.
Print Assumptions C27_records_partial.
Example C27_case : exists d, readData h1001 C1001 (unlines (map lit ["1 2 3"; "4 5 6"; ""]%pylit)) = Ok d /\
  attr d kX = nms [1; 4]%Z /\ attr d kV = ls [nms [2; 5]%Z; nms [3; 6]%Z].
Proof. eexists. split; [vm_compute; reflexivity|]. split; vm_compute; reflexivity. Qed.

(** * C06, for reading: trailing blank lines change nothing, a blank line before a
    non-blank one is the error that is reported (a header from which no data can
    be read fails before that; [content'] witnesses that it is none). *)
Section C06.
Context {num : Type} `{NumOps num}.
Theorem C06_reading : forall (h : na num) c content nlh, attr h kNLHEAD = PInt nlh ->
  let data := slice_from (readlines content) nlh in
  (forall d, readData h c content = Ok d -> exists r b, data = r ++ b /\ Forall (fun l => ~ blank l) r /\ Forall blank b) /\
  (forall content' r b, data = r ++ b -> Forall blank b -> slice_from (readlines content') nlh = r ->
     readData h c content = readData h c content') /\
  (forall content' d' a x m y b, readData h c content' = Ok d' -> data = a ++ x :: m ++ y :: b -> blank x -> ~ blank y ->
     readData h c content = Err (ENappy E_EmptyLine)).
Proof.
  intros h c content nlh En data. destruct C06_blank_lines as (B1 & B2 & B3). split; [|split].
  - intros d E. destruct (readData_split _ _ _ _ E) as (s0 & nlh' & ls & s & _ & En' & Eb & _ & _). rewrite En in En'. injection En' as <-.
    apply B1 in Eb as (b & Eb & K1 & K2). exists ls, b. auto.
  - intros content' r b Ed Kb Er. unfold readData. destruct (setupArrays h c) as [s0|]; [|reflexivity]. cbn [bindR]. unfold h_int. rewrite En.
    cbn [as_int bindR]. fold data. rewrite Ed, Er.
    enough (checkForBlankLines false (r ++ b) = checkForBlankLines false r) as -> by reflexivity.
    destruct (checkForBlankLines false r) as [q|e] eqn:Eq.
    + apply B1 in Eq as (b' & -> & K1 & K2). apply B1. exists (b' ++ b). rewrite app_assoc. split; [reflexivity|]. split; [exact K1|]. apply Forall_app. auto.
    + assert (e = ENappy E_EmptyLine) as -> by exact (B3 _ _ Eq). apply B2 in Eq as (a & x & m & y & b' & -> & Kx & Ky). apply B2.
      exists a, x, m, y, (b' ++ b). split; [|auto]. rewrite <- app_assoc. cbn [app]. rewrite <- app_assoc. reflexivity.
  - intros content' d' a x m y b E Ed Kx Ky. unfold readData in *. destruct (setupArrays h c) as [s0|]; [|discriminate]. cbn [bindR] in *.
    unfold h_int in *. rewrite En in *. cbn [as_int bindR] in *. fold data.
    assert (checkForBlankLines false data = Err (ENappy E_EmptyLine)) as -> by (apply B2; exists a, x, m, y, b; auto). reflexivity.
Qed.
End C06.
Print Assumptions C06_reading.
Example C06_reading_example : exists d,
  readData h1001 C1001 (unlines (map lit ["1 2 3"; "4 5 6"; "  "; ""]%pylit)) = Ok d /\ attr d kX = nms [1; 4]%Z /\
  readData h1001 C1001 (unlines (map lit ["1 2 3"; ""; "4 5 6"]%pylit)) = Err (ENappy E_EmptyLine).
Proof. eexists. split; [vm_compute; reflexivity|]. split; vm_compute; reflexivity. Qed.
