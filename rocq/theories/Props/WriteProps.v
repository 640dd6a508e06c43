(** Properties C07, C08, C18, C19, C20, C29: what the writer puts into the file
    and what it does to the dictionary.  The vocabulary is in Spec/WriteSpec.v
    and Spec/CharSpec.v; [writeHeader], [writeData], [write_body] are the model
    (Model/NAWrite.v).  A state [mkW f h d] has file content [f], header buffer
    [h] and dictionary [d]. *)
From Coq Require Import List NArith ZArith Bool Lia.
From Verif Require Import Py.Str Py.Res Py.Num Model.Dict Model.TextParser Model.CommonUtils
  Model.NAWrite Model.NARead Spec.ZNum Spec.Samples Spec.CharSpec Spec.WriteSpec
  Proofs.StrLemmas Proofs.NumLemmas Proofs.TextLemmas Proofs.WriteFrame Proofs.WriteSim
  Proofs.WriteChars Proofs.HeaderLemmas.
Import ListNotations.

Lemma run_pair {A B} (p : A * B) a : fst p = a -> p = (a, snd p).
Proof. destruct p. simpl. now intros ->. Qed.

Section General.
Context {num : Type} `{NumOps num}.

(** A successful header, in the words of Spec/WriteSpec.v. *)
Lemma header_self_counting (o : opts num) c f h d s1 :
  writeHeader o c (mkW f h d) = (Ok tt, s1) ->
  ~ In c_nl (o_delim o) ->
  (forall a, getAnnotation o (lit "NLHEAD_FFI") None = Ok a -> ~ In c_nl a) ->
  exists pre hdr ann ffi n,
    w_file s1 = f ++ pre ++ hdr /\
    getAnnotation o (lit "NLHEAD_FFI") None = Ok ann /\
    fmt_d (attr d kFFI) = Ok ffi /\
    self_counting (o_delim o) ann ffi hdr n /\
    snd (ign_step c (mkW f h d)) = mkW (f ++ pre) h d /\
    (c <> C2160 \/ attr d kIGN = PNone \/ attr d kIGN = PList [] -> pre = []).
Proof.
  intros E Hd Ha. destruct (header_good o c _ _ E) as (si & Ei & Ed & G).
  destruct G as (ann & ffi & body & n & Ef & Eann & Effi & Hb & Hn).
  assert (Hp : exists pre, si = mkW (f ++ pre) h d /\
            (c <> C2160 \/ attr d kIGN = PNone \/ attr d kIGN = PList [] -> pre = [])).
  { destruct (dstep_ign c _ _ _ Ei) as ((t & Et) & Eh). simpl in *.
    exists t. split.
    - destruct si; simpl in *. congruence.
    - intros Hc. pose proof (ign_nil c d Hc f h) as K. rewrite Ei in K. injection K as ->.
      simpl in Et. rewrite <- (app_nil_r f) in Et at 1. now apply app_inv_head in Et. }
  destruct Hp as (pre & -> & Hpre). simpl in *.
  exists pre, ((ann ++ dec_of_nat n ++ o_delim o ++ ffi ++ nl) ++ body), ann, ffi, n.
  split. { now rewrite Ef, <- !app_assoc. }
  split; auto. split; auto. split; [|split; auto; now rewrite Ei].
  split; [|split].
  - exists body. now rewrite <- !app_assoc.
  - destruct Hb as [->|(t & ->)].
    + rewrite app_nil_r. exists (ann ++ dec_of_nat n ++ o_delim o ++ ffi). now rewrite <- !app_assoc.
    + eexists. now rewrite app_assoc.
  - rewrite count_chr_app, !count_chr_app.
    rewrite (proj1 (count_chr_mem c_nl ann)) by (apply mem_chr_false; eauto).
    rewrite (proj1 (count_chr_mem c_nl (o_delim o))) by (apply mem_chr_false; eauto).
    rewrite (proj1 (count_chr_mem c_nl ffi)) by (eapply intchr_no_nl, fmt_d_chars; eauto).
    rewrite (proj1 (count_chr_mem c_nl (dec_of_nat n))).
    2:{ apply intchr_no_nl. rewrite dec_of_nat_Z. apply dec_of_Z_chars. }
    rewrite Hn. reflexivity.
Qed.

(** * C07 *)
(** After a successful write with header the file is what it was before, then
    (FFI 2160 only) the ignored header lines, then a header that announces its
    own length and the FFI of the dictionary, then the data. *)
Theorem C07_header_length : forall (o : opts num) c f h d st,
  write_body o c false (mkW f h d) = (Ok tt, st) ->
  ~ In c_nl (o_delim o) ->
  (forall a, getAnnotation o (lit "NLHEAD_FFI") None = Ok a -> ~ In c_nl a) ->
  exists pre hdr data ann ffi n s1 t1,
    w_file st = f ++ pre ++ hdr ++ data /\
    self_counting (o_delim o) ann ffi hdr n /\
    getAnnotation o (lit "NLHEAD_FFI") None = Ok ann /\
    fmt_d (attr d kFFI) = Ok ffi /\
    (c <> C2160 \/ attr d kIGN = PNone \/ attr d kIGN = PList [] -> pre = []) /\
    writeHeader o c (mkW f [] d) = (Ok tt, s1) /\ w_file s1 = f ++ pre ++ hdr /\
    writeData o c s1 = (Ok tt, t1) /\ w_file t1 = w_file s1 ++ data.
Proof.
  intros o c f h d st E Hd Ha. destruct (body_ok o c f h d st E) as (s1 & E1 & E2).
  destruct (header_self_counting o c f [] d s1 E1 Hd Ha) as (pre & hdr & ann & ffi & n & Ef & Ean & Effi & SC & _ & Hp).
  destruct (dstep_data o c _ _ _ E2) as ((data & Ed) & _).
  exists pre, hdr, data, ann, ffi, n, s1, st. repeat split; auto; try apply SC.
  rewrite Ed, Ef. now rewrite <- !app_assoc.
Qed.

(** * C08 *)
(** What holds for every dictionary: reading the lines of the file in text
    mode, the data section starts after the announced number of lines plus the
    number of lone carriage returns in the header.  Missing from the full
    claim: nothing when there are none (next theorem). *)
Theorem C08_data_found_partial : forall (o : opts num) c h d st,
  write_body o c false (mkW [] h d) = (Ok tt, st) ->
  c <> C2160 \/ attr d kIGN = PNone \/ attr d kIGN = PList [] ->
  ~ In c_nl (o_delim o) ->
  (forall a, getAnnotation o (lit "NLHEAD_FFI") None = Ok a -> ~ In c_nl a) ->
  exists hdr data ann ffi n s1,
    w_file st = hdr ++ data /\ self_counting (o_delim o) ann ffi hdr n /\
    writeHeader o c (mkW [] [] d) = (Ok tt, s1) /\ w_file s1 = hdr /\
    skipn (n + lone_cr hdr) (readlines (w_file st)) = readlines data.
Proof.
  intros o c h d st E Hi Hd Ha. destruct (body_ok o c [] h d st E) as (s1 & E1 & E2).
  destruct (header_self_counting o c [] [] d s1 E1 Hd Ha) as (pre & hdr & ann & ffi & n & Ef & Ean & Effi & SC & _ & Hp).
  rewrite (Hp Hi) in Ef. simpl in Ef.
  destruct (dstep_data o c _ _ _ E2) as ((data & Ed) & _). rewrite Ef in Ed.
  exists hdr, data, ann, ffi, n, s1. split; auto. split; auto. split; auto. split; auto.
  destruct SC as (_ & (t & Et) & Hn).
  assert (Hend : ends_nl hdr) by (right; eauto).
  unfold readlines. rewrite Ed, univ_newlines_app by auto.
  rewrite lines_app by (apply univ_newlines_ends; auto).
  rewrite <- Hn, <- univ_newlines_count, <- ends_nl_count by (apply univ_newlines_ends; auto).
  now rewrite skipn_app, skipn_all, Nat.sub_diag.
Qed.

(** No carriage return in the dictionary, the options or the printed numbers:
    the data section is found at the announced place. *)
Theorem C08_data_found_no_cr : forall (o : opts num) c h d st,
  write_body o c false (mkW [] h d) = (Ok tt, st) ->
  c <> C2160 \/ attr d kIGN = PNone \/ attr d kIGN = PList [] ->
  ~ In c_nl (o_delim o) ->
  (forall a, getAnnotation o (lit "NLHEAD_FFI") None = Ok a -> ~ In c_nl a) ->
  absent_dict c_cr d -> absent_opts c_cr o ->
  exists hdr data ann ffi n,
    w_file st = hdr ++ data /\ self_counting (o_delim o) ann ffi hdr n /\
    skipn n (readlines (w_file st)) = readlines data.
Proof.
  intros o c h d st E Hi Hd Ha Cd Co.
  destruct (C08_data_found_partial o c h d st E Hi Hd Ha) as (hdr & data & ann & ffi & n & s1 & E1 & SC & E2 & E3 & Hs).
  exists hdr, data, ann, ffi, n. split; auto. split; auto.
  rewrite lone_cr_absent, Nat.add_0_r in Hs; auto.
  assert (Hc0 : ~ In c_cr (lit "0123456789- None" ++ nl)).
  { vm_compute. intuition discriminate. }
  destruct (cstep_header o c_cr Hc0 Co c _ _ _ E2) as (K & _).
  { split; [exact Cd|]. split; intros []. }
  rewrite <- E3. apply K.
Qed.

(** * C18 *)
(** False of the code: after writing a FFI 2010 dictionary its DX is reversed. *)
Theorem C18_dict_unchanged_refuted : exists (o : opts Z) c f h d st k,
  write_body o c false (mkW f h d) = (Ok tt, st) /\ w_na st k <> d k.
Proof.
  eexists opts0, C2010, [], [], d2010, _, kDX. split.
  - vm_compute. reflexivity.
  - vm_compute. discriminate.
Qed.

(** What holds.  (1) The classes with one independent variable never change the
    dictionary, whether the write succeeds or not.  (2) No class, whatever the
    outcome, changes an item other than DX, NX and XNAME.  (3) A successful
    write leaves exactly the items [left_reversed] in reversed order and all
    other items as they were.  Missing from the full claim: the items of
    [left_reversed] keep their order. *)
Theorem C18_dict_unchanged_partial : forall (o : opts num) c nh f h d r st,
  write_body o c nh (mkW f h d) = (r, st) ->
  (In c [C1001; C1010; C1020] -> w_na st = d) /\
  (forall k, ~ In k [kDX; kNX; kXNAME] -> w_na st k = d k) /\
  (r = Ok tt ->
     (forall k, In k (left_reversed c nh) -> reversed_item d (w_na st) k) /\
     (forall k, ~ In k (left_reversed c nh) -> w_na st k = d k)).
Proof.
  intros o c nh f h d r st E. split; [|split].
  - intros Hc. pose proof (pure_body o c nh Hc _ _ _ E) as K. exact K.
  - intros k Hk. exact (keeps_body o c nh _ _ _ E k Hk).
  - intros ->. exact (body_reversed o c nh f h d st E).
Qed.

(** In particular a dictionary whose items DX and XNAME are palindromic is
    not changed by a successful write with header. *)
Corollary C18_palindromic : forall (o : opts num) c f h d st,
  write_body o c false (mkW f h d) = (Ok tt, st) ->
  (forall k, In k (left_reversed c false) -> palindromic (attr d k)) ->
  forall k, w_na st k = d k.
Proof.
  intros o c f h d st E Hp k.
  destruct (C18_dict_unchanged_partial o c false f h d _ st E) as (_ & _ & Hr).
  destruct (Hr eq_refl) as [H1 H2].
  destruct (in_dec key_eq_dec k (left_reversed c false)) as [i|n]; auto.
  destruct (H1 k i) as (l & E1 & E2). specialize (Hp k i). unfold attr in Hp. rewrite E1 in Hp.
  rewrite E2, E1. now rewrite (Hp l eq_refl).
Qed.

(** * C19 *)
(** False of the code: the second file has the DX values in the other order. *)
Theorem C19_write_twice_refuted : exists (o : opts Z) c d st1 st2,
  write_body o c false (mkW [] [] d) = (Ok tt, st1) /\
  write_body o c false (mkW [] [] (w_na st1)) = (Ok tt, st2) /\
  w_file st2 <> w_file st1.
Proof.
  eexists opts0, C2010, d2010, _, _. split; [|split].
  - vm_compute. reflexivity.
  - vm_compute. reflexivity.
  - vm_compute. discriminate.
Qed.

(** What holds: for FFI 1001, 1010, 1020 the second write of the same
    dictionary has the same outcome and the same text, even if the first one
    failed; for the other classes this holds after a successful first write
    whenever the items that the writer leaves reversed are palindromic.
    Missing from the full claim: other dictionaries of the other classes. *)
Theorem C19_write_twice_partial : forall (o : opts num) c nh h1 h2 d r1 st1 r2 st2,
  write_body o c nh (mkW [] h1 d) = (r1, st1) ->
  write_body o c nh (mkW [] h2 (w_na st1)) = (r2, st2) ->
  In c [C1001; C1010; C1020] \/
  (r1 = Ok tt /\ forall k, In k (left_reversed c nh) -> palindromic (attr d k)) ->
  r2 = r1 /\ w_file st2 = w_file st1.
Proof.
  intros o c nh h1 h2 d r1 st1 r2 st2 E1 E2 Hc.
  assert (Hd : forall k, w_na st1 k = d k).
  { destruct Hc as [Hc|[-> Hp]].
    - intros k. now rewrite (pure_body o c nh Hc _ _ _ E1).
    - intros k. destruct (body_reversed o c nh [] h1 d st1 E1) as [K1 K2].
      destruct (in_dec key_eq_dec k (left_reversed c nh)) as [i|n]; auto.
      destruct (K1 k i) as (l & F1 & F2). specialize (Hp k i). unfold attr in Hp. rewrite F1 in Hp.
      rewrite F2, F1. now rewrite (Hp l eq_refl). }
  destruct (write_same o c nh [] [] h1 h2 d (w_na st1)) as (K1 & t & T1 & T2).
  { intros k. symmetry. apply Hd. }
  rewrite E1, E2 in *. simpl in *. split; congruence.
Qed.

(** * C20 *)
(** False of the code for three or four independent variables. *)
Theorem C20_no_header_refuted : exists (o : opts Z) c d s1 st,
  writeHeader o c (mkW [] [] d) = (Ok tt, s1) /\
  write_body o c false (mkW [] [] d) = (Ok tt, st) /\
  w_file st <> w_file s1 ++ w_file (snd (write_body o c true (mkW [] [] d))).
Proof.
  eexists opts0, C3010, d3010, _, _. split; [|split].
  - vm_compute. reflexivity.
  - vm_compute. reflexivity.
  - vm_compute. discriminate.
Qed.

(** What holds: whenever the header can be written, writing without header has
    the same outcome as writing with header and appends exactly the text that
    follows the header, for every FFI except 3010 and 4010, for FFI 2010 with
    two independent variables, and for 3010 and 4010 when NX is palindromic.
    Missing from the full claim: 3010 and 4010 with other NX. *)
Theorem C20_no_header_partial : forall (o : opts num) c f h f' h' d s1,
  writeHeader o c (mkW f [] d) = (Ok tt, s1) ->
  ~ In c [C2010; C3010; C4010] \/ attr d kNIV = PInt 2 \/ palindromic (attr d kNX) ->
  fst (write_body o c true (mkW f' h' d)) = fst (write_body o c false (mkW f h d)) /\
  exists data,
    w_file (snd (write_body o c false (mkW f h d))) = w_file s1 ++ data /\
    w_file (snd (write_body o c true (mkW f' h' d))) = f' ++ data.
Proof. exact no_header_same. Qed.

(** * C29 *)
(** False of the code for FFI 2160: the ignored header lines are in the file
    although the header could not be built. *)
Theorem C29_header_atomic_refuted : exists (o : opts Z) c d e st,
  writeHeader o c (mkW [] [] d) = (Err e, st) /\ w_file st <> [].
Proof.
  eexists opts0, C2160, (upd (upd d2160 kIGN (ls [tx "extra"])) kNV PNone), _, _. split.
  - apply run_pair. vm_compute. reflexivity.
  - vm_compute. discriminate.
Qed.

(** What holds: unless there are ignored header lines to write (FFI 2160), the
    file after a write is the file before the write, or it has at least the
    complete header appended.  In the first case the write failed.  Missing
    from the full claim: the ignored header lines. *)
Theorem C29_header_atomic_partial : forall (o : opts num) c f h d r st,
  write_body o c false (mkW f h d) = (r, st) ->
  c <> C2160 \/ attr d kIGN = PNone \/ attr d kIGN = PList [] ->
  (exists e, r = Err e /\ w_file st = f) \/
  (exists s1 data, writeHeader o c (mkW f [] d) = (Ok tt, s1) /\ w_file st = w_file s1 ++ data /\
     exists ann ffi n body, w_file s1 = f ++ (ann ++ dec_of_nat n ++ o_delim o ++ ffi ++ nl) ++ body /\
       n = S (count_chr c_nl body)).
Proof.
  intros o c f h d r st E Hi. unfold write_body, bindW in E. cbv beta iota in E.
  cbn [w_file w_na] in E. destruct (writeHeader o c (mkW f [] d)) as [[[]|e] s1] eqn:E1.
  - right. destruct (dstep_data o c _ _ _ E) as ((t & Et) & _).
    exists s1, t. split; auto. split; auto.
    destruct (header_good o c _ _ E1) as (si & Ei & Ed & ann & ffi & body & n & Ef & Ha & Hf & Hb & Hn).
    rewrite (ign_nil c d Hi) in Ei. injection Ei as <-. exists ann, ffi, n, body. auto.
  - left. injection E as <- <-. exists e. split; auto.
    rewrite (header_fail o c _ _ _ E1). now rewrite (ign_nil c d Hi).
Qed.
End General.

Print Assumptions C07_header_length.
Print Assumptions C08_data_found_partial.
Print Assumptions C08_data_found_no_cr.
Print Assumptions C18_dict_unchanged_refuted.
Print Assumptions C18_dict_unchanged_partial.
Print Assumptions C18_palindromic.
Print Assumptions C19_write_twice_refuted.
Print Assumptions C19_write_twice_partial.
Print Assumptions C20_no_header_refuted.
Print Assumptions C20_no_header_partial.
Print Assumptions C29_header_atomic_refuted.
Print Assumptions C29_header_atomic_partial.

(** * Concrete cases *)
(** All sample dictionaries can be written, so the premises of C07, C18, C19
    and C20 are met by dictionaries of every class. *)
Example write_samples :
  forallb (fun p => is_ok (fst (write_body opts0 (fst p) false (mkW [] [] (snd p)))) &&
                    is_ok (fst (write_body opts_ann (fst p) false (mkW [] [] (snd p)))))
    [(C1001, d1001); (C1010, d1010); (C1020, d1020); (C2010, d2010); (C3010, d3010);
     (C2110, d2110); (C2160, d2160); (C2310, d2310)] = true.
Proof. vm_compute. reflexivity. Qed.

Example C07_case : exists body,
  w_file (snd (write_body opts0 C2310 false (mkW [] [] d2310))) = lit "25    2310" ++ nl ++ body.
Proof. eexists. vm_compute. reflexivity. Qed.

(** C08 with a carriage return in ONAME: the reader starts one line early. *)
Definition d_cr : na Z := upd d1001 kONAME (PStr (lit "De Witt" ++ [c_cr] ++ lit "B.")).
Theorem C08_data_found_refuted : exists (o : opts Z) d s1 st n data,
  writeHeader o C1001 (mkW [] [] d) = (Ok tt, s1) /\
  write_body o C1001 false (mkW [] [] d) = (Ok tt, st) /\
  w_file st = w_file s1 ++ data /\
  self_counting (o_delim o) [] (lit "1001") (w_file s1) n /\
  skipn n (readlines (w_file st)) <> readlines data.
Proof.
  eexists opts0, d_cr, _, _, 19%nat, _. split; [vm_compute; reflexivity|].
  split; [vm_compute; reflexivity|]. split; [|split].
  - cbn [w_file]. match goal with |- ?a = ?b ++ _ =>
      instantiate (1 := skipn (length b) a) end. vm_compute. reflexivity.
  - split; [|split].
    + eexists. vm_compute. reflexivity.
    + cbn [w_file]. match goal with |- exists t, ?a = _ => exists (removelast a) end. vm_compute. reflexivity.
    + vm_compute. reflexivity.
  - vm_compute. discriminate.
Qed.
Print Assumptions C08_data_found_refuted.

Example C08_case :
  skipn 19 (readlines (w_file (snd (write_body opts0 C1001 false (mkW [] [] d1001)))))
  = map (fun l => lit l ++ nl) ["1    10    -1"; "2    20    -2"; "4    30    9999"]%pylit.
Proof. vm_compute. reflexivity. Qed.

(** C20 for FFI 2010 with two independent variables. *)
Example C20_case :
  w_file (snd (write_body opts0 C2010 true (mkW [] [] d2010)))
  = concat (map (fun l => lit l ++ nl) ["1    7"; "1    2    3"; "2    8"; "4    5    6"]%pylit).
Proof. vm_compute. reflexivity. Qed.

(** C29: a dictionary without NV leaves the file alone. *)
Example C29_case :
  write_body opts0 C1001 false (mkW (lit "old") [] (upd d1001 kNV PNone))
  = (Err ETypeError, snd (write_body opts0 C1001 false (mkW (lit "old") [] (upd d1001 kNV PNone)))) /\
  w_file (snd (write_body opts0 C1001 false (mkW (lit "old") [] (upd d1001 kNV PNone)))) = lit "old".
Proof. vm_compute. split; reflexivity. Qed.
