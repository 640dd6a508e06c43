(** C98: comments given with --overwrite-metadata. *)
From Coq Require Import List NArith ZArith Bool Lia.
From Verif Require Import Py.Str Py.Res Py.Num Py.Arith Model.Dict Model.CommonUtils Model.NAWrite Model.NARead Model.NCWrite Model.Xarray Model.Collector
  Model.ToXarray Model.Utils Model.Api Model.Getopt Model.CommandLine Model.Programs Spec.ZNum Spec.CommandLineSpec
  Proofs.StrLemmas Proofs.CollectorLemmas Proofs.ReadFrame Props.CollectorProps Props.ApiProps Props.CommandLine Props.Programs.
Import ListNotations.

(** A text as comments, for a dictionary that has a list of comments: if the list
    is not empty and is not to be replaced there is an error.  Otherwise the text
    becomes the list of its characters: there are as many comment lines as it has
    characters.  What is true of the claim: a text of one character is written as
    the only comment. *)
Theorem C98_partial : forall num (Num : NumOps num) r (d : na num) k old t,
  k = kSCOM \/ k = kNCOM -> d k = Some (PList old) -> t <> [] ->
  (r <> RReplace -> old <> [] -> exists e, override r d (k, PStr t) = Err e) /\
  (r <> ROther -> r = RReplace \/ old = [] -> exists d', override r d (k, PStr t) = Ok d' /\
     (exists l, as_list (attr d' k) = Ok l /\ l = map (fun c => PStr [c]) t) /\
     attr d' (if key_beq k kSCOM then kNSCOML else kNNCOML) = PInt (Z.of_nat (length t)) /\
     forall k', k' <> k -> k' <> (if key_beq k kSCOM then kNSCOML else kNNCOML) -> d' k' = d k').
Proof.
  intros num Num r d k old t Hk Hd Ht. destruct t as [|c t]; [congruence|].
  assert (P : negb (NCWrite.key_in k permitted) = false) by (destruct Hk as [-> | ->]; reflexivity).
  assert (P2 : NCWrite.key_in k [kDATE; kRDATE; kANAME; kVNAME] = false) by (destruct Hk as [-> | ->]; reflexivity).
  split.
  - intros Hr Ho. destruct old as [|o0 old]; [congruence|]. unfold override. rewrite P, P2. cbn [bindR].
    destruct Hk as [-> | ->]; rewrite Hd; (destruct r; [congruence| | |eexists; reflexivity]); cbn [copied bindR wrapped];
      (destruct (cleanWrapComments (o0 :: old) [PStr (c :: t)] _ _); eexists; reflexivity).
  - intros Hn Ho. unfold override. rewrite P, P2. cbn [bindR].
    assert (W : (match r with
                 | RReplace => copied (PStr (c :: t))
                 | RInsert | RExtend => bindR (copied (PStr (c :: t))) (fun n => wrapped (match d k with Some e => e | None => PList [] end) n (key_beq k kNCOM) r)
                 | ROther => Err (ENappy E_Other)
                 end) = Ok (PStr (c :: t))).
    { rewrite Hd. destruct r; try congruence; try reflexivity; (destruct Ho as [Ho| ->]; [discriminate|reflexivity]). }
    eexists. split; [destruct Hk as [-> | ->]; rewrite W; cbn [bindR as_list]; reflexivity|].
    split; [|split].
    + eexists. split; [|reflexivity]. unfold attr. destruct Hk as [-> | ->]; reflexivity.
    + unfold attr. destruct Hk as [-> | ->]; cbn; now rewrite map_length.
    + intros k' N1 N2. rewrite !upd_other by congruence. reflexivity.
Qed.
Example C98_example : (kSCOM = kSCOM \/ kSCOM = kNCOM) /\ upd (num := Z) na_empty kSCOM (PList []) kSCOM = Some (PList []) /\ lit "Hello" <> [] /\
  RInsert <> ROther.
Proof. repeat split; try discriminate. left. reflexivity. Qed.

(** A special comment given on the command line, and the comments of the file. *)
Definition meta_line (k t : str) : list (bool * nc_opt) :=
  [(true, OIn (lit "a.nc")); (false, OVars (map lit ["ozone"]%pylit)); (false, OOut (lit "o.na")); (false, OMeta [(k, t)])].
Lemma meta_sayable k t : nc_sayable (false, OMeta [(k, t)]) -> Forall nc_sayable (meta_line k t).
Proof.
  intros S. unfold meta_line. constructor; [discriminate|]. constructor.
  - split; [discriminate|]. split; [|discriminate]. repeat constructor. intros K; cbv in K; repeat destruct K as [K|K]; try discriminate K; contradiction.
  - constructor; [discriminate|]. constructor; [exact S|constructor].
Qed.
Theorem C98_refuted : exists (files : str -> option (dataset Z)) text names fs' content d,
  Forall nc_sayable (meta_line (lit "SCOM") text) /\
  nc2na 10 env_Z RInsert true [] (fun _ => dec_of_Z) (fun _ => None) (flat_map nc_words (meta_line (lit "SCOM") text)) files [] = (Done names, fs') /\
  sd_get fs' (lit "o.na") = Some content /\ read_file content 0 = Ok (C1001, d) /\
  text = lit "Hello" /\ d kSCOM = Some (PList (map PStr (map lit ["H"; "e"; "l"; "l"; "o"]%pylit))).
Proof.
  exists nc_files, (lit "Hello").
  set (q := nc2na _ _ _ _ _ _ _ _ _ _).
  assert (K : match q with
              | (Done names, fs) => match sd_get fs (lit "o.na") with
                                    | Some c => match read_file c 0 with Ok (C1001, d) => d kSCOM | _ => None end
                                    | None => None
                                    end
              | _ => None
              end = Some (PList (map PStr (map lit ["H"; "e"; "l"; "l"; "o"]%pylit)))) by (vm_compute; reflexivity).
  destruct q as [[names| |] fs']; try discriminate K. destruct (sd_get fs' (lit "o.na")) as [content|] eqn:E; [|discriminate K].
  destruct (read_file content 0) as [[c d]|] eqn:R; [|discriminate K]. destruct c; try discriminate K.
  exists names, fs', content, d. split; [apply meta_sayable; repeat constructor; try discriminate; cbn; try (intros Q; cbv in Q; repeat destruct Q as [Q|Q]; try discriminate Q; contradiction)|].
  repeat split; auto.
Qed.
(** A normal comment: the run fails, and nothing is written, if the NetCDF file
    has a global attribute that becomes a comment; otherwise it fails at the
    column headers. *)
Definition with_attr (n : str) : option (dataset Z) :=
  option_map (fun ds => mkDs (ds_vars ds) (ds_attrs ds ++ [(lit "contact", gstr (lit "Me"))])) (nc_files n).
Theorem C98_ncom_refuted : exists text, text <> [] /\ Forall nc_sayable (meta_line (lit "NCOM") text) /\
  nc2na 10 env_Z RInsert true [] (fun _ => dec_of_Z) (fun _ => None) (flat_map nc_words (meta_line (lit "NCOM") text)) with_attr [] = (Raise ETypeError, []) /\
  nc2na 10 env_Z RInsert true [] (fun _ => dec_of_Z) (fun _ => None) (flat_map nc_words (meta_line (lit "NCOM") text)) nc_files [] = (Raise EAttributeError, []).
Proof.
  exists (lit "Hello"). split; [discriminate|].
  split; [apply meta_sayable; repeat constructor; try discriminate; cbn; try (intros Q; cbv in Q; repeat destruct Q as [Q|Q]; try discriminate Q; contradiction)|].
  split; vm_compute; reflexivity.
Qed.
Print Assumptions C98_partial.
Print Assumptions C98_refuted.
Print Assumptions C98_ncom_refuted.
