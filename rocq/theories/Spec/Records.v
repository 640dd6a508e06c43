(** Well-formed NASA Ames data, as typed records.  A record says what the
    dictionary of each FFI contains; [*_items] lists the dictionary entries.
    Nothing here refers to the reading or writing code. *)
From Coq Require Import List NArith ZArith Bool.
From Verif Require Import Py.Str Py.Res Py.Num Model.Dict Spec.TextSpec.
Import ListNotations.

(** ** Text items *)
(** No line break. *)
Definition one_line (s : str) : Prop := ~ In c_nl s /\ ~ In c_cr s.
(** No white space at either end. *)
Definition trimmed (s : str) : Prop :=
  (forall c t, s = c :: t -> is_space c = false) /\ (forall c t, s = t ++ [c] -> is_space c = false).
Definition is_quote_chr (c : chr) : Prop := c = c_squote \/ c = c_dquote.

(** A comment line; white space at its ends does not come back. *)
Definition comment_ok (s : str) : Prop := one_line s.
(** A name: a line without white space at the ends, without a trailing {...} annotation (and not ending
    with the control character U+0001, which the reader treats specially). *)
Definition name_ok (s : str) : Prop :=
  (one_line s /\ trimmed s) /\ (forall p g b, ~ annotated s p g b) /\ (forall t, s <> t ++ [1%N]).
(** ONAME, ORG, SNAME, MNAME: a non-empty name without quotes at the ends. *)
Definition title_ok (s : str) : Prop :=
  name_ok s /\ s <> [] /\ (forall c t, s = c :: t \/ s = t ++ [c] -> ~ is_quote_chr c).
(** A value without white space, comma, closing brace or U+0001. *)
Definition token_ok (s : str) : Prop :=
  word s /\ ~ In c_comma s /\ ~ In c_rbrace s /\ ~ In 1%N s.
(** The delimiter: white space without line break. *)
Definition delim_ok (d : str) : Prop := d <> [] /\ blank d /\ one_line d.

Section Records.
Context {num : Type} `{NumOps num}.

(** ** Numbers *)
Inductive number := NI (z : Z) | NF (x : num).
Definition pv (n : number) : pyv num := match n with NI z => PInt z | NF x => PNum x end.
Definition val (n : number) : num := match n with NI z => num_of_Z z | NF x => x end.

(** Laws of number formatting.  ["%s"] prints one token that [float] maps back
    to the number; the float format prints one token that [float] maps to
    [g x] (for the usual formats, [x] rounded to the printed precision). *)
Definition str_law : Prop :=
  (forall x : num, token_ok (num_str x) /\ num_parse (num_str x) = Some x) /\
  (forall z, num_parse (dec_of_Z z) = Some (num_of_Z z)).
Definition fmt_law (fmt : num -> str) (g : num -> num) : Prop :=
  forall x, token_ok (fmt x) /\ num_parse (fmt x) = Some (g x).

(** ** Header sections *)
Definition entry := (key * pyv num)%type.
Definition date := (Z * Z * Z)%type.
Definition date_pv (d : date) : pyv num :=
  let '(a, b, c) := d in PList [PInt a; PInt b; PInt c].

Record common := mkCommon {
  c_oname : str; c_org : str; c_sname : str; c_mname : str;
  c_ivol : Z; c_nvol : Z; c_date : date; c_rdate : date;
  c_scom : list str; c_ncom : list str }.
Definition len_pv {A} (l : list A) : pyv num := PInt (Z.of_nat (length l)).
Definition strs_pv (l : list str) : pyv num := PList (map PStr l).
Definition nums_pv (l : list number) : pyv num := PList (map pv l).

Definition common_items (ffi niv : Z) (c : common) : list entry :=
  [(kFFI, PInt ffi); (kNIV, PInt niv);
   (kONAME, PStr (c_oname c)); (kORG, PStr (c_org c)); (kSNAME, PStr (c_sname c)); (kMNAME, PStr (c_mname c));
   (kIVOL, PInt (c_ivol c)); (kNVOL, PInt (c_nvol c));
   (kDATE, date_pv (c_date c)); (kRDATE, date_pv (c_rdate c));
   (kNSCOML, len_pv (c_scom c)); (kSCOM, strs_pv (c_scom c));
   (kNNCOML, len_pv (c_ncom c)); (kNCOM, strs_pv (c_ncom c))].
Definition common_ok (c : common) : Prop :=
  title_ok (c_oname c) /\ title_ok (c_org c) /\ title_ok (c_sname c) /\ title_ok (c_mname c) /\
  Forall comment_ok (c_scom c) /\ Forall comment_ok (c_ncom c).

Definition norm_common (c : common) : common :=
  mkCommon (c_oname c) (c_org c) (c_sname c) (c_mname c) (c_ivol c) (c_nvol c) (c_date c) (c_rdate c)
    (map strip (c_scom c)) (map strip (c_ncom c)).

(** A variable: scale factor, missing value, name. *)
Record var := mkVar { v_scal : number; v_miss : number; v_name : str }.
Definition var_items (vs : list var) : list entry :=
  [(kNV, len_pv vs); (kVSCAL, nums_pv (map v_scal vs)); (kVMISS, nums_pv (map v_miss vs));
   (kVNAME, strs_pv (map v_name vs))].
Definition vars_ok (vs : list var) : Prop := vs <> [] /\ Forall (fun v => name_ok (v_name v)) vs.
Definition aux_items (vs : list var) : list entry :=
  (kNAUXV, len_pv vs) ::
  match vs with
  | [] => []
  | _ => [(kASCAL, nums_pv (map v_scal vs)); (kAMISS, nums_pv (map v_miss vs));
          (kANAME, strs_pv (map v_name vs))]
  end.
Definition auxs_ok (vs : list var) : Prop := Forall (fun v => name_ok (v_name v)) vs.

(** Header numbers come back as floating point numbers with the same value,
    data as the formatted value. *)
Definition head_num (n : number) : number := NF (val n).
Definition data_num (g : num -> num) (n : number) : number := NF (g (val n)).
Definition norm_var (v : var) : var := mkVar (head_num (v_scal v)) (head_num (v_miss v)) (v_name v).

(** The dictionary contains (at least) the entries. *)
Definition has (d : na num) (items : list entry) : Prop := forall k v, In (k, v) items -> d k = Some v.
(** The dictionary consists of exactly the entries. *)
Definition is_dict (d : na num) (items : list entry) : Prop :=
  forall k, d k = match find (fun p => key_beq (fst p) k) items with Some p => Some (snd p) | None => None end.
(** What reading adds: the header length, and no ignored header lines. *)
Definition read_items (n : nat) : list entry := [(kNLHEAD, PInt (Z.of_nat n)); (kIGN, PList [])].

(** ** FFI 1001 *)
Record r1001 := mk1001 {
  r1_common : common; r1_vars : list var; r1_dx : number; r1_xname : str;
  r1_x : list number; r1_v : list (list number) }.
Definition items1001 (r : r1001) : list entry :=
  common_items 1001 1 (r1_common r) ++ var_items (r1_vars r) ++
  [(kDX, nums_pv [r1_dx r]); (kXNAME, strs_pv [r1_xname r]);
   (kX, nums_pv (r1_x r)); (kV, PList (map nums_pv (r1_v r)))].
Definition ok1001 (r : r1001) : Prop :=
  common_ok (r1_common r) /\ vars_ok (r1_vars r) /\ name_ok (r1_xname r) /\
  length (r1_v r) = length (r1_vars r) /\
  Forall (fun v => length v = length (r1_x r)) (r1_v r).
Definition norm1001 (g : num -> num) (r : r1001) : r1001 :=
  mk1001 (norm_common (r1_common r)) (map norm_var (r1_vars r)) (head_num (r1_dx r)) (r1_xname r)
    (map (data_num g) (r1_x r)) (map (map (data_num g)) (r1_v r)).

(** ** FFI 1010 *)
Record r1010 := mk1010 {
  r2_common : common; r2_vars : list var; r2_aux : list var; r2_dx : number; r2_xname : str;
  r2_x : list number; r2_a : list (list number); r2_v : list (list number) }.
Definition items1010 (r : r1010) : list entry :=
  common_items 1010 1 (r2_common r) ++ var_items (r2_vars r) ++ aux_items (r2_aux r) ++
  [(kDX, nums_pv [r2_dx r]); (kXNAME, strs_pv [r2_xname r]);
   (kX, nums_pv (r2_x r)); (kA, PList (map nums_pv (r2_a r))); (kV, PList (map nums_pv (r2_v r)))].
Definition ok1010 (r : r1010) : Prop :=
  common_ok (r2_common r) /\ vars_ok (r2_vars r) /\ auxs_ok (r2_aux r) /\ name_ok (r2_xname r) /\
  length (r2_a r) = length (r2_aux r) /\ length (r2_v r) = length (r2_vars r) /\
  Forall (fun a => length a = length (r2_x r)) (r2_a r) /\
  Forall (fun v => length v = length (r2_x r)) (r2_v r).
Definition norm1010 (g : num -> num) (r : r1010) : r1010 :=
  mk1010 (norm_common (r2_common r)) (map norm_var (r2_vars r)) (map norm_var (r2_aux r)) (head_num (r2_dx r))
    (r2_xname r) (map (data_num g) (r2_x r)) (map (map (data_num g)) (r2_a r))
    (map (map (data_num g)) (r2_v r)).

(** ** FFI 1020: [r3_nvpm] values of every variable per mark. *)
Record r1020 := mk1020 {
  r3_common : common; r3_vars : list var; r3_aux : list var; r3_dx : number; r3_nvpm : nat;
  r3_xname : str;
  r3_x : list number; r3_a : list (list number); r3_v : list (list number) }.
Definition items1020 (r : r1020) : list entry :=
  common_items 1020 1 (r3_common r) ++ var_items (r3_vars r) ++ aux_items (r3_aux r) ++
  [(kDX, nums_pv [r3_dx r]); (kNVPM, PInt (Z.of_nat (r3_nvpm r))); (kXNAME, strs_pv [r3_xname r]);
   (kX, nums_pv (r3_x r)); (kA, PList (map nums_pv (r3_a r))); (kV, PList (map nums_pv (r3_v r)))].
Definition ok1020 (r : r1020) : Prop :=
  common_ok (r3_common r) /\ vars_ok (r3_vars r) /\ auxs_ok (r3_aux r) /\ name_ok (r3_xname r) /\
  (0 < r3_nvpm r)%nat /\
  length (r3_a r) = length (r3_aux r) /\ length (r3_v r) = length (r3_vars r) /\
  Forall (fun a => length a = length (r3_x r)) (r3_a r) /\
  Forall (fun v => length v = (length (r3_x r) * r3_nvpm r)%nat) (r3_v r).
Definition norm1020 (g : num -> num) (r : r1020) : r1020 :=
  mk1020 (norm_common (r3_common r)) (map norm_var (r3_vars r)) (map norm_var (r3_aux r)) (head_num (r3_dx r))
    (r3_nvpm r) (r3_xname r) (map (data_num g) (r3_x r)) (map (map (data_num g)) (r3_a r))
    (map (map (data_num g)) (r3_v r)).

(** ** FFI 2010, 3010, 4010.  [nested k] is a [k]-dimensional array. *)
Fixpoint nested (k : nat) : Type := match k with O => number | S k' => list (nested k') end.
Fixpoint nested_pv {k} : nested k -> pyv num :=
  match k with O => pv | S k' => fun l => PList (map nested_pv l) end.
Fixpoint nested_map (f : number -> number) {k} : nested k -> nested k :=
  match k with O => f | S k' => fun l => map (nested_map f) l end.
(** Rectangular array with the dimensions [dims], first dimension outermost. *)
Fixpoint has_shape (dims : list nat) : nested (length dims) -> Prop :=
  match dims with
  | [] => fun _ => True
  | d :: ds => fun l => length l = d /\ Forall (has_shape ds) l
  end.
(** One bounded axis: step, listed values, name. *)
Record axis := mkAxis { x_dx : number; x_def : list number; x_name : str }.
Record r2010 := mk2010 {
  r4_common : common; r4_vars : list var; r4_aux : list var;
  r4_dx : number; r4_xname : str;
  r4_nx : list nat;                    (* lengths of the bounded axes *)
  r4_axes : list axis;
  r4_x : list number; r4_a : list (list number);
  r4_v : list (list (nested (length r4_nx))) }.
Definition items2010 (r : r2010) : list entry :=
  let niv := Z.of_nat (S (length (r4_nx r))) in
  common_items (niv * 1000 + 10) niv (r4_common r) ++ var_items (r4_vars r) ++ aux_items (r4_aux r) ++
  [(kDX, nums_pv (r4_dx r :: map x_dx (r4_axes r)));
   (kNX, PList (map (fun n => PInt (Z.of_nat n)) (r4_nx r)));
   (kNXDEF, PList (map (fun a => len_pv (x_def a)) (r4_axes r)));
   (kXNAME, strs_pv (r4_xname r :: map x_name (r4_axes r)));
   (kX, PList (map nums_pv (r4_x r :: map x_def (r4_axes r))));
   (kA, PList (map nums_pv (r4_a r)));
   (kV, PList (map (fun v => PList (map nested_pv v)) (r4_v r)))].
Definition ok2010 (r : r2010) : Prop :=
  common_ok (r4_common r) /\ vars_ok (r4_vars r) /\ auxs_ok (r4_aux r) /\
  name_ok (r4_xname r) /\ (1 <= length (r4_nx r) <= 3)%nat /\
  length (r4_axes r) = length (r4_nx r) /\ Forall (fun n => 0 < n)%nat (r4_nx r) /\
  Forall (fun a => name_ok (x_name a) /\ x_def a <> []) (r4_axes r) /\
  length (r4_a r) = length (r4_aux r) /\ length (r4_v r) = length (r4_vars r) /\
  Forall (fun a => length a = length (r4_x r)) (r4_a r) /\
  Forall (fun v => length v = length (r4_x r) /\ Forall (has_shape (r4_nx r)) v) (r4_v r).
(** The numbers of listed values, read backwards, are the same. *)
Definition palindromic_def (r : r2010) : Prop :=
  rev (map (fun a => length (x_def a)) (r4_axes r)) = map (fun a => length (x_def a)) (r4_axes r).
Definition norm_axis (g : num -> num) (a : axis) : axis :=
  mkAxis (head_num (x_dx a)) (map (data_num g) (x_def a)) (x_name a).
Definition norm2010 (g : num -> num) (r : r2010) : r2010 :=
  mk2010 (norm_common (r4_common r)) (map norm_var (r4_vars r)) (map norm_var (r4_aux r)) (head_num (r4_dx r))
    (r4_xname r) (r4_nx r) (map (norm_axis g) (r4_axes r))
    (map (data_num g) (r4_x r)) (map (map (data_num g)) (r4_a r))
    (map (map (nested_map (data_num g))) (r4_v r)).

(** ** FFI 2110: every mark has its own inner axis. *)
Record mark (X : Type) := mkMark { m_x : X; m_in : list number }.
Definition mark_pv {X} (p : X -> pyv num) (m : mark X) : pyv num := PList [p (m_x X m); nums_pv (m_in X m)].
Record r2110 := mk2110 {
  r5_common : common; r5_vars : list var; r5_aux : list var;
  r5_dx : number * number; r5_xname : str * str;
  r5_x : list (mark number); r5_a : list (list number); r5_v : list (list (list number)) }.
Definition items2110 (r : r2110) : list entry :=
  common_items 2110 2 (r5_common r) ++ var_items (r5_vars r) ++ aux_items (r5_aux r) ++
  [(kDX, nums_pv [fst (r5_dx r); snd (r5_dx r)]);
   (kXNAME, strs_pv [fst (r5_xname r); snd (r5_xname r)]);
   (kX, PList (map (mark_pv pv) (r5_x r)));
   (kNX, PList (map (fun m => len_pv (m_in _ m)) (r5_x r)));
   (kA, PList (map nums_pv (r5_a r)));
   (kV, PList (map (fun v => PList (map nums_pv v)) (r5_v r)))].
(** The first auxiliary variable holds the lengths of the inner axes. *)
Definition counts_ok (g : num -> num) {X} (marks : list (mark X)) (a0 : list number) : Prop :=
  Forall2 (fun m n => num_trunc (g (val n)) = Some (Z.of_nat (length (m_in _ m)))) marks a0.
Definition inner_ok {X} (marks : list (mark X)) (v : list (list number)) : Prop :=
  Forall2 (fun m l => length l = length (m_in _ m)) marks v.
Definition ok2110 (g : num -> num) (r : r2110) : Prop :=
  common_ok (r5_common r) /\ vars_ok (r5_vars r) /\ auxs_ok (r5_aux r) /\ r5_aux r <> [] /\
  name_ok (fst (r5_xname r)) /\ name_ok (snd (r5_xname r)) /\
  length (r5_a r) = length (r5_aux r) /\ length (r5_v r) = length (r5_vars r) /\
  Forall (fun a => length a = length (r5_x r)) (r5_a r) /\
  counts_ok g (r5_x r) (nth 0 (r5_a r) []) /\ Forall (inner_ok (r5_x r)) (r5_v r).
Definition norm_mark (g : num -> num) (m : mark number) : mark number :=
  mkMark _ (data_num g (m_x _ m)) (map (data_num g) (m_in _ m)).
Definition norm2110 (g : num -> num) (r : r2110) : r2110 :=
  mk2110 (norm_common (r5_common r)) (map norm_var (r5_vars r)) (map norm_var (r5_aux r))
    (head_num (fst (r5_dx r)), head_num (snd (r5_dx r))) (r5_xname r)
    (map (norm_mark g) (r5_x r)) (map (map (data_num g)) (r5_a r))
    (map (map (map (data_num g))) (r5_v r)).

(** ** FFI 2160: character marks and character auxiliary variables. *)
Record cvar := mkCvar { cv_len : Z; cv_miss : str; cv_name : str }.
(** A character value of the data section: a non-empty name that does not end
    with a comma. *)
Definition char_ok (s : str) : Prop := name_ok s /\ s <> [] /\ (forall t, s <> t ++ [c_comma]).
Record r2160 := mk2160 {
  r6_common : common; r6_vars : list var; r6_aux : list var; r6_caux : list cvar;
  r6_dx : number; r6_lenx : number; r6_xname : str * str;
  r6_x : list (mark str); r6_a : list (list number); r6_ca : list (list str);
  r6_v : list (list (list number)) }.
Definition items2160 (r : r2160) : list entry :=
  common_items 2160 2 (r6_common r) ++ var_items (r6_vars r) ++
  [(kNAUXV, PInt (Z.of_nat (length (r6_aux r) + length (r6_caux r)))); (kNAUXC, len_pv (r6_caux r));
   (kASCAL, nums_pv (map v_scal (r6_aux r)));
   (kAMISS, PList (map pv (map v_miss (r6_aux r)) ++ map PStr (map cv_miss (r6_caux r))));
   (kLENA, PList (repeat PNone (length (r6_aux r)) ++ map (fun c => PInt (cv_len c)) (r6_caux r)));
   (kANAME, strs_pv (map v_name (r6_aux r) ++ map cv_name (r6_caux r)));
   (kDX, nums_pv [r6_dx r]); (kLENX, pv (r6_lenx r));
   (kXNAME, strs_pv [fst (r6_xname r); snd (r6_xname r)]);
   (kX, PList (map (mark_pv PStr) (r6_x r)));
   (kNX, PList (map (fun m => len_pv (m_in _ m)) (r6_x r)));
   (kA, PList (map nums_pv (r6_a r) ++ map strs_pv (r6_ca r)));
   (kV, PList (map (fun v => PList (map nums_pv v)) (r6_v r)))].
Definition ok2160 (g : num -> num) (r : r2160) : Prop :=
  common_ok (r6_common r) /\ vars_ok (r6_vars r) /\ auxs_ok (r6_aux r) /\
  r6_aux r <> [] /\ r6_caux r <> [] /\
  Forall (fun c => token_ok (cv_miss c) /\ name_ok (cv_name c)) (r6_caux r) /\
  name_ok (fst (r6_xname r)) /\ name_ok (snd (r6_xname r)) /\
  Forall (fun m => token_ok (m_x _ m)) (r6_x r) /\
  length (r6_a r) = length (r6_aux r) /\ length (r6_ca r) = length (r6_caux r) /\
  length (r6_v r) = length (r6_vars r) /\
  Forall (fun a => length a = length (r6_x r)) (r6_a r) /\
  Forall (fun a => length a = length (r6_x r) /\ Forall char_ok a) (r6_ca r) /\
  counts_ok g (r6_x r) (nth 0 (r6_a r) []) /\ Forall (inner_ok (r6_x r)) (r6_v r).
Definition norm2160 (g : num -> num) (r : r2160) : r2160 :=
  mk2160 (norm_common (r6_common r)) (map norm_var (r6_vars r)) (map norm_var (r6_aux r)) (r6_caux r)
    (head_num (r6_dx r)) (head_num (r6_lenx r)) (r6_xname r)
    (map (fun m => mkMark _ (m_x _ m) (map (data_num g) (m_in _ m))) (r6_x r))
    (map (map (data_num g)) (r6_a r)) (r6_ca r) (map (map (map (data_num g))) (r6_v r)).

(** ** FFI 2310: the inner axis of a mark is given by its length, first value
    and step (auxiliary variables 1 to 3); one primary variable. *)
Record r2310 := mk2310 {
  r7_common : common; r7_var : var; r7_aux : list var;
  r7_dx : list number;                 (* DX: the first item is written *)
  r7_xname : str * str;
  r7_x : list number; r7_nx : list nat; r7_a : list (list number); r7_v : list (list number) }.
Definition items2310 (r : r2310) : list entry :=
  common_items 2310 2 (r7_common r) ++ var_items [r7_var r] ++ aux_items (r7_aux r) ++
  [(kDX, nums_pv (r7_dx r)); (kXNAME, strs_pv [fst (r7_xname r); snd (r7_xname r)]);
   (kX, PList (map (fun p => PList [pv (fst p); nums_pv [snd p]]) (combine (r7_x r) (nth 1 (r7_a r) []))));
   (kNX, PList (map (fun n => PInt (Z.of_nat n)) (r7_nx r)));
   (kA, PList (map nums_pv (r7_a r))); (kV, PList [PList (map nums_pv (r7_v r))])].
Definition ok2310 (g : num -> num) (r : r2310) : Prop :=
  common_ok (r7_common r) /\ name_ok (v_name (r7_var r)) /\ auxs_ok (r7_aux r) /\
  (3 <= length (r7_aux r))%nat /\
  name_ok (fst (r7_xname r)) /\ name_ok (snd (r7_xname r)) /\
  length (r7_a r) = length (r7_aux r) /\ length (r7_nx r) = length (r7_x r) /\
  Forall (fun a => length a = length (r7_x r)) (r7_a r) /\
  Forall (fun n => 0 < n)%nat (r7_nx r) /\
  Forall2 (fun n a => num_trunc (g (val a)) = Some (Z.of_nat n)) (r7_nx r) (nth 0 (r7_a r) []) /\
  Forall2 (fun n v => length v = n) (r7_nx r) (r7_v r) /\
  (** the steps are whole numbers, and DX lists them after its first item *)
  r7_dx r <> [] /\
  Forall2 (fun a z => exists k, z = NI k /\ num_trunc (g (val a)) = Some k) (nth 2 (r7_a r) []) (tl (r7_dx r)).
Definition norm2310 (g : num -> num) (r : r2310) : r2310 :=
  mk2310 (norm_common (r7_common r)) (norm_var (r7_var r)) (map norm_var (r7_aux r))
    (match r7_dx r with [] => [] | d :: t => head_num d :: t end) (r7_xname r)
    (map (data_num g) (r7_x r)) (r7_nx r) (map (map (data_num g)) (r7_a r)) (map (map (data_num g)) (r7_v r)).
End Records.
Arguments number : clear implicits. Arguments var : clear implicits. Arguments r1001 : clear implicits.
Arguments r1010 : clear implicits. Arguments r1020 : clear implicits. Arguments axis : clear implicits.
Arguments r2010 : clear implicits. Arguments nested : clear implicits. Arguments r2110 : clear implicits.
Arguments r2160 : clear implicits. Arguments r2310 : clear implicits. Arguments mark : clear implicits.
Arguments m_x {num X}. Arguments m_in {num X}. Arguments mkMark {num X}.
