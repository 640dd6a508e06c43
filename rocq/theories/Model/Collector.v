(** nappy/nc_interface/na_content_collector.py: from variables and global
    attributes to a NASA Ames dictionary; and xarray_to_na.py:71-195, the loop
    that converts all variables.

    Simplifications: log and output messages are left out; the configuration is
    the distributed nappy.ini and local_attributes.ini; the global attributes are
    a dictionary (no key twice); see also Model/Xarray.v. *)
From Coq Require Import List NArith ZArith Bool.
From Verif Require Import Py.Str Py.Res Py.Num Py.Arith Model.Dict Model.NCWrite Model.Xarray.
Import ListNotations.

(** ** Regular expressions as functions of the rest of the expression *)
(** greedy dot-star followed by [k]; returns the text it matches *)
Fixpoint re_dots {B} (k : str -> option B) (s : str) : option (str * B) :=
  let stop := match k s with Some b => Some ([], b) | None => None end in
  match s with
  | [] => stop
  | c :: t =>
      if (c =? c_nl)%N then stop
      else match re_dots k t with Some (g, b) => Some (c :: g, b) | None => stop end
  end.
(** one or more white space characters, greedy, followed by [k] *)
Fixpoint re_spaces {B} (k : str -> option B) (s : str) : option B :=
  match s with
  | [] => None
  | c :: t => if is_space c then match re_spaces k t with Some b => Some b | None => k t end else None
  end.
Definition re_lit {B} (p : str) (k : str -> option B) (s : str) : option B :=
  if starts_with p s then k (skipn (length p) s) else None.
Definition oname_mark : str := lit "(ONAME from NASA Ames file);".
Definition org_mark : str := lit "(ORG from NASA Ames file).".
(** na_content_collector.py:550: the two groups. *)
Definition institution_match (s : str) : option (str * str) :=
  match re_dots (re_spaces (re_lit oname_mark (re_spaces (re_dots (re_spaces (re_lit org_mark (fun _ => Some tt))))))) s with
  | Some (g1, (g2, tt)) => Some (g1, g2)
  | None => None
  end.

Section Collector.
Context {num : Type} `{NumOps num} `{ArithOps num}.
Local Notation pyv := (pyv num).
Local Notation na := (na num).
Local Notation xvar := (xvar num).
Local Notation axis := (axis num).
Local Notation gval := (gval num).

(** What the conversion gets from outside: [np.linspace] with its comparison
    (xarray_utils.py:93-106), the clock, the version, the number -1.e20 and other
    constants, and [cftime.num2date] (None for an exception). *)
Record env := mkEnv {
  e_uniform : list num -> bool;
  e_now : str;
  e_today : list Z;
  e_version : str;
  e_fill : num;
  e_aux_miss : num;                            (* -9999.999 *)
  e_one : num;                                 (* 1.0 *)
  e_date : num -> str -> option (list Z)
}.
Variable E : env.

(** ** Sorting the variables *)
(** na_content_collector.py:128-152: the first variable of the highest rank with
    the largest size, with its position. *)
Fixpoint find_best (i : nat) (vars : list xvar) (best : option (nat * xvar)) : option (nat * xvar) :=
  match vars with
  | [] => best
  | v :: t =>
      let best' :=
        if (rank v =? 0)%nat then best
        else match best with
             | None => Some (i, v)
             | Some (_, b) =>
                 if (rank b <? rank v)%nat || ((rank v =? rank b)%nat && (size_of b <? size_of v)%nat)
                 then Some (i, v) else best
             end in
      find_best (S i) t best'
  end.

Definition mem_str (s : str) (l : list str) : bool := existsb (str_eqb s) l.
Fixpoint nats_eqb (a b : list nat) : bool :=
  match a, b with
  | [], [] => true
  | x :: a', y :: b' => (x =? y)%nat && nats_eqb a' b'
  | _, _ => false
  end.
(** na_content_collector.py:222-226. *)
Fixpoint axes_identical (a b : list axis) : Res bool :=
  match a, b with
  | x :: a', y :: b' => (do i <- areAxesIdentical x y; if i then axes_identical a' b' else Ok false)%res
  | _, _ => Ok true
  end.
(** [ffis_limited] (None is False), NVPM, main, auxiliary and unused variables. *)
Record sorting := mkSort {
  s_limited : option (list Z);
  s_nvpm : option nat;
  s_main : list xvar;
  s_aux : list xvar;
  s_unused : list xvar
}.
Definition add_main v s := mkSort (s_limited s) (s_nvpm s) (s_main s ++ [v]) (s_aux s) (s_unused s).
Definition add_aux v s := mkSort (s_limited s) (s_nvpm s) (s_main s) (s_aux s ++ [v]) (s_unused s).
Definition add_unused v s := mkSort (s_limited s) (s_nvpm s) (s_main s) (s_aux s) (s_unused s ++ [v]).
Definition only_1020 (s : sorting) : bool := match s_limited s with Some [1020%Z] => true | _ => false end.

(** na_content_collector.py:180-229, the body of the loop. *)
Definition sort_var (best : xvar) (zero_ids : list str) (v : xvar) (s : sorting) : Res sorting :=
  (if mem_str (v_name v) zero_ids then Ok s
   else if negb (nats_eqb (shape v) (shape best)) then
     match v_axes v with
     | [first_axis] =>
         do b0 <- nth_res (v_axes best) 0;
         do same <- areAxesIdentical b0 first_axis;
         if negb same then
           do nvpm <- isAxisRegularlySpacedSubsetOf first_axis b0;
           match nvpm with
           | Some (S n) => Ok (mkSort (Some [1020%Z]) (Some (S n)) (s_main s) (s_aux s) (s_unused s))
           | _ => Ok (add_unused v s)
           end
         else if only_1020 s then Ok (add_unused v s) else Ok (add_aux v s)
     | _ => Ok (add_unused v s)
     end
   else
     do same <- axes_identical (v_axes best) (v_axes v);
     Ok (if same then add_main v s else add_unused v s))%res.

(** na_content_collector.py:242-284 [_reorderVarsIfPreviouslyNA], for one list. *)
Fixpoint set_nth {A} (l : list A) (i : nat) (x : A) : list A :=
  match l, i with
  | [], _ => []
  | _ :: t, O => x :: t
  | y :: t, S i' => y :: set_nth t i' x
  end.
Definition slot (z : Z) : Res nat :=
  if ((0 <=? z) && (z <? 1000))%Z then Ok (Z.to_nat z)
  else if ((-1000 <=? z) && (z <? 0))%Z then Ok (Z.to_nat (z + 1000))
  else Err EIndexError.
Definition reorder_step (att : str) (v : xvar) (st : list (option xvar) * list xvar) : Res (list (option xvar) * list xvar) :=
  match n_attr (v_info v) att with
  | None => Ok (fst st, snd st ++ [v])
  | Some g =>
      (do z <- as_int (g_val g);
       do i <- slot z;
       Ok (set_nth (fst st) i (Some v), snd st))%res
  end.
Definition somes {A} (l : list (option A)) : list A :=
  flat_map (fun o => match o with Some x => [x] | None => [] end) l.
Definition reorder (att : str) (vs : list xvar) : Res (list xvar) :=
  (do st <- forR vs (reorder_step att) (repeat None 1000, []);
   Ok (somes (fst st) ++ snd st))%res.

(** na_content_collector.py:286-320 [_decideFileFormatIndex]; [requested] is None
    or an FFI (0 counts as None).  Lines 313: NAUXV is never in the dictionary
    at this point. *)
Definition truthy (r : option Z) : bool := match r with Some z => negb (z =? 0)%Z | None => false end.
Definition decideFileFormatIndex (requested : option Z) (ndims : nat) (n_aux : nat) (limited : option (list Z)) : Res Z :=
  let req := match requested with Some z => z | None => 0%Z end in
  match (if truthy requested then limited else None) with
  | Some l => if existsb (Z.eqb req) l then Ok req else Err (ENappy E_RequestedFFI)
  | None =>
      (do ffi <-
         (if (4 <? ndims)%nat then Err (ENappy E_Other)
          else if (2 <? ndims)%nat then Ok (10 + Z.of_nat ndims * 1000)%Z
          else if (ndims =? 2)%nat then Ok (if existsb (Z.eqb req) [2010; 2110; 2310]%Z then req else 2010%Z)
          else Ok (if (0 <? n_aux)%nat then 1010%Z else 1001%Z));
       if truthy requested && negb (ffi =? req)%Z then Err (ENappy E_RequestedFFI) else Ok ffi)%res
  end.

(** na_content_collector.py:113-240 [_analyseVariables]. *)
Record analysis := mkAn {
  a_main : list xvar;
  a_aux : list xvar;
  a_unused : list xvar;
  a_zero : list xvar;
  a_niv : nat;
  a_nvpm : option nat;
  a_ffi : Z
}.
Definition analyseVariables (requested : option Z) (vars : list xvar) : Res (option analysis) :=
  let zero := filter (fun v => (rank v =? 0)%nat) vars in
  match find_best 0 vars None with
  | None => Ok None
  | Some (i, best) =>
      (do limited <-
         (if (rank best =? 2)%nat then
            do ax <- nth_res (v_axes best) 1;
            do _ <- nth_res (ax_nums ax) 0;
            Ok (Some ([2010; 2110]%Z ++ if e_uniform E (ax_nums ax) then [2310%Z] else []))
          else Ok None);
       do s <- forR (firstn i vars ++ skipn (S i) vars) (sort_var best (map v_name zero))
                 (mkSort limited None [best] [] []);
       do main <- reorder (lit "nasa_ames_var_number") (s_main s);
       do aux <- reorder (lit "nasa_ames_aux_var_number") (s_aux s);
       do ffi <- decideFileFormatIndex requested (rank best) (length aux) (s_limited s);
       Ok (Some (mkAn main aux (s_unused s) zero (rank best) (s_nvpm s) ffi)))%res
  end.

(** ** The dictionary *)
Definition nums (l : list num) : pyv := PList (map PNum l).
Definition push (d : na) (k : key) (v : pyv) : Res na :=
  (do l <- app_item v (attr d k); Ok (upd d k l))%res.
(** [l] has one difference throughout: the loops of :379-382 and :498-503;
    [diff] is the subtraction used there. *)
Definition uniform (incr : num) (l : list num) : bool :=
  forallb (fun p => num_same (num_minus (snd p) (fst p)) incr) (combine l (tl l)).

(** The values of an axis as they are in [axis.data]: the dates of a datetime axis
    are objects, of which only this matters: they are no numbers, and the
    difference of two of them is none either.  [PNone] stands for such objects. *)
Definition ax_items (ax : axis) : list pyv :=
  if is_time ax then map (fun _ => PNone) (ax_vals ax) else map PNum (ax_vals ax).

(** na_content_collector.py:478-512 [_appendAxisDefinition].  On a datetime axis
    [incr] is a number (xarray_utils.py:298-299) and [axis[i] - axis[i - 1]] (:499)
    a period of time, so that the two always differ.
    Simplification: the slice of the axis that is stored in X (:512) is the list
    of its numbers. *)
Definition appendAxisDefinition (ax : axis) (d : na) : Res na :=
  (let length := ax_len ax in
   do d <- push d kNX (PInt (Z.of_nat length));
   do name <- getBestName (ax_info ax);
   do d <- push d kXNAME (PStr name);
   if (length <? 2)%nat then
     do d <- push d kDX (PInt 0);
     do d <- push d kNXDEF (PInt (Z.of_nat length));
     push d kX (PList (ax_items ax))
   else
     do incr <- interval (ax_nums ax) 0 1;
     if negb (is_time ax) && uniform incr (ax_vals ax) then
       let max_length := if (3 <? length)%nat then 3%nat else length in
       do d <- push d kDX (PNum incr);
       do d <- push d kNXDEF (PInt (Z.of_nat max_length));
       push d kX (nums (firstn max_length (ax_vals ax)))
     else
       do d <- push d kDX (PInt 0);
       do d <- push d kNXDEF (PInt (Z.of_nat length));
       push d kX (PList (ax_items ax)))%res.

(** [l[0:len(l):n]]. *)
Fixpoint every (n k : nat) (l : list num) : list num :=
  match l with
  | [] => []
  | x :: t => match k with O => x :: every n (pred n) t | S k' => every n k' t end
  end.

(** na_content_collector.py:359-450: the independent variables, from the first
    variable. *)
Definition number_name (x : str) : str := lit "Number of '" ++ x ++ lit "' values recorded in subsequent data records".
Definition defineAxes (ffi : Z) (nvpm : option nat) (v : xvar) (d : na) : Res na :=
  let d := upd (upd d kNXDEF (PList [])) kNX (PList []) in
  (do ax0 <- nth_res (v_axes v) 0;
   let vals := ax_nums ax0 in
   do name <- getBestName (ax_info ax0);
   let d := upd d kXNAME (PList [PStr name]) in
   do dx0 <-
     (if (ax_len ax0 =? 1)%nat then Ok (PInt 0)
      else do incr <- interval vals 0 1; Ok (if uniform incr vals then PNum incr else PInt 0));
   let d := upd d kDX (PList [dx0]) in
   do d <-
     (if (ffi =? 1020)%Z then
        do n <- of_opt EKeyError nvpm;
        if (n =? 0)%nat then Err EValueError else Ok (upd d kX (nums (every n 0 vals)))
      else if existsb (Z.eqb ffi) [1001; 1010]%Z then Ok (upd d kX (nums vals))
      else Ok (upd d kX (PList [nums vals])));
   do d <- forR (skipn 1 (v_axes v)) appendAxisDefinition d;
   if existsb (Z.eqb ffi) [2110; 2310]%Z then
     do ax1 <- nth_res (v_axes v) 1;
     let each (x : pyv) := map (fun _ => x) (ax_vals ax0) in
     let len2 := PInt (Z.of_nat (ax_len ax1)) in
     let newx := map (fun x => PList [x; PList (ax_items ax1)]) (ax_items ax0) in
     let newnx := each len2 in
     if (ffi =? 2110)%Z then
       let d := upd (upd d kNX (PList newnx)) kX (PList newx) in
       let d := upd (upd d kA (PList [PList newnx])) kANAME (PList [PStr (number_name name)]) in
       Ok (upd (upd d kAMISS (PList [PNum (e_aux_miss E)])) kASCAL (PList [PNum (e_one E)]))
     else
       do incr <- interval (ax_vals ax1) 0 1;
       do x0 <- nth_res (ax_items ax1) 0;
       let newdx := each (if is_time ax1 then PNone else PNum incr) in
       let d := upd (upd (upd d kNX (PList newnx)) kX (PList newx)) kDX (PList newdx) in
       let d := upd d kA (PList [PList newnx; PList (each x0); PList newdx]) in
       let d := upd d kANAME (PList (map PStr [number_name name; lit "'" ++ name ++ lit "' value for first data point";
                                                lit "'" ++ name ++ lit "' increment"])) in
       Ok (upd (upd d kAMISS (PList (repeat (PNum (e_aux_miss E)) 3))) kASCAL (PList (repeat (PNum (e_one E)) 3)))
   else Ok d)%res.

(** na_content_collector.py:345-356 and :465-474: one variable. *)
Definition defineVar (kname kmiss kscal kvals : key) (v : xvar) (d : na) : Res na :=
  (do name <- getBestName (v_info v);
   do d <- push d kname (PStr name);
   do miss <- getMissingValue (e_fill E) v;
   do d <- push d kmiss miss;
   do d <- push d kscal (PInt 1);
   do vals <- getArrayAsList v miss;
   push d kvals vals)%res.
(** na_content_collector.py:334-450 [_defineNAVars]; the order of exceptions is
    not modelled (the axes are defined after the first variable). *)
Definition defineNAVars (ffi : Z) (nvpm : option nat) (vars : list xvar) (d : na) : Res na :=
  let d := upd d kNV (PInt (Z.of_nat (length vars))) in
  let d := fold_left (fun d k => upd d k (PList [])) [kVNAME; kVMISS; kVSCAL; kV] d in
  (do d <- forR vars (defineVar kVNAME kVMISS kVSCAL kV) d;
   match vars with
   | [] => Ok d
   | v :: _ => defineAxes ffi nvpm v d
   end)%res.
(** na_content_collector.py:453-476 [_defineNAAuxVars]. *)
Definition defineNAAuxVars (aux : list xvar) (d : na) : Res na :=
  let d := fold_left (fun d k => match d k with None => upd d k (PList []) | Some _ => d end) [kANAME; kAMISS; kASCAL; kA] d in
  (do d <- forR aux (defineVar kANAME kAMISS kASCAL kA) d;
   do a <- as_list (attr d kA);
   Ok (upd d kNAUXV (PInt (Z.of_nat (length a)))))%res.

(** ** Global attributes *)
(** The dictionary, the special, normal and other comments
    ([self.extra_comments]) and [self.history]. *)
Record gst := mkGst { gs_na : na; gs_special : list str; gs_normal : list str; gs_other : list str; gs_history : list str }.
(** na_content_collector.py:565-589: sorting the lines of a comment.  [sp] and
    [nm] are the two flags. *)
Fixpoint sort_comments (ls : list str) (sp nm : bool) : list str * list str :=
  match ls with
  | [] => ([], [])
  | l :: t =>
      if contains hp_sc_start l then sort_comments t true nm
      else if contains hp_sc_end l then sort_comments t false nm
      else if contains hp_nc_start l then sort_comments t sp true
      else if contains hp_nc_end l then sort_comments t sp false
      else
        let (s, n) := sort_comments t sp nm in
        if sp then (l :: s, n)
        else if nm then (s, l :: n)
        else if contains hp_data_next l then (s, n)
        else (s, l :: n)
  end.
(** na_content_collector.py:536-546. *)
Definition history_lines (value : str) : list str :=
  let history := lit "History:  " ++ e_now E ++ lit " - Converted to NASA Ames format using nappy-" ++ e_version E ++ lit "." ++ nl
                 ++ lit "  " ++ value in
  map (fun h => if str_eqb (firstn 8 h) (lit "History:") then h else lit "  " ++ h) (split_chr c_nl history).
(** config/nappy.ini:35-47, section nc_to_na_map: the plain entries. *)
Definition plain_map : list (str * key) :=
  [(lit "source", kSNAME); (lit "title", kMNAME); (lit "file_format_index", kFFI); (lit "no_of_nasa_ames_header_lines", kNLHEAD);
   (lit "total_files_in_set", kNVOL); (lit "file_number_in_set", kIVOL)].
(** A date that is a numpy array, as xarray reads it from a NetCDF file, is a list
    here: it is only indexed when it is written, and [Model/NumpyDate] has the one
    place where it is something else.  Simplification: a numpy scalar as a date is
    not modelled. *)
Definition numpy_scalar (g : gval) : bool := g_np g && match g_val g with PList _ => false | _ => true end.
(** na_content_collector.py:529-609, one attribute. *)
Definition global_item (p : str * gval) (s : gst) : Res gst :=
  let (k, g) := p in
  let python := negb (g_np g) && match g_val g with PStr _ | PInt _ | PNum _ => true | _ => false end in
  if str_eqb k (lit "first_valid_date_of_data") then
    if numpy_scalar g then Err EUnmodelled
    else Ok (mkGst (upd (gs_na s) kDATE (g_val g)) (gs_special s) (gs_normal s) (gs_other s) (gs_history s))
  else if negb python then Ok s
  else if str_eqb k (lit "history") then
    (do t <- fmt_s (g_val g); Ok (mkGst (gs_na s) (gs_special s) (gs_normal s) (gs_other s) (history_lines t)))%res
  else if str_eqb k (lit "institution") then
    match g_val g with
    | PStr t =>
        let (o, r) := match institution_match t with Some p => p | None => (t, t) end in
        let clean := replace_str nl (lit "  ") in
        Ok (mkGst (upd (upd (gs_na s) kONAME (PStr (clean o))) kORG (PStr (clean r)))
              (gs_special s) (gs_normal s) (gs_other s) (gs_history s))
    | _ => Err ETypeError
    end
  else if str_eqb k (lit "comment") then
    match g_val g with
    | PStr t =>
        let (sp, nm) := sort_comments (split_chr c_nl t) false false in
        Ok (mkGst (gs_na s) (gs_special s ++ sp) (gs_normal s ++ nm) (gs_other s) (gs_history s))
    | _ => Err EAttributeError
    end
  else match lookup k plain_map with
       | Some key => Ok (mkGst (upd (gs_na s) key (g_val g)) (gs_special s) (gs_normal s) (gs_other s) (gs_history s))
       | None =>
           (do t <- fmt_s (g_val g);
            Ok (mkGst (gs_na s) (gs_special s) (gs_normal s) (gs_other s ++ [k ++ lit ":   " ++ t]) (gs_history s)))%res
       end.
(** na_content_collector.py:514-609 [_defineNAGlobals]. *)
Definition defineNAGlobals (globals : list (str * gval)) (d : na) : Res gst :=
  forR globals global_item (mkGst d [] [] [] []).

(** ** Comments *)
(** [isinstance(value, str)], [np.isscalar(value)]. *)
Definition scalar (v : pyv) : bool := match v with PStr _ | PInt _ | PNum _ => true | _ => false end.
Definition used_var_atts : list str :=
  map lit ["id"; "missing_value"; "fill_value"; "nasa_ames_var_number"; "nasa_ames_aux_var_number"]%pylit.
Definition att_line (att : str) (v : pyv) : Res str :=
  (do t <- fmt_s v; Ok (lit "    " ++ att ++ lit " = " ++ t))%res.
Definition var_line (v : xvar) (name : str) : str := lit "  Variable " ++ v_name v ++ lit ": " ++ name.
(** na_content_collector.py:670-683. *)
Definition rank_zero_lines (zero : list xvar) : Res (list str) :=
  (do ls <- mapR (fun v =>
     do name <- getBestName (v_info v);
     do atts <- mapR (fun p => att_line (fst p) (g_val (snd p))) (filter (fun p => scalar (g_val (snd p))) (n_attrs (v_info v)));
     Ok (var_line v name :: atts)) zero;
   Ok (match concat ls with [] => [] | l => [hp_sing_start] ++ l ++ [hp_sing_end] end))%res.
(** na_content_collector.py:693-696: the value that is shown, if any. *)
Definition shown (att : str) (v : pyv) : option pyv :=
  let v := match v with PList [x] => x | _ => v end in
  match v with
  | PStr _ => Some v
  | PInt _ | PNum _ => if mem_str att used_var_atts then None else Some v
  | _ => None
  end.
(** SCOM, [spec_comm_flag], [var_comm_flag] *)
Record sst := mkSst { ss_scom : list str; ss_spec : bool; ss_var : bool }.
(** na_content_collector.py:692-712, the attributes of one variable.
    [written] is [var_name_written]. *)
Fixpoint var_comments (zero_lines : list str) (v : xvar) (name : str) (atts : list (str * gval)) (written : bool) (s : sst) : Res sst :=
  match atts with
  | [] => Ok s
  | (att, g) :: t =>
      match shown att (g_val g) with
      | None => var_comments zero_lines v name t written s
      | Some value =>
          (let s1 := if ss_spec s then ss_scom s
                     else ([hp_sc_start] ++ zero_lines) ++ [hp_addl_vatts; hp_ncatts_start] in
           let s2 := if written then s1 else s1 ++ [var_line v name] in
           do l <- att_line att value;
           var_comments zero_lines v name t true (mkSst (s2 ++ [l]) true true))%res
      end
  end.
(** na_content_collector.py:719-742: blank entries are dropped, entries with
    several lines are split and indented. *)
Definition clean_entry (c : str) : list str :=
  if is_nil (strip c) then []
  else
    let ls := split_chr c_nl c in
    map (fun l => if str_eqb l (hd [] ls) then l else lit "  " ++ l) ls.
Definition clean (c : list str) : list str := flat_map clean_entry c.
(** na_content_collector.py:618-649, before cleaning. *)
Definition ncom_of (g : gst) : list str :=
  let l := gs_other g ++ (match gs_normal g with [] => [] | n => hp_addl_globals :: n end) ++ gs_history g in
  match l with
  | [] => []
  | _ => [hp_nc_start] ++ l ++ [[]; hp_nc_end; hp_data_next]
  end.
(** na_content_collector.py:651-717, before cleaning. *)
Definition scom_of (g : gst) (zero main : list xvar) : Res (list str) :=
  (do zl <- rank_zero_lines zero;
   let s0 := match gs_special g with [] => mkSst [] false false | sp => mkSst (hp_sc_start :: sp) true false end in
   do s <- forR main (fun v s => do name <- getBestName (v_info v); var_comments zl v name (n_attrs (v_info v)) false s) s0;
   Ok (ss_scom s ++ (if ss_var s then [hp_ncatts_end] else []) ++ (if ss_spec s then [hp_sc_end] else [])))%res.
(** na_content_collector.py:611-749 [_defineNAComments]. *)
Definition defineNAComments (g : gst) (zero main : list xvar) : Res na :=
  let ncom := clean (ncom_of g) in
  (do sc <- scom_of g zero main;
   let scom := clean sc in
   let d := upd (upd (gs_na g) kNCOM (PList (map PStr ncom))) kNNCOML (PInt (Z.of_nat (length ncom))) in
   Ok (upd (upd d kSCOM (PList (map PStr scom))) kNSCOML (PInt (Z.of_nat (length scom)))))%res.

(** na_content_collector.py:751-798 [_defineGeneralHeader].
    Simplification: RDATE is never in the dictionary before. *)
Definition ints (l : list Z) : pyv := PList (map PInt l).
Definition defineGeneralHeader (ax0 : axis) (d : na) : na :=
  let d := upd d kRDATE (ints (e_today E)) in
  let unknown := ints [999; 999; 999]%Z in
  let d :=
    if is_time ax0 then
      upd d kDATE (match ax_nums ax0 with
                   | [] => unknown
                   | x :: _ => if is_nil (n_enc_units (ax_info ax0)) then unknown
                               else match e_date E x (n_enc_units (ax_info ax0)) with Some l => ints l | None => unknown end
                   end)
    else match d kDATE with None => upd d kDATE unknown | Some _ => d end in
  upd (upd d kIVOL (PInt 1)) kNVOL (PInt 1).

(** na_content_collector.py:82-111 [collectNAContent]; [c_na] is None when
    [found_na] stays false. *)
Record collected := mkCol { c_na : option na; c_main : list xvar; c_aux : list xvar; c_zero : list xvar; c_unused : list xvar }.
Definition collectNAContent (requested : option Z) (globals : list (str * gval)) (vars : list xvar) : Res collected :=
  (do a <- analyseVariables requested vars;
   match a with
   | None => Ok (mkCol None [] [] [] [])
   | Some a =>
       let d := upd na_empty kNIV (PInt (Z.of_nat (a_niv a))) in
       let d := match a_nvpm a with Some n => upd d kNVPM (PInt (Z.of_nat n)) | None => d end in
       let d := upd (upd d kFFI (PInt (a_ffi a))) kNLHEAD (PInt (-999)) in
       do d <- defineNAVars (a_ffi a) (a_nvpm a) (a_main a) d;
       do d <- defineNAAuxVars (a_aux a) d;
       do g <- defineNAGlobals globals d;
       do d <- defineNAComments g (a_zero a) (a_main a);
       do v <- nth_res (a_main a) 0;
       do ax0 <- nth_res (v_axes v) 0;
       Ok (mkCol (Some (defineGeneralHeader ax0 d)) (a_main a) (a_aux a) (a_zero a) (a_unused a))
   end)%res.

(** ** xarray_to_na.py *)
(** xarray_to_na.py:132-155 [_convertSingletonVars]: rank-zero variables get
    their best name as name and their value as an attribute.
    [get_rank_zero_array_value] is left out: [v_data] is the value. *)
Definition set_attr (k : str) (g : gval) (l : list (str * gval)) : list (str * gval) :=
  if mem_str k (map fst l) then map (fun p => if str_eqb (fst p) k then (k, g) else p) l else l ++ [(k, g)].
Definition convertSingleton (v : xvar) : Res xvar :=
  (if (rank v =? 0)%nat then
     do name <- getBestName (v_info v);
     Ok (mkVar (mkNamed name (set_attr (lit "value") (mkG true (v_data v)) (n_attrs (v_info v))) []) [] (v_data v) None None)
   else Ok v)%res.
(** xarray_to_na.py:157-195 [_reorderVars].  [hasattr(var_metadata, ...)] asks a
    dict for an attribute and is always false, so the order is kept. *)
Definition reorderVars (vars : list xvar) : Res (list xvar) :=
  if (5000 <? length vars)%nat then Err ETypeError
  else
    let dim_names := flat_map (fun v => map ax_name (v_axes v)) vars in
    Ok (filter (fun v => negb (mem_str (v_name v) dim_names)) vars).

(** xarray_to_na.py:111-121, the [while] loop.  [fuel] is a bound on the number
    of iterations; every collection leaves fewer variables. *)
Fixpoint convert_loop (fuel : nat) (requested : option Z) (globals : list (str * gval)) (unused : list xvar) : Res (list collected) :=
  match unused with
  | [] => Ok []
  | _ =>
      match fuel with
      | O => Err EHang
      | S fuel' =>
          (do c <- collectNAContent requested globals unused;
           do rest <- convert_loop fuel' requested globals (c_unused c);
           Ok (match c_na c with Some _ => c :: rest | None => rest end))%res
      end
  end.
(** xarray_to_na.py:71-130 [convert]; None is the return value None. *)
Definition convert (requested : option Z) (globals : list (str * gval)) (xr_variables : list xvar) : Res (option (list collected)) :=
  (do vars <- mapR convertSingleton xr_variables;
   do vars <- reorderVars vars;
   do c <- collectNAContent requested globals vars;
   match c_na c with
   | None => Ok None
   | Some _ =>
       do rest <- convert_loop (length (c_unused c)) requested globals (c_unused c);
       Ok (Some (c :: rest))
   end)%res.
End Collector.
Arguments env : clear implicits. Arguments collected : clear implicits.
