(** Vocabulary for configuration files (properties C94 to C97): what a file with
    sections, options and remarks says. *)
From Coq Require Import List NArith ZArith Bool.
From Verif Require Import Py.Str Py.Res Py.Num Model.Dict Model.CommonUtils Spec.TextSpec Spec.CommandLineSpec Spec.ProgramSpec Model.NAWrite Model.NCWrite Model.ParseConfig Model.ConfigCache.
Import ListNotations.

(** White space within a line; a text without white space around it. *)
Definition tidy_text (s : str) : Prop := strip s = s.
(** A remark: a line that starts with # or ;, or an empty line. *)
Definition comment_line (l : str) : Prop := exists b c t, l = b ++ c :: t /\ blank b /\ (c = c_hash \/ c = c_semi).
Definition remark (l : str) : Prop := comment_line l \/ blank l.
(** The lines after the first line of a value: comments are left out, empty lines
    count, the others are indented. *)
Inductive more_lines : list str -> list str -> Prop :=
| more_none : more_lines [] []
| more_comment l ls vs : comment_line l -> more_lines ls vs -> more_lines (l :: ls) vs
| more_empty l ls vs : blank l -> more_lines ls vs -> more_lines (l :: ls) ([] :: vs)
| more_text b w b' ls vs : b <> [] -> blank b -> w <> [] -> tidy_text w -> ~ comment_line w -> blank b' -> more_lines ls vs ->
    more_lines ((b ++ w ++ b') :: ls) (w :: vs).
(** An option: name, = or :, and a value that may go on in more lines. *)
Definition option_name (n : str) : Prop :=
  tidy_text n /\ ~ In c_eq n /\ ~ In c_colon n /\ exists c t, n = c :: t /\ c <> c_lbrack /\ c <> c_hash /\ c <> c_semi.
Inductive option_text : str * str -> list str -> Prop :=
| option_lines n b1 c b2 w b3 ls vs : option_name n -> blank b1 -> (c = c_eq \/ c = c_colon) -> blank b2 -> tidy_text w -> blank b3 -> more_lines ls vs ->
    option_text (n, rstrip (join nl (w :: vs))) ((n ++ b1 ++ [c] ++ b2 ++ w ++ b3) :: ls).
(** A section: its name in brackets, remarks, and the options. *)
Inductive section_text : str * list (str * str) -> list str -> Prop :=
| section_lines n b rs options os : n <> [] -> n <> default_section -> blank b -> Forall remark rs -> Forall2 option_text options os ->
    NoDup (map fst options) ->
    section_text (n, options) (([c_lbrack] ++ n ++ [c_rbrack] ++ b) :: rs ++ concat os).
(** A file. *)
Inductive config_text : list (str * list (str * str)) -> list str -> Prop :=
| config_lines conf rs ss : Forall remark rs -> Forall2 section_text conf ss -> NoDup (map fst conf) -> config_text conf (rs ++ concat ss).
Definition proper_lines (ls : list str) : Prop := forall l, In l ls -> ~ In c_nl l /\ ~ In c_cr l.

(** A text with every mark for a blank replaced. *)
Definition space_mark : str := lit "__space__".
Inductive blanks : str -> str -> Prop :=
| blanks_end : blanks [] []
| blanks_mark s t : blanks s t -> blanks (space_mark ++ s) (c_sp :: t)
| blanks_other c s t : (forall r, c :: s <> space_mark ++ r) -> blanks s t -> blanks (c :: s) (c :: t).
(** A text with the sign & stands for several texts. *)
Inductive stands_for : str -> entry -> Prop :=
| stands_one s : ~ In c_amp s -> stands_for s (One s)
| stands_many l : (2 <= length l)%nat -> Forall (fun s => ~ In c_amp s) l -> stands_for (join [c_amp] l) (Tuple l).
Definition entry_of (p : str * str) (q : entry * entry) : Prop :=
  stands_for (fst p) (fst q) /\ exists w, blanks (snd p) w /\ stands_for w (snd q).
Definition section_of (p : str * list (str * str)) (q : str * list (entry * entry)) : Prop :=
  fst p = fst q /\ Forall2 entry_of (snd p) (snd q).

(** The calls among the actions (C95). *)
Definition calls (l : list action) : list str := flat_map (fun a => match a with Call cf => [cf] | _ => [] end) l.
Definition no_item_set (l : list action) : Prop := forall k s i v, ~ In (SetItem k s i v) l.

(** What a text says about an item of the header (C96): the names of variables
    and the dates are words, the others are the text itself. *)
Section Header.
Context {num : Type}.
Definition header_items : list (str * key) :=
  [(lit "DATE", kDATE); (lit "RDATE", kRDATE); (lit "ANAME", kANAME); (lit "VNAME", kVNAME);
   (lit "MNAME", kMNAME); (lit "ONAME", kONAME); (lit "ORG", kORG); (lit "SNAME", kSNAME)].
Inductive says : key -> str -> pyv num -> Prop :=
| says_text k s : In k [kMNAME; kONAME; kORG; kSNAME] -> says k s (PStr s)
| says_names k s : In k [kANAME; kVNAME] -> says k s (PList (map PStr (split_ws s)))
| says_date k s l : In k [kDATE; kRDATE] -> Forall2 (fun w z => int_of_str w = Some z) (split_ws s) l -> says k s (PList (map PInt l)).
(** The dictionary [d'] is [d] with the header items of the command line, and
    those of the local attributes that the command line does not mention. *)
Definition overridden (local command : list (str * str)) (d d' : na num) : Prop :=
  (forall n k, In (n, k) header_items ->
     match last_with fst n command, last_with fst n local with
     | Some (_, text), _ | None, Some (_, text) => exists x, says k text x /\ d' k = Some x
     | None, None => d' k = d k
     end) /\
  forall k, ~ In k (map snd header_items) -> ~ In k [kSCOM; kNCOM; kNSCOML; kNNCOML] -> d' k = d k.
(** The text that is written for a dictionary. *)
Definition text_of `{NumOps num} (o : opts num) (no_header : bool) (d : na num) (text : str) : Prop :=
  exists c d' st, openNAFile_w d = Ok (c, d') /\ write_body o c no_header (mkW [] [] d') = (Ok tt, st) /\ w_file st = text.
End Header.
