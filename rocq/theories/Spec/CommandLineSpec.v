(** The command lines of nc2na, nc2csv and na2nc as a user writes them: a list
    of options with their values (the usage texts nc2na.py:12-39 and
    na2nc.py:11-31). *)
From Coq Require Import List NArith ZArith Bool.
From Verif Require Import Py.Str Py.Num.
Import ListNotations.

Definition flatten (l : list (str * str)) : list str := flat_map (fun p => [fst p; snd p]) l.
Definition no_comma (s : str) : Prop := ~ In c_comma s.

(** The last of the values given for a setting. *)
Definition last_of {O A} (f : O -> option A) (l : list O) : option A :=
  hd_error (rev (flat_map (fun o => match f o with Some x => [x] | None => [] end) l)).
Definition given {O} (f : O -> bool) (l : list O) : bool := existsb f l.
Definition or_else {A} (d : A) (o : option A) : A := match o with Some x => x | None => d end.
Definition commas (l : list str) : str := join (lit ",") l.

(** An option and its value as one word or as two. *)
Definition short (c : str) (joined : bool) (v : str) : list str := if joined then [c ++ v] else [c; v].
Definition long (c : str) (joined : bool) (v : str) : list str := if joined then [c ++ lit "=" ++ v] else [c; v].

(** ** nc2na and nc2csv *)
Inductive nc_opt :=
| OIn (f : str) | OOut (f : str) | OVars (l : list str) | OFfi (z : Z) | OFormat (f : str) | ODelim (d : str)
| OExclude (l : list str) | OMeta (l : list (str * str)) | ONamesOnly | ONoHeader | OAnnotated.
Definition nc_words (p : bool * nc_opt) : list str :=
  let j := fst p in
  match snd p with
  | OIn f => short (lit "-i") j f
  | OOut f => short (lit "-o") j f
  | OVars l => short (lit "-v") j (commas l)
  | OFfi z => long (lit "--ffi") j (dec_of_Z z)
  | OFormat f => short (lit "-f") j f
  | ODelim d => short (lit "-d") j d
  | OExclude l => short (lit "-e") j (commas l)
  | OMeta l => long (lit "--overwrite-metadata") j (commas (flatten l))
  | ONamesOnly => [lit "--names-only"]
  | ONoHeader => [lit "--no-header"]
  | OAnnotated => [lit "--annotated"]
  end.
(** What can be said on a command line: names without commas, each key of the
    metadata once; a value that is written in one word with a short option is not
    empty. *)
Definition nc_sayable (p : bool * nc_opt) : Prop :=
  let one_word s := fst p = true -> s <> [] in
  match snd p with
  | OIn s | OOut s | OFormat s | ODelim s => one_word s
  | OVars l | OExclude l => l <> [] /\ Forall no_comma l /\ one_word (commas l)
  | OMeta l => l <> [] /\ Forall no_comma (flatten l) /\ NoDup (map fst l)
  | _ => True
  end.
Definition f_in (o : nc_opt) := match o with OIn f => Some f | _ => None end.
Definition f_out (o : nc_opt) := match o with OOut f => Some f | _ => None end.
Definition f_vars (o : nc_opt) := match o with OVars l => Some l | _ => None end.
Definition f_ffi (o : nc_opt) := match o with OFfi z => Some z | _ => None end.
Definition f_format (o : nc_opt) := match o with OFormat f => Some f | _ => None end.
Definition f_delim (o : nc_opt) := match o with ODelim d => Some d | _ => None end.
Definition f_exclude (o : nc_opt) := match o with OExclude l => Some l | _ => None end.
Definition f_meta (o : nc_opt) := match o with OMeta l => Some l | _ => None end.
Definition is_names_only (o : nc_opt) := match o with ONamesOnly => true | _ => false end.
Definition is_no_header (o : nc_opt) := match o with ONoHeader => true | _ => false end.
Definition is_annotated (o : nc_opt) := match o with OAnnotated => true | _ => false end.
(** Which setting an option is about. *)
Definition nc_kind (o : nc_opt) : nat :=
  match o with
  | OIn _ => 0 | OOut _ => 1 | OVars _ => 2 | OFfi _ => 3 | OFormat _ => 4 | ODelim _ => 5
  | OExclude _ => 6 | OMeta _ => 7 | ONamesOnly => 8 | ONoHeader => 9 | OAnnotated => 10
  end.

(** ** na2nc *)
Inductive na_opt :=
| AIn (f : str) | AOut (f : str) | AMode (m : str) | AGlobals (l : list (str * str)) | ARename (l : list (str * str))
| AUnits (u : str) | ANoWarning.
Definition na_words (p : bool * na_opt) : list str :=
  let j := fst p in
  match snd p with
  | AIn f => short (lit "-i") j f
  | AOut f => short (lit "-o") j f
  | AMode m => short (lit "-m") j m
  | AGlobals l => short (lit "-g") j (commas (flatten l))
  | ARename l => short (lit "-r") j (commas (flatten l))
  | AUnits u => short (lit "-t") j u
  | ANoWarning => [lit "-n"]
  end.
Definition na_sayable (p : bool * na_opt) : Prop :=
  let one_word s := fst p = true -> s <> [] in
  match snd p with
  | AIn s | AOut s | AMode s | AUnits s => one_word s
  | AGlobals l => l <> [] /\ Forall no_comma (flatten l)
  | ARename l => l <> [] /\ Forall no_comma (flatten l) /\ NoDup (map fst l)
  | ANoWarning => True
  end.
Definition g_in (o : na_opt) := match o with AIn f => Some f | _ => None end.
Definition g_out (o : na_opt) := match o with AOut f => Some f | _ => None end.
Definition g_mode (o : na_opt) := match o with AMode m => Some m | _ => None end.
Definition g_globals (o : na_opt) := match o with AGlobals l => Some l | _ => None end.
Definition g_rename (o : na_opt) := match o with ARename l => Some l | _ => None end.
Definition g_units (o : na_opt) := match o with AUnits u => Some u | _ => None end.
Definition is_no_warning (o : na_opt) := match o with ANoWarning => true | _ => false end.
