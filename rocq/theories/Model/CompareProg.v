(** The comparison of directories (nappy/utils/compare.py) and the programs
    compare.py and compare_na.py.

    Simplifications: directories are finite trees (no links that lead back);
    what is printed is a list of events, the usage text of [exitNicely] is left
    out. *)
From Coq Require Import List NArith ZArith Bool.
From Verif Require Import Py.Str Py.Res Model.CommonUtils Model.Getopt Model.CommandLine Model.Compare.
Import ListNotations.

(** A file with its text, or a directory with its entries in the order of
    [os.listdir]. *)
Inductive node := File (content : str) | Dir (items : list (str * node)).
Definition entries (n : node) : list (str * node) := match n with File _ => [] | Dir l => l end.
Fixpoint entry (l : list (str * node)) (name : str) : option node :=
  match l with
  | [] => None
  | (n, x) :: t => if str_eqb n name then Some x else entry t name
  end.

(** compare.py:25-28, 58-62: names of directories that are not compared.
    Simplification: the name has no newline. *)
Definition dir_excluded (name : str) : bool := contains (lit "CSV") name || contains (lit "svn") name.

(** What is reported about the entry at a path below the two directories. *)
Inductive event :=
| IgnoredDir (p : list str) | IgnoredFile (p : list str)
| NotFound (p : list str)                          (* the second directory has no such entry *)
| Compared (p : list str) (lines : list nat).      (* the (one based) lines that are printed *)
(** The events, and whether [exitNicely] ended the program. *)
Definition report : Type := list event * bool.
Definition then_ (a b : report) : report := if snd a then a else (fst a ++ fst b, snd b).

(** compare.py:83-116 [compFiles]; the first file exists.  [None]: there is no
    second item. *)
Definition comp_file (p : list str) (name : str) (content1 : str) (second : option node) : report :=
  if excluded name then ([IgnoredFile p], false)
  else match second with
       | Some (File content2) => ([Compared p (compFiles_from 1 (readlines content1) (readlines content2))], false)
       | _ => ([], true)
       end.
(** compare.py:52-80 [compDirs].  [dname]: the last part of the path of the
    first directory. *)
Fixpoint compDirs (p : list str) (dname : str) (d1 d2 : node) {struct d1} : report :=
  match d1 with
  | File _ => ([], false)
  | Dir items =>
      if dir_excluded dname then ([IgnoredDir p], false)
      else
        (fix loop (items : list (str * node)) : report :=
           match items with
           | [] => ([], false)
           | (name, n1) :: rest =>
               then_ (match entry (entries d2) name with
                      | None => ([NotFound (p ++ [name])], false)
                      | Some n2 =>
                          match n1 with
                          | Dir _ => compDirs (p ++ [name]) name n1 n2
                          | File c1 => comp_file (p ++ [name]) name c1 (Some n2)
                          end
                      end) (loop rest)
           end) items
  end.

(** [os.path.split(path)[-1]]: the text after the last slash. *)
Fixpoint last_part (s : str) : str :=
  match s with
  | [] => []
  | c :: t => if mem_chr c_slash s then last_part t else s
  end.
(** compare.py:38-49 [compare] and 119-125; [disk]: what there is at a path.
    When the second path does not exist, no entry of the first directory is
    found below it. *)
Definition compare (disk : str -> option node) (i1 i2 : str) : report :=
  match disk i1 with
  | Some (File c) => comp_file [] (last_part i1) c (disk i2)
  | Some d1 => compDirs [] (last_part i1) d1 (match disk i2 with Some d2 => d2 | None => Dir [] end)
  | None => ([], true)
  end.
Definition compare_main (disk : str -> option node) (args : list str) : report :=
  match args with
  | [i1; i2] => compare disk i1 i2
  | _ => ([], true)
  end.

(** ** compare_na.py *)
(** The dictionary that compare_na.py:210-248 [parseArgs] returns. *)
Record cmp_cmd := mkCmp { z_header : bool; z_body : bool; z_clever : bool; z_approx : bool; z_delim1 : option str; z_delim2 : option str }.
Definition cmp_defaults : cmp_cmd := mkCmp true true true false None None.
(** compare_na.py:226-241: one option. *)
Definition cmp_option (a : cmp_cmd) (p : option_value) : run cmp_cmd :=
  let (arg, value) := p in
  match a with
  | mkCmp h b n x d1 d2 =>
      if str_eqb arg (lit "--header-only") || str_eqb arg (lit "-h") then Done (mkCmp h false n x d1 d2)
      else if str_eqb arg (lit "--body-only") || str_eqb arg (lit "-b") then Done (mkCmp false b n x d1 d2)
      else if str_eqb arg (lit "--number-strict") || str_eqb arg (lit "-n") then Done (mkCmp h b false x d1 d2)
      else if str_eqb arg (lit "--approx-equal") || str_eqb arg (lit "-a") then Done (mkCmp h b n true d1 d2)
      else if str_eqb arg (lit "--delimiter-1") || str_eqb arg (lit "-1") then Done (mkCmp h b n x (Some value) d2)
      else if str_eqb arg (lit "--delimiter-2") || str_eqb arg (lit "-2") then Done (mkCmp h b n x d1 (Some value))
      else Exit
  end.
Definition cmp_short : str := lit "hbna1:2:".
Definition cmp_long : list str :=
  map lit ["header-only"; "body-only"; "number-strict"; "approx-equal"; "delimiter-1="; "delimiter-2="]%pylit.
(** compare_na.py:210-248 [parseArgs].  An error of getopt is not caught. *)
Definition cmp_parseArgs (args : list str) : run (list str * cmp_cmd) :=
  match getopt args cmp_short cmp_long with
  | OptError _ => Raise EGetopt
  | Opts (arg_list, files) =>
      bindX (each cmp_option arg_list cmp_defaults) (fun a =>
      if negb (Nat.eqb (length files) 2) then Exit
      else if negb (z_header a) && negb (z_body a) then Exit
      else Done (files, a))
  end.
(** compare_na.py:57-70 [compareNA].  The function [apply] of Python 2 does not
    exist in Python 3, and no module defines it. *)
Definition compareNA (disk : str -> option node) (i1 i2 : str) (a : cmp_cmd) : run report :=
  match disk i1 with
  | Some (File _) => Raise ENameError
  | Some d1 => Done (compDirs [] (last_part i1) d1 (match disk i2 with Some d2 => d2 | None => Dir [] end))
  | None => Exit
  end.
(** compare_na.py:251-254 [main]: [apply] again. *)
Definition compare_na_main (disk : str -> option node) (args : list str) : run report :=
  bindX (cmp_parseArgs args) (fun _ => Raise ENameError).
