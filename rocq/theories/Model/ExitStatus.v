(** The programs nc2na, nc2csv and na2nc as the shell sees them: exit status and
    standard output.

    Simplifications: of a program that is ended by [exitNicely] or by an exception
    only the status is modelled, not the usage text or the traceback; questions to
    the user (na_to_xarray.py:429) are not part of the standard output. *)
From Coq Require Import List NArith ZArith Bool.
From Verif Require Import Py.Str Py.Res Py.Num Py.Arith Model.Dict Model.TextParser Model.CommonUtils Model.NAWrite Model.NARead
  Model.NACore Model.Utils Model.NCWrite Model.Xarray Model.Collector Model.ToXarray Model.Api Model.Getopt Model.CommandLine Model.Programs.
Import ListNotations.

(** The argument of python's [sys.exit]: None, an integer, or another object,
    which is printed to the standard error. *)
Inductive exit_arg := XNone | XInt (z : Z) | XObject.
Definition sys_exit (a : exit_arg) : Z :=
  match a with XNone => 0 | XInt z => z mod 256 | XObject => 1 end%Z.
(** The status of a program; [returned] is what the program gives to [sys.exit]
    when it comes to its end.  [exitNicely] (nc2na.py:50-54, nc2csv.py:49-53,
    na2nc.py:42-46) calls [sys.exit()]; an exception gives status 1. *)
Definition status {A} (returned : A -> exit_arg) (r : run A) : Z :=
  match r with
  | Done a => sys_exit (returned a)
  | Exit => sys_exit XNone
  | Raise _ => 1%Z
  end.
(** setup.py:66-72: an installed program is [sys.exit(nc2na())], [sys.exit(nc2csv())]
    or [sys.exit(na2nc())].  The functions return a list of names (nc2na.py:141,
    nc2csv.py:140) or a name (na2nc.py:119). *)
Definition installed {A} : A -> exit_arg := fun _ => XObject.
(** nc2na.py:144-147, nc2csv.py:142-148, na2nc.py:122-125: the file itself is run;
    the result is not used. *)
Definition as_file {A} : A -> exit_arg := fun _ => XNone.

(** nc2na.py:130-139, nc2csv.py:129-138: what is printed. *)
Definition heading (names_only : bool) : str :=
  if names_only then lit "Expected file names would be:" else lit "Successfully wrote: ".
Definition printed (names_only : bool) (names : list str) : str :=
  nl ++ heading names_only ++ nl ++ flat_map (fun n => lit "     " ++ n ++ nl) names.
(** na2nc.py:99-104: what is printed; [given] is the option -o. *)
Definition na2nc_printed (given : option str) (nc_file : str) : str :=
  match given with
  | Some (_ :: _) => []
  | _ => lit "Auto-generating output file name: " ++ nc_file ++ nl
  end.
(** The name given by the option -o, the last one if there are several. *)
Definition o_option (args : list str) : option str :=
  match getopt args na_short [] with
  | OptError _ => None
  | Opts (l, _) => fold_left (fun o p => if str_eqb (fst p) (lit "-o") then Some (snd p) else o) l None
  end.

Section Shell.
Context {num : Type} `{NumOps num} `{ArithOps num}.
Local Notation dataset := (dataset num).
(** A program that has ended: status, standard output (if it came to its end),
    files. *)
Record ended (D : Type) := mkEnded { e_status : Z; e_out : option str; e_files : D }.
Arguments mkEnded {D}. Arguments e_status {D}. Arguments e_out {D}. Arguments e_files {D}.
(** nc2na, and nc2csv called as a function. *)
Definition shell_nc2na (how : list str -> exit_arg) (fuel : nat) (e : env num) (r : rule) (headers : bool) (local : list (str * str))
    (fmt_of : str -> num -> str) (ann : str -> option str) (args : list str) (files : str -> option dataset) (fs : disk) : ended disk :=
  let (x, fs') := nc2na fuel e r headers local fmt_of ann args files fs in
  let names_only := match nc_parseArgs args with Done c => x_names_only c | _ => false end in
  mkEnded (status how x) (match x with Done names => Some (printed names_only names) | _ => None end) fs'.
Definition shell_na2nc (how : str -> exit_arg) (answers : list str) (now version : str) (args : list str) (files : str -> option str)
    (fs : nc_disk) : ended nc_disk :=
  let (x, fs') := na2nc answers now version args files fs in
  mkEnded (status how x) (match x with Done name => Some (na2nc_printed (o_option args) name) | _ => None end) fs'.
End Shell.
Arguments mkEnded {D}. Arguments e_status {D}. Arguments e_out {D}. Arguments e_files {D}.
