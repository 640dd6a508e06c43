(** [getopt.getopt] of the Python standard library (version 3), which the scripts
    of nappy call: nappy/script/nc2na.py:75-77, nc2csv.py, na2nc.py:66.

    Simplification: the texts of the messages are not modelled, an error
    is its kind. *)
From Coq Require Import List NArith ZArith Bool.
From Verif Require Import Py.Str Py.Res.
Import ListNotations.

Inductive opt_error := NotRecognised | NeedsArgument | NoArgument | NotUnique.
Inductive opt_res (A : Type) := Opts (a : A) | OptError (e : opt_error).
Arguments Opts {A}. Arguments OptError {A}.
Definition bindO {A B} (m : opt_res A) (f : A -> opt_res B) : opt_res B :=
  match m with Opts a => f a | OptError e => OptError e end.

Definition c_dash : chr := 45%N.
Definition c_colon : chr := 58%N.
Definition c_equals : chr := 61%N.
(** An option and its value, such as [("-i", "a.nc")]. *)
Definition option_value : Type := str * str.

(** [short_has_arg]: the option string is a list of characters, each followed by
    a colon if the option has an argument. *)
Fixpoint short_has_arg (opt : chr) (shortopts : str) : opt_res bool :=
  match shortopts with
  | [] => OptError NotRecognised
  | c :: t =>
      if ((opt =? c) && negb (c =? c_colon))%N
      then Opts (match t with c' :: _ => (c' =? c_colon)%N | [] => false end)
      else short_has_arg opt t
  end.
(** [do_shorts]: the options of one word, and the words after it. *)
Fixpoint do_shorts (optstring : str) (shortopts : str) (args : list str) : opt_res (list option_value * list str) :=
  match optstring with
  | [] => Opts ([], args)
  | opt :: rest =>
      bindO (short_has_arg opt shortopts) (fun has_arg =>
      if has_arg then
        match rest with
        | [] => match args with
                | [] => OptError NeedsArgument
                | a :: args' => Opts ([([c_dash; opt], a)], args')
                end
        | _ => Opts ([([c_dash; opt], rest)], args)
        end
      else bindO (do_shorts rest shortopts args) (fun r => Opts (([c_dash; opt], []) :: fst r, snd r)))
  end.

(** [long_has_args]: whether the option has an argument, and its full name. *)
Definition long_has_args (opt : str) (longopts : list str) : opt_res (bool * str) :=
  let possibilities := filter (starts_with opt) longopts in
  match possibilities with
  | [] => OptError NotRecognised
  | first :: others =>
      if existsb (str_eqb opt) possibilities then Opts (false, opt)
      else if existsb (str_eqb (opt ++ [c_equals])) possibilities then Opts (true, opt)
      else match others with
           | _ :: _ => OptError NotUnique
           | [] => if (last first 0 =? c_equals)%N then Opts (true, removelast first) else Opts (false, first)
           end
  end.
(** The text before the first = and the text after it, if there is one. *)
Fixpoint cut_equals (s : str) : str * option str :=
  match s with
  | [] => ([], None)
  | c :: t => if (c =? c_equals)%N then ([], Some t) else let (a, b) := cut_equals t in (c :: a, b)
  end.
(** [do_longs] *)
Definition do_longs (opt : str) (longopts : list str) (args : list str) : opt_res (option_value * list str) :=
  let (opt, optarg) := cut_equals opt in
  bindO (long_has_args opt longopts) (fun p =>
  let (has_arg, opt) := p in
  let name := [c_dash; c_dash] ++ opt in
  if has_arg then
    match optarg with
    | Some a => Opts ((name, a), args)
    | None => match args with
              | [] => OptError NeedsArgument
              | a :: args' => Opts ((name, a), args')
              end
    end
  else match optarg with
       | Some _ => OptError NoArgument
       | None => Opts ((name, []), args)
       end).

(** [getopt]: the options, and the words after them.  [fuel]: at least the
    number of words. *)
Fixpoint getopt_loop (fuel : nat) (shortopts : str) (longopts : list str) (args : list str)
    : opt_res (list option_value * list str) :=
  match fuel with
  | O => Opts ([], args)
  | S fuel =>
      match args with
      | [] => Opts ([], [])
      | a :: rest =>
          if negb (starts_with [c_dash] a) || str_eqb a [c_dash] then Opts ([], args)
          else if str_eqb a [c_dash; c_dash] then Opts ([], rest)
          else if starts_with [c_dash; c_dash] a then
            bindO (do_longs (skipn 2 a) longopts rest) (fun r =>
            bindO (getopt_loop fuel shortopts longopts (snd r)) (fun q => Opts (fst r :: fst q, snd q)))
          else
            bindO (do_shorts (skipn 1 a) shortopts rest) (fun r =>
            bindO (getopt_loop fuel shortopts longopts (snd r)) (fun q => Opts (fst r ++ fst q, snd q)))
      end
  end.
Definition getopt (args : list str) (shortopts : str) (longopts : list str) : opt_res (list option_value * list str) :=
  getopt_loop (length args) shortopts longopts args.
