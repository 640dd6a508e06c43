(** Python text: strings as lists of Unicode code points, and the string
    operations of the Python standard library that nappy uses.

    Everything here is a total computable function.  The comments say which
    Python operation is represented.  Nothing in this file is nappy code. *)
From Coq Require Import List NArith ZArith Bool Lia.
From Coq Require Strings.Byte.
Import ListNotations.
Local Open Scope N_scope.

Definition chr := N.
Definition str := list chr.

(** String literals: [lit "abc"] is the list of code points of the (ASCII)
    literal. *)
Inductive pylit := PyLit (l : list Init.Byte.byte).
Definition pylit_parse (l : list Init.Byte.byte) : pylit := PyLit l.
Definition pylit_print (p : pylit) : list Init.Byte.byte := let (l) := p in l.
Declare Scope pylit_scope.
Delimit Scope pylit_scope with pylit.
String Notation pylit pylit_parse pylit_print : pylit_scope.
Definition lit (p : pylit) : str := let (l) := p in map Strings.Byte.to_N l.
Arguments lit _%pylit_scope.

(** Named characters. *)
Definition c_tab : chr := 9.
Definition c_nl : chr := 10.
Definition c_cr : chr := 13.
Definition c_sp : chr := 32.
Definition c_dquote : chr := 34.
Definition c_squote : chr := 39.
Definition c_lpar : chr := 40.
Definition c_rpar : chr := 41.
Definition c_plus : chr := 43.
Definition c_comma : chr := 44.
Definition c_minus : chr := 45.
Definition c_dot : chr := 46.
Definition c_slash : chr := 47.
Definition c_caret : chr := 94.
Definition c_us : chr := 95.
Definition c_lbrace : chr := 123.
Definition c_rbrace : chr := 125.
Definition nl : str := [c_nl].

(** [str.isspace] for one character; the same set is used by [str.strip],
    [str.split] and the regular expression class [\s]. *)
Definition is_space (c : chr) : bool :=
  ((9 <=? c) && (c <=? 13)) || ((28 <=? c) && (c <=? 32)) || (c =? 133)
  || (c =? 160) || (c =? 5760) || ((8192 <=? c) && (c <=? 8202))
  || (c =? 8232) || (c =? 8233) || (c =? 8239) || (c =? 8287) || (c =? 12288).

(** Line boundaries of [str.splitlines]. *)
Definition is_linebreak (c : chr) : bool :=
  ((10 <=? c) && (c <=? 13)) || ((28 <=? c) && (c <=? 30)) || (c =? 133)
  || (c =? 8232) || (c =? 8233).

Definition is_nil {A} (l : list A) : bool := match l with [] => true | _ => false end.

(** Equality of strings. *)
Fixpoint str_eqb (a b : str) : bool :=
  match a, b with
  | [], [] => true
  | x :: a', y :: b' => (x =? y) && str_eqb a' b'
  | _, _ => false
  end.

Definition mem_chr (c : chr) (s : str) : bool := existsb (N.eqb c) s.

(** [s.lstrip(chars)], [s.rstrip(chars)], with the set of characters given as a
    predicate. *)
Fixpoint lstrip_by (p : chr -> bool) (s : str) : str :=
  match s with
  | [] => []
  | c :: t => if p c then lstrip_by p t else s
  end.

Fixpoint rstrip_by (p : chr -> bool) (s : str) : str :=
  match s with
  | [] => []
  | c :: t => let r := rstrip_by p t in
              if is_nil r && p c then [] else c :: r
  end.

(** [s.lstrip()], [s.rstrip()], [s.strip()]. *)
Definition lstrip (s : str) : str := lstrip_by is_space s.
Definition rstrip (s : str) : str := rstrip_by is_space s.
Definition strip (s : str) : str := rstrip (lstrip s).

(** [s.split()]: maximal runs of non-space characters. *)
Fixpoint split_aux (s : str) : str * list str :=
  match s with
  | [] => ([], [])
  | c :: t => let (w, ws) := split_aux t in
              if is_space c then ([], if is_nil w then ws else w :: ws)
              else (c :: w, ws)
  end.
Definition split_ws (s : str) : list str :=
  let (w, ws) := split_aux s in if is_nil w then ws else w :: ws.

(** [re.split(r"\s+", s)]: fields between maximal runs of white space; a run at
    the start (end) of the string gives an empty first (last) field.
    [in_run] says that the previous character belonged to the current run. *)
Fixpoint re_split_aux (in_run : bool) (s : str) : str * list str :=
  match s with
  | [] => ([], [])
  | c :: t =>
      if is_space c then
        let (w, ws) := re_split_aux true t in
        if in_run then (w, ws) else ([], w :: ws)
      else
        let (w, ws) := re_split_aux false t in (c :: w, ws)
  end.
Definition re_split (s : str) : list str :=
  let (w, ws) := re_split_aux false s in w :: ws.

(** Lines of a text, each with its terminating newline (the last one may lack
    it): what [file.readlines()] and [StringIO.readlines()] return. *)
Fixpoint lines (s : str) : list str :=
  match s with
  | [] => []
  | c :: t => if c =? c_nl then [c] :: lines t
              else match lines t with
                   | [] => [[c]]
                   | l :: ls => (c :: l) :: ls
                   end
  end.

(** Text made of the given lines, each followed by a newline. *)
Definition unlines (ls : list str) : str := concat (map (fun l => l ++ nl) ls).

Definition starts_nl (s : str) : bool :=
  match s with c :: _ => c =? c_nl | [] => false end.

(** [s.splitlines(True)]. *)
Fixpoint splitlines (s : str) : list str :=
  match s with
  | [] => []
  | c :: t =>
      if is_linebreak c && negb ((c =? c_cr) && starts_nl t) then [c] :: splitlines t
      else match splitlines t with
           | [] => [[c]]
           | l :: ls => (c :: l) :: ls
           end
  end.

(** Reading a file in text mode translates carriage returns: CR LF and CR
    become LF (universal newlines, the default of [open]). *)
Fixpoint univ_newlines (s : str) : str :=
  match s with
  | [] => []
  | c :: t => if c =? c_cr then
                if starts_nl t then univ_newlines t else c_nl :: univ_newlines t
              else c :: univ_newlines t
  end.

(** [sep.join(items)]. *)
Fixpoint join (sep : str) (items : list str) : str :=
  match items with
  | [] => []
  | [x] => x
  | x :: rest => x ++ sep ++ join sep rest
  end.

(** [s.split(c)] for a one character separator. *)
Fixpoint split_chr_aux (d : chr) (s : str) : str * list str :=
  match s with
  | [] => ([], [])
  | c :: t => let (w, ws) := split_chr_aux d t in
              if c =? d then ([], w :: ws) else (c :: w, ws)
  end.
Definition split_chr (d : chr) (s : str) : list str :=
  let (w, ws) := split_chr_aux d s in w :: ws.

(** [s.count(c)] for a one character argument. *)
Fixpoint count_chr (d : chr) (s : str) : nat :=
  match s with
  | [] => O
  | c :: t => if c =? d then S (count_chr d t) else count_chr d t
  end.

(** [s.startswith(p)]. *)
Fixpoint starts_with (p s : str) : bool :=
  match p, s with
  | [], _ => true
  | x :: p', y :: s' => (x =? y) && starts_with p' s'
  | _, _ => false
  end.

(** [s.find(p)]: position of the first occurrence. *)
Fixpoint find_from (p s : str) (i : Z) : Z :=
  if starts_with p s then i
  else match s with
       | [] => (-1)%Z
       | _ :: t => find_from p t (i + 1)%Z
       end.
Definition find_str (p s : str) : Z := find_from p s 0%Z.
Definition contains (p s : str) : bool := (0 <=? find_str p s)%Z.

(** [s.replace(p, r)] for non-empty [p]: left to right, non overlapping.
    [skip] characters of an occurrence already replaced are dropped. *)
Fixpoint replace_aux (p r s : str) (skip : nat) : str :=
  match s with
  | [] => []
  | c :: t =>
      match skip with
      | S k => replace_aux p r t k
      | O => if starts_with p s then r ++ replace_aux p r t (pred (List.length p))
             else c :: replace_aux p r t O
      end
  end.
Definition replace_str (p r s : str) : str := replace_aux p r s O.

(** ASCII part of [str.lower]. *)
Definition lower_chr (c : chr) : chr := if (65 <=? c) && (c <=? 90) then c + 32 else c.
Definition lower (s : str) : str := map lower_chr s.

(** [s[:n]] for any integer n (negative counts from the end). *)
Definition slice_to {A} (s : list A) (n : Z) : list A :=
  let len := Z.of_nat (List.length s) in
  let k := if (n <? 0)%Z then Z.max 0 (len + n) else n in
  firstn (Z.to_nat k) s.
(** [s[n:]]. *)
Definition slice_from {A} (s : list A) (n : Z) : list A :=
  let len := Z.of_nat (List.length s) in
  let k := if (n <? 0)%Z then Z.max 0 (len + n) else n in
  skipn (Z.to_nat k) s.

Definition repeat_str (n : nat) (s : str) : str := concat (repeat s n).
