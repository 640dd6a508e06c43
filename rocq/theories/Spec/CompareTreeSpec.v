(** What the comparison of two directories has to report (compare.py:1-18),
    and the options of compare_na (compare_na.py:10-33). *)
From Coq Require Import List NArith ZArith Bool.
From Verif Require Import Py.Str Model.CommonUtils Model.CompareProg Spec.CommandLineSpec.
Import ListNotations.

(** There is the entry [y] at the path [p] below [n]. *)
Inductive at_path : node -> list str -> node -> Prop :=
| At_here n : at_path n [] n
| At_item items name x p y : In (name, x) items -> at_path x p y -> at_path (Dir items) (name :: p) y.
(** No two entries of a directory have the same name. *)
Inductive proper : node -> Prop :=
| Proper_file c : proper (File c)
| Proper_dir items : NoDup (map fst items) -> Forall (fun p => proper (snd p)) items -> proper (Dir items).

Definition part (x s : str) : Prop := exists a b, s = a ++ x ++ b.
Definition hidden_dir (name : str) : Prop := part (lit "CSV") name \/ part (lit "svn") name.
Definition hidden_file (name : str) : Prop :=
  hidden_dir name \/ (exists a, name = lit "." ++ a) \/ (exists a, name = a ++ lit ".pyc") \/ (exists a, name = a ++ lit "~").

(** The numbers of the lines that both files have and that differ. *)
Definition differing (l1 l2 : list str) : list nat :=
  filter (fun i => negb (str_eqb (nth (i - 1) l1 []) (nth (i - 1) l2 []))) (seq 1 (Nat.min (length l1) (length l2))).

(** The first directory has the entry [n1] at a path, no directory above it is
    hidden and the second one has the directory above it, too; [n2] is what
    the second one has at the path. *)
Definition met (d1 d2 : node) (above : list str) (name : str) (n1 : node) (n2 : option node) : Prop :=
  Forall (fun x => ~ hidden_dir x) above /\ at_path d1 (above ++ [name]) n1 /\ (exists m, at_path d2 above m) /\
  match n2 with
  | Some n => at_path d2 (above ++ [name]) n
  | None => forall n, ~ at_path d2 (above ++ [name]) n
  end.
Definition told (dname : str) (d1 d2 : node) (e : event) : Prop :=
  hidden_dir dname /\ e = IgnoredDir [] \/
  ~ hidden_dir dname /\ exists above name n1 n2, met d1 d2 above name n1 n2 /\
    match e with
    | NotFound p => p = above ++ [name] /\ n2 = None
    | IgnoredDir p => p = above ++ [name] /\ n2 <> None /\ (exists l, n1 = Dir l) /\ hidden_dir name
    | IgnoredFile p => p = above ++ [name] /\ n2 <> None /\ (exists c, n1 = File c) /\ hidden_file name
    | Compared p lines => p = above ++ [name] /\ exists c1 c2, n1 = File c1 /\ n2 = Some (File c2) /\
        ~ hidden_file name /\ lines = differing (readlines c1) (readlines c2)
    end.
(** A file in the first directory is a directory in the second one. *)
Definition clash (dname : str) (d1 d2 : node) : Prop :=
  ~ hidden_dir dname /\ exists above name c l, met d1 d2 above name (File c) (Some (Dir l)) /\ ~ hidden_file name.

(** ** The options of compare_na *)
Inductive cmp_opt := CHeaderOnly | CBodyOnly | CNumberStrict | CApprox | CDelim1 (d : str) | CDelim2 (d : str).
(** As one word or as two, with the short or the long name. *)
Definition cmp_words (p : bool * bool * cmp_opt) : list str :=
  let '(j, short_name, o) := p in
  let flag (s l : str) := [if short_name then s else l] in
  let valued s l v := if short_name then short s j v else long l j v in
  match o with
  | CHeaderOnly => flag (lit "-h") (lit "--header-only")
  | CBodyOnly => flag (lit "-b") (lit "--body-only")
  | CNumberStrict => flag (lit "-n") (lit "--number-strict")
  | CApprox => flag (lit "-a") (lit "--approx-equal")
  | CDelim1 d => valued (lit "-1") (lit "--delimiter-1") d
  | CDelim2 d => valued (lit "-2") (lit "--delimiter-2") d
  end.
(** A value in one word with a short option is not empty. *)
Definition cmp_sayable (p : bool * bool * cmp_opt) : Prop :=
  let '(j, short_name, o) := p in
  match o with CDelim1 d | CDelim2 d => j = true -> short_name = true -> d <> [] | _ => True end.
Definition f_delim1 (o : cmp_opt) := match o with CDelim1 d => Some d | _ => None end.
Definition f_delim2 (o : cmp_opt) := match o with CDelim2 d => Some d | _ => None end.
Definition is_header_only (o : cmp_opt) := match o with CHeaderOnly => true | _ => false end.
Definition is_body_only (o : cmp_opt) := match o with CBodyOnly => true | _ => false end.
Definition is_strict (o : cmp_opt) := match o with CNumberStrict => true | _ => false end.
Definition is_approx (o : cmp_opt) := match o with CApprox => true | _ => false end.
