(** nappy/utils/compare_na.py:38-42 and 73-207: what [compareSections] and
    [compNAFiles] print.

    A text is what one call of [print] writes, without its newline.
    Simplifications: the usage text that [exitNicely] prints before its message is
    left out; the name of a file has no newline (as in [Model/Compare]). *)
From Coq Require Import List NArith ZArith Bool.
From Verif Require Import Py.Str Py.Res Py.Num Model.CommonUtils Model.CommandLine Model.Compare Model.CompareProg.
Import ListNotations.

(** What has been printed, and how it ended: texts that were printed before an
    exception stay. *)
Definition saying (A : Type) : Type := list str * run A.
Definition bindS {A B} (a : saying A) (f : A -> saying B) : saying B :=
  match a with
  | (t, Done x) => let (t', r) := f x in (t ++ t', r)
  | (t, Exit) => (t, Exit)
  | (t, Raise e) => (t, Raise e)
  end.
Definition say (t : list str) : saying unit := (t, Done tt).
Definition quiet {A} (r : Res A) : saying A := ([], match r with Ok x => Done x | Err e => Raise e end).

Section Print.
Context {num : Type} `{NumOps num} `{CmpOps num}.

(** compare_na.py:138-142: a line that differs. *)
Definition differs (i : nat) (a b : str) : list str :=
  [lit "Line " ++ dec_of_nat i ++ lit ":"; lit ">>> " ++ strip a; lit "<<< " ++ strip b].
(** compare_na.py:73-144 [compareSections]; [i]: the number of the first line. *)
Fixpoint sections_said (i : nat) (l1 l2 : list str) (number_clever approx : bool) (d1 d2 : option str) : saying bool :=
  match l1, l2 with
  | a :: t1, b :: t2 =>
      bindS (quiet (line_same (num := num) number_clever approx d1 d2 a b)) (fun same =>
      bindS (say (if same then [] else differs i a b)) (fun _ =>
      bindS (sections_said (S i) t1 t2 number_clever approx d1 d2) (fun r => ([], Done (same && r)))))
  | _, _ => ([], Done true)
  end.

(** compare_na.py:184-194 and 196-205: one section, with its texts. *)
Record section_words := mkWords { w_title : str; w_name : str; w_same : str; w_length : str }.
Definition header_words : section_words :=
  mkWords (lit "Comparing headers:") (lit " header:") (lit "HEADERS ARE IDENTICAL.") (lit "Header lengths differ:").
Definition body_words : section_words :=
  mkWords (lit "Comparing bodies:") (lit " body:") (lit "BODIES ARE IDENTICAL.") (lit "Body lengths differ:").
Definition lengths_text (w : section_words) (f1 f2 : str) (n1 n2 : nat) : str :=
  w_length w ++ nl ++ lit ">>> " ++ f1 ++ lit ": " ++ dec_of_nat n1 ++ nl ++ lit "<<< " ++ f2 ++ lit ": " ++ dec_of_nat n2.
Definition section_said (w : section_words) (f1 f2 : str) (l1 l2 : list str) (number_clever approx : bool) (d1 d2 : option str) : saying bool :=
  bindS (say [w_title w; lit ">>> " ++ f1 ++ w_name w; lit "<<< " ++ f2 ++ w_name w]) (fun _ =>
  bindS (sections_said 1 l1 l2 number_clever approx d1 d2) (fun same =>
  bindS (say (if same then [w_same w] else [])) (fun _ =>
  bindS (say (if Nat.eqb (length l1) (length l2) then [] else [lengths_text w f1 f2 (length l1) (length l2)])) (fun _ =>
  ([], Done same))))).

(** compare_na.py:175-176: [int(l[0].split(delimiter)[0])]. *)
Definition head_len (l : list str) (d : option str) : Res Z :=
  (do l0 <- nth_res l 0; do i <- split_items d l0; do f <- nth_res i 0; of_opt EValueError (int_of_str f))%res.
(** compare_na.py:147-207 [compNAFiles]; [disk]: the files there are. *)
Definition files_said (disk : str -> option str) (f1 f2 : str) (header body number_clever approx : bool) (d1 d2 : option str) : saying (option bool) :=
  if excluded (last_part f1) then ([lit "IGNORING EXCLUDED file: " ++ f1], Done None)
  else
    match disk f1, disk f2 with
    | None, _ => ([lit "CANNOT compare files as item does not exist:" ++ f1], Exit)
    | _, None => ([lit "CANNOT compare files as item does not exist:" ++ f2], Exit)
    | Some c1, Some c2 =>
        let l1 := readlines c1 in
        let l2 := readlines c2 in
        bindS (quiet (head_len l1 d1)) (fun n1 =>
        bindS (quiet (head_len l2 d2)) (fun n2 =>
        bindS (if header then section_said header_words f1 f2 (slice_to l1 n1) (slice_to l2 n2) number_clever approx d1 d2 else ([], Done true)) (fun same =>
        bindS (if body then section_said body_words f1 f2 (slice_from l1 n1) (slice_from l2 n2) number_clever approx d1 d2 else ([], Done same)) (fun same =>
        ([], Done (Some same))))))
    end.
End Print.
