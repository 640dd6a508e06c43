(** nappy/utils/right_strip.py and nappy/utils/text_parser.py. *)
From Coq Require Import List NArith ZArith Bool.
From Verif Require Import Py.Str Py.Res Py.Num Model.Dict.
Import ListNotations.
Local Open Scope N_scope.

(** Characters that may occur inside the final group: the class [^{^}] of
    right_strip.py:22 excludes opening brace, caret and closing brace. *)
Definition brace_inner (c : chr) : bool :=
  negb ((c =? c_lbrace) || (c =? c_caret) || (c =? c_rbrace)).

(** Scan the reversed text that precedes the final closing brace: skip inner
    characters up to an opening brace; the rest is the reversed prefix. *)
Fixpoint scan_open (r : str) : option str :=
  match r with
  | [] => None
  | c :: t => if c =? c_lbrace then Some t
              else if brace_inner c then scan_open t else None
  end.

(** right_strip.py:22-32 [rightStripCurlyBraces]: the regular expression
    ^(.+)\{[^{^}]*\}\s*$ matched by hand.  The trailing white space is dropped,
    the last character must be the closing brace, the inner part runs back to
    an opening brace, and group 1 is what precedes it: non-empty and without
    newline (the dot does not match a newline). *)
Definition right_strip_braces (line : str) : str :=
  match rev (rstrip line) with
  | c :: r =>
      if c =? c_rbrace then
        match scan_open r with
        | Some p => if is_nil p || mem_chr c_nl p then line else rev p
        | None => line
        end
      else line
  | [] => line
  end.

(** text_parser.py:22 and :30.  The pattern is not a raw string, so \1 is the
    character U+0001: a quote, anything but newline, U+0001 at the end.
    [sub] then replaces the whole text by the empty string. *)
Definition last_chr (s : str) : option chr := hd_error (rev s).
Definition no_quotes_sub (s : str) : str :=
  match s with
  | c :: t =>
      if ((c =? c_dquote) || (c =? c_squote))
         && negb (is_nil t)
         && (match last_chr t with Some e => e =? 1 | None => false end)
         && negb (mem_chr c_nl s)
      then [] else s
  | [] => []
  end.

(** The three values of the [rttype] argument. *)
Inductive rttype := TStr | TInt | TFloat.

Section TextParser.
Context {num : Type} `{NumOps num}.
Local Notation pyv := (pyv num).

(** [rttype(x)] for a string [x]. *)
Definition conv (t : rttype) (s : str) : Res pyv :=
  match t with
  | TStr => Ok (PStr s)
  | TInt => match int_of_str s with Some z => Ok (PInt z) | None => Err EValueError end
  | TFloat => match num_parse s with Some x => Ok (PNum x) | None => Err EValueError end
  end.

(** text_parser.py:25-34 [readItemFromLine]. *)
Definition readItemFromLine (line : str) (t : rttype) : Res pyv :=
  conv t (no_quotes_sub (strip (right_strip_braces line))).

(** text_parser.py:36-47 [readItemsFromLine].  [nitems = 0] disables the check,
    as [None] does. *)
Definition readItemsFromLine (line : str) (nitems : Z) (t : rttype) : Res (list pyv) :=
  let line := right_strip_braces line in
  let rtitems := re_split (strip line) in
  if negb (nitems =? 0)%Z && negb (Z.of_nat (length rtitems) =? nitems)%Z
  then Err (ENappy E_IncorrectItems)
  else mapR (conv t) rtitems.

(** text_parser.py:49-59 [readItemsFromLines] with [rttype = str], the only way
    it is called.  The argument [nitems] is not used by the code. *)
Definition readItemsFromLines (ls : list str) : Res (list pyv) :=
  mapR (fun l => readItemFromLine (right_strip_braces l) TStr) ls.

(** The loop of text_parser.py:75-80 / :83-86.  [eof] is what happens when
    the lines are used up: for a list, [object[0]] raises IndexError; for a
    file handle [readline()] returns "" for ever, the list never grows and the
    loop does not end. [extras] is unbound ([None]) before the first iteration. *)
Fixpoint unknown_loop (eof : exn) (nitems : Z) (rtitems : list str)
         (extras : option (list str)) (ls : list str) {struct ls}
  : Res (list str * option (list str) * list str) :=
  if (Z.of_nat (length rtitems) <? nitems)%Z then
    match ls with
    | [] => Err eof
    | l :: rest =>
        let items := split_ws (strip (right_strip_braces l)) in
        unknown_loop eof nitems (rtitems ++ slice_to items nitems)
                     (Some (slice_from items nitems)) rest
    end
  else Ok (rtitems, extras, ls).

(** text_parser.py:61-97 [readItemsFromUnknownLines]; returns the items and the
    remaining lines. *)
Definition readItemsFromUnknownLines (eof : exn) (ls : list str) (nitems : Z) (t : rttype)
  : Res (list pyv * list str) :=
  (do r <- unknown_loop eof nitems [] None ls;
   let '(rtitems, extras, rest) := r in
   match extras with
   | None => Err EUnboundLocal            (* line 88: [extras] never assigned *)
   | Some (_ :: _) => Err (ENappy E_CouldNotSplit)
   | Some [] => do items <- mapR (conv t) rtitems; Ok (items, rest)
   end)%res.

End TextParser.
