(** nappy/utils/common_utils.py: the parts used by the file classes, and the
    small string and dictionary helpers. *)
From Coq Require Import List NArith ZArith Bool.
From Verif Require Import Py.Str Py.Res Py.Num Model.Dict Model.TextParser.
Import ListNotations.

(** The arguments of [NAFile.write] (na_file.py:94-105) together with the
    annotation texts (common_utils.py:193, config/annotations.ini or the file
    named by the user).  [o_fmt x] is [float_format % x].
    Simplification: delimiter and annotation texts contain no percent sign. *)
Record opts {num : Type} := mkOpts {
  o_delim : str;
  o_fmt : num -> str;
  o_annot : bool;
  o_ann : str -> option str
}.
Arguments opts : clear implicits.
Arguments mkOpts {num}. Arguments o_delim {num}. Arguments o_fmt {num}. Arguments o_annot {num}. Arguments o_ann {num}.

Section Annot.
Context {num : Type} `{NumOps num}.
Variable o : opts num.

(** common_utils.py:187-203 [getAnnotation]; [count] is the optional counter. *)
Definition getAnnotation (item : str) (count : option nat) : Res str :=
  if o_annot o then
    match o_ann o item with
    | None => Err EKeyError
    | Some a =>
        let cs := match count with None => [] | Some n => lit " " ++ dec_of_nat n end in
        Ok (a ++ cs ++ o_delim o)
    end
  else Ok [].

(** common_utils.py:222-231 [annotateLine] ([wrapLine]). *)
Definition annotateLine (item : str) (line : str) (count : option nat) : Res str :=
  if o_annot o then
    bindR (getAnnotation item count) (fun a => Ok (a ++ line))
  else Ok line.

(** common_utils.py:206-219 [annotateLines] ([wrapLines]). *)
Fixpoint annotate_from (item : str) (ls : list str) (count : nat) : Res str :=
  match ls with
  | [] => Ok []
  | l :: rest =>
      bindR (annotateLine item l (Some count)) (fun a =>
      bindR (annotate_from item rest (S count)) (fun b => Ok (a ++ b)))
  end.
Definition annotateLines (item : str) (text : str) : Res str :=
  annotate_from item (splitlines text) 1.

End Annot.

Definition is_quote (c : chr) : bool := ((c =? c_squote) || (c =? c_dquote))%N.

(** common_utils.py:234-239 [stripQuotes] on a string: [s[0]] and [s[-1]] raise
    IndexError on an empty string. *)
Definition stripQuotes_str (s : str) : Res str :=
  match s with
  | [] => Err EIndexError
  | c :: t =>
      let s1 := if is_quote c then t else s in
      match last_chr s1 with
      | None => Err EIndexError
      | Some e => Ok (if is_quote e then removelast s1 else s1)
      end
  end.
Definition stripQuotes {num} `{NumOps num} (v : pyv num) : Res str :=
  bindR (fmt_s v) stripQuotes_str.

(** The file classes (getNAFileClass, common_utils.py:25-32, succeeds for the
    nine modules na_file_NNNN.py and raises ImportError otherwise). *)
Inductive cls := C1001 | C1010 | C1020 | C2010 | C2110 | C2160 | C2310 | C3010 | C4010.

Definition cls_ffi (c : cls) : Z :=
  (match c with
   | C1001 => 1001 | C1010 => 1010 | C1020 => 1020 | C2010 => 2010 | C2110 => 2110
   | C2160 => 2160 | C2310 => 2310 | C3010 => 3010 | C4010 => 4010
   end)%Z.
Definition all_cls : list cls := [C1001; C1010; C1020; C2010; C2110; C2160; C2310; C3010; C4010].

Definition getNAFileClass (ffi : Z) : Res cls :=
  of_opt EImportError (find (fun c => (cls_ffi c =? ffi)%Z) all_cls).

(** [file.readlines()] of a file opened in text mode. *)
Definition readlines (content : str) : list str := lines (univ_newlines content).

(** common_utils.py:35-48 [readFFI]; [ignore] is [ignore_header_lines].
    [readline()] at the end of the file returns the empty string.
    [readItemsFromLine] has checked that there are two items, so [-1] is the
    second. *)
Definition readFFI {num} `{NumOps num} (content : str) (ignore : Z) : Res Z :=
  (let topline := nth (Z.to_nat ignore) (readlines content) [] in
   do items <- readItemsFromLine (num:=num) topline 2 TInt;
   do v <- nth_res items 1;
   as_int v)%res.

(** common_utils.py:51-92 [chooseFFI].  [d["NIV"]] raises KeyError when
    absent. *)
Definition is_str {num} (v : pyv num) : bool := match v with PStr _ => true | _ => false end.
Definition chooseFFI {num} `{NumOps num} (d : na num) : Res Z :=
  (do nivv <- of_opt EKeyError (d kNIV);
   do niv <- as_int nivv;
   if (4 <? niv)%Z then Err (ENappy E_TooManyIV)
   else if (niv =? 4)%Z then Ok 4010%Z
   else if (niv =? 3)%Z then Ok 3010%Z
   else if (niv =? 2)%Z then
     (do X <- of_opt EKeyError (d kX);
      do x0 <- index X 0;
      do x00 <- index x0 0;
      if is_str x00 then Ok 2160%Z
      else
        do x01 <- index x0 1;
        match x01 with
        | PList (_ :: _ :: _) => Ok 2110%Z
        | PList [_] => Ok 2310%Z
        | _ => Ok 2010%Z
        end)
   else if (niv =? 1)%Z then
     (match d kNAUXV with
      | None => Ok 1001%Z
      | Some _ => match d kNVPM with Some _ => Ok 1020%Z | None => Ok 1010%Z end
      end)
   else Err (ENappy E_NoFFI))%res.
