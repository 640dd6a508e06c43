(** Questions put to a file object between the operations on it: getNADict, item
    access and the get methods of nappy/na_file/na_core.py, together with the life
    of the object in Model/Lifecycle.

    Simplification: what the caller does to the lists inside an answer, which are
    the lists of the object itself, is an operation [OEdit]. *)
From Coq Require Import List NArith ZArith Bool.
From Verif Require Import Py.Str Py.Res Py.Num Model.Dict Model.TextParser Model.CommonUtils Model.NAWrite Model.NACore Model.NAObject Model.Lifecycle.
Import ListNotations.

Section Inspect.
Context {num : Type} `{NumOps num}.

(** na_core.py:35-42 and na_file.py:55-78: a file object opened with mode w has all
    attributes, None but for ignored_header_lines. *)
Definition opened (c : cls) (d : na num) : obj num := mkObj MWrite c false true (fun k => Some (default_attr k)) d [].

(** na_core.py:47-59, :96-110, :120-295. *)
Inductive question :=
| QDict | QItem (name : str)
| QVariable (i : nat) | QIndependent (i : nat) | QAuxiliary (i : nat)
| QVariables | QIndependents | QAuxiliaries
| QMissing (i : nat) | QScale (i : nat) | QAuxMissing (i : nat) | QAuxScale (i : nat)
| QHeaderLines | QFFI | QOriginator | QOrganisation | QOrg | QSource | QMission | QVolumes | QDates | QNormal | QSpecial.
Inductive answer :=
| ADict (d : na num) | AItem (i : item (num := num)) | AValue (r : Res (pyv num)) | AValues (p : pyv num * pyv num)
| AInfo (r : Res (var_info (num := num))) | AName (r : Res (str * option str))
| AInfos (r : Res (list (var_info (num := num)))) | ANames (r : Res (list (str * option str))).

Variable callback : option (str -> str * option str).
Variable other : str -> bool.
(** The answer, from the attributes [h]. *)
Definition says (h : na num) (q : question) : answer :=
  match q with
  | QDict => ADict (fst (getNADict (mkCore h na_empty)))
  | QItem name => AItem (getitem other h name)
  | QVariable i => AInfo (getVariable callback h i)
  | QIndependent i => AName (getIndependentVariable callback h i)
  | QAuxiliary i => AInfo (getAuxVariable callback h i)
  | QVariables => AInfos (getVariables callback h)
  | QIndependents => ANames (getIndependentVariables callback h)
  | QAuxiliaries => AInfos (getAuxVariables callback h)
  | QMissing i => AValue (getMissingValue h i)
  | QScale i => AValue (getScaleFactor h i)
  | QAuxMissing i => AValue (getAuxMissingValue h i)
  | QAuxScale i => AValue (getAuxScaleFactor h i)
  | QHeaderLines => AValue (Ok (getNumHeaderLines h))
  | QFFI => AValue (Ok (getFFI h))
  | QOriginator => AValue (Ok (getOriginator h))
  | QOrganisation => AValue (Ok (getOrganisation h))
  | QOrg => AValue (Ok (getOrg h))
  | QSource => AValue (Ok (getSource h))
  | QMission => AValue (Ok (getMission h))
  | QVolumes => AValues (getVolumes h)
  | QDates => AValues (getFileDates h)
  | QNormal => AValue (Ok (getNormalComments h))
  | QSpecial => AValue (Ok (getSpecialComments h))
  end.
(** getNADict stores what it returns in [self.na_dict] (na_core.py:104-110). *)
Definition ask (x : obj num) (q : question) : answer * obj num :=
  (says (ob_attrs x) q,
   match q with
   | QDict => let c := snd (getNADict (mkCore (ob_attrs x) (ob_dict x))) in
              mkObj (ob_mode x) (ob_cls x) (ob_written x) (ob_open x) (c_attrs c) (c_dict c) (ob_file x)
   | _ => x
   end).

Inductive call := CAsk (q : question) | CDo (p : op num).
Inductive outcome := Said (a : answer) | Did (r : Res unit).
Definition do_call (x : obj num) (c : call) : outcome * obj num :=
  match c with
  | CAsk q => let (a, y) := ask x q in (Said a, y)
  | CDo p => let (r, y) := do_op x p in (Did r, y)
  end.
(** All outcomes, and the object after the calls. *)
Fixpoint run (x : obj num) (l : list call) : list outcome * obj num :=
  match l with
  | [] => ([], x)
  | c :: t => let (r, y) := do_call x c in let (rs, z) := run y t in (r :: rs, z)
  end.
End Inspect.
Arguments answer : clear implicits. Arguments call : clear implicits. Arguments outcome : clear implicits.
