(** utils/parse_config.py:89-101 [getAnnotationsConfigDict] and :125-137
    [getLocalAttributesConfigDict]: the files of annotations and local
    attributes, named by the environment or by the configuration, read once.

    Simplifications: [config_dict] has been made before and is not changed
    (C95); a name of a file with the character & (a tuple, TypeError) is counted as a
    missing name (KeyError). *)
From Coq Require Import List NArith ZArith Bool.
From Verif Require Import Py.Str Py.Res Model.Xarray Model.ParseConfig.
Import ListNotations.

(** os.path.join of two names (posix). *)
Definition path_join (a b : str) : str :=
  if starts_with (lit "/") b || is_nil a then b
  else if str_eqb (slice_from a (-1)%Z) (lit "/") then a ++ b else a ++ lit "/" ++ b.
(** [config_dict["main"][item]]. *)
Definition main_item (c : config) (item : str) : ini str :=
  match lookup (lit "main") c with
  | Some l => match find (fun p => entry_eqb (fst p) (One item)) l with Some (_, One v) => Got v | _ => Bad NoKey end
  | None => Bad NoKey
  end.

(** What the operating system knows: environment variables and files. *)
Record os := mkOs { o_env : str -> option str; o_files : str -> option str }.
(** :93-94 and :129-130: an empty environment variable counts as none. *)
Definition file_of (base : str) (c : config) (variable item : str) (o : os) : ini str :=
  match o_env o variable with
  | Some (x :: n) => Got (x :: n)
  | _ => bindI (main_item c item) (fun f => Got (path_join base f))
  end.

(** The global variables [annotations_config_dict] and [attributes_config_dict]. *)
Record globals := mkGlobals {
  g_annotations : option (list (str * str));
  g_attributes : option (list (str * list (str * str)))
}.
Definition getAnnotationsConfigDict (base : str) (c : config) (o : os) (g : globals) : ini (list (str * str)) * globals :=
  match file_of base c (lit "NAPPY_ANNOTATIONS") (lit "annotations_file") o with
  | Bad e => (Bad e, g)
  | Got f =>
      match g_annotations g with
      | Some d => (Got d, g)
      | None => match makeAnnotationsConfigDict (o_files o f) with
                | Got d => (Got d, mkGlobals (Some d) (g_attributes g))
                | Bad e => (Bad e, g)
                end
      end
  end.
Definition getLocalAttributesConfigDict (base : str) (c : config) (o : os) (g : globals) : ini (list (str * list (str * str))) * globals :=
  match file_of base c (lit "NAPPY_LOCAL_ATTRIBUTES") (lit "local_attributes_file") o with
  | Bad e => (Bad e, g)
  | Got f =>
      match g_attributes g with
      | Some d => (Got d, g)
      | None => match makeLocalAttributesConfigDict (o_files o f) with
                | Got d => (Got d, mkGlobals (g_annotations g) (Some d))
                | Bad e => (Bad e, g)
                end
      end
  end.

(** What happens in a process: changes of the environment and of files, and
    calls of both functions.  [answers]: what the calls return. *)
Inductive event := SetEnv (name : str) (v : option str) | SetFile (name : str) (v : option str) | GetAnnotations | GetAttributes.
Inductive answer := Annotations (r : ini (list (str * str))) | Attributes (r : ini (list (str * list (str * str)))).
Definition set_in (f : str -> option str) (n : str) (v : option str) : str -> option str := fun m => if str_eqb n m then v else f m.
Fixpoint answers (base : str) (c : config) (l : list event) (o : os) (g : globals) : list answer :=
  match l with
  | [] => []
  | SetEnv n v :: t => answers base c t (mkOs (set_in (o_env o) n v) (o_files o)) g
  | SetFile n v :: t => answers base c t (mkOs (o_env o) (set_in (o_files o) n v)) g
  | GetAnnotations :: t => let (r, g) := getAnnotationsConfigDict base c o g in Annotations r :: answers base c t o g
  | GetAttributes :: t => let (r, g) := getLocalAttributesConfigDict base c o g in Attributes r :: answers base c t o g
  end.
