(** parse_config.py:62-69 [getConfigDict]: the dictionary is made once and kept;
    every caller gets a copy.  A copy has the same objects as values, so the
    dictionaries of the sections exist once, in a list of objects. *)
From Coq Require Import List NArith ZArith Bool.
From Verif Require Import Py.Str Py.Res Model.Xarray Model.ToXarray Model.ParseConfig.
Import ListNotations.

(** The dictionaries of sections; the global variable [config_dict]; and the
    dictionaries that callers have, in the order of their calls. *)
Record world := mkWorld {
  w_objects : list (list (entry * entry));
  w_config : option (list (str * nat));
  w_copies : list (list (str * nat))
}.
Definition nothing_read : world := mkWorld [] None [].
(** What a dictionary of sections looks like. *)
Definition view (w : world) (d : list (str * nat)) : config := map (fun p => (fst p, nth (snd p) (w_objects w) [])) d.
Definition set_nth {A} (l : list A) (i : nat) (x : A) : list A := firstn i l ++ match skipn i l with [] => [] | _ :: t => x :: t end.

(** [makeConfigDict] creates the dictionaries of the sections. *)
Fixpoint create (w : world) (c : config) : list (str * nat) * world :=
  match c with
  | [] => ([], w)
  | (n, items) :: t =>
      let i := length (w_objects w) in
      let (d, w) := create (mkWorld (w_objects w ++ [items]) (w_config w) (w_copies w)) t in
      ((n, i) :: d, w)
  end.
Definition getConfigDict (files : str -> option str) (cf : str) (w : world) : ini config * world :=
  match w_config w with
  | Some d => (Got (view w d), mkWorld (w_objects w) (w_config w) (w_copies w ++ [d]))
  | None =>
      match makeConfigDict (files cf) with
      | Bad e => (Bad e, w)
      | Got c => let (d, w) := create w c in
                 (Got (view w d), mkWorld (w_objects w) (Some d) (w_copies w ++ [d]))
      end
  end.

(** What callers do: a call, or a change of the dictionary that a call returned
    (the first, second, ... one): [d[section] = {..}], [del d[section]] and
    [d[section][item] = value].  Changes that raise have no effect. *)
Inductive action :=
| Call (cf : str)
| SetSection (k : nat) (section : str) (items : list (entry * entry))
| DelSection (k : nat) (section : str)
| SetItem (k : nat) (section : str) (item value : entry).
Definition act (files : str -> option str) (a : action) (w : world) : list (ini config) * world :=
  match a with
  | Call cf => let (r, w) := getConfigDict files cf w in ([r], w)
  | SetSection k s items =>
      ([], match nth_error (w_copies w) k with
           | Some d => mkWorld (w_objects w ++ [items]) (w_config w) (set_nth (w_copies w) k (dset s (length (w_objects w)) d))
           | None => w
           end)
  | DelSection k s =>
      ([], match nth_error (w_copies w) k with
           | Some d => mkWorld (w_objects w) (w_config w) (set_nth (w_copies w) k (filter (fun p => negb (str_eqb (fst p) s)) d))
           | None => w
           end)
  | SetItem k s item value =>
      ([], match nth_error (w_copies w) k with
           | Some d => match lookup s d with
                       | Some i => mkWorld (set_nth (w_objects w) i (eset item value (nth i (w_objects w) []))) (w_config w) (w_copies w)
                       | None => w
                       end
           | None => w
           end)
  end.
(** All that the calls return. *)
Fixpoint history (files : str -> option str) (l : list action) (w : world) : list (ini config) :=
  match l with
  | [] => []
  | a :: t => let (r, w) := act files a w in r ++ history files t w
  end.
