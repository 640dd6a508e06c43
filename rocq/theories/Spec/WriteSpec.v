(** Vocabulary for the statements about the writer. *)
From Coq Require Import List NArith ZArith Bool.
From Verif Require Import Py.Str Py.Res Py.Num Model.Dict Model.CommonUtils.
Import ListNotations.

(** A header text that announces its own number of lines: it consists of [n]
    complete lines, and the first line is, after an annotation [ann] (empty for
    plain files), the decimal number [n], the delimiter and the FFI. *)
Definition self_counting (delim ann ffi hdr : str) (n : nat) : Prop :=
  (exists body, hdr = ann ++ dec_of_nat n ++ delim ++ ffi ++ [c_nl] ++ body) /\
  (exists t, hdr = t ++ [c_nl]) /\
  count_chr c_nl hdr = n.

(** The list items of a dictionary that the header writer of each class leaves
    reversed, and those that a write without header leaves reversed. *)
Definition left_reversed (c : cls) (no_header : bool) : list key :=
  match c, no_header with
  | C1001, _ | C1010, _ | C1020, _ => []
  | C2010, false | C3010, false | C4010, false => [kDX]
  | C2010, true | C3010, true | C4010, true => [kNX]
  | C2110, false | C2160, false => [kDX; kXNAME]
  | C2310, false => [kXNAME]
  | _, true => []
  end.

(** A value that is not changed when its items are put in the opposite order. *)
Definition palindromic {num} (v : pyv num) : Prop :=
  forall l, v = PList l -> rev l = l.

(** The item [k] of [d'] is the item [k] of [d] with its items reversed. *)
Definition reversed_item {num} (d d' : na num) (k : key) : Prop :=
  exists l, d k = Some (PList l) /\ d' k = Some (PList (rev l)).
