(** Which dictionaries that were read from a file can be written again, and
    what then comes back. *)
From Coq Require Import List NArith ZArith Bool.
From Verif Require Import Py.Str Py.Res Py.Num Model.Dict Model.CommonUtils Model.NAWrite Model.NARead
  Spec.TextSpec Spec.Records.
Import ListNotations.

Section RewriteSpec.
Context {num : Type} `{NumOps num}.

(** [f] applied to every number of a value. *)
Fixpoint map_nums (f : num -> num) (v : pyv num) : pyv num :=
  match v with
  | PNum x => PNum (f x)
  | PList l => PList (map (map_nums f) l)
  | _ => v
  end.
(** The float format applies to the data X, V and A only. *)
Definition rewritten (g : num -> num) (k : key) (v : pyv num) : pyv num :=
  match k with kX | kV | kA => map_nums g v | _ => v end.

(** The ignored lines that are written in front of the header: only FFI 2160
    does so. *)
Definition kept_ahead (c : cls) (d : na num) : list (pyv num) :=
  match c, d kIGN with C2160, Some (PList l) => l | _, _ => [] end.
(** Writing [d] succeeds and the file, read with the number of lines ignored
    that stand in front, gives a dictionary of the same class with the same items;
    only the data may be rounded by the format, NLHEAD is the number of lines of
    the new header and those in front. *)
Definition rewrites (o : opts num) (g : num -> num) (c : cls) (d : na num) : Prop :=
  let n := length (kept_ahead c d) in
  forall h, exists file hdr d2 d',
    write_body o c false (mkW [] h d) = (Ok tt, mkW file hdr d2) /\ read_file file (Z.of_nat n) = Ok (c, d') /\
    (forall k, k <> kNLHEAD -> k <> kIGN -> d' k = option_map (rewritten g k) (d k)) /\
    d' kNLHEAD = Some (PInt (Z.of_nat (count_chr c_nl hdr + n))) /\ d' kIGN = Some (PList (kept_ahead c d)).

(** No trailing {...} annotation, no U+0001 at the end. *)
Definition plain_text (s : str) : Prop := (forall p g b, ~ annotated s p g b) /\ (forall t, s <> t ++ [1%N]).
Definition plain_title (s : str) : Prop :=
  plain_text s /\ s <> [] /\ (forall c t, s = c :: t \/ s = t ++ [c] -> ~ is_quote_chr c).
(** Items that hold the length of another item. *)
Definition counted : list (key * key) :=
  [(kNV, kVSCAL); (kNV, kVMISS); (kNAUXV, kAMISS); (kNAUXV, kA); (kNAUXV, kLENA); (kNSCOML, kSCOM); (kNNCOML, kNCOM)].

(** What a file must not contain: titles that are empty, quoted or annotated
    twice, names that are annotated twice, lines of scale factors with more
    values than variables, negative counts; and for some file formats: *)
Record tidy (g : num -> num) (c : cls) (d : na num) : Prop := {
  ti_titles : forall k s, In k [kONAME; kORG; kSNAME; kMNAME] -> d k = Some (PStr s) -> plain_title s;
  ti_names : forall k l s, In k [kXNAME; kVNAME; kANAME] -> d k = Some (PList l) -> In (PStr s) l -> plain_text s;
  ti_counts : forall kn kl n l, In (kn, kl) counted -> d kn = Some (PInt n) -> d kl = Some (PList l) -> Z.of_nat (length l) = n;
  (** the character variables of 2160 have no scale factor; *)
  ti_scal : forall n l, d kNAUXV = Some (PInt n) -> d kASCAL = Some (PList l) ->
    Z.of_nat (length l) = (n - match d kNAUXC with Some (PInt nc) => nc | _ => 0 end)%Z;
  (** 1020: values per mark; *)
  ti_nvpm : forall n, d kNVPM = Some (PInt n) -> (0 < n)%Z;
  (** 2010, 3010, 4010: empty bounded axes, axes with more listed values than
      announced, counts that are not the same in both directions (C13); *)
  ti_nx : In c [C2010; C3010; C4010] -> forall l n, d kNX = Some (PList l) -> In (PInt n) l -> (0 < n)%Z;
  ti_axes : In c [C2010; C3010; C4010] -> forall x0 xs l, d kX = Some (PList (x0 :: xs)) -> d kNXDEF = Some (PList l) ->
    rev l = l /\ Forall2 (fun n x => forall y, x = PList y -> n = PInt (Z.of_nat (length y))) l xs;
  (** 2110, 2160: no auxiliary variable, numbers of points that are negative or that
      the format rounds to another number; *)
  ti_sizes : In c [C2110; C2160] -> d kNAUXV <> Some (PInt 0) /\ forall a ar x, d kA = Some (PList (PList a :: ar)) -> In (PNum x) a ->
    exists n, (0 <= n)%Z /\ num_trunc x = Some n /\ num_trunc (g x) = Some n;
  (** 2310: several variables (C16), less than three auxiliary variables, numbers
      of points and steps that the format rounds to another number. *)
  ti_steps : c = C2310 -> d kNV = Some (PInt 1) /\ (forall n, d kNAUXV = Some (PInt n) -> (3 <= n)%Z) /\
    forall a0 a1 a2 ar x n, d kA = Some (PList (PList a0 :: a1 :: PList a2 :: ar)) -> In (PNum x) a0 \/ In (PNum x) a2 ->
      num_trunc x = Some n -> num_trunc (g x) = Some n;
  (** 2160: ignored lines that are annotated twice, marks and missing characters with a comma, brace or
      U+0001, character values that are empty, annotated twice or end with a comma. *)
  ti_chars : c = C2160 -> (forall l s, d kIGN = Some (PList l) -> In (PStr s) l -> plain_text s) /\
    (forall l s p, d kX = Some (PList l) -> In (PList [PStr s; p]) l -> ~ In c_comma s /\ ~ In c_rbrace s /\ ~ In 1%N s) /\
    (forall l s, d kAMISS = Some (PList l) -> In (PStr s) l -> ~ In c_comma s /\ ~ In c_rbrace s /\ ~ In 1%N s) /\
    (forall l a s, d kA = Some (PList l) -> In (PList a) l -> In (PStr s) a -> plain_text s /\ s <> [] /\ forall t, s <> t ++ [c_comma]) }.
End RewriteSpec.
