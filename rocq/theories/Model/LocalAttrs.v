(** nappy/nc_interface/na_content_collector.py:514-528: what the section
    [nc_attributes] of the file of local attributes does in a conversion to NASA
    Ames; the functions of Model/Collector.v that come before and after it. *)
From Coq Require Import List NArith ZArith Bool.
From Verif Require Import Py.Str Py.Res Py.Num Py.Arith Model.Dict Model.NCWrite Model.Xarray Model.Collector Model.ParseConfig.
Import ListNotations.

(** na_content_collector.py:33: [config_dict["nc_to_na_map"]], and whether a name is
    in it. *)
Definition nc_to_na_map (c : config) : Res (list (entry * entry)) := of_opt EKeyError (lookup (lit "nc_to_na_map") c).
Definition is_mapped (m : list (entry * entry)) (att : str) : bool := existsb (fun p => entry_eqb (fst p) (One att)) m.
(** na_content_collector.py:519-520. *)
Definition nc_attributes (l : list (str * list (str * str))) : Res (list (str * str)) := of_opt EKeyError (lookup (lit "nc_attributes") l).
(** na_content_collector.py:523-525.  [key] is a local variable of the function (it
    is assigned in the loop of :529) and has no value yet. *)
Definition extend_map (m : list (entry * entry)) (atts : list (str * str)) : Res (list (entry * entry)) :=
  forR atts (fun p m => if is_mapped m (fst p) then Ok m else Err EUnboundLocal) m.

Section LocalAttrs.
Context {num : Type} `{NumOps num} `{ArithOps num}.
Local Notation xvar := (xvar num).
Local Notation gval := (gval num).
Variable E : env num.
(** the configuration and the dictionary of local attributes *)
Variables (c : config) (l : list (str * list (str * str))).

(** na_content_collector.py:82-111 [collectNAContent] with :519-525 in its place.
    What follows looks at the extended map only where Model/Collector.v does:
    [extend_map] returns the map as it was or raises. *)
Definition collectNAContent_local (requested : option Z) (globals : list (str * gval)) (vars : list xvar) : Res (collected num) :=
  (do a <- analyseVariables E requested vars;
   match a with
   | None => Ok (mkCol None [] [] [] [])
   | Some a =>
       let d := upd na_empty kNIV (PInt (Z.of_nat (a_niv a))) in
       let d := match a_nvpm a with Some n => upd d kNVPM (PInt (Z.of_nat n)) | None => d end in
       let d := upd (upd d kFFI (PInt (a_ffi a))) kNLHEAD (PInt (-999)) in
       do d <- defineNAVars E (a_ffi a) (a_nvpm a) (a_main a) d;
       do d <- defineNAAuxVars E (a_aux a) d;
       do atts <- nc_attributes l;
       do m <- nc_to_na_map c;
       do _ <- extend_map m atts;
       do g <- defineNAGlobals E globals d;
       do d <- defineNAComments g (a_zero a) (a_main a);
       do v <- nth_res (a_main a) 0;
       do ax0 <- nth_res (v_axes v) 0;
       Ok (mkCol (Some (defineGeneralHeader E ax0 d)) (a_main a) (a_aux a) (a_zero a) (a_unused a))
   end)%res.
(** xarray_to_na.py:111-121, as [convert_loop]. *)
Fixpoint convert_loop_local (fuel : nat) (requested : option Z) (globals : list (str * gval)) (unused : list xvar) : Res (list (collected num)) :=
  match unused with
  | [] => Ok []
  | _ =>
      match fuel with
      | O => Err EHang
      | S fuel' =>
          (do c <- collectNAContent_local requested globals unused;
           do rest <- convert_loop_local fuel' requested globals (c_unused c);
           Ok (match c_na c with Some _ => c :: rest | None => rest end))%res
      end
  end.
(** xarray_to_na.py:71-130 [convert]. *)
Definition convert_local (requested : option Z) (globals : list (str * gval)) (xr_variables : list xvar) : Res (option (list (collected num))) :=
  (do vars <- mapR convertSingleton xr_variables;
   do vars <- reorderVars vars;
   do c <- collectNAContent_local requested globals vars;
   match c_na c with
   | None => Ok None
   | Some _ =>
       do rest <- convert_loop_local (length (c_unused c)) requested globals (c_unused c);
       Ok (Some (c :: rest))
   end)%res.
End LocalAttrs.
