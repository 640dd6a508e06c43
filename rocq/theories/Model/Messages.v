(** The messages of a converter: [self.output_message] of
    nappy/nc_interface/xarray_to_na.py [XarrayToNA], with those that
    na_content_collector.py [NAContentCollector] contributes.  [writeNAFiles]
    returns them, and nappy_api.py:292 logs them.

    Simplifications: messages are those of calls that raise no exception; every
    variable has a name; a date that is a numpy array is as in [Model/NCWrite]. *)
From Coq Require Import List NArith ZArith Bool.
From Verif Require Import Py.Str Py.Res Py.Num Py.Arith Model.Dict Model.CommonUtils Model.NAWrite Model.Utils Model.NCWrite Model.Xarray Model.Collector Model.Api Model.Programs.
Import ListNotations.

Section Messages.
Context {num : Type} `{NumOps num} `{ArithOps num}.
Local Notation pyv := (pyv num).
Local Notation na := (na num).
Local Notation xvar := (xvar num).
Local Notation gval := (gval num).

(** The names of [collector.var_ids]: variables, auxiliary and rank zero. *)
Record names3 := mkNames { m_main : list str; m_aux : list str; m_zero : list str }.
Inductive message :=
| MAnalysing (name : str)                    (* na_content_collector.py:129 *)
| MNoDate                                    (* na_content_collector.py:756 *)
| MNothing                                   (* xarray_to_na.py:103 *)
| MWriting (file : str)                      (* xarray_to_na.py:264 *)
| MOverwritten (k : key) (v : pyv)           (* xarray_to_na.py:302 *)
| MSplit (limit : Z) (file : str)            (* xarray_to_na.py:412 *)
| MWrote (main : list str)                   (* xarray_to_na.py:330 *)
| MReport (aux zero files : list str)        (* xarray_to_na.py:334-350 *)
| MCount (n : Z).                            (* xarray_to_na.py:352-362 *)

(** A list of names, each on its own line. *)
Definition listed (title : str) (l : list str) : str := title ++ [c_nl] ++ lit "  " ++ join ([c_nl] ++ lit "  ") l.
(** The texts.  [show v] is [str(v)]. *)
Definition render (show : pyv -> str) (m : message) : str :=
  match m with
  | MAnalysing n => lit "Analysing: " ++ n
  | MNoDate => lit "Nappy Warning: Could not get the first date in the file. You will need to manually edit the output file."
  | MNothing => [c_nl] ++ lit "No files created after variables parsed."
  | MWriting f => [c_nl] ++ lit "Writing output NASA Ames file: " ++ f
  | MOverwritten k v =>
      lit "Metadata overwritten in output file: '" ++
      flat_map (fun p => if key_beq (snd p) k then fst p else []) override_keys ++ lit "' is now '" ++ show v ++ lit "'"
  | MSplit n f => [c_nl] ++ lit "Output files split on size limit: " ++ dec_of_Z n ++ [c_nl] ++ lit "Filename used: " ++ f
  | MWrote l => listed ([c_nl] ++ lit "Wrote the following variables:") l
  | MReport aux zero files =>
      (* line 341 replaces the text of line 337 *)
      (if is_nil zero then if is_nil aux then [] else listed ([c_nl] ++ lit "Wrote the following auxiliary variables:") aux
       else listed ([c_nl] ++ lit "Wrote the following Singleton variables:") zero) ++
      (if is_nil files then [] else [c_nl; c_nl] ++ lit "NASA Ames file(s) written successfully: " ++ [c_nl] ++ join [c_nl] files)
  | MCount n => [c_nl] ++ dec_of_Z n ++ lit " file" ++ (if (n =? 1)%Z then [] else lit "s") ++ lit " written."
  end.

(** ** Converting *)
Variable E : env num.
(** na_content_collector.py:767-792: the date is not known. *)
Definition undated (globals : list (str * gval)) (c : collected num) : bool :=
  match c_na c, c_main c with
  | Some _, v :: _ =>
      match v_axes v with
      | ax0 :: _ =>
          if is_time ax0 then
            match ax_nums ax0 with
            | [] => true
            | x :: _ => is_nil (n_enc_units (ax_info ax0)) || match e_date E x (n_enc_units (ax_info ax0)) with Some _ => false | None => true end
            end
          else negb (mem_str (lit "first_valid_date_of_data") (map fst globals))
      | [] => false
      end
  | _, _ => false
  end.
(** [collector.output_message] after [collectNAContent]; [vars] is
    [collector.vars]. *)
Definition collector_messages (globals : list (str * gval)) (vars : list xvar) (c : collected num) : list message :=
  map (fun v => MAnalysing (v_name v)) vars ++ (if undated globals c then [MNoDate] else []).
(** xarray_to_na.py:116-125, the [while] loop as in [convert_loop]. *)
Fixpoint loop_messages (fuel : nat) (requested : option Z) (globals : list (str * gval)) (unused : list xvar) : Res (list message) :=
  match unused with
  | [] => Ok []
  | _ =>
      match fuel with
      | O => Err EHang
      | S fuel' =>
          (do c <- collectNAContent E requested globals unused;
           do rest <- loop_messages fuel' requested globals (c_unused c);
           Ok (collector_messages globals unused c ++ rest))%res
      end
  end.
(** xarray_to_na.py:88-128 [convert] for the first time.  The messages of the
    first collector are not used. *)
Definition convert_messages (requested : option Z) (globals : list (str * gval)) (xr_variables : list xvar) : Res (list message) :=
  (do vars <- mapR convertSingleton xr_variables;
   do vars <- reorderVars vars;
   do c <- collectNAContent E requested globals vars;
   match c_na c with
   | None => Ok [MNothing]
   | Some _ => loop_messages (length (c_unused c)) requested globals (c_unused c)
   end)%res.
(** na_content_collector.py:101-103 and xarray_to_na.py:111, 125. *)
Definition named_dicts (r : option (list (collected num))) : list (na * names3) :=
  match r with
  | None => []
  | Some l =>
      flat_map (fun c => match c_na c with
                         | Some d => [(d, mkNames (map v_name (c_main c)) (map v_name (c_aux c)) (map v_name (c_zero c)))]
                         | None => []
                         end) l
  end.

(** ** Writing *)
(** Python's [==] of two items. *)
Variable same : pyv -> pyv -> bool.
(** xarray_to_na.py:273-305. *)
Fixpoint override_messages (r : rule) (l : list (key * pyv)) (d : na) : Res (list message * na) :=
  match l with
  | [] => Ok ([], d)
  | p :: t =>
      (do d' <- override r d p;
       do q <- override_messages r t d';
       let new := match d' (fst p) with Some v => v | None => PNone end in
       let told := NCWrite.key_in (fst p) permitted && negb (NCWrite.key_in (fst p) [kSCOM; kNCOM]) &&
                   match d (fst p) with Some v => negb (same new v) | None => true end in
       Ok ((if told then [MOverwritten (fst p) new] else []) ++ fst q, snd q))%res
  end.
(** Every second element: [_writeNAFileSubsetsWithinSizeLimit] appends every name
    twice, and one message (lines 405, 412 and 418). *)
Fixpoint every_second {A} (l : list A) : list A :=
  match l with x :: _ :: t => x :: every_second t | _ => [] end.
(** xarray_to_na.py:313-327: has the file been split? *)
Definition is_split (size_limit : option Z) (d : na) : bool :=
  match size_limit with
  | None => false
  | Some s =>
      match (do ffi <- get d kFFI;
             match ffi with
             | PInt 1001 => do v <- get d kV; do v0 <- index v 0; do n <- len_v v0; Ok (s <? n)%Z
             | _ => Ok false
             end)%res with
      | Ok b => b
      | Err _ => false
      end
  end.
(** xarray_to_na.py:262-362: the messages and [file_list] after the loop.
    [counter] is [full_file_counter], which grows by the length of the whole
    [file_list] in every round (line 346). *)
Fixpoint write_messages (fuel : nat) (s : NCWrite.settings (num := num)) (o : opts num) (no_header : bool) (size_limit : option Z)
    (l : list (str * (na * names3))) (counter : Z) (file_list : list str) (fs : disk) : Res (list message * list str) * disk :=
  match l with
  | [] => (Ok ([MCount (counter - 1)], file_list), fs)
  | (name, (d, vars_to_write)) :: rest =>
      match (do q <- override_messages (st_rule s) (st_overriders s) d;
             do d' <- (if st_headers s then updateWithColumnHeaders (snd q) else Ok (snd q));
             Ok (fst q, d'))%res with
      | Err e => (Err e, fs)
      | Ok (overwritten, d') =>
          match write_one fuel o no_header size_limit name d' fs with
          | (Err e, fs') => (Err e, fs')
          | (Ok names, fs') =>
              let split := match size_limit with
                           | Some n => if is_split size_limit d' then map (MSplit n) (every_second names) else []
                           | None => []
                           end in
              let files := file_list ++ names in
              match write_messages fuel s o no_header size_limit rest (counter + Z.of_nat (length files)) files fs' with
              | (Err e, fs'') => (Err e, fs'')
              | (Ok (ms, all), fs'') =>
                  (Ok (MWriting name :: overwritten ++ split ++ [MWrote (m_main vars_to_write); MReport (m_aux vars_to_write) (m_zero vars_to_write) files] ++ ms, all), fs'')
              end
          end
      end
  end.
(** xarray_to_na.py:229-365: what [writeNAFiles] of a converter that is new
    returns, and [output_files_written].  When nothing was found
    [constructNAFileNames] converts once more (lines 203-204). *)
Definition messages_of_writing (fuel : nat) (requested : option Z) (globals : list (str * gval)) (vars : list xvar) (s : NCWrite.settings (num := num))
    (o : opts num) (no_header : bool) (size_limit : option Z) (na_file : str) (fs : disk) : Res (list message * list str) * disk :=
  match (do r <- convert E requested globals vars; do ms <- convert_messages requested globals vars;
         Ok (named_dicts r, match r with Some _ => ms | None => ms ++ ms end))%res with
  | Err e => (Err e, fs)
  | Ok (dicts, first) =>
      match write_messages fuel s o no_header size_limit (combine (constructNAFileNames na_file (length dicts)) dicts) 1 [] fs with
      | (Err e, fs') => (Err e, fs')
      | (Ok (ms, files), fs') => (Ok (first ++ ms, files), fs')
      end
  end.
End Messages.
Arguments message : clear implicits.
