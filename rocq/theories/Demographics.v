(** * Demographics: the demographics files (flee/spawning.py 82-182)

    The module variable [__demographics] is a value of type [demos]; reading a CSV file
    is left to pandas: a file is given by the frame that [pd.read_csv] returns. *)

From Verif Require Import Base State Moving Flee DataTable Spawning Coupling.
Local Open Scope string_scope.
Local Open Scope list_scope.

(** A pandas frame: its columns with their headings; [None] is an empty cell (NaN). *)
Definition frame : Type := list (string * list (option pyval)).
Definition demos : Type := list (string * frame).

(** The folder "input_csv" of the working directory, if it exists: its files, in the order
    in which [glob] lists them. *)
Definition input_folder : Type := option (list (string * frame)).

(** [glob.glob("input_csv/demographics_*.csv")] *)
Fixpoint ends_with (w s : string) : bool :=
  if String.eqb s w then true else match s with EmptyString => false | String _ s' => ends_with w s' end.
Definition matches (name : string) : bool :=
  (String.prefix "demographics_" name && ends_with ".csv" (substring 13 (String.length name - 13) name))%bool.

(** read_demographic_csv, line 100:
    [(csvname.split(os.sep)[1].split('.')[0]).split('_')[1]] *)
Definition attribute_of (csvname : string) : res string :=
  f <- of_option IndexError (nth_error (split "/" csvname) 1) ;;
  b <- of_option IndexError (nth_error (split "." f) 0) ;;
  of_option IndexError (nth_error (split "_" b) 1).

(** read_demographic_csv (lines 82-111); the file exists, since [glob] found it *)
Definition read_demographic_csv (dm : demos) (file : string * frame) : res demos :=
  a <- attribute_of ("input_csv/" ++ fst file) ;; Ok (dict_set a (snd file) dm).

(** read_demographics (lines 114-137) *)
Definition read_demographics (folder : input_folder) (dm : demos) : res demos :=
  match folder with
  | None => Ok dm
  | Some files => foldM read_demographic_csv (filter (fun f => matches (fst f)) files) dm
  end.

(** The beginning of add_initial_refugees (lines 199-202) *)
Definition load_demographics (folder : input_folder) (dm : demos) : res demos :=
  match dm with [] => read_demographics folder dm | _ => Ok dm end.

(** runscripts/run.py, lines 56-58: the value of [__demographics] after the loop that
    calls add_initial_refugees for each camp; nothing else reads the files. *)
Definition demographics_of_run (folder : input_folder) (camps : list string) : res demos :=
  foldM (fun dm _ => load_demographics folder dm) camps [].

(** [frame[name]] as weights of [DataFrame.sample]: numbers; an empty cell counts 0. *)
Definition weight_of (c : option pyval) : res Q := match c with None => Ok 0%Q | Some v => py_float v end.

(** [a.iloc[0]]: a row of a frame with only numbers, of which some are floats, is a series
    of floats. *)
Definition is_text (c : option pyval) : bool := match c with Some (VInt _) | Some (VFloat _) | None => false | _ => true end.
Definition is_float (c : option pyval) : bool := match c with Some (VFloat _) | None => true | _ => false end.
Definition all_floats (fr : frame) : bool :=
  (forallb (fun c => negb (existsb is_text (snd c))) fr && existsb (fun c => existsb is_float (snd c)) fr)%bool.
(** Of NaN only the text is modelled. *)
Definition cell_value (fr : frame) (c : option pyval) : pyval :=
  match c with
  | None => VStr "nan"
  | Some (VInt z) => if all_floats fr then VFloat (inject_Z z) else VInt z
  | Some v => v
  end.

(** [frame.sample(n=1, weights=w)] (as [sample_row]): the number of the row *)
Definition sample_index (rows : nat) (w : list Q) (g : rng) : res (nat * rng) :=
  if existsb (fun x => Qltb x 0) w then Err ValueError
  else if negb (Qltb 0 (sumQ w)) then Err ValueError
  else if negb (Nat.eqb (List.length w) rows) then Err ValueError
  else
    let cum := accumulate 0%Q (map (fun x => x / sumQ w)%Q w) in
    let '(u, g1) := rng_nu g in
    Ok (bisect_right (map (fun c => c / List.last cum 1)%Q cum) u, g1).

(** draw_sample (lines 140-164) for an attribute that has a frame *)
Definition draw_from_frame (fr : frame) (attribute locname : string) (g : rng) : res (pyval * rng) :=
  col <- (match dict_get locname fr with Some c => Ok c | None => of_option KeyError (dict_get "Default" fr) end) ;;
  w <- mapM weight_of col ;;
  '(n, g1) <- sample_index (List.length col) w g ;;
  vs <- of_option KeyError (dict_get attribute fr) ;;
  c <- of_option IndexError (nth_error vs n) ;;
  Ok (cell_value fr c, g1).

(** draw_samples (lines 167-182) *)
Fixpoint draw_from_frames (dm : demos) (locname : string) (g : rng) : res (dict * rng) :=
  match dm with
  | [] => Ok ([], g)
  | (a, fr) :: dm' =>
      '(v, g1) <- draw_from_frame fr a locname g ;;
      '(d, g2) <- draw_from_frames dm' locname g1 ;;
      Ok ((a, v) :: d, g2)
  end.

(** The frame of an attribute as a table of Spawning.v: the columns that can be used as
    weights *)
Definition as_table (a : string) (fr : frame) : demo_table :=
  Demo (map (cell_value fr) (match dict_get a fr with Some vs => vs | None => [] end))
       (flat_map (fun c => match mapM weight_of (snd c) with Ok w => [(fst c, w)] | Err _ => [] end) fr).
Definition as_tables (dm : demos) : demographics := map (fun p => (fst p, as_table (fst p) (snd p))) dm.
