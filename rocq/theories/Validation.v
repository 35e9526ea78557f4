(** * Validation: flee/postprocessing/extract-validation-results.py

    The report of how far a simulation is from the data, made from the output of the main
    program.  The plots are not modelled.  Numbers are exact rationals.  Where numpy gives
    inf or nan, the model has [Err ZeroDivisionError] for that number and for the numbers
    computed from it; the other numbers of the report are not concerned. *)

From Coq Require Import Qabs.
From Verif Require Import Base Analysis AgentLog RunScript.
Local Open Scope string_scope.
Local Open Scope Q_scope.

(** The table that pandas reads: columns with their names, all of the same length *)
Definition frame : Type := list (string * list Q).

Fixpoint find_column (name : string) (f : frame) : option (list Q) :=
  match f with
  | [] => None
  | (n, c) :: f' => if String.eqb n name then Some c else find_column name f'
  end.
Definition column (f : frame) (name : string) : res (list Q) := of_option KeyError (find_column name f).

(** [s.split()]: the parts between white space that are not empty *)
Fixpoint pieces (s : string) : list string :=
  match s with
  | EmptyString => [EmptyString]
  | String c s' =>
      if is_space c then EmptyString :: pieces s'
      else match pieces s' with w :: ws => String c w :: ws | [] => [String c EmptyString] end
  end.
Definition py_words (s : string) : list string := filter (fun w => negb (String.eqb w "")) (pieces s).

(** Lines 276-282: the names of the camps, from the names of the columns *)
Definition location_names (cols : list string) : list string :=
  flat_map (fun i => if (str_in " sim" i && negb (str_in "numAgents" i))%bool then [join " " (removelast (py_words i))] else []) cols.

(** The naive models of the data, and the days on which they are trained *)
Inductive naive : Type := Flat | Sloped | Ratio.
Inductive training : Type := Early | Late.
(** Lines 120-121 *)
Definition training_day (t : training) : nat := match t with Early => 7 | Late => 30 end.

(** LocationErrors (lines 34-40) and its dictionary: distances day by day and on average,
    the same for the rescaled simulation, the distances over the total of the data, the
    number of observations and the scaled errors.  The average of nothing is nan. *)
Record loc_errors : Type := LocErrors {
  le_abs : list Q;
  le_abs_ave : res Q;
  le_resc : list Q;
  le_resc_ave : res Q;
  le_ratio : list Q;
  le_ratio_ave : res Q;
  le_N : Q;
  le_mase : naive -> training -> res Q }.

(** Lines 126-130: the simulated numbers, rescaled to the total of the data *)
Fixpoint rescale (y1 untot simtot : list Q) : list Q :=
  match y1, untot, simtot with
  | y :: y1', u :: untot', s :: simtot' => (if Qltb 0 s then y * u / s else 0) :: rescale y1' untot' simtot'
  | _, _, _ => []
  end.

(** Lines 134-163: the lines of the naive models.  [early] and [late] are the numbers of
    days 7 and 30; both sloped lines ask if the number of day 7 is positive. *)
Definition flat_line (y2 : list Q) (v : Q) : list Q := map (fun _ => v) y2.
Definition sloped_line (y2 : list Q) (early v : Q) : res (list Q) :=
  mapM (fun i => if Qltb 0 early then x <- fdiv (inject_Z (Z.of_nat i) * v) v ;; Ok (v * x) else Ok 0) (seq 0 (List.length y2)).
Definition ratio_line (untot : list Q) (v un : Q) : res (list Q) :=
  mapM (fun u => x <- fdiv v un ;; Ok (u * x)) untot.

(** [a / np.maximum(untot, 1)] *)
Fixpoint over_total (a untot : list Q) : list Q :=
  match a, untot with x :: a', u :: untot' => (x / Qmaxb u 1) :: over_total a' untot' | _, _ => [] end.

(** plotme (lines 100-263), with the naive models *)
Definition plotme (f : frame) (name : string) : res loc_errors :=
  y1 <- column f (name ++ " sim") ;;
  y2 <- column f (name ++ " data") ;;
  simtot <- column f "refugees in camps (simulation)" ;;
  untot <- column f "refugees in camps (UNHCR)" ;;
  let y1_rescaled := rescale y1 untot simtot in
  early <- of_option IndexError (nth_error y2 (training_day Early)) ;;
  late <- of_option IndexError (nth_error y2 (training_day Late)) ;;
  un_early <- of_option IndexError (nth_error untot (training_day Early)) ;;
  un_late <- of_option IndexError (nth_error untot (training_day Late)) ;;
  let value t := match t with Early => early | Late => late end in
  let total t := match t with Early => un_early | Late => un_late end in
  ds <- abs_diffs y1 y2 ;;
  ds_rescaled <- abs_diffs y1_rescaled y2 ;;
  let ratios := over_total ds untot in
  let mase n t :=
    line <- match n with
            | Flat => Ok (flat_line y2 (value t))
            | Sloped => sloped_line y2 early (value t)
            | Ratio => ratio_line untot (value t) (total t)
            end ;;
    calculate_mase y1_rescaled y2 line (Z.of_nat (training_day t)) in
  Ok (LocErrors ds (np_mean ds) ds_rescaled (np_mean ds_rescaled) ratios (np_mean ratios) (sumQ y2) mase).

(** SimulationErrors.abs_diff (lines 53-76) *)
Fixpoint zip_add (a b : list Q) : list Q :=
  match a, b with x :: a', y :: b' => (x + y) :: zip_add a' b' | _, _ => [] end.
Definition abs_diff (rescaled : bool) (l : list loc_errors) : res (list Q) :=
  let err e := if rescaled then le_resc e else le_abs e in
  match l with
  | [] => Err IndexError
  | e :: l' => Ok (fold_left (fun tmp e' => zip_add tmp (err e')) l' (err e))
  end.

(** SimulationErrors.get_error (lines 78-97) *)
Definition get_error (l : list loc_errors) (err : loc_errors -> res Q) : res Q :=
  match l with
  | [] => Err IndexError
  | e :: l' =>
      x <- err e ;;
      '(tmp, N) <- foldM (fun (st : Q * Q) e' => let '(tmp, N) := st in
                     y <- err e' ;; Ok (tmp + y * le_N e', N + le_N e')) l' (x * le_N e, le_N e) ;;
      fdiv tmp N
  end.

(** What the program prints (lines 312-341) *)
Record validation : Type := Validation {
  v_camps : list (string * loc_errors);
  v_mase : naive -> training -> res Q;
  v_normal : res Q;
  v_rescaled : res Q;
  v_period : nat }.

(** The main part (lines 267-341).  The columns of lines 284-304 are read for the plot and
    for the totals; the column refugee_debt decides which are plotted. *)
Definition validate (f : frame) : res validation :=
  let names := location_names (map fst f) in
  _ <- column f "total refugees (simulation)" ;;
  _ <- column f "refugees in camps (simulation)" ;;
  un_refs <- column f "refugees in camps (UNHCR)" ;;
  _ <- column f "raw UNHCR refugee count" ;;
  errs <- mapM (plotme f) names ;;
  diffs <- abs_diff false errs ;;
  diffs_rescaled <- abs_diff true errs ;;
  let diffdata := over_total diffs un_refs in
  let diffdata_rescaled := over_total diffs_rescaled un_refs in
  Ok (Validation (combine names errs) (fun n t => get_error errs (fun e => le_mase e n t))
                 (np_mean diffdata) (np_mean diffdata_rescaled) (List.length diffdata)).

(** The table in the output of the main program: runscripts/run.py, lines 53-66 (the
    header) and 106-120 (the lines).  Left out is the column of dates, which is text and
    not used here; the days are the index.  pandas gives another name to a column whose
    name occurs before: camps must have different names for this to be their table. *)
Definition camp_columns (lines : list report) (i : nat) (camp : string) : frame :=
  let cell (f : Z * Z * Q -> Q) := map (fun r => f (nth i (r_camps r) (0%Z, 0%Z, 0))) lines in
  [(camp ++ " sim", cell (fun x => inject_Z (fst (fst x))));
   (camp ++ " data", cell (fun x => inject_Z (snd (fst x))));
   (camp ++ " error", cell snd)].
Definition output_table (idp_totals : bool) (camps : list string) (lines : list report) : frame :=
  (flat_map (fun ic => camp_columns lines (fst ic) (snd ic)) (combine (seq 0 (List.length camps)) camps) ++
   [("Total error", map r_error lines);
    ("refugees in camps (UNHCR)", map (fun r => inject_Z (r_data r)) lines);
    ("total refugees (simulation)", map (fun r => inject_Z (r_total r)) lines);
    ("raw UNHCR refugee count", map (fun r => inject_Z (r_raw r)) lines);
    ("refugees in camps (simulation)", map (fun r => inject_Z (r_in_camps r)) lines);
    ("refugee_debt", map (fun r => inject_Z (r_debt r)) lines)] ++
   (if idp_totals then [("total IDPs", map (fun r => match r_idps r with Some z => inject_Z z | None => 0 end) lines)] else []))%list.
