(** * ErrorCurves: flee/postprocessing/plot_flee_output.py

    The pictures made from the output of the main program: what they show.  Numbers are
    exact rationals; the mean of nothing, which numpy calls nan, is
    [Err ZeroDivisionError].  Not modelled: the drawing itself, directories, the multiscale
    variants (the same functions on other files), and the entry "ratio difference", which
    nothing reads. *)

From Verif Require Import Base Analysis AgentLog RunScript Validation.
Local Open Scope string_scope.
Local Open Scope Q_scope.

(** [data.drop([...], axis=1)] in plot_camps (lines 108-118): a label that is not there is a
    KeyError. *)
Definition dropped : list string :=
  ["Total error"; "refugees in camps (UNHCR)"; "total refugees (simulation)"; "raw UNHCR refugee count";
   "refugees in camps (simulation)"; "refugee_debt"].
Definition str_mem (s : string) (l : list string) : bool := existsb (String.eqb s) l.
Definition drop_columns (f : frame) : res frame :=
  if forallb (fun d => str_mem d (map fst f)) dropped then Ok (filter (fun c => negb (str_mem (fst c) dropped)) f) else Err KeyError.

(** A picture of a camp: the name of its file, the simulated numbers, the data *)
Definition picture : Type := (string * list Q * list Q).

(** plot_camps (lines 97-151): one picture for each column that is left.  A file that is
    saved again is replaced.  The column of dates, which is skipped, is not in the table. *)
Definition plot_column (f : frame) (col : string) : res (list picture) :=
  match py_words col with
  | [] => Err IndexError
  | w :: _ =>
      if String.eqb w "Date" then Ok [] else
      y1 <- column f (w ++ " sim") ;;
      y2 <- column f (w ++ " data") ;;
      Ok [(w, y1, y2)]
  end.
Definition plot_camps (f : frame) : res (list picture) :=
  g <- drop_columns f ;; ps <- mapM (fun c => plot_column g (fst c)) g ;; Ok (List.concat ps).

(** plot_numagents (lines 155-214): the columns that are drawn *)
Definition plot_numagents (f : frame) : res (list (list Q)) :=
  if str_mem "refugee_debt" (map fst f)
  then mapM (column f) ["total refugees (simulation)"; "refugees in camps (simulation)"; "raw UNHCR refugee count"; "refugee_debt"]
  else mapM (column f) ["total refugees (simulation)"; "refugees in camps (UNHCR)"; "raw UNHCR refugee count"].

(** error_quantification (lines 314-351): the distances day by day, and those of the
    rescaled simulation.  The rescaled numbers go into an array of integers, which cuts them
    off (lines 327-332). *)
Definition error_quantification (f : frame) (name : string) : res (list Q * list Q) :=
  y1 <- column f (name ++ " sim") ;;
  y2 <- column f (name ++ " data") ;;
  simtot <- column f "refugees in camps (simulation)" ;;
  untot <- column f "refugees in camps (UNHCR)" ;;
  let y1_rescaled := map (fun x => inject_Z (Qtrunc x)) (rescale y1 untot simtot) in
  ds <- abs_diffs y1 y2 ;;
  dr <- abs_diffs y1_rescaled y2 ;;
  Ok (ds, dr).

(** SimulationErrors.abs_diff (lines 49-69) *)
Definition add_up (l : list (list Q)) : res (list Q) :=
  match l with [] => Err IndexError | x :: l' => Ok (fold_left zip_add l' x) end.

(** The curves of the error and what is printed: their means and their length *)
Record curves : Type := Curves {
  c_normal : list Q;
  c_rescaled : list Q;
  c_mean : res Q;
  c_mean_rescaled : res Q;
  c_len : nat }.

(** plot_errors (lines 218-311) *)
Definition plot_errors (f : frame) : res curves :=
  un_refs <- column f "refugees in camps (UNHCR)" ;;
  errs <- mapM (error_quantification f) (location_names (map fst f)) ;;
  diffs <- add_up (map fst errs) ;;
  diffs_rescaled <- add_up (map snd errs) ;;
  let diffdata := over_total diffs un_refs in
  let diffdata_rescaled := over_total diffs_rescaled un_refs in
  Ok (Curves diffdata diffdata_rescaled (np_mean diffdata) (np_mean diffdata_rescaled) (List.length diffdata)).

(** plot_flee_output (lines 389-454) on the output of a run without multiscale *)
Definition plot_flee_output (f : frame) : res (list picture * list (list Q) * curves) :=
  ps <- plot_camps f ;; ns <- plot_numagents f ;; c <- plot_errors f ;; Ok (ps, ns, c).
