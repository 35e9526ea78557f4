(** * CombinedOutput: one output file for several instances (flee/coupling.py 654-686)

    A file out[i].csv has a heading and lines of numbers; as in run_mscale.py (lines
    395-415) there is no column of dates.  What pandas prints for a number is not
    modelled: a file is what [pandas.read_csv] makes of it. *)

From Verif Require Import Base.
Local Open Scope string_scope.
Local Open Scope list_scope.

(** What [pandas.read_csv] gives: the names of the columns and the lines *)
Record frame := Frame { f_columns : list string; f_rows : list (list Q) }.

(** The first column called [c] *)
Fixpoint position (c : string) (cols : list string) : option nat :=
  match cols with
  | [] => None
  | x :: rest => if String.eqb x c then Some 0%nat else option_map Datatypes.S (position c rest)
  end.
Definition cell (f : frame) (c : string) (r : list Q) : option Q :=
  match position c (f_columns f) with Some i => nth_error r i | None => None end.

(** [pandas.concat(dfs, axis=0, ignore_index=True)] (line 680): the columns of any of the
    frames; a line has no value in a column its frame does not have. *)
Definition all_columns (fs : list frame) : list string := nodup string_dec (flat_map f_columns fs).
Definition all_lines (fs : list frame) : list (string -> option Q) :=
  flat_map (fun f => map (fun r c => cell f c r) (f_rows f)) fs.

(** [.groupby(["Day"]).mean()] (line 680): for each day and column the mean of the values
    there are; no value if there are none.  The order of the days is not modelled, as
    nothing comes of the result. *)
Definition somes (l : list (option Q)) : list Q := flat_map (fun x => match x with Some q => [q] | None => [] end) l.
Definition mean_of (l : list Q) : option Q :=
  match l with [] => None | _ => Some (sumQ l / inject_Z (Z.of_nat (List.length l)))%Q end.
Definition is_day (d : Q) (line : string -> option Q) : bool :=
  match line "Day" with Some x => Qeqb x d | None => false end.
Definition group_mean (lines : list (string -> option Q)) (c : string) (d : Q) : option Q :=
  mean_of (somes (map (fun line => line c) (filter (is_day d) lines))).
Definition group_means (fs : list frame) : res (list (string * list (option Q))) :=
  match fs with
  | [] => Err ValueError
  | _ => if existsb (String.eqb "Day") (all_columns fs) then
           Ok (map (fun c => (c, map (group_mean (all_lines fs) c) (somes (map (fun line => line "Day") (all_lines fs)))))
                   (filter (fun c => negb (String.eqb c "Day")) (all_columns fs)))
         else Err KeyError
  end.

(** Lines 682-684: [round(0).astype(int)] of the columns without "error" in their names,
    which cannot be done without a value.  The result goes nowhere. *)
Definition to_int (column : string * list (option Q)) : res unit :=
  if str_in "error" (lower (fst column)) then Ok tt
  else if forallb (fun x => match x with Some _ => true | None => false end) (snd column) then Ok tt else Err ValueError.

(** sumOutputCSVFiles (lines 654-686), given what is in the files when they are read: the
    frame that is written is [df], the one read last. *)
Definition sum_output (fs : list frame) : res frame :=
  means <- group_means fs ;;
  _ <- mapM to_int means ;;
  of_option NameError (last (map Some fs) None).
