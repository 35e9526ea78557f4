(** * DataFiles: flee/datamanager/DataTable.py and handle_refugee_data.py: reading data tables

    A file is the list of the rows of the CSV reader, each a list of cells; [files] gives
    the files of the data directory by name.  Reading the text of a file is not
    modelled. *)

From Verif Require Import Base DataTable Dates.
Local Open Scope Q_scope.
Local Open Scope string_scope.

Definition csv : Type := list (list string).
Definition directory : Type := string -> option csv.
Definition open_csv (files : directory) (name : string) : res csv := of_option OSError (files name).

(** [row[0][0] == "#"]: raises IndexError if there is no cell or the cell is empty *)
Definition hash_row (r : list string) : res bool :=
  c <- of_option IndexError (nth_error r 0) ;;
  match c with EmptyString => Err IndexError | String a _ => Ok (Ascii.eqb a "#") end.

(** _processEntry (lines 59-114) with data_type "int", date column 0 and count column 1,
    the only values used *)
Definition process_entry (start : string) (factor : Z) (t : series) (r : list string) : res series :=
  if (List.length r <? 2)%nat then Ok t
  else
    h <- hash_row r ;;
    if (h : bool) then Ok t
    else
      c <- of_option IndexError (nth_error r 1) ;;
      if String.eqb c "" then Ok t
      else
        d <- of_option IndexError (nth_error r 0) ;;
        days <- subtract_dates d start ;;
        n <- of_option ValueError (parse_Z c) ;;
        v <- fdiv (inject_Z n) (inject_Z factor) ;;
        Ok (t ++ [(inject_Z days, v)])%list.

(** ConvertCsvFileToNumPyTable (lines 163-209) *)
Definition convert_csv (start : string) (factor : Z) (rows : csv) : res series :=
  match rows with
  | [] => Err StopIteration
  | r :: rs =>
      t <- (if (1 <? List.length r)%nat then
              c <- of_option IndexError (nth_error r 0) ;;
              if (String.eqb c "" || mem_str c ["DateTime"; "Date"])%bool then Ok [] else process_entry start factor [] r
            else Ok []) ;;
      foldM (process_entry start factor) rs t
  end.

Definition load_csv (files : directory) (start : string) (factor : Z) (name : string) : res series :=
  rows <- open_csv files name ;; convert_csv start factor rows.

(** DataTable.__init__ (lines 218-281) on the rows of the layout file *)
Definition layout_row (files : directory) (start : string) (factor : Z) (st : list string * list series) (r : list string)
  : res (list string * list series) :=
  if (1 <? List.length r)%nat then
    h <- hash_row r ;;
    if (h : bool) then Ok st
    else
      name <- of_option IndexError (nth_error r 0) ;;
      file <- of_option IndexError (nth_error r 1) ;;
      t <- load_csv files start factor file ;;
      t' <- foldM (fun t f => t2 <- load_csv files start factor f ;; add_csv_tables t t2) (skipn 2 r) t ;;
      Ok ((fst st ++ [name])%list, (snd st ++ [t'])%list)
  else Ok st.
Definition new_table (files : directory) (layout : csv) (start : string) (factor : Z) (start_empty : bool) : res dtable :=
  '(h, ts) <- foldM (layout_row files start factor) layout ([], []) ;;
  Ok (DTable h ts (if start_empty then 1 else 0) []).

(** override_input (lines 283-303) adds a column; nothing reads the flag it sets. *)
Definition override_input (files : directory) (start : string) (factor : Z) (name : string) (d : dtable) : res dtable :=
  t <- load_csv files start factor name ;;
  Ok (DTable (d_header d ++ ["total (modified input)"])%list (d_tables d ++ [t])%list (d_start_empty d) (d_day0 d)).

(** correctLevel1Registrations (handle_refugee_data.py lines 61-90) with the date as text *)
Definition correct_level1_text (start : string) (d : dtable) (name date : string) : res (dtable * Q) :=
  _ <- find_header name (d_header d) 0 ;;
  days <- subtract_dates date start ;;
  correct_level1 d name days.

(** ReadL1Corrections (handle_refugee_data.py lines 46-59); without the file nothing
    happens *)
Definition correction_row (start : string) (d : dtable) (r : list string) : res dtable :=
  if (1 <? List.length r)%nat then
    name <- of_option IndexError (nth_error r 0) ;;
    date <- of_option IndexError (nth_error r 1) ;;
    '(d', _) <- correct_level1_text start d name date ;; Ok d'
  else Ok d.
Definition read_corrections (start : string) (file : option csv) (d : dtable) : res dtable :=
  match file with None => Ok d | Some rows => foldM (correction_row start) rows d end.
