(** * ExchangeLog: the logs of exchanged numbers (flee/coupling.py 546-651, 891-929)

    Modelled: the three logs of the process that couples, the files they are saved to, and
    how these files are read for plotting.  The ecosystem is that of a parallel run: the
    sequential one has no attribute total_agents, so that logging fails there.  Not modelled:
    names of files and directories, the waiting for files (CouplingFiles.v) and the plots. *)

From Verif Require Import Base State Moving Flee Api Pflee ParApi Coupling AgentLog.
Local Open Scope string_scope.
Local Open Scope list_scope.

(** Attributes logTotalAgents, logLocationsNumAgents and logNewRefugees, which are created
    by the first call that logs (lines 627-629, 635-637, 641-643): lists of rows *)
Record xlog : Type := XLog {
  x_total : option (list (list Z)); x_locations : option (list (list Z)); x_new : option (list (list Z)) }.
Definition no_log : xlog := XLog None None None.
Definition append_row (row : list Z) (l : option (list (list Z))) : option (list (list Z)) :=
  Some (match l with None => [] | Some rows => rows end ++ [row]).

(** logNewAgents (lines 607-629) *)
Definition log_new (t new_refs : Z) (lg : xlog) : xlog :=
  XLog (x_total lg) (x_locations lg) (append_row [t; new_refs] (x_new lg)).

(** logExchangeData (lines 632-651) *)
Definition out_numbers (e : eco) (cp : coupling) : res (list Z) :=
  zs <- mapM (fun row : nat * (string * string) => let '(i, (_, direction)) := row in
               if str_in "out" direction then l <- loc_of e i ;; Ok [l_numAgents l] else Ok []) (cp_rows cp) ;;
  Ok (List.concat zs).
Definition log_exchange (t : Z) (e : eco) (cp : coupling) (lg : xlog) : res xlog :=
  zs <- out_numbers e cp ;;
  Ok (XLog (append_row [t; e_total_agents e] (x_total lg)) (append_row (t :: zs) (x_locations lg)) (x_new lg)).

(** What Couple does with the logs if log_exchange_data is set (lines 247, 323-324, 341-342):
    [e] is the ecosystem of the process that couples, before the exchange. *)
Definition couple_log (t : Z) (e : eco) (cp : coupling) (lg : xlog) : res xlog :=
  now <- couples_now t cp ;;
  if (now : bool) then log_exchange t e cp lg else Ok lg.

(** csv.writer: cells with commas between them, and its end of line *)
Definition carriage_return : ascii := ascii_of_nat 13.
Definition csv_row (zs : list Z) : string :=
  (join "," (map str_of_Z zs) ++ String carriage_return (String newline EmptyString))%string.
Definition csv_rows (rows : list (list Z)) : string := fold_right (fun r s => (csv_row r ++ s)%string) EmptyString rows.

(** saveExchangeDataToFile (lines 546-604): the text of each file afterwards, [old] if the log
    does not exist.  Files are opened for appending. *)
Definition saved (old header : string) (log : option (list (list Z))) : string :=
  match log with
  | None => old
  | Some rows => (old ++ header ++ String newline (csv_rows rows))%string
  end.
Definition out_names (cp : coupling) : list string :=
  flat_map (fun row : nat * (string * string) => if str_in "out" (snd (snd row)) then [fst (snd row)] else []) (cp_rows cp).
Definition locations_header (cp : coupling) : string :=
  fold_left (fun s n => (s ++ "," ++ n)%string) (out_names cp) "day".
Definition save_total (old : string) (lg : xlog) : string := saved old "day,total_agents" (x_total lg).
Definition save_locations (old : string) (cp : coupling) (lg : xlog) : string := saved old (locations_header cp) (x_locations lg).
Definition save_new (old : string) (lg : xlog) : string := saved old "day,new_refs" (x_new lg).

(** numpy.loadtxt(delimiter=",", skiprows=1) on such a file (line 917).  Simplified: a cell
    that is not an integer is an error, while numpy also reads other numbers.  Empty lines
    are skipped, and all lines must have the same number of cells. *)
Fixpoint strip_cr (s : string) : string :=
  match s with
  | EmptyString => EmptyString
  | String c EmptyString => if Ascii.eqb c carriage_return then EmptyString else s
  | String c s' => String c (strip_cr s')
  end.
Definition same_width (rows : list (list Z)) : bool :=
  match rows with [] => true | r :: rows' => forallb (fun r' => Nat.eqb (List.length r') (List.length r)) rows' end.
Definition load_text (text : string) : res (list (list Z)) :=
  let lines := filter (fun l => negb (String.eqb l EmptyString)) (map strip_cr (tl (split newline text))) in
  rows <- mapM (fun l => mapM (fun c => of_option ValueError (parse_Z c)) (split comma l)) lines ;;
  if same_width rows then Ok rows else Err ValueError.

(** [data[:, 0]] and [numpy.delete(data, 0, 1)] (lines 921, 924).  An array with one row or
    one column only has one dimension, which makes both fail. *)
Definition two_dimensional (rows : list (list Z)) : res (list (list Z)) :=
  match rows with
  | (_ :: _ :: _) :: _ :: _ => Ok rows
  | _ => Err IndexError
  end.
(** [data[:, j]] *)
Definition data_column (j : nat) (rows : list (list Z)) : res (list Z) :=
  mapM (fun r => of_option IndexError (nth_error r j)) rows.

(** readCSVLogFiles (lines 891-929): the files are given by their texts. *)
Definition log_state : Type := list Z * list (string * list (list Z)).
Definition read_log_file (s : log_state) (text : string) : res log_state :=
  data0 <- load_text text ;;
  data <- two_dimensional data0 ;;
  first <- data_column 0 data ;;
  let days := match fst s with [] => first | d => d end in
  cols <- mapM (fun p : nat * (string * list (list Z)) => let '(j, (name, series)) := p in
                 c <- data_column j (map (@tl Z) data) ;; Ok (name, series ++ [c]))
            (combine (seq 0 (List.length (snd s))) (snd s)) ;;
  Ok (days, cols).
Definition read_logs (texts : list string) (header : list string) : res log_state :=
  foldM read_log_file texts ([], fold_left (fun d n => dict_set n [] d) header []).
