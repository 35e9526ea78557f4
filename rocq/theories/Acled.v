(** * Acled: flee/preprocessing/acled2locations.py, conflict events to locations.csv

    The tables are those pandas reads, as lists of rows; coordinates are kept as text,
    missing cells (NaN) are not modelled.  [DataFrame.append] (line 142) is that of pandas
    before 2.0, where it still exists.  get_city_population and get_wikidata_id (20-51)
    and date_verify (112-120) are not called. *)

From Coq Require Import Permutation Sorted.
From Verif Require Import Base Dates Coupling.
Local Open Scope string_scope.
Local Open Scope Z_scope.

(** The columns of acled.csv that are used (line 175) *)
Record event : Type := Event {
  ev_date : string; ev_country : string; ev_admin1 : string; ev_latitude : string; ev_longitude : string; ev_fatalities : Z }.

(** The rows of locations.csv.  Line 206 selects admin1 twice and line 208 names both
    columns #name, so that line 223 selects two columns: the name and the region. *)
Record location_row : Type := LocationRow {
  lr_name : string; lr_region : string; lr_country : string; lr_latitude : string; lr_longitude : string;
  lr_type : string; lr_conflict_date : Z; lr_population : Z }.

(** month_convert (lines 54-82) *)
Definition months : list (string * string) :=
  [("jan", "01"); ("january", "01"); ("feb", "02"); ("february", "02"); ("mar", "03"); ("march", "03"); ("apr", "04"); ("april", "04");
   ("may", "05"); ("jun", "06"); ("june", "06"); ("jul", "07"); ("july", "07"); ("aug", "08"); ("august", "08"); ("sep", "09");
   ("september", "09"); ("oct", "10"); ("october", "10"); ("nov", "11"); ("november", "11"); ("dec", "12"); ("december", "12")].
Definition month_convert (month_name : string) : res string :=
  match find (fun p => String.eqb (fst p) (lower (strip month_name))) months with
  | Some p => Ok (snd p)
  | None => Err SystemExit
  end.

(** [l[i]] *)
Definition item (l : list string) (i : nat) : res string := of_option IndexError (nth_error l i).
Definition int_of (s : string) : res Z := of_option ValueError (parse_Z s).

(** date_format (lines 85-98) *)
Definition date_format (in_date : string) : res string :=
  let split_date := if str_in "-" in_date then split "-" in_date else split " " in_date in
  mn <- item split_date 1 ;;
  month_num <- month_convert mn ;;
  y <- item split_date 2 ;;
  n <- int_of y ;;
  let year := if n <? 50 then n + 2000 else n in
  d <- item split_date 0 ;;
  Ok (d ++ "-" ++ month_num ++ "-" ++ str_of_Z year).

(** between_date (lines 101-109) *)
Definition read_dmy (l : list string) : res date :=
  y <- item l 2 ;; yz <- int_of y ;;
  m <- item l 1 ;; mz <- int_of m ;;
  d <- item l 0 ;; dz <- int_of d ;;
  make_date yz mz dz.
Definition between_date (d1 d2 : string) : res Z :=
  date1 <- read_dmy (split "-" d1) ;;
  date2 <- read_dmy (split "-" d2) ;;
  Ok (Z.abs (ordinal date1 - ordinal date2)).

(** drop_rows (lines 123-127) *)
Definition drop_rows (df : list (Z * event)) (threshold : Z) : list (Z * event) :=
  filter (fun r => negb (ev_fatalities (snd r) <=? threshold)) df.

(** [drop_duplicates("admin1")]: the first row of each *)
Fixpoint drop_duplicates (seen : list string) (df : list (Z * event)) : list (Z * event) :=
  match df with
  | [] => []
  | r :: df' =>
      let a := ev_admin1 (snd r) in
      if mem_str a seen then drop_duplicates seen df' else r :: drop_duplicates (a :: seen) df'
  end.

(** [Series.unique()] *)
Fixpoint unique (seen : list string) (l : list string) : list string :=
  match l with
  | [] => []
  | a :: l' => if mem_str a seen then unique seen l' else a :: unique (a :: seen) l'
  end.
(** [tail(1)] *)
Definition tail1 {A} (l : list A) : list A := match rev l with [] => [] | x :: _ => [x] end.

(** filter_table (lines 130-145).  The columns admin2 and location were dropped in line
    175: to ask for them is an AttributeError.  The result of sort_values is not used; it
    is a KeyError if there is no such column. *)
Definition columns_left : list string := ["conflict_date"; "country"; "admin1"; "latitude"; "longitude"; "fatalities"].
Definition filter_table (df : list (Z * event)) (colname adminlevel : string) : res (list (Z * event)) :=
  if String.eqb adminlevel "admin1" then
    foldM (fun newdf admin =>
             let tempdf := filter (fun r => String.eqb (ev_admin1 (snd r)) admin) df in
             if mem_str colname columns_left then Ok (newdf ++ tail1 tempdf)%list else Err KeyError)
          (unique [] (map (fun r => ev_admin1 (snd r)) df)) []
  else Err AttributeError.

(** get_state_population (lines 13-18): the first row with the name *)
Definition get_state_population (pops : list (string * Z)) (name : string) : res Z :=
  match find (fun p => String.eqb (fst p) name) pops with
  | Some p => Ok (snd p)
  | None => Err IndexError
  end.

(** The files input_csv/locations.csv and input_csv/new_locations.csv, if they exist *)
Record out_files : Type := OutFiles { f_locations : option (list location_row); f_new : option (list location_row) }.

(** acled2locations (lines 162-239).  [order] is the order [sort_values("conflict_date")]
    gives: it sorts by conflict date, but rows of the same date may come in any order. *)
Definition acled2locations (order : list (Z * event) -> list (Z * event)) (events : list event) (pops : list (string * Z))
    (start_date filter_opt admin_level : string) (files : out_files) : res out_files :=
  formatted <- mapM (fun e => date_format (ev_date e)) events ;;
  conflict_dates <- mapM (fun d => between_date d start_date) formatted ;;
  let df := drop_rows (combine conflict_dates events) 0 in
  let df1 := drop_duplicates [] (order df) in
  let colname := if String.eqb filter_opt "earliest" then "conflict_date" else filter_opt in
  df2 <- match filter_table df1 colname admin_level with Ok t => Ok t | Err _ => Err SystemExit end ;;
  population <- mapM (fun r => get_state_population pops (ev_admin1 (snd r))) df2 ;;
  let output := map (fun p : (Z * event) * Z => let '((n, e), pop) := p in
                       LocationRow (ev_admin1 e) (ev_admin1 e) (ev_country e) (ev_latitude e) (ev_longitude e) "conflict_zone" n pop)
                    (combine df2 population) in
  match f_locations files with
  | None => Ok (OutFiles (Some output) (f_new files))
  | Some _ =>
      match f_new files with
      | None => Ok (OutFiles (f_locations files) (Some output))
      | Some _ => Err OSError
      end
  end.
