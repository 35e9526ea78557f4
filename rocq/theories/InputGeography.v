(** * InputGeography: flee/InputGeography.py

    The csv module is trusted: a file is the list of its rows, a row the list of its
    cells.  Cells are string objects with identity.  [ConflictInputFile] and
    [PopulationScaleDownFactor] of the settings are arguments here. *)

From Verif Require Import Base State Moving Crawling Flee.
Local Open Scope Q_scope.

Definition row : Type := list pystr.

Definition cell (r : row) (i : nat) : res pystr := of_option IndexError (nth_error r i).
Definition cellv (r : row) (i : nat) : res string := c <- cell r i ;; Ok (sval c).
Definition empty_cell (s : string) : bool := Nat.eqb (String.length s) 0.

(** [len(row) == 0 or row[0][0] == "#"]; an empty first cell raises [IndexError]. *)
Definition is_comment (r : row) : res bool :=
  match r with
  | [] => Ok true
  | c :: _ => match sval c with
              | EmptyString => Err IndexError
              | String a _ => Ok (Ascii.eqb a "#"%char)
              end
  end.

(** The attributes of an InputGeography object.  [columns], [link_columns],
    [closures] and [location_changes] do not exist before the corresponding file has
    been read ([None]: reading them raises [AttributeError]). *)
Record igeo : Type := IGeo {
  ig_locations : list row;
  ig_columns : option (list string);
  ig_links : list row;
  ig_link_columns : option (list string);
  ig_major_routes : list row;
  ig_closures : option (list row);
  ig_location_changes : option (list row);
  ig_conflicts : list (string * list Q);
  ig_attributes : list (string * list (string * list Z)) }.

(** ** ReadConflictInputCSV (lines 33-64)

    The first row holds the header (column 0 is the day). *)
Definition init_columns {A : Type} (header : list string) : list (string * list A) :=
  fold_left (fun d h => if empty_cell (strip h) then d else dict_set (strip h) [] d)
            (tl header) [].

(** Append the cells of one row to the columns; [h] are the headers still to visit. *)
Fixpoint append_cells {A : Type} (parse : string -> res A) (h : list string) (cells : row)
    (d : list (string * list A)) : res (list (string * list A)) :=
  match cells with
  | [] => Ok d
  | c :: cells' =>
      match h with
      | [] => Err IndexError
      | n :: h' =>
          old <- of_option KeyError (dict_get (strip n) d) ;;
          v <- parse (strip (sval c)) ;;
          append_cells parse h' cells' (dict_set (strip n) (old ++ [v]) d)
      end
  end.

Definition read_columns {A : Type} (parse : string -> res A) (rows : list row)
  : res (list (string * list A)) :=
  match rows with
  | [] => Ok []
  | header :: data =>
      let h := map sval header in
      foldM (fun d r => append_cells parse (tl h) (tl r) d) data (init_columns h)
  end.

Definition read_conflicts (rows : list row) : res (list (string * list Q)) :=
  read_columns (fun s => of_option ValueError (parse_Q s)) rows.

(** ReadAttributeInputCSV (lines 70-107), type "int" *)
Definition read_attribute (rows : list row) : res (list (string * list Z)) :=
  read_columns (fun s => of_option ValueError (parse_Z s)) rows.

(** ** ReadLocationsFromCSV, the table part (lines 159-189) *)
Definition base_columns : list string :=
  ["name"; "region"; "country"; "gps_x"; "gps_y"; "location_type"; "conflict_date";
   "pop/cap"]%string.

(** State: (columns being built, columns attribute, locations) *)
Definition read_location_row (st : list string * option (list string) * list row) (r : row)
  : res (list string * option (list string) * list row) :=
  let '(cols, attr, locs) := st in
  c <- is_comment r ;;
  if c : bool then
    if (8 <? List.length r)%nat then
      let cols' := cols ++ map sval (skipn 8 r) in Ok (cols', Some cols', locs)
    else Ok (cols, attr, locs)
  else Ok (cols, attr, locs ++ [r]).

Definition read_locations (rows : list row) : res (option (list string) * list row) :=
  '(_, attr, locs) <- foldM read_location_row rows (base_columns, None, []) ;;
  Ok (attr, locs).

(** ReadLinksFromCSV (lines 276-306) *)
Definition base_link_columns : list string :=
  ["name1"; "name2"; "distance"; "forced_redirection"]%string.
Definition read_link_row (st : list string * option (list string) * list row) (r : row)
  : res (list string * option (list string) * list row) :=
  let '(cols, attr, links) := st in
  c <- is_comment r ;;
  if c : bool then
    let cols' := if (4 <? List.length r)%nat then cols ++ map sval (skipn 4 r) else cols in
    Ok (cols', Some cols', links)
  else Ok (cols, attr, links ++ [r]).
Definition read_links (rows : list row) : res (option (list string) * list row) :=
  '(_, attr, links) <- foldM read_link_row rows (base_link_columns, None, []) ;;
  Ok (attr, links).

(** _ReadMajorLinksFromCSV (lines 251-273): comment rows are tested for but kept. *)
Definition read_major_links (rows : list row) : res (list row) :=
  foldM (fun acc r => _ <- is_comment r ;; Ok (acc ++ [r])) rows [].

(** ReadClosuresFromCSV (308-331), ReadLocationChangesFromCSV (334-362) *)
Definition read_plain (rows : list row) : res (list row) :=
  foldM (fun acc r => c <- is_comment r ;; if c : bool then Ok acc else Ok (acc ++ [r])) rows [].

(** ** ReadAgentsFromCSV (lines 365-405)

    [headers] is unbound until a non-comment first row has been seen. *)
Fixpoint agent_attributes (headers : option (list string)) (cells : row) (i : nat) (d : dict)
  : res dict :=
  match cells with
  | [] => Ok d
  | c :: cells' =>
      h <- of_option UnboundLocalError headers ;;
      n <- of_option IndexError (nth_error h i) ;;
      agent_attributes headers cells' (Datatypes.S i) (dict_set n (VStr (sval c)) d)
  end.

Definition read_agent_row (S : settings) (st : bool * option (list string) * eco) (r : row)
  : res (bool * option (list string) * eco) :=
  let '(first, headers, e) := st in
  c <- is_comment r ;;
  if c : bool then Ok (false, headers, e)
  else if first then Ok (false, Some (map sval (tl r)), e)
  else
    d <- agent_attributes headers (tl r) 0 [] ;;
    name <- cellv r 0 ;;
    e1 <- foldM (fun e1 i =>
                   n <- of_option IndexError (nth_error (e_locationNames e1) i) ;;
                   if String.eqb (sval n) name then add_agent S i d e1 else Ok e1)
                (seq 0 (List.length (e_locationNames e))) e ;;
    Ok (false, headers, e1).

Definition read_agents (S : settings) (rows : list row) (e : eco) : res eco :=
  '(_, _, e1) <- foldM (read_agent_row S) rows (true, None, e) ;; Ok e1.

(** ** StoreInputGeographyInEcosystem (lines 408-575) *)

(** Lines 475-478, 519-522: extra columns become attributes. *)
Fixpoint extra_attributes (columns : option (list string)) (i : nat) (cells : row) (d : dict)
  : res dict :=
  match cells with
  | [] => Ok d
  | c :: cells' =>
      cols <- of_option AttributeError columns ;;
      n <- of_option IndexError (nth_error cols i) ;;
      extra_attributes columns (Datatypes.S i) cells' (dict_set n (VStr (sval c)) d)
  end.

Definition float_cell (s : string) : res Q :=
  if empty_cell s then Ok 0 else of_option ValueError (parse_Q s).

(** Population field: empty is 0, not an integer aborts. *)
Definition population_cell (factor : Z) (s : string) : res Z :=
  if empty_cell s then Ok 0%Z
  else match parse_Z s with
       | None => Err SystemExit
       | Some n => if (factor =? 0)%Z then Err ZeroDivisionError else Ok (n / factor)%Z
       end.

(** Lines 505-515: the major routes that start or end in [name]. *)
Definition nonempty_names (l : list pystr) : list string :=
  filter (fun s => negb (empty_cell s)) (map sval l).

Definition major_routes_of (name : string) (mr : row) : res (list (list string)) :=
  match mr with
  | [] => Err IndexError
  | first :: rest =>
      let fwd := if String.eqb (sval first) name then [nonempty_names rest] else [] in
      let bwd := if String.eqb (sval (List.last mr first)) name
                 then [nonempty_names (tl (rev mr))] else [] in
      Ok (fwd ++ bwd)
  end.

Definition store_location (S : settings) (o : oracle) (factor : Z) (ig : igeo)
    (home : string) (st : eco * rng) (loc : row) : res (eco * rng) :=
  let '(e, g) := st in
  name <- cell loc 0 ;;
  c7 <- cellv loc 7 ;;
  population <- population_cell factor c7 ;;
  c3 <- cellv loc 3 ;; x <- float_cell c3 ;;
  c4 <- cellv loc 4 ;; y <- float_cell c4 ;;
  c1 <- cellv loc 1 ;;
  let region := if empty_cell c1 then "unknown"%string else c1 in
  c2 <- cellv loc 2 ;;
  let country := if empty_cell c2 then "unknown"%string else c2 in
  let foreign := negb (String.eqb country home) in
  c5 <- cellv loc 5 ;;
  ltype <- (if str_in "conflict" (lower c5) then
              c6 <- cellv loc 6 ;;
              d <- of_option ValueError (parse_Z c6) ;;
              Ok (if (0 <? d)%Z then "town"%string else c5)
            else Ok c5) ;;
  attrs <- extra_attributes (ig_columns ig) 8 (skipn 8 loc) [] ;;
  let camp := str_in "camp" (lower ltype) in
  let i := List.length (e_locations e) in
  '(e1, g1) <- add_location S o name region x y (Some ltype) 1
                 (if camp then population else (-1)%Z) (if camp then 0%Z else population)
                 foreign country (Some attrs) e g ;;
  mrs <- mapM (major_routes_of (sval name)) (ig_major_routes ig) ;;
  Ok (up_loc i (up_l_major_routes (fun l => l ++ List.concat mrs)) e1, g1).

Definition store_link (ig : igeo) (e : eco) (lk : row) : res eco :=
  attrs <- extra_attributes (ig_link_columns ig) 4 (skipn 4 lk) [] ;;
  let up (forced swap : bool) (a : dict) (e : eco) : res eco :=
    n1 <- cellv lk 0 ;;
    n2 <- cellv lk 1 ;;
    c2 <- cellv lk 2 ;;
    dist <- of_option ValueError (parse_Q c2) ;;
    if swap then link_up n2 n1 dist forced (Some a) e
    else link_up n1 n2 dist forced (Some a) e in
  match nth_error lk 3 with
  | None => up false false [] e
  | Some c3 =>
      l3 <- (if empty_cell (sval c3) then Ok 0%Z
             else of_option ValueError (parse_Z (sval c3))) ;;
      (* the dictionary object is shared by both links of type 1; the code never
         changes the attributes of a link, so two equal copies behave the same *)
      e1 <- (if (l3 =? 1)%Z then up true false attrs e else Ok e) ;;
      if (l3 =? 2)%Z then up true true attrs e1 else up false false attrs e1
  end.

Definition store_closure (r : row) : res closure :=
  c0 <- cellv r 0 ;; c1 <- cell r 1 ;; c2 <- cell r 2 ;;
  c3 <- cellv r 3 ;; s <- of_option ValueError (parse_Z c3) ;;
  c4 <- cellv r 4 ;; t <- of_option ValueError (parse_Z c4) ;;
  Ok (Closure c0 c1 c2 s t).

(** [changes] are the rows of location_changes.csv in the current directory. *)
Definition store_input (S : settings) (o : oracle) (factor : Z) (ig : igeo)
    (changes : list row) (e : eco) (g : rng) : res (eco * rng * igeo) :=
  first <- of_option IndexError (nth_error (ig_locations ig) 0) ;;
  hc <- cellv first 2 ;;
  let home := if empty_cell hc then "unknown"%string else hc in
  '(e1, g1) <- foldM (store_location S o factor ig home) (ig_locations ig) (e, g) ;;
  e2 <- foldM (store_link ig) (ig_links ig) e1 ;;
  rows <- of_option AttributeError (ig_closures ig) ;;
  cs <- mapM store_closure rows ;;
  lc <- read_plain changes ;;
  Ok (up_e_closures (fun _ => cs) e2, g1,
      IGeo (ig_locations ig) (ig_columns ig) (ig_links ig) (ig_link_columns ig)
           (ig_major_routes ig) (ig_closures ig) (Some lc) (ig_conflicts ig)
           (ig_attributes ig)).

(** ** UpdateLocationAttributes (lines 578-620) *)
Definition attribute_value (attribute : string) (table : list (string * list Z)) (time : Z)
    (name : string) : res pyval :=
  let forecast := String.eqb attribute "forecast_flood_levels" in
  match dict_get name table with
  | Some l => if forecast then Ok (VList l) else z <- py_index l time ;; Ok (VInt z)
  | None =>
      if forecast then
        match table with
        | [] => Err UnboundLocalError
        | (_, l) :: _ => Ok (VList (repeat 0%Z (List.length l)))
        end
      else Ok (VInt 0)
  end.

Definition update_attributes (ig : igeo) (attribute : string) (time : Z) (e : eco) : res eco :=
  table <- of_option KeyError (dict_get attribute (ig_attributes ig)) ;;
  foldM (fun e1 i =>
           l <- loc_of e1 i ;;
           v <- attribute_value attribute table time (lname l) ;;
           set_loc_attribute i attribute v e1)
        (seq 0 (List.length (e_locations e))) e.

(** ** AddNewConflictZones (lines 625-709) *)

(** Lines 645-648 *)
Definition apply_changes (S : settings) (time : Z) (changes : list row) (e : eco) : res eco :=
  foldM (fun e1 c =>
           c2 <- cellv c 2 ;;
           d <- of_option ValueError (parse_Z c2) ;;
           if (d =? time)%Z then
             n <- cell c 0 ;; t <- cellv c 1 ;; change_location_type S n t e1
           else Ok e1) changes e.

(** Lines 659-670: columns 4 and 5 are the latitude and the location type. *)
Definition conflicts_from_locations (S : settings) (time : Z) (locs : list row) (e : eco)
  : res eco :=
  foldM (fun e1 loc =>
           c4 <- cellv loc 4 ;;
           if str_in "conflict" (lower c4) then
             c5 <- cellv loc 5 ;;
             d <- of_option ValueError (parse_Z c5) ;;
             if (d =? time)%Z then
               c1 <- cellv loc 1 ;;
               _ <- of_option ValueError (parse_Z c1) ;;
               name <- cellv loc 0 ;;
               add_conflict_zone S name 1 true e1
             else Ok e1
           else Ok e1) locs e.

Definition threshold : Q := 1 # 1000000.

(** Lines 676-709 for one name of the conflict table *)
Definition conflict_step (S : settings) (time : Z) (e : eco) (entry : string * list Q)
  : res eco :=
  let '(name, vals) := entry in
  if (Z.of_nat (List.length vals) <? time - 1)%Z then Err NameError
  else
    v <- py_index vals time ;;
    e1 <- (if Qltb threshold v then
             if (0 <? time)%Z then
               p <- py_index vals (time - 1)%Z ;;
               if Qltb p threshold then set_conflict_intensity S name v true e else Ok e
             else add_conflict_zone S name v true e
           else Ok e) ;;
    if (Qltb v threshold && (0 <? time)%Z)%bool then
      p <- py_index vals (time - 1)%Z ;;
      if Qleb threshold p then set_conflict_intensity S name v true e1 else Ok e1
    else Ok e1.

Definition add_new_conflict_zones (S : settings) (conflict_file : bool) (ig : igeo) (time : Z)
    (e : eco) : res eco :=
  changes <- of_option AttributeError (ig_location_changes ig) ;;
  e1 <- apply_changes S time changes e ;;
  if s_FloodRulesEnabled S then
    e2 <- update_attributes ig "flood_level" time e1 ;;
    if s_FloodForecaster S then update_attributes ig "forecast_flood_levels" time e2
    else Ok e2
  else if conflict_file : bool then foldM (conflict_step S time) (ig_conflicts ig) e1
  else conflicts_from_locations S time (ig_locations ig) e1.
