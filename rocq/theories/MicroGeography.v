(** * MicroGeography: flee/micro_InputGeography.py and the roads of flee/pmicro_flee.py

    The input of the micro model of a multiscale run, and the lengths of its roads in bad
    weather.  Not modelled: how [X1], [X2] and the nearest measuring point of a river are
    found (pmicro_flee.py 340-500), which is geometry on the sphere and quantiles; they are
    arguments here.  The ecosystem is that of the base model, with the types of the links,
    which no class of the base model has, in a list beside it: the [n]th entry belongs to
    the [n]th link. *)

From Verif Require Import Base State Moving Crawling Flee InputGeography Pflee.
Local Open Scope string_scope.
Local Open Scope Q_scope.
Local Open Scope list_scope.

(** [row[0][0] == "#"] (line 59): an empty row and an empty first cell raise [IndexError]. *)
Definition micro_comment (r : row) : res bool :=
  match r with
  | [] => Err IndexError
  | c :: _ => match sval c with
              | EmptyString => Err IndexError
              | String a _ => Ok (Ascii.eqb a "#"%char)
              end
  end.

(** ReadLinksFromCSV (lines 29-72) with its default columns *)
Definition micro_read_link_row (links : list row) (r : row) : res (list row) :=
  c <- micro_comment r ;;
  if c : bool then Ok links
  else
    c0 <- cell r 0 ;; c1 <- cell r 1 ;; c2 <- cell r 2 ;; c3 <- cell r 3 ;; c4 <- cell r 4 ;;
    Ok (links ++ [[c0; c1; c2; c3; c4]]).
Definition micro_read_links (rows : list row) : res (list row) := foldM micro_read_link_row rows [].

(** The population field (lines 114-117): here text that is no integer raises [ValueError]. *)
Definition micro_population (factor : Z) (s : string) : res Z :=
  if empty_cell s then Ok 0%Z
  else n <- of_option ValueError (parse_Z s) ;;
       if (factor =? 0)%Z then Err ZeroDivisionError else Ok (n / factor)%Z.

(** StoreInputGeographyInEcosystem, one location (lines 110-154).  The move chance and the
    other arguments that are left out have the defaults of pflee.py 897-910. *)
Definition micro_store_location (S : settings) (o : oracle) (factor : Z) (st : eco * rng) (loc : row)
  : res (eco * rng) :=
  let '(e, g) := st in
  name <- cell loc 0 ;;
  c1 <- cellv loc 1 ;; population <- micro_population factor c1 ;;
  c2 <- cellv loc 2 ;; x <- float_cell c2 ;;
  c3 <- cellv loc 3 ;; y <- float_cell c3 ;;
  c7 <- cellv loc 7 ;;
  let country := if empty_cell c7 then "unknown" else c7 in
  c4 <- cellv loc 4 ;;
  ltype <- (if str_in "conflict" (lower c4) then
              c5 <- cellv loc 5 ;;
              d <- of_option ValueError (parse_Z c5) ;;
              Ok (if (0 <? d)%Z then "town" else c4)
            else Ok c4) ;;
  let camp := str_in "camp" (lower c4) in
  par_add_location S o name "unknown" x y (Some ltype) (-1)
    (if camp then population else (-1)%Z) (if camp then 0%Z else population) false country None e g.

(** Ecosystem.linkUp (pmicro_flee.py 126-188) with the links of class Link (lines 194-218):
    as in the base model, without attributes; the first link is given the type. *)
Definition micro_link_up (name1 name2 : string) (distance : Q) (forced : bool) (link_type : string)
    (st : eco * list (option string)) : res (eco * list (option string)) :=
  let '(e, types) := st in
  e1 <- link_up name1 name2 distance forced None e ;;
  Ok (e1, types ++ [Some link_type; None]).

(** StoreInputGeographyInEcosystem, one link (lines 156-190).  The last branch asks for
    the type too, which a row of less than five cells does not have; arguments are
    evaluated in their order. *)
Definition micro_store_link (st : eco * list (option string)) (lk : row) : res (eco * list (option string)) :=
  let up (forced swap : bool) (st : eco * list (option string)) : res (eco * list (option string)) :=
    n1 <- cellv lk 0 ;;
    n2 <- cellv lk 1 ;;
    c2 <- cellv lk 2 ;;
    dist <- of_option ValueError (parse_Q c2) ;;
    t <- cellv lk 4 ;;
    if swap then micro_link_up n2 n1 dist forced t st
    else micro_link_up n1 n2 dist forced t st in
  if (4 <? List.length lk)%nat then
    c3 <- cellv lk 3 ;;
    l3 <- of_option ValueError (parse_Z c3) ;;
    st1 <- (if (l3 =? 1)%Z then up true false st else Ok st) ;;
    if (l3 =? 2)%Z then up true true st1 else up false false st1
  else up false false st.

(** StoreInputGeographyInEcosystem (lines 92-203) *)
Definition micro_store (S : settings) (o : oracle) (factor : Z) (locations links closures : list row)
    (e : eco) (types : list (option string)) (g : rng) : res (eco * list (option string) * rng) :=
  '(e1, g1) <- foldM (micro_store_location S o factor) locations (e, g) ;;
  '(e2, types2) <- foldM micro_store_link links (e1, types) ;;
  cs <- mapM store_closure closures ;;
  Ok (up_e_closures (fun _ => cs) e2, types2, g1).

(** ** Roads in bad weather: Link_weather_coupling

    The table of rain has a column for each road and a row for each day, that of the river
    has measurements at the point nearest to the road; the dates in it are counted in days
    from the start of the simulation (get_start_date, lines 321-337). *)
Record weather : Type := Weather { w_rain : list (string * list Q); w_river : list (Z * Q) }.

(** Lines 275-278: the columns for the road in this or in the other direction *)
Definition rain_columns (w : weather) (from to : string) : list (string * list Q) :=
  filter (fun c => (String.eqb (fst c) (from ++ " - " ++ to) || String.eqb (fst c) (to ++ " - " ++ from))%bool) (w_rain w).

(** get_distance (lines 508-547); [w = None]: no weather files.  The days are counted from 0. *)
Definition weather_distance (w : option weather) (link_type : option string) (from to : string)
    (X1 X2 distance : Q) (time : nat) : res Q :=
  match w with
  | None => Err SystemExit
  | Some w =>
      if match link_type with Some t => String.eqb t "crossing" | None => false end then
        level <- of_option IndexError (option_map snd (find (fun r => (fst r =? Z.of_nat time)%Z) (w_river w))) ;;
        if Qltb level 8000 then Ok (distance * 1) else Ok (distance * 10000)
      else
        c <- of_option IndexError (hd_error (rain_columns w from to)) ;;
        tp <- of_option IndexError (nth_error (snd c) time) ;;
        if Qleb tp X1 then Ok (distance * 1)
        else if Qleb tp X2 then Ok (distance * 2)
        else if (Qltb X2 tp && Qltb 15 tp)%bool then Ok (distance * 10000)
        else Ok (distance * 2)
  end.
