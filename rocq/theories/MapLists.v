(** * MapLists: the lists for drawing a map (flee/InputGeography.py 193-241) *)

From Verif Require Import Base State InputGeography.
Local Open Scope string_scope.

(** MakeLocationList (lines 193-207): a dictionary from the name of a place to its
    coordinates *)
Definition make_location_list (ig : igeo) : res (list (string * (Q * Q))) :=
  foldM (fun d l => n <- cellv l 0 ;;
                    c3 <- cellv l 3 ;; x <- of_option ValueError (parse_Q c3) ;;
                    c4 <- cellv l 4 ;; y <- of_option ValueError (parse_Q c4) ;;
                    Ok (dict_set n (x, y) d)) (ig_locations ig) [].

(** The colour of a type (lines 224-239) *)
Definition colour (t : string) : string :=
  if String.eqb (lower t) "camp" then "green"
  else if str_in "conflict" (lower t) then "red"
  else if String.eqb (lower t) "town" then "yellow"
  else if String.eqb (lower t) "idpcamp" then "teal"
  else if String.eqb (lower t) "marker" then "white"
  else if String.eqb (lower t) "flood_zone" then "blue"
  else if String.eqb (lower t) "forward" then "blue"
  else "black".

(** MakeLocationColorsList (lines 211-241) *)
Definition make_location_colors (ig : igeo) : res (list string) :=
  mapM (fun l => c5 <- cellv l 5 ;; Ok (colour c5)) (ig_locations ig).
