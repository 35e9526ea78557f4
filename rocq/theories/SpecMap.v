(** * SpecMap: vocabulary of C90 (the lists for drawing a map) *)

From Verif Require Import Base State InputGeography.
Local Open Scope string_scope.

(** What line [l] of locations.csv says: the cells with the name, the type and the
    coordinates *)
Definition says_place (l : row) (name : string) (x y : Q) : Prop :=
  option_map sval (nth_error l 0) = Some name /\
  (exists sx, option_map sval (nth_error l 3) = Some sx /\ parse_Q sx = Some x) /\
  (exists sy, option_map sval (nth_error l 4) = Some sy /\ parse_Q sy = Some y).
Definition says_type (l : row) (t : string) : Prop := option_map sval (nth_error l 5) = Some t.

(** No two lines have the same name. *)
Definition names_differ (ls : list row) : Prop := NoDup (map (fun l => option_map sval (nth_error l 0)) ls).

(** The colours of the types of places *)
Definition colour_table : list (string * string) :=
  [("camp", "green"); ("conflict_zone", "red"); ("conflict", "red"); ("town", "yellow"); ("idpcamp", "teal"); ("marker", "white");
   ("flood_zone", "blue"); ("forward", "blue")].
