(** * PropertiesMap: C90

    The lists for drawing a map.  The vocabulary is in SpecMap.v ([says_place],
    [says_type], [names_differ], [colour_table]). *)

From Verif Require Import Base State Flee InputGeography Api SpecAgents SpecHistory Defaults ExampleRun MapLists SpecMap MapProofs MapWitness.
Local Open Scope string_scope.
Local Open Scope Q_scope.
Local Open Scope list_scope.

(** C90. If the names differ, the list of places and the list of colours have one entry
    for each line of locations.csv, in the order of the file: the name and the
    coordinates in one, the colour of the type in the other. *)
Theorem C90_same_order : forall ig d cs, make_location_list ig = Ok d -> make_location_colors ig = Ok cs -> names_differ (ig_locations ig) ->
  List.length d = List.length (ig_locations ig) /\ List.length cs = List.length (ig_locations ig) /\
  forall i l, nth_error (ig_locations ig) i = Some l -> exists n x y t, says_place l n x y /\ says_type l t /\
    nth_error d i = Some (n, (x, y)) /\ nth_error cs i = Some (colour t).
Proof. exact same_order. Qed.
Print Assumptions C90_same_order.

Example C90_example : names_differ (ig_locations three) /\
  rmap (map (fun p => (fst p, (Qred (fst (snd p)), Qred (snd (snd p)))))) (make_location_list three) =
    Ok [("A", (1, 2)); ("B", (3, 9 # 2)); ("C", (5, 6))] /\
  make_location_colors three = Ok ["red"; "yellow"; "green"].
Proof. exact three_case. Qed.

(** The colour of a type, in any letter case, is that of the table; every type with
    "conflict" in it is red; all others are black. *)
Theorem C90_colour : forall t c, In (t, c) colour_table -> forall s, lower s = t -> colour s = c.
Proof. exact colour_row. Qed.
Print Assumptions C90_colour.
Theorem C90_conflict_colour : forall s, str_in "conflict" (lower s) = true -> colour s = "red".
Proof. exact colour_conflict. Qed.
Print Assumptions C90_conflict_colour.
Theorem C90_other_colour : forall s, str_in "conflict" (lower s) = false -> ~ In (lower s) (map fst colour_table) -> colour s = "black".
Proof. exact colour_other. Qed.
Print Assumptions C90_other_colour.

(** The list of places can be made exactly if every line has a name and two coordinates. *)
Theorem C90_exists : forall ig, (exists d, make_location_list ig = Ok d) <->
  Forall (fun l => exists n x y, says_place l n x y) (ig_locations ig).
Proof. exact location_list_exists. Qed.
Print Assumptions C90_exists.

(** A line without coordinates makes no place on the map, but stops the program, although
    the simulation takes it (as a place at 0, 0). *)
Theorem C90_empty_refuted : exists r, store_input ex_S ex_oracle 1 nowhere [] empty_eco ex_draws = Ok r /\ make_location_list nowhere = Err ValueError.
Proof. exact nowhere_case. Qed.
Print Assumptions C90_empty_refuted.

(** With a name that occurs twice the list of places is shorter than the list of colours:
    the second place, which is the camp C, gets the colour of a town. *)
Theorem C90_twice_refuted : exists d, make_location_list twins = Ok d /\ make_location_colors twins = Ok ["red"; "yellow"; "green"] /\
  map fst d = ["A"; "C"] /\ (exists l, nth_error (ig_locations twins) 2 = Some l /\ says_type l "camp" /\ option_map sval (nth_error l 0) = Some "C").
Proof. exact twins_case. Qed.
Print Assumptions C90_twice_refuted.
