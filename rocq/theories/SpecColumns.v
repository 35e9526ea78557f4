(** * SpecColumns: vocabulary of C75 (files with a column per location) and C76 (dates in
    the input tables)

    A file is the list of its rows, a row the list of its cells. *)

From Verif Require Import Base State InputGeography Api.
Local Open Scope string_scope.
Local Open Scope list_scope.

(** The names of the columns after the first one: the cells of the heading without blanks
    around them *)
Definition column_names (heading : row) : list string := map (fun c => strip (sval c)) (tl heading).

(** Row [r] lists the values [vs] for [name]: the cells under that name, read by [value] *)
Definition row_lists {A : Type} (value : string -> A -> Prop) (heading : row) (name : string) (r : row) (vs : list A) : Prop :=
  Forall2 (fun nc v => value (strip (sval (snd nc))) v)
    (filter (fun nc => String.eqb (fst nc) name) (combine (column_names heading) (tl r))) vs.

(** Table [d] has one entry for each column name, with all values listed for it, row after
    row. *)
Definition tabulated {A : Type} (value : string -> A -> Prop) (heading : row) (data : list row)
    (d : list (string * list A)) : Prop :=
  NoDup (map fst d) /\ (forall n, In n (map fst d) <-> In n (column_names heading) /\ n <> "") /\
  forall n vals, In (n, vals) d -> exists vss, Forall2 (row_lists value heading n) data vss /\ vals = List.concat vss.

(** Every cell of a row, but the first, is under a name and can be read. *)
Definition readable {A : Type} (value : string -> A -> Prop) (heading r : row) : Prop :=
  forall i c, nth_error (tl r) i = Some c ->
    exists n v, nth_error (column_names heading) i = Some n /\ n <> "" /\ value (strip (sval c)) v.

(** The two kinds of cells: decimal numbers and integers *)
Definition decimal (s : string) (q : Q) : Prop := parse_Q s = Some q.
Definition integer (s : string) (z : Z) : Prop := parse_Z s = Some z.

(** A row whose first cell is empty *)
Definition starts_empty (r : row) : Prop := exists c rest, r = c :: rest /\ sval c = "".

(** [calls] are the changes of location types that the rows order for day [t]: in each
    row, the name, the new type and the day. *)
Inductive ordered (S : settings) (t : Z) : list row -> history -> Prop :=
| ordered_nil : ordered S t [] []
| ordered_now name type day more rows calls :
    parse_Z (sval day) = Some t -> ordered S t rows calls ->
    ordered S t ((name :: type :: day :: more) :: rows) ((S, OChangeLocationType name (sval type)) :: calls)
| ordered_other_day a b day more rows calls d :
    parse_Z (sval day) = Some d -> d <> t -> ordered S t rows calls ->
    ordered S t ((a :: b :: day :: more) :: rows) calls.

(** The tables with the location changes [rows] instead of those read *)
Definition with_changes (ig : igeo) (rows : list row) : igeo :=
  IGeo (ig_locations ig) (ig_columns ig) (ig_links ig) (ig_link_columns ig) (ig_major_routes ig)
       (ig_closures ig) (Some rows) (ig_conflicts ig) (ig_attributes ig).

(** A row of locations.csv with a conflict zone that starts on a later day *)
Definition later_zone (r : row) : Prop :=
  exists c5 c6 day, nth_error r 5 = Some c5 /\ nth_error r 6 = Some c6 /\
    str_in "conflict" (lower (sval c5)) = true /\ parse_Z (sval c6) = Some day /\ (0 < day)%Z.
