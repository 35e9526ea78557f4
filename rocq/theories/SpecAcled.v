(** * SpecAcled: vocabulary for the properties of the conversion of conflict events *)

From Coq Require Import Permutation Sorted.
From Verif Require Import Base Dates Acled SpecDates SpecCoupling.
Local Open Scope string_scope.
Local Open Scope Z_scope.

(** [s] has the three parts [a], [b], [c] between the separators; more may follow. *)
Definition parts (sep : ascii) (s a b c : string) : Prop :=
  free sep a /\ free sep b /\ free sep c /\
  exists rest, s = (a ++ String sep (b ++ String sep (c ++ rest)))%string /\ (rest = "" \/ exists r, rest = String sep r).

(** The name of the month, whole or its first three letters, in capitals or not, with
    spaces around it or not *)
Definition month_names : list string :=
  ["january"; "february"; "march"; "april"; "may"; "june"; "july"; "august"; "september"; "october"; "november"; "december"].
Definition names_month (s : string) (m : Z) : Prop :=
  exists k full, nth_error month_names k = Some full /\ m = Z.of_nat k + 1 /\
    (lower (strip s) = full \/ lower (strip s) = substring 0 3 full).

(** The date of an event, as day, name of the month, year, with hyphens or else with spaces
    between them; years before 50 are those of this century. *)
Definition event_text (s : string) (d : date) : Prop :=
  exists sep a b c y, (free "-" s -> sep = " "%char) /\ (~ free "-" s -> sep = "-"%char) /\ parts sep s a b c /\
    parse_Z a = Some (dt_day d) /\ names_month b (dt_month d) /\ parse_Z c = Some y /\
    (y < 50 -> dt_year d = y + 2000) /\ (50 <= y -> dt_year d = y).

(** The start date, as day-month-year in numbers *)
Definition start_text (s : string) (d : date) : Prop :=
  exists a b c, parts "-" s a b c /\ parse_Z a = Some (dt_day d) /\ parse_Z b = Some (dt_month d) /\ parse_Z c = Some (dt_year d).

(** The number of days between the event and the start, whichever comes first *)
Definition days_from_start (e : event) (start : string) (n : Z) : Prop :=
  exists d d0 k, civil d /\ event_text (ev_date e) d /\ civil d0 /\ start_text start d0 /\ days_apart d0 k d /\ n = Z.abs k.

(** The orders sort_values may give *)
Definition sorts (order : list (Z * event) -> list (Z * event)) : Prop :=
  forall l, Permutation (order l) l /\ StronglySorted (fun a b => fst a <= fst b) (order l).

(** The first population listed for the name *)
Definition listed (pops : list (string * Z)) (name : string) (p : Z) : Prop :=
  exists a b, pops = (a ++ (name, p) :: b)%list /\ forall q, ~ In (name, q) a.

(** [row] is the location made from a deadly event that is one of the nearest to the start
    among those of its region. *)
Definition made_from (events : list event) (start : string) (pops : list (string * Z)) (row : location_row) : Prop :=
  exists e n p, In e events /\ 0 < ev_fatalities e /\ days_from_start e start n /\ listed pops (ev_admin1 e) p /\
    row = LocationRow (ev_admin1 e) (ev_admin1 e) (ev_country e) (ev_latitude e) (ev_longitude e) "conflict_zone" n p /\
    forall e' n', In e' events -> 0 < ev_fatalities e' -> ev_admin1 e' = ev_admin1 e -> days_from_start e' start n' -> n <= n'.

(** The new file has the rows; the other one and the files that existed are unchanged. *)
Definition saved (files files' : out_files) (rows : list location_row) : Prop :=
  (f_locations files = None /\ files' = OutFiles (Some rows) (f_new files)) \/
  (f_locations files <> None /\ f_new files = None /\ files' = OutFiles (f_locations files) (Some rows)).
