(** * SpecFloods: vocabulary for the properties of floods *)

From Verif Require Import Base State Moving SpecReports.
Local Open Scope Q_scope.

(** No two locations have the same attribute dictionary. *)
Definition own_attributes (e : eco) : Prop :=
  forall i j l m, nth_error (e_locations e) i = Some l -> nth_error (e_locations e) j = Some m ->
    l_attributes l = l_attributes m -> i = j.

(** The flood level of a place on day [t] by the table of flood levels: the number in
    column [t] of its row, and 0 for places without a row. *)
Definition level_on (table : list (string * list Z)) (t : Z) (name : string) (z : Z) : Prop :=
  (exists row, dict_get name table = Some row /\ (0 <= t)%Z /\ nth_error row (Z.to_nat t) = Some z) \/
  (dict_get name table = None /\ z = 0%Z).

(** The forecast for a place: its whole row, and for places without a row as many zeros as
    the first row of the table has numbers. *)
Definition forecast_row (table : list (string * list Z)) (name : string) (row : list Z) : Prop :=
  dict_get name table = Some row \/
  (dict_get name table = None /\
   exists k first rest, table = (k, first) :: rest /\ List.length row = List.length first /\ Forall (eq 0%Z) row).

(** The value of attribute [k] on day [t] *)
Definition value_on (k : string) (table : list (string * list Z)) (t : Z) (name : string) (v : pyval) : Prop :=
  (k <> "forecast_flood_levels"%string /\ exists z, v = VInt z /\ level_on table t name z) \/
  (k = "forecast_flood_levels"%string /\ exists row, v = VList row /\ forecast_row table name row).

(** [e'] is [e] except for attribute [k] of the locations, which has values as [R] says;
    dictionaries of links and unused ones are the same. *)
Definition only_attribute (k : string) (R : string -> pyval -> Prop) (e e' : eco) : Prop :=
  e' = up_e_dicts (fun _ => e_dicts e') e /\
  List.length (e_dicts e') = List.length (e_dicts e) /\
  (forall n, (forall l, In l (e_locations e) -> l_attributes l <> n) -> nth_error (e_dicts e') n = nth_error (e_dicts e) n) /\
  forall l, In l (e_locations e) -> exists d d' v,
    attributes_of e l d /\ attributes_of e' l d' /\ dict_get k d' = Some v /\ R (lname l) v /\
    forall k', k' <> k -> dict_get k' d' = dict_get k' d.

(** ** Number of agents a flooded location sends on a day *)

(** The flood level among the attributes [d]; 0 if there is none *)
Definition flood_level_of (d : dict) (x : Q) : Prop :=
  (dict_get "flood_level"%string d = None /\ x = 0) \/
  (exists z, dict_get "flood_level"%string d = Some (VInt z) /\ x = inject_Z z) \/
  dict_get "flood_level"%string d = Some (VFloat x).

(** Without a flood none; at level [z] the [z]-th number of the list in the settings,
    which is a number of people or a part of the population. *)
Definition flood_amount (S : settings) (d : dict) (l : location) (n : Z) : Prop :=
  (exists x, flood_level_of d x /\ x <= 0 /\ n = 0%Z) \/
  (exists z rate, dict_get "flood_level"%string d = Some (VInt z) /\ (0 < z)%Z /\
     nth_error (s_displaced_per_flood_day S) (Z.to_nat z) = Some rate /\
     n = if String.eqb (s_flood_spawn_mode S) "constant" then Qtrunc rate
         else if String.eqb (s_flood_spawn_mode S) "pop_ratio" then Qtrunc (rate * inject_Z (l_pop l)) else 0%Z).
