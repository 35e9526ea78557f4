(** * SpecCrawl: vocabulary for the routes stored at a location (C41) *)

From Verif Require Import Base State Moving Crawling SpecRoutes.
Local Open Scope Q_scope.

(** A stored route: name of the destination, weight, names of the stops, destination *)
Definition stored := (string * (Q * list string * nat))%type.

(** Weight of ending in location [i] after a (corrected) distance [x]:
    ((softening + score) / x^power)^power *)
Definition weight_over (S : settings) (o : oracle) (e : eco) (i : nat) (x w : Q) : Prop :=
  exists l score p,
    nth_error (e_locations e) i = Some l /\ crawlScore S e l = Ok score /\
    fpow o x (s_DistancePower S) = Ok p /\ ~ p == 0 /\
    fpow o ((s_WeightSoftening S + score) / p) (s_WeightPower S) = Ok w.

(** [w] is the weight of a stored route of length [d] that ends in location [i]. *)
Definition route_weight (S : settings) (o : oracle) (e : eco) (i : nat) (d w : Q) : Prop :=
  exists x, x == s_DistanceSoftening S + d /\ weight_over S o e i x w.
(** Major routes count a quarter of the distance. *)
Definition major_weight (S : settings) (o : oracle) (e : eco) (i : nat) (d w : Q) : Prop :=
  exists x, x == (s_DistanceSoftening S + d) / 4 /\ weight_over S o e i x w.

(** Paths of at most this many links are explored (markers count as well). *)
Definition reach_of (S : settings) : Z := Z.max 1 (s_AwarenessLevel S).

(** [explored S e i stops d]: a path of length [d] of open links from [i] through [stops]
    to a location that is no marker, within the awareness level, without loops *)
Definition explored (S : settings) (e : eco) (i : nat) (stops : list nat) (d : Q) : Prop :=
  path e i stops d /\ is_marker e (last_stop stops) = false /\
  (Z.of_nat (List.length stops) <= reach_of S)%Z /\
  NoDup (name_at e i :: stop_names e stops).

Definition no_major_routes (e : eco) : Prop :=
  forall i l, nth_error (e_locations e) i = Some l -> l_major_routes l = [].

(** Equal numbers have equal powers (Q has several representations of a number). *)
Definition pow_respects (o : oracle) : Prop :=
  forall x y z, x == y -> o_pow o x z == o_pow o y z.

(** Only the stored routes of location [i] differ. *)
Definition only_routes_of (i : nat) (routes : list stored) (e e' : eco) : Prop :=
  e' = up_e_locations (upd i (up_l_routes (fun _ => routes))) e.

(** The routes stored at location [i] *)
Definition routes_at (e : eco) (i : nat) : list stored :=
  match nth_error (e_locations e) i with Some l => l_routes l | None => [] end.

(** What is stored of the stops of a major route: all but the first, except the last *)
Definition without_first (names : list string) : list string :=
  match names with [] => [] | [n] => [n] | _ :: rest => rest end.
