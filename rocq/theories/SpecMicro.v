(** * SpecMicro: the input of the micro model and its weather, specified without the code *)

From Verif Require Import Base State MicroGeography SpecAgents SpecNetwork.
Local Open Scope string_scope.
Local Open Scope Q_scope.
Local Open Scope list_scope.

(** Location [l], with attributes [attrs], is the one that row [r] describes in the order
    name, population, x, y, type, day of conflict, anything, country. *)
Definition micro_row (S : settings) (factor : Z) (r : list pystr) (l : location) (attrs : dict) : Prop :=
  exists c0 c1 c2 c3 c4 c5 c6 c7 more t p,
    r = c0 :: c1 :: c2 :: c3 :: c4 :: c5 :: c6 :: c7 :: more /\
    l_name l = c0 /\ l_region l = "unknown" /\ l_country l = or_unknown (sval c7) /\ l_foreign l = false /\
    people factor (sval c1) p /\ number (sval c2) (l_x l) /\ number (sval c3) (l_y l) /\
    type_asked (sval c4) (sval c5) t /\ typed S (Some t) (s_DefaultMoveChance S) attrs l /\
    (if says "camp" (Some (sval c4)) then l_capacity l = p /\ l_pop l = 0%Z else l_capacity l = (-1)%Z /\ l_pop l = p) /\
    l_major_routes l = [].

(** The roads that row [r] of routes.csv describes, and their type *)
Definition micro_roads (r : list pystr) (rs : list road) (type : string) : Prop :=
  exists c0 c1 c2 c3 c4 more d mark, r = c0 :: c1 :: c2 :: c3 :: c4 :: more /\
    parse_Q (sval c2) = Some d /\ parse_Z (sval c3) = Some mark /\ type = sval c4 /\
    let there f := Road (sval c0) (sval c1) d f in
    rs = (if (mark =? 2)%Z then [Road (sval c1) (sval c0) d true]
          else if (mark =? 1)%Z then [there true; there false] else [there false]).

(** The two links of a road: empty, open, of the given length, one in each direction, with
    the attributes that all links without attributes have; only the first one carries the
    redirection mark. *)
Definition laid (e : eco) (r : road) (k1 k2 : link) : Prop :=
  exists i j, called e (rd_from r) i /\ called e (rd_to r) j /\
    k1 = Link i j false (rd_length r) 0 0 0 (rd_forced r) 1 [] /\
    k2 = Link j i false (rd_length r) 0 0 0 false 1 [].
(** The links of several roads, road by road *)
Inductive all_laid (e : eco) : list road -> list link -> Prop :=
| none_laid : all_laid e [] []
| next_laid r rs k1 k2 ks : laid e r k1 k2 -> all_laid e rs ks -> all_laid e (r :: rs) (k1 :: k2 :: ks).

(** The types of the links of roads of type [type]: the first link of each has it, the
    second has none. *)
Definition link_types (rs : list road) (type : string) : list (option string) :=
  flat_map (fun _ => [Some type; None]) rs.

(** A row of routes.csv that can be read: it is a comment or has five cells, and its first
    cell is not empty. *)
Definition readable (r : list pystr) : Prop :=
  exists c more, r = c :: more /\ sval c <> "" /\ (skipped r = true \/ (5 <= List.length r)%nat).

(** How many times longer a road is: in rain [tp], with the bounds [x1] and [x2] ... *)
Inductive rain_factor (x1 x2 tp : Q) : Q -> Prop :=
| dry : tp <= x1 -> rain_factor x1 x2 tp 1
| wet : x1 < tp -> tp <= x2 \/ tp <= 15 -> rain_factor x1 x2 tp 2
| flooded : x1 < tp -> x2 < tp -> 15 < tp -> rain_factor x1 x2 tp 10000.
(** ... and where it crosses a river *)
Inductive river_factor (level : Q) : Q -> Prop :=
| low : level < 8000 -> river_factor level 1
| high : 8000 <= level -> river_factor level 10000.

(** The length in the weather of the [n]th link of a network with types of links *)
Definition link_length (w : weather) (e : eco) (types : list (option string)) (n : nat) (x1 x2 : Q) (time : nat) (d : Q) : Prop :=
  exists k t a b, nth_error (e_links e) n = Some k /\ nth_error types n = Some t /\
    nth_error (e_locations e) (k_startpoint k) = Some a /\ nth_error (e_locations e) (k_endpoint k) = Some b /\
    weather_distance (Some w) t (sval (l_name a)) (sval (l_name b)) x1 x2 (k_distance k) time = Ok d.
