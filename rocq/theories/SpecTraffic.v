(** * SpecTraffic: who enters which link, specified without the code *)

From Verif Require Import Base State Flee SpecRoutes.
Local Open Scope string_scope.
Local Open Scope list_scope.

(** [journey e p entered p']: an agent at [p] may be at [p'] at the end of the day, having
    entered the links [entered], in that order.  It leaves a location by a link that is
    open there; at the end of an open link it is in the link's end, and may go on; at the
    end of a closed link it is sent back to the link's start and stays there. *)
Inductive journey (e : eco) : pos -> list nat -> pos -> Prop :=
| journey_stop p : journey e p [] p
| journey_leave i ki k entered p' : open_link e i ki k -> journey e (PLink ki) entered p' ->
    journey e (PLoc i) (ki :: entered) p'
| journey_back ki k : nth_error (e_links e) ki = Some k -> k_closed k = true ->
    journey e (PLink ki) [] (PLoc (k_startpoint k))
| journey_arrive ki k entered p' : nth_error (e_links e) ki = Some k -> k_closed k = false ->
    journey e (PLoc (k_endpoint k)) entered p' -> journey e (PLink ki) entered p'.

(** How often the agents of [e] that satisfy [who] entered link number [ki], if [entered n]
    lists the links that agent number [n] entered *)
Definition traffic (e : eco) (who : agent -> bool) (entered : nat -> list nat) (ki : nat) : Z :=
  sumZ (map (fun na => if who (snd na) then Z.of_nat (count_occ Nat.eq_dec (entered (fst na)) ki) else 0%Z)
            (combine (seq 0 (List.length (e_agents e))) (e_agents e))).

(** The agent's attribute [s] has the value [v]. *)
Definition has_value (s : string) (v : pyval) (a : agent) : bool :=
  match dict_get s (a_attributes a) with Some w => key_eqb w v | None => false end.

(** What the table of a link says about the value [v] of the attribute [s]; 0 if there is
    no entry *)
Definition counted (k : link) (s : string) (v : pyval) : Z :=
  match dict_get s (k_cumByAttribute k) with
  | Some c => match find (fun wn => key_eqb (fst wn) v) c with Some wn => snd wn | None => 0%Z end
  | None => 0%Z
  end.

(** Attribute names do not repeat, as in every Python dictionary. *)
Definition proper_attributes (e : eco) : Prop :=
  forall a, In a (e_agents e) -> NoDup (map fst (a_attributes a)).

(** ** The link log *)

(** The names in the log: those of the locations, or of their regions *)
Definition log_name (S : settings) (l : location) : string :=
  if String.eqb (s_granularity S) "region" then l_region l else sval (l_name l).

(** The lines of one link: the total, then, at level 2, one line for each entry of its table *)
Definition link_block (S : settings) (e : eco) (t : Z) (ki : nat) (b : list link_row) : Prop :=
  exists k s d, nth_error (e_links e) ki = Some k /\
    nth_error (e_locations e) (k_startpoint k) = Some s /\
    nth_error (e_locations e) (k_endpoint k) = Some d /\
    exists by_attribute, b = LinkRow t (log_name S s) (log_name S d) (k_cumNumAgents k) None :: by_attribute /\
      if (s_log_link S <=? 1)%Z then by_attribute = []
      else by_attribute = flat_map (fun sc => map (fun vn =>
             LinkRow t (log_name S s) (log_name S d) (snd vn) (Some (fst sc, fst vn))) (snd sc))
             (k_cumByAttribute k).
