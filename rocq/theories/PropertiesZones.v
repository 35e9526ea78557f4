(** * PropertiesZones: C25-C28, C30, C32, C35, C47

    Camps, conflict zones, spawn weights, where agents appear, populations, links.  The
    vocabulary ([only_location], [untyped], [unfought], [weight], ...) is in SpecZones.v. *)

From Verif Require Import Base State Moving Scoring Flee Spawning Api SpecAgents SpecHistory SpecRoutes SpecChoice SpecClosures SpecZones
  Lemmas Defaults ExampleRun ClosureWitness Zones ZoneProps ZoneWitness.
Local Open Scope string_scope.
Local Opaque run.

(** C25. Opening a camp changes the named location only: it becomes a camp, and nothing
    else, with the move chance of camps. *)
Theorem C25_open_camp : forall S n idp e i l,
  distinct_names e -> nth_error (e_locations e) i = Some l -> sval n = lname l ->
  exists e' l', open_camp S n idp e = Ok e' /\ only_location i l l' e e' /\ untyped l' = untyped l /\
    l_camp l' = true /\ l_idpcamp l' = (idp || l_idpcamp l)%bool /\ l_town l' = false /\ l_forward l' = false /\
    l_marker l' = false /\ l_flood_zone l' = false /\ l_conflict l' = (-1)%Q /\
    l_movechance l' = (if idp then s_IDPCampMoveChance S else s_CampMoveChance S).
Proof. exact camp_opened. Qed.
Print Assumptions C25_open_camp.

(** Closing a camp changes the named location only: it becomes a town. *)
Theorem C25_close_camp : forall S n idp e i l,
  distinct_names e -> nth_error (e_locations e) i = Some l -> sval n = lname l ->
  exists e' l', close_camp S n idp e = Ok e' /\ only_location i l l' e e' /\ untyped l' = untyped l /\
    l_camp l' = false /\ l_idpcamp l' = false /\ l_town l' = true /\ l_forward l' = false /\
    l_marker l' = false /\ l_flood_zone l' = false /\ l_conflict l' = (-1)%Q /\
    l_movechance l' = s_DefaultMoveChance S.
Proof. exact camp_closed. Qed.
Print Assumptions C25_close_camp.

(** Changing the type of a location changes that location only, and leaves it with
    exactly one type and the move chance of that type. *)
Theorem C25_change_type : forall S n t e i l e',
  distinct_names e -> nth_error (e_locations e) i = Some l -> sval n = lname l ->
  change_location_type S n t e = Ok e' ->
  exists l', only_location i l l' e e' /\ untyped l' = untyped l /\ l_conflict l' = (-1)%Q /\
    l_camp l' = str_in "camp" (lower t) /\ l_idpcamp l' = (l_camp l' && str_in "idp" (lower t))%bool /\
    [l_camp l'; l_forward l'; l_marker l'; l_flood_zone l'; l_town l'] =
      (if str_in "camp" (lower t) then [true; false; false; false; false]
       else if str_in "forward" (lower t) then [false; true; false; false; false]
       else if str_in "marker" (lower t) then [false; false; true; false; false]
       else if str_in "flood_zone" (lower t) then [false; false; false; true; false]
       else [false; false; false; false; true]) /\
    l_movechance l' = (if l_idpcamp l' then s_IDPCampMoveChance S else if l_camp l' then s_CampMoveChance S
                       else if (l_forward l' || l_marker l')%bool then 1%Q else s_DefaultMoveChance S).
Proof. exact type_changed. Qed.
Print Assumptions C25_change_type.

(** A location cannot be changed to a conflict zone this way, although the name of the
    type is accepted. *)
Theorem C25_change_to_conflict_refuted : forall S n t e,
  str_in "camp" (lower t) = false -> str_in "conflict" (lower t) = true -> e_locations e <> [] ->
  change_location_type S n t e = Err AttributeError.
Proof. exact type_conflict_fails. Qed.
Print Assumptions C25_change_to_conflict_refuted.

(** Naming a location that does not exist does affect another one: the first location
    becomes the camp. *)
Theorem C25_unknown_name_refuted : exists e g S e', reachable ex_oracle e g /\ distinct_names e /\
  (forall l, In l (e_locations e) -> lname l <> "Z") /\
  open_camp S (PS "Z" 9) false e = Ok e' /\
  map l_camp (e_locations e) = [false; false; true] /\ map l_camp (e_locations e') = [true; false; true] /\
  map l_conflict (e_locations e) = [1; -1; -1]%Q /\ map l_conflict (e_locations e') = [-1; -1; -1]%Q.
Proof. exact camp_unknown. Qed.
Print Assumptions C25_unknown_name_refuted.

(** An ordinary camp opened where an IDP camp was keeps the IDP mark. *)
Theorem C25_idp_mark_refuted : exists e g S e', reachable ex_oracle e g /\ distinct_names e /\
  open_camp S nB false e = Ok e' /\ map l_idpcamp (e_locations e') = [false; true; false].
Proof. exact camp_keeps_idp. Qed.
Print Assumptions C25_idp_mark_refuted.

Example C25_example :
  distinct_names (then_eco []) /\
  option_map lname (nth_error (e_locations (then_eco [])) 1) = Some "B" /\
  rmap (fun e => map (fun l => (l_camp l, l_idpcamp l, l_town l)) (e_locations e)) (open_camp ex_S (PS "B" 77) true (then_eco [])) =
    Ok [(false, false, false); (true, true, false); (true, false, false)] /\
  rmap (fun e => map (fun l => (l_camp l, l_town l)) (e_locations e)) (close_camp ex_S nC false (then_eco [])) =
    Ok [(false, false); (false, true); (false, true)] /\
  rmap (fun e => map (fun l => (l_marker l, l_town l)) (e_locations e)) (change_location_type ex_S nB "Marker" (then_eco [])) =
    Ok [(false, false); (true, false); (false, false)].
Proof. split; [exact distinct0|]. vm_compute; repeat split; reflexivity. Qed.
Example C25_conflict_example :
  str_in "camp" (lower "conflict_zone") = false /\ str_in "conflict" (lower "conflict_zone") = true /\
  e_locations (then_eco []) <> [].
Proof. split; [reflexivity|]. split; [reflexivity|]. vm_compute. discriminate. Qed.

(** C26. Adding a conflict zone turns the first location of that name into one that starts
    now, refreshes the spawn weights and changes nothing else; *)
Theorem C26_add : forall o e g S name q i l,
  reachable o e g -> decay_ok S -> first_named e name i l ->
  exists e1 e' l', only_location i l l' e e1 /\ unfought l' = unfought l /\ l_conflict l' = q /\
    l_movechance l' = s_ConflictMoveChance S /\ l_town l' = false /\ l_time_of_conflict l' = e_time e /\
    add_conflict_zone S name q true e = Ok e' /\ weights_current S e' /\
    e' = up_e_spawn_weights (fun _ => e_spawn_weights e') e1.
Proof. exact zone_added. Qed.
Print Assumptions C26_add.

(** an unknown name has no effect; *)
Theorem C26_add_unknown : forall S name q c e o g,
  reachable o e g -> (forall l, In l (e_locations e) -> lname l <> name) ->
  add_conflict_zone S name q c e = Ok e.
Proof. exact zone_unknown. Qed.
Print Assumptions C26_add_unknown.

(** removing a conflict zone ends the conflict in all locations of that name, which become
    towns, and changes nothing else. *)
Theorem C26_remove : forall o e g S name,
  reachable o e g -> decay_ok S ->
  exists e', remove_conflict_zone S name true e = Ok e' /\ weights_current S e' /\
    e' = up_e_locations (fun _ => e_locations e') (up_e_spawn_weights (fun _ => e_spawn_weights e') e) /\
    List.length (e_locations e') = List.length (e_locations e) /\
    forall i l, nth_error (e_locations e) i = Some l -> exists l', nth_error (e_locations e') i = Some l' /\
      (lname l <> name -> l' = l) /\
      (lname l = name -> l_conflict l' = (-1)%Q /\ l_movechance l' = s_DefaultMoveChance S /\ l_town l' = true /\
         l_time_of_conflict l' = l_time_of_conflict l /\ unfought l' = unfought l).
Proof. exact zone_removed. Qed.
Print Assumptions C26_remove.

(** Setting the intensity is one or the other. *)
Theorem C26_set_intensity : forall S name q c e, set_conflict_intensity S name q c e =
  if Qltb q (1 # 1000000) then remove_conflict_zone S name c e else add_conflict_zone S name q c e.
Proof. exact intensity_set. Qed.
Print Assumptions C26_set_intensity.

(** If the move chance is not to be changed, the conflict is not started either. *)
Theorem C26_without_move_chance_refuted : exists e g S e', reachable ex_oracle e g /\ distinct_names e /\
  add_conflict_zone S "B" 1 false e = Ok e' /\
  map l_conflict (e_locations e') = [1; -1; -1]%Q /\ map l_town (e_locations e') = [false; true; false].
Proof. exact zone_without_change. Qed.
Print Assumptions C26_without_move_chance_refuted.

(** Ending the conflict in a camp makes it a town although it stays a camp. *)
Theorem C26_camp_and_town_refuted : exists e g S e', reachable ex_oracle e g /\ distinct_names e /\
  remove_conflict_zone S "C" true e = Ok e' /\
  map l_camp (e_locations e') = [false; false; true] /\ map l_town (e_locations e') = [false; true; true].
Proof. exact zone_removed_camp. Qed.
Print Assumptions C26_camp_and_town_refuted.

Definition decay_S : settings :=
  up_s_conflict_spawn_decay (fun _ => Some [1; 3 # 4; 1 # 2]%Q) ex_S.
Example C26_example :
  reachable ex_oracle (then_eco []) (then_rng []) /\ decay_ok decay_S /\ (exists l, first_named (then_eco []) "A" 0 l) /\
  rmap (fun e => map (fun l => (l_conflict l, l_town l, l_time_of_conflict l)) (e_locations e)) (add_conflict_zone decay_S "B" 2 true (then_eco [])) =
    Ok [(1, false, (-1)%Z); (2, false, 1%Z); (-1, false, (-1)%Z)]%Q /\
  rmap (fun e => map (fun l => (l_conflict l, l_town l)) (e_locations e)) (remove_conflict_zone decay_S "A" true (then_eco [])) =
    Ok [(-1, true); (-1, true); (-1, false)]%Q.
Proof.
  split; [exact reach0|]. split; [vm_compute; reflexivity|]. split; [exact first0|]. vm_compute; repeat split; reflexivity.
Qed.

(** C27. After refreshing, every location has the weight population times conflict level
    times decay if it is a conflict zone and none otherwise, there are as many weights as
    locations, and nothing but the weights was changed. *)
Theorem C27_refresh : forall o e g S,
  reachable o e g -> decay_ok S ->
  exists e', refresh_spawn_weights S e = Ok e' /\ weights_current S e' /\
    List.length (e_spawn_weights e') = List.length (e_locations e') /\
    e' = up_e_spawn_weights (fun _ => e_spawn_weights e') e.
Proof. exact refresh_ok. Qed.
Print Assumptions C27_refresh.

(** Conflict-driven spawning: all weights are zero. *)
Theorem C27_conflict_driven : forall S e,
  s_conflict_driven_spawning S = true -> weights_current S e -> Forall (fun w => w == 0)%Q (e_spawn_weights e).
Proof. exact weights_zero. Qed.
Print Assumptions C27_conflict_driven.

(** There are always as many weights as locations. *)
Theorem C27_count : forall o e g, reachable o e g -> List.length (e_spawn_weights e) = List.length (e_locations e).
Proof. exact weights_count. Qed.
Print Assumptions C27_count.

Example C27_example :
  reachable ex_oracle (then_eco []) (then_rng []) /\ decay_ok decay_S /\
  rmap e_spawn_weights (refresh_spawn_weights decay_S (then_eco [])) = Ok [100; 0; 0]%Q /\
  rmap e_spawn_weights (refresh_spawn_weights decay_S (up_e_time (fun _ => 31%Z) (then_eco []))) = Ok [300 # 4; 0; 0]%Q /\
  rmap e_spawn_weights (refresh_spawn_weights (up_s_conflict_driven_spawning (fun _ => true) decay_S) (then_eco [])) = Ok [0; 0; 0]%Q.
Proof. split; [exact reach0|]. vm_compute; repeat split; reflexivity. Qed.

(** C28. Asking for [number] spawn locations gives exactly that many; location [i] is the
    [n]-th one iff the [n]-th random number falls in its share of the total weight; *)
Theorem C28_pick : forall number e g,
  (0 <= number)%Z -> List.length (e_spawn_weights e) = List.length (e_locations e) ->
  Forall (fun w => 0 <= w)%Q (e_spawn_weights e) -> (0 < sumQ (e_spawn_weights e))%Q -> rng_ok g ->
  exists picks g', pick_spawn_locations number e g = Ok (picks, g') /\ Z.of_nat (List.length picks) = number /\
    forall n i, nth_error picks n = Some i ->
      (i < List.length (e_locations e))%nat /\ share (e_spawn_weights e) i (g_nu g (g_ni g + n)) /\
      exists w, nth_error (e_spawn_weights e) i = Some w /\ (0 < w)%Q.
Proof. exact pick_spec. Qed.
Print Assumptions C28_pick.

(** whenever the call succeeds, all locations returned have a positive weight; *)
Theorem C28_positive : forall number e g picks g',
  rng_ok g -> pick_spawn_locations number e g = Ok (picks, g') ->
  Z.of_nat (List.length picks) = number /\
  forall i, In i picks -> exists l w, nth_error (e_locations e) i = Some l /\ nth_error (e_spawn_weights e) i = Some w /\ (0 < w)%Q.
Proof. exact pick_sound. Qed.
Print Assumptions C28_positive.

(** with refreshed weights they are inhabited conflict zones; *)
Theorem C28_conflict_zones : forall S o e g number picks g',
  reachable o e g -> rng_ok g -> weights_current S e ->
  (forall l, In l (e_locations e) -> (0 <= l_pop l)%Z) -> (forall t, (0 <= t)%Z -> (0 <= decay_after S t)%Q) ->
  pick_spawn_locations number e g = Ok (picks, g') ->
  s_conflict_driven_spawning S = false /\
  forall i, In i picks -> exists l, nth_error (e_locations e) i = Some l /\ (0 < l_conflict l)%Q /\ (0 < l_pop l)%Z.
Proof. exact pick_zones. Qed.
Print Assumptions C28_conflict_zones.

(** the call fails if the total weight is not positive. *)
Theorem C28_no_weight : forall number e g,
  (sumQ (e_spawn_weights e) <= 0)%Q -> pick_spawn_locations number e g = Err AssertionError.
Proof. exact pick_fails. Qed.
Print Assumptions C28_no_weight.

(** The documentation promises different locations; they need not be. *)
Theorem C28_unique_refuted : exists e g g', reachable ex_oracle e g /\ rng_ok g /\
  pick_spawn_locations 2 e g = Ok ([0; 0]%nat, g').
Proof. exact pick_twice. Qed.
Print Assumptions C28_unique_refuted.

Example C28_example :
  let e := then_eco [OAddConflictZone "B" 3 true] in
  reachable ex_oracle e (then_rng [OAddConflictZone "B" 3 true]) /\
  List.length (e_spawn_weights e) = List.length (e_locations e) /\
  e_spawn_weights e = [100; 150; 0]%Q /\ map l_pop (e_locations e) = [100; 50; 0]%Z /\ weights_current ex_S e /\
  rmap fst (pick_spawn_locations 3 e ex_draws) = Ok [0; 1; 0]%nat /\
  e_spawn_weights (then_eco [ORemoveConflictZone "A" true]) = [0; 0; 0]%Q.
Proof.
  split; [apply then_reachable; vm_compute; reflexivity|]. split; [vm_compute; reflexivity|].
  split; [vm_compute; reflexivity|]. split; [vm_compute; reflexivity|].
  split; [vm_compute; repeat constructor|]. vm_compute; repeat split; reflexivity.
Qed.

(** C30. Adding one agent: with [take_from_population] the population of the location
    decreases by one if there is any left and the number of spawned agents grows by one;
    without, both stay.  No other location changes. *)
Theorem C30_one_agent : forall o e g S i l attrs,
  reachable o e g -> nth_error (e_locations e) i = Some l ->
  exists e' l', add_agent S i attrs e = Ok e' /\
    e' = up_e_locations (fun _ => e_locations e') (up_e_agents (fun ags => ags ++ [newcomer i attrs])%list e) /\
    nth_error (e_locations e') i = Some l' /\
    (forall j, j <> i -> nth_error (e_locations e') j = nth_error (e_locations e) j) /\
    l_numAgents l' = (l_numAgents l + 1)%Z /\
    l_pop l' = (if s_TakeFromPopulation S then if (0 <? l_pop l)%Z then l_pop l - 1 else l_pop l else l_pop l)%Z /\
    l_numAgentsSpawned l' = (if s_TakeFromPopulation S then l_numAgentsSpawned l + 1 else l_numAgentsSpawned l)%Z.
Proof. exact agent_added. Qed.
Print Assumptions C30_one_agent.

(** Over any history the population plus the number of spawned agents is constant until
    nobody is left, and the population does not become negative; *)
Theorem C30_history : forall o h e g e' g' i l,
  run o h e g = Ok (e', g') -> nth_error (e_locations e) i = Some l ->
  exists l' n, nth_error (e_locations e') i = Some l' /\ (0 <= n)%Z /\
    l_numAgentsSpawned l' = (l_numAgentsSpawned l + n)%Z /\
    (0 <= l_pop l -> l_pop l' = Z.max 0 (l_pop l - n))%Z.
Proof. exact population. Qed.
Print Assumptions C30_history.

(** without [take_from_population] populations never change. *)
Theorem C30_not_taken : forall o h e g e' g' i l,
  (forall S c, In (S, c) h -> s_TakeFromPopulation S = false) ->
  run o h e g = Ok (e', g') -> nth_error (e_locations e) i = Some l ->
  exists l', nth_error (e_locations e') i = Some l' /\ l_pop l' = l_pop l /\ l_numAgentsSpawned l' = l_numAgentsSpawned l.
Proof. exact population_kept. Qed.
Print Assumptions C30_not_taken.

(** More agents can appear than there were inhabitants. *)
Theorem C30_exhausted_refuted : exists e g, reachable ex_oracle e g /\
  map (fun l => (l_pop l, l_numAgentsSpawned l)) (e_locations e) = [(0, 3)]%Z.
Proof. exact takes_too_many. Qed.
Print Assumptions C30_exhausted_refuted.

Example C30_example :
  rmap (fun r => map (fun l => (l_pop l, l_numAgentsSpawned l)) (e_locations (fst r)))
    (run ex_oracle (map (pair take_S) [OAddAgent 0 []; OInsertAgent 0 []; OEvolve 10; OAddAgent 1 []; OAddAgent 0 []])
       (then_eco []) (then_rng [])) = Ok [(98, 2); (49, 1); (0, 0)]%Z /\
  rmap (fun r => map (fun l => (l_pop l, l_numAgentsSpawned l)) (e_locations (fst r)))
    (run ex_oracle (map (pair ex_S) [OAddAgent 0 []; OEvolve 10]) (then_eco []) (then_rng [])) = Ok [(100, 0); (50, 0); (0, 0)]%Z.
Proof. vm_compute; repeat split; reflexivity. Qed.

(** C32. The decay factor is the entry of the interval the elapsed time lies in, or the
    last one; the lookup succeeds; *)
Theorem C32_lookup : forall S l t,
  s_conflict_spawn_decay S = Some l -> l <> [] -> (0 < s_conflict_spawn_decay_interval S)%Z -> (0 <= t)%Z ->
  exists k d, get_conflict_decay S t = Ok d /\ nth_error l k = Some d /\
    (Z.of_nat k * s_conflict_spawn_decay_interval S <= t)%Z /\
    ((t < (Z.of_nat k + 1) * s_conflict_spawn_decay_interval S)%Z \/ k = (List.length l - 1)%nat).
Proof. exact decay_lookup. Qed.
Print Assumptions C32_lookup.

(** it is one without a list; *)
Theorem C32_no_list : forall S t,
  s_conflict_spawn_decay S = None \/ s_conflict_spawn_decay S = Some [] -> get_conflict_decay S t = Ok 1%Q.
Proof. exact decay_none. Qed.
Print Assumptions C32_no_list.

(** for a non-increasing list it never increases with time. *)
Theorem C32_monotone : forall S l t1 t2 d1 d2,
  s_conflict_spawn_decay S = Some l -> (0 < s_conflict_spawn_decay_interval S)%Z ->
  (forall i j a b, nth_error l i = Some a -> nth_error l j = Some b -> (i <= j)%nat -> (b <= a)%Q) ->
  (0 <= t1)%Z -> (t1 <= t2)%Z -> get_conflict_decay S t1 = Ok d1 -> get_conflict_decay S t2 = Ok d2 -> (d2 <= d1)%Q.
Proof. exact decay_monotone. Qed.
Print Assumptions C32_monotone.

Example C32_example :
  map (get_conflict_decay decay_S) [0; 29; 30; 59; 60; 89; 90; 1000]%Z =
  [Ok 1; Ok 1; Ok (3 # 4); Ok (3 # 4); Ok (1 # 2); Ok (1 # 2); Ok (1 # 2); Ok (1 # 2)]%Q /\
  (forall i j a b, nth_error [1; 3 # 4; 1 # 2]%Q i = Some a -> nth_error [1; 3 # 4; 1 # 2]%Q j = Some b -> (i <= j)%nat -> (b <= a)%Q).
Proof.
  split; [vm_compute; reflexivity|].
  intros [|[|[|[|i]]]] [|[|[|[|j]]]] a b Ha Hb L; try discriminate Ha; try discriminate Hb;
    injection Ha as <-; injection Hb as <-; first [intro X; discriminate X | exfalso; inversion L; subst; inversion H0; subst; inversion H1].
Qed.

(** C35. Linking two locations adds one open road in each direction, both of the given
    length; nothing else changes. *)
Theorem C35_link_up : forall o e g i li j lj d forced attrs,
  reachable o e g -> distinct_names e ->
  nth_error (e_locations e) i = Some li -> nth_error (e_locations e) j = Some lj ->
  exists e' did, link_up (lname li) (lname lj) d forced attrs e = Ok e' /\
    same_but_links (up_e_dicts (fun _ => e_dicts e') e) e' /\
    (forall a, attrs = Some a -> nth_error (e_dicts e') did = Some a) /\
    (forall n v, nth_error (e_dicts e) n = Some v -> nth_error (e_dicts e') n = Some v) /\
    forall p, closeds e' p = closeds e p /\
      opens e' p = (opens e p ++ (if Nat.eqb p i then [Link i j false d 0 0 0 forced did []] else [])
                              ++ (if Nat.eqb p j then [Link j i false d 0 0 0 false did []] else []))%list.
Proof. exact link_made. Qed.
Print Assumptions C35_link_up.

(** Unknown names end the program. *)
Theorem C35_unknown : forall o e g n1 n2 d f attrs,
  reachable o e g ->
  (forall l, In l (e_locations e) -> lname l <> n1) \/ (forall l, In l (e_locations e) -> lname l <> n2) ->
  link_up n1 n2 d f attrs e = Err SystemExit.
Proof. exact link_unknown. Qed.
Print Assumptions C35_unknown.

Example C35_example :
  reachable ex_oracle (then_eco []) (then_rng []) /\ distinct_names (then_eco []) /\
  rmap ends (link_up "A" "C" 7 true (Some [("a", VInt 1)]) (then_eco [])) = Ok [[1; 2]; [0; 2]; [1; 0]]%nat /\
  (forall l, In l (e_locations (then_eco [])) -> lname l <> "Z").
Proof.
  split; [exact reach0|]. split; [exact distinct0|]. split; [vm_compute; reflexivity|]. apply no_name_ok. vm_compute. reflexivity.
Qed.

(** C47. Whatever is called later, a location keeps its number, name, region, country,
    coordinates and foreign mark. *)
Theorem C47_places_stay : forall o h e g e' g' i l,
  run o h e g = Ok (e', g') -> nth_error (e_locations e) i = Some l ->
  exists l', nth_error (e_locations e') i = Some l' /\ l_name l' = l_name l /\ l_region l' = l_region l /\
    l_country l' = l_country l /\ l_foreign l' = l_foreign l /\ l_x l' = l_x l /\ l_y l' = l_y l /\
    l_attributes l' = l_attributes l.
Proof. exact places_stay. Qed.
Print Assumptions C47_places_stay.

Example C47_example :
  rmap (fun r => map (fun l => (lname l, l_country l, l_foreign l)) (e_locations (fst r)))
    (run ex_oracle (map (pair ex_S) [OCloseLocation 9 "B" true; OOpenCamp nA false; OEvolve 10;
        OAddLocation (PS "D" 4) "r" 3 0 (Some "town") 1 (-1) 0 false "X" None]) (then_eco []) (then_rng [])) =
  Ok [("A", "X", false); ("B", "X", false); ("C", "Y", true); ("D", "X", false)].
Proof. vm_compute; reflexivity. Qed.
