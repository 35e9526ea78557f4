(** * Flee: flee/flee.py (Person, Location, Link, Ecosystem)

    Functions take the settings [S], the oracles [o], the ecosystem [e] and, where the
    code draws random numbers, the generator state [g].  Objects are referred to by
    index.  Printing is dropped. *)

From Verif Require Import Base State Moving Crawling Scoring Diagnostics.
Local Open Scope Q_scope.

Definition agent_of (e : eco) (ai : nat) : res agent :=
  of_option IndexError (nth_error (e_agents e) ai).
Definition up_link (k : nat) (f : link -> link) (e : eco) : eco := up_e_links (upd k f) e.
Definition up_agent (a : nat) (f : agent -> agent) (e : eco) : eco := up_e_agents (upd a f) e.

(** ** Head counts *)

(** Location.IncrementNumAgents / DecrementNumAgents: flee/flee.py 505-533 ([par] =
    false), flee/pflee.py 209-236 ([par] = true). *)
Definition loc_add (par : bool) (d : Z) (l : location) : location :=
  if par then up_l_numAgentsOnRank (fun z => z + d)%Z l
  else up_l_numAgents (fun z => z + d)%Z l.

(** Link.DecrementNumAgents: flee/flee.py 685-697, flee/pflee.py 327-340. *)
Definition link_dec (par : bool) (k : link) : link :=
  let k1 := up_k_numAgents (fun z => z - 1)%Z k in
  if par then up_k_numAgentsOnRank (fun z => z - 1)%Z k1 else k1.

(** Equality of dictionary keys; lists cannot be keys. *)
Definition key_eqb (v w : pyval) : bool :=
  match v, w with
  | VStr s, VStr t => String.eqb s t
  | VStr _, _ | _, VStr _ => false
  | VList _, _ | _, VList _ => false
  | VInt a, VInt b => Z.eqb a b
  | VInt a, VFloat b => Qeqb (inject_Z a) b
  | VFloat a, VInt b => Qeqb a (inject_Z b)
  | VFloat a, VFloat b => Qeqb a b
  end.

Fixpoint count_key (v : pyval) (c : list (pyval * Z)) : list (pyval * Z) :=
  match c with
  | [] => [(v, 1%Z)]
  | (w, n) :: c' => if key_eqb v w then (w, (n + 1)%Z) :: c' else (w, n) :: count_key v c'
  end.

(** flee/flee.py 731-735 *)
Definition count_attributes (attrs : dict) (t : list (string * list (pyval * Z)))
  : res (list (string * list (pyval * Z))) :=
  foldM (fun t av =>
           match snd av with
           | VList _ => Err TypeError
           | v => let c := match dict_get (fst av) t with Some c => c | None => [] end in
                  Ok (dict_set (fst av) (count_key v c) t)
           end) attrs t.

(** Link.IncrementNumAgents: flee/flee.py 715-735, flee/pflee.py 343-356. *)
Definition link_inc (S : settings) (par : bool) (attrs : dict) (k : link) : res link :=
  let k1 := up_k_cumNumAgents (fun z => z + 1)%Z (up_k_numAgents (fun z => z + 1)%Z k) in
  let k2 := if par then up_k_numAgentsOnRank (fun z => z + 1)%Z k1 else k1 in
  if (1 <? s_log_link S)%Z then
    t <- count_attributes attrs (k_cumByAttribute k2) ;;
    Ok (up_k_cumByAttribute (fun _ => t) k2)
  else Ok k2.

(** [self.location.DecrementNumAgents()] *)
Definition dec_at (p : pos) (e : eco) : res eco :=
  match p with
  | PLoc i => _ <- loc_of e i ;; Ok (up_loc i (loc_add (e_par e) (-1)) e)
  | PLink k => _ <- link_of e k ;; Ok (up_link k (link_dec (e_par e)) e)
  | PGone _ => Err AttributeError
  end.

(** [self.location.IncrementNumAgents(self)] *)
Definition inc_at (S : settings) (attrs : dict) (p : pos) (e : eco) : res eco :=
  match p with
  | PLoc i => _ <- loc_of e i ;; Ok (up_loc i (loc_add (e_par e) 1) e)
  | PLink k => l <- link_of e k ;; l' <- link_inc S (e_par e) attrs l ;;
               Ok (up_link k (fun _ => l') e)
  | PGone _ => Err AttributeError
  end.

(** ** Person *)

(** Person.__init__ (flee/flee.py 45-85), without the head count. *)
Definition new_agent (loc : nat) (attrs : dict) : agent :=
  Agent (PLoc loc) loc 0 1 0 0 false 0 attrs (Some []) 0 [].

(** Person.handle_travel (flee/flee.py 89-105) *)
Definition handle_travel (S : settings) (ai : nat) (p : pos) (travelling : bool) (e : eco)
  : res eco :=
  a <- agent_of e ai ;;
  e1 <- dec_at (a_location a) e ;;
  let e2 := up_agent ai (up_a_location (fun _ => p)) e1 in
  e3 <- inc_at S (a_attributes a) p e2 ;;
  Ok (up_agent ai (fun a => up_a_distance_travelled_on_link (fun _ => 0)
                             (up_a_travelling (fun _ => travelling) a)) e3).

Definition rtok_is (n : string) (t : rtok) : bool :=
  match t with RName s => String.eqb n s | RIdx _ => false end.

(** Person.check_dest_is_full_camp (flee/flee.py 108-128); [i] is the position of
    the first element of [names] in [e.locationNames]. *)
Fixpoint dest_is_full_camp (S : settings) (e : eco) (dest : rtok) (i : nat)
    (names : list pystr) : res bool :=
  match names with
  | [] => Err SystemExit
  | n :: names' =>
      if rtok_is (sval n) dest then
        l <- loc_of e i ;;
        if l_camp l then c <- getCapMultiplier S l ;; Ok (Qltb c (1 # 2)) else Ok false
      else dest_is_full_camp S e dest (Datatypes.S i) names'
  end.

(** Person.take_next_step (flee/flee.py 130-156): the link to take, if any, and the
    remaining route. *)
Fixpoint take_next_step (S : settings) (e : eco) (route : option (list rtok))
    (links : list nat) : res (option nat * list rtok) :=
  match links with
  | [] => Ok (None, [])
  | ki :: links' =>
      k <- link_of e ki ;;
      ep <- endpoint_of e k ;;
      match route with
      | None => Err TypeError
      | Some [] => Err IndexError
      | Some (r0 :: rest) =>
          if rtok_is (lname ep) r0 then
            full <- dest_is_full_camp S e (List.last (r0 :: rest) r0) 0 (e_locationNames e) ;;
            if full : bool then Ok (None, []) else Ok (Some ki, rest)
          else take_next_step S e route links'
      end
  end.

(** Person.evolve (flee/flee.py 160-199) *)
Definition person_evolve (S : settings) (o : oracle) (time : Z) (force : bool) (ai : nat)
    (e : eco) (g : rng) : res (eco * rng) :=
  a <- agent_of e ai ;;
  if a_travelling a then Ok (e, g)
  else
    match a_location a with
    | PLoc i =>
        l <- loc_of e i ;;
        mc <- calculateMoveChance S o e a l force time ;;
        let '(outcome, g1) := rng_u g in
        if Qltb outcome mc then
          '(route, g2) <-
            (match a_route a with
             | None => Err TypeError
             | Some [] => selectRoute S o e a l time g1
             | r => Ok (r, g1)
             end) ;;
          '(dest, rest) <- take_next_step S e route (l_links l) ;;
          let e1 := up_agent ai (up_a_route (fun _ => Some rest)) e in
          match dest with
          | Some ki => e2 <- handle_travel S ai (PLink ki) true e1 ;; Ok (e2, g2)
          | None => Ok (e1, g2)
          end
        else Ok (e, g1)
    | _ => Err AttributeError
    end.

(** Lines 218-227 of Person.finish_travel: today's speed on the link. *)
Definition travel_speed (S : settings) (e : eco) (a : agent) (k : link) (g : rng)
  : res (Q * rng) :=
  d <- link_attrs e k ;;
  v <- py_float (dict_get_default "max_move_speed" d (VFloat (s_MaxMoveSpeed S))) ;;
  let v1 := if ((a_places_travelled a =? 1)%Z && s_StartOnFoot S)%bool
            then s_MaxWalkSpeed S else v in
  wp <- py_float (dict_get_default "walk_probability" d (VStr "0.0")) ;;
  let '(u, g1) := rng_u g in
  Ok (if Qltb u wp then s_MaxWalkSpeed S else v1, g1).

(** Person.finish_travel (flee/flee.py 203-285).  The recursion of lines 284-285 takes
    fuel. *)
Fixpoint finish_travel (fuel : nat) (S : settings) (o : oracle) (time : Z) (ai : nat)
    (e : eco) (g : rng) : res (eco * rng) :=
  a <- agent_of e ai ;;
  if negb (a_travelling a) then Ok (e, g)
  else
    match fuel with
    | O => Err OutOfFuel
    | Datatypes.S fuel' =>
        match a_location a with
        | PLink ki =>
            k <- link_of e ki ;;
            '(speed, g1) <- travel_speed S e a k g ;;
            let onlink := a_distance_travelled_on_link a + speed in
            let moved := a_distance_moved_this_timestep a + speed in
            let e1 := up_agent ai (fun a =>
                        up_a_distance_travelled_on_link (fun _ => onlink)
                          (up_a_distance_moved_this_timestep (fun _ => moved) a)) e in
            if Qltb (k_distance k) onlink then
              (* destination reached, lines 233-285 *)
              let moved2 := moved + (k_distance k - onlink) in
              let e2 := up_agent ai (fun a =>
                          up_a_places_travelled (fun z => z + 1)%Z
                            (up_a_distance_moved_this_timestep (fun _ => moved2)
                              (if (0 <? s_log_agent S)%Z
                               then up_a_distance_travelled (fun q => q + k_distance k) a
                               else a))) e1 in
              if k_closed k then
                e3 <- handle_travel S ai (PLoc (k_startpoint k)) false e2 ;; Ok (e3, g1)
              else
                let more := Qltb moved2 speed in
                let e3 := if (more && (1 <? s_log_agent S)%Z)%bool
                          then up_agent ai (up_a_locations_visited (fun l => l ++ [ki])) e2
                          else e2 in
                e4 <- handle_travel S ai (PLoc (k_endpoint k)) false e3 ;;
                ep <- loc_of e4 (k_endpoint k) ;;
                let e5 := if ((0 <? s_log_camp S)%Z && l_camp ep)%bool
                          then up_loc (k_endpoint k)
                                 (up_l_incoming_journey_lengths
                                    (fun l => l ++ [a_timesteps_since_departure a])) e4
                          else e4 in
                if more then
                  ratio <- (if s_AvoidShortStints S
                            then fdiv moved2 (s_MaxMoveSpeed S) else Ok 0) ;;
                  let force := (s_AvoidShortStints S &&
                                Qltb ((a_recent_travel_distance a + ratio) / 2) (1 # 2))%bool in
                  '(e6, g2) <- person_evolve S o time force ai e5 g1 ;;
                  finish_travel fuel' S o time ai e6 g2
                else Ok (e5, g1)
            else Ok (e1, g1)
        | _ => Err AttributeError
        end
    end.

(** ** Location *)

Definition set_type_flags (camp idp town forward marker flood : bool) (l : location)
  : location :=
  up_l_camp (fun _ => camp) (up_l_idpcamp (fun _ => idp) (up_l_town (fun _ => town)
    (up_l_forward (fun _ => forward) (up_l_marker (fun _ => marker)
      (up_l_flood_zone (fun _ => flood) l))))).

Definition set_movechance (q : Q) : location -> location := up_l_movechance (fun _ => q).
Definition set_conflict (q : Q) : location -> location := up_l_conflict (fun _ => q).

(** Location.__init__ (flee/flee.py 357-397): type flags, move chance and conflict
    from [location_type]; then the automatic camp rule.  The score is set by the
    caller ([addLocation]). *)
Definition parse_location_type (S : settings) (d : dict) (lt : option string) (l : location)
  : res location :=
  match lt with
  | None => Ok l
  | Some t0 =>
      let t := lower t0 in
      if str_in "camp" t then
        if str_in "idp" t
        then Ok (set_movechance (s_IDPCampMoveChance S)
                   (up_l_idpcamp (fun _ => true) (up_l_camp (fun _ => true) l)))
        else Ok (set_movechance (s_CampMoveChance S) (up_l_camp (fun _ => true) l))
      else if str_in "conflict" t then
        c <- py_float (dict_get_default "conflict_intensity" d (VFloat 1)) ;;
        Ok (set_conflict c (set_movechance (s_ConflictMoveChance S) l))
      else if str_in "forward" t then
        Ok (up_l_forward (fun _ => true) (set_movechance 1 l))
      else if str_in "marker" t then
        Ok (up_l_marker (fun _ => true) (set_movechance 1 l))
      else if str_in "flood_zone" t then
        Ok (up_l_flood_zone (fun _ => true) (set_movechance (s_DefaultMoveChance S) l))
      else if (str_in "default" t || str_in "town" t)%bool then
        Ok (set_movechance (s_DefaultMoveChance S) (up_l_town (fun _ => true) l))
      else Ok l
  end.

Definition auto_camp (l : location) : location :=
  if (Qltb (l_movechance l) (5 # 1000) && negb (l_camp l) && negb (l_flood_zone l))%bool
  then up_l_town (fun _ => false) (up_l_camp (fun _ => true) l)
  else l.

Definition new_location (S : settings) (d : dict) (name : pystr) (region : string)
    (x y : Q) (lt : option string) (movechance : Q) (capacity pop : Z) (foreign : bool)
    (country : string) (attrs : nat) : res location :=
  l <- parse_location_type S d lt
         (Location name region x y movechance [] [] [] [] 0 0 capacity pop foreign country
            (-1) false false false false false false (-1) 0 0 attrs 1 1 []) ;;
  Ok (auto_camp l).

(** Location.open_camp (flee/flee.py 443-463) *)
Definition loc_open_camp (S : settings) (idp : bool) (l : location) : location :=
  let l1 := set_movechance (s_CampMoveChance S)
              (up_l_camp (fun _ => true) (set_conflict (-1)
                (up_l_town (fun _ => false) (up_l_forward (fun _ => false)
                  (up_l_marker (fun _ => false) (up_l_flood_zone (fun _ => false) l)))))) in
  if idp then set_movechance (s_IDPCampMoveChance S) (up_l_idpcamp (fun _ => true) l1)
  else l1.

(** Location.close_camp (flee/flee.py 483-501) *)
Definition loc_close_camp (S : settings) (l : location) : location :=
  set_movechance (s_DefaultMoveChance S)
    (set_conflict (-1) (set_type_flags false false true false false false l)).

(** ** Ecosystem: lookup *)

(** Position of the last element of [names] equal to [n], if any. *)
Fixpoint last_index (n : string) (names : list string) (i : nat) (acc : option nat)
  : option nat :=
  match names with
  | [] => acc
  | m :: names' =>
      last_index n names' (Datatypes.S i) (if String.eqb m n then Some i else acc)
  end.

(** Ecosystem._convert_location_name_to_index (flee/flee.py 939-964): an unknown
    name gives [False], which Python uses as index 0. *)
Definition convert_name (e : eco) (n : pystr) : nat :=
  match last_index (sval n) (map lname (e_locations e)) 0 None with
  | Some i => i
  | None => 0
  end.

(** Ecosystem.get_camp_names (flee/flee.py 804-819) *)
Definition get_camp_names (e : eco) : list string :=
  map lname (filter l_camp (e_locations e)).

(** Ecosystem.export_graph (flee/flee.py 823-842) *)
Definition export_graph (e : eco) : res (list string * list (string * string * Q)) :=
  es <- mapM (fun l => mapM (fun ki => k <- link_of e ki ;; ep <- endpoint_of e k ;;
                                       Ok (lname l, lname ep, k_distance k))
                            (l_links l)) (e_locations e) ;;
  Ok (map lname (e_locations e), List.concat es).

(** ** Ecosystem: closures *)

(** Body of the loop of Ecosystem._remove_link_1way (flee/flee.py 989-1008): state is
    (ecosystem, new_links, removed). *)
Definition remove_step (x : nat) (endpoint : pystr) (close_only : bool)
    (st : eco * list nat * bool) (ki : nat) : res (eco * list nat * bool) :=
  let '(e, new_links, removed) := st in
  k <- link_of e ki ;;
  ep <- endpoint_of e k ;;
  if negb (py_is (l_name ep) endpoint) then Ok (e, new_links ++ [ki], removed)
  else if close_only then
    let e1 := up_link ki (up_k_closed (fun _ => true)) e in
    let copy := up_k_numAgentsOnRank (fun _ => 0%Z)
                  (up_k_numAgents (fun _ => 0%Z) (up_k_closed (fun _ => true) k)) in
    let e2 := up_e_links (fun h => h ++ [copy]) e1 in
    Ok (up_loc x (up_l_closed_links (fun c => c ++ [List.length (e_links e)])) e2,
        new_links, true)
  else Ok (e, new_links, true).

(** Ecosystem._remove_link_1way (flee/flee.py 967-1015) *)
Definition remove_link_1way (startpoint endpoint : pystr) (close_only : bool) (e : eco)
  : res (eco * bool) :=
  let x := convert_name e startpoint in
  l <- loc_of e x ;;
  '(e1, new_links, removed) <-
    foldM (remove_step x endpoint close_only) (l_links l) (e, [], false) ;;
  Ok (up_loc x (up_l_links (fun _ => new_links)) e1, removed).

(** Body of the loop of Ecosystem._reopen_link_1way (flee/flee.py 1042-1058) *)
Definition reopen_step (x : nat) (endpoint : pystr)
    (st : eco * list nat * bool) (ki : nat) : res (eco * list nat * bool) :=
  let '(e, new_closed, reopened) := st in
  k <- link_of e ki ;;
  ep <- endpoint_of e k ;;
  if negb (py_is (l_name ep) endpoint) then Ok (e, new_closed ++ [ki], reopened)
  else
    let e1 := up_loc x (up_l_links (fun ks => ks ++ [ki])) e in
    Ok (up_link ki (up_k_closed (fun _ => false)) e1, new_closed, true).

(** Ecosystem._reopen_link_1way (flee/flee.py 1019-1066) *)
Definition reopen_link_1way (startpoint endpoint : pystr) (e : eco) : res (eco * bool) :=
  let x := convert_name e startpoint in
  l <- loc_of e x ;;
  '(e1, new_closed, reopened) <-
    foldM (reopen_step x endpoint) (l_closed_links l) (e, [], false) ;;
  Ok (up_loc x (up_l_closed_links (fun _ => new_closed)) e1, reopened).

(** Ecosystem.remove_link (flee/flee.py 1070-1096) *)
Definition remove_link (startpoint endpoint : pystr) (twoway close_only : bool) (e : eco)
  : res (eco * bool) :=
  if twoway then remove_link_1way endpoint startpoint close_only e
  else remove_link_1way startpoint endpoint close_only e.

(** Ecosystem.reopen_link (flee/flee.py 1100-1117) *)
Definition reopen_link (startpoint endpoint : pystr) (twoway : bool) (e : eco)
  : res (eco * bool) :=
  if twoway then reopen_link_1way endpoint startpoint e
  else reopen_link_1way startpoint endpoint e.

(** Ecosystem.close_link (flee/flee.py 1121-1137) *)
Definition close_link (startpoint endpoint : pystr) (twoway : bool) (e : eco)
  : res (eco * bool) := remove_link startpoint endpoint twoway true e.

Inductive chmode : Type := MClose | MReopen.
Inductive chdir : Type := DIn | DOut | DBoth.

(** Ecosystem._change_location_1way, the while loop of lines 1185-1234 for location
    number [i] with name object [ni].  [link_set] is the list object the loop runs
    over: it is replaced only where the code assigns it. *)
Fixpoint change_location_loop (fuel : nat) (m : chmode) (dir : chdir) (i : nat) (ni : pystr)
    (link_set : list nat) (j : nat) (e : eco) : res eco :=
  match nth_error link_set j with
  | None => Ok e
  | Some ki =>
      match fuel with
      | O => Err OutOfFuel
      | Datatypes.S fuel' =>
          k <- link_of e ki ;;
          ep <- endpoint_of e k ;;
          let epn := l_name ep in
          match m with
          | MClose =>
              e1 <- (match dir with
                     | DOut => Ok e
                     | _ => '(e1, _) <- close_link epn ni false e ;; Ok e1
                     end) ;;
              match dir with
              | DIn => change_location_loop fuel' m dir i ni link_set (Datatypes.S j) e1
              | _ =>
                  '(e2, closed) <- close_link ni epn false e1 ;;
                  if closed : bool then
                    l <- loc_of e2 i ;;
                    change_location_loop fuel' m dir i ni (l_links l) j e2
                  else change_location_loop fuel' m dir i ni link_set j e2
              end
          | MReopen =>
              e1 <- (match dir with
                     | DOut => Ok e
                     | _ => '(e1, _) <- reopen_link epn ni false e ;; Ok e1
                     end) ;;
              match dir with
              | DIn => change_location_loop fuel' m dir i ni link_set j e1
              | _ =>
                  '(e2, reopened) <- reopen_link ni epn false e1 ;;
                  if reopened : bool then
                    l <- loc_of e2 i ;;
                    change_location_loop fuel' m dir i ni (l_closed_links l) j e2
                  else change_location_loop fuel' m dir i ni link_set (Datatypes.S j) e2
              end
          end
      end
  end.

(** Ecosystem._change_location_1way (flee/flee.py 1141-1236) *)
Definition change_location_1way (fuel : nat) (name : string) (m : chmode) (dir : chdir)
    (e : eco) : res (eco * bool) :=
  foldM (fun st i =>
           let '(e1, changed) := st in
           ni <- of_option IndexError (nth_error (e_locationNames e1) i) ;;
           if String.eqb (sval ni) name then
             l <- loc_of e1 i ;;
             let ls := match m with MClose => l_links l | MReopen => l_closed_links l end in
             e2 <- change_location_loop fuel m dir i ni ls 0 e1 ;; Ok (e2, true)
           else Ok (e1, changed))
        (seq 0 (List.length (e_locationNames e))) (e, false).

(** Ecosystem.close_location, reopen_location (flee/flee.py 1475-1517) *)
Definition close_location (fuel : nat) (name : string) (twoway : bool) (e : eco)
  : res (eco * bool) :=
  change_location_1way fuel name MClose (if twoway then DBoth else DIn) e.
Definition reopen_location (fuel : nat) (name : string) (twoway : bool) (e : eco)
  : res (eco * bool) :=
  change_location_1way fuel name MReopen (if twoway then DBoth else DIn) e.

(** Ecosystem._change_border_1way, the while loop of lines 1267-1296 *)
Fixpoint change_border_loop (fuel : nat) (dest : string) (m : chmode) (i : nat) (ni : pystr)
    (link_set : list nat) (j : nat) (e : eco) : res eco :=
  match nth_error link_set j with
  | None => Ok e
  | Some ki =>
      match fuel with
      | O => Err OutOfFuel
      | Datatypes.S fuel' =>
          k <- link_of e ki ;;
          ep <- endpoint_of e k ;;
          if String.eqb (l_country ep) dest then
            '(e1, hit) <- (match m with
                           | MClose => close_link ni (l_name ep) false e
                           | MReopen => reopen_link ni (l_name ep) false e
                           end) ;;
            if hit : bool then
              l <- loc_of e1 i ;;
              change_border_loop fuel' dest m i ni
                (match m with MClose => l_links l | MReopen => l_closed_links l end) j e1
            else change_border_loop fuel' dest m i ni link_set (Datatypes.S j) e1
          else change_border_loop fuel' dest m i ni link_set (Datatypes.S j) e
      end
  end.

(** Ecosystem._change_border_1way (flee/flee.py 1240-1304) *)
Definition change_border_1way (fuel : nat) (source dest : string) (m : chmode) (e : eco)
  : res eco :=
  foldM (fun e1 i =>
           l <- loc_of e1 i ;;
           if String.eqb (l_country l) source then
             ni <- of_option IndexError (nth_error (e_locationNames e1) i) ;;
             change_border_loop fuel dest m i ni
               (match m with MClose => l_links l | MReopen => l_closed_links l end) 0 e1
           else Ok e1)
        (seq 0 (List.length (e_locationNames e))) e.

(** Ecosystem.close_border, reopen_border (flee/flee.py 1308-1358) *)
Definition change_border (fuel : nat) (source dest : string) (twoway : bool) (m : chmode)
    (e : eco) : res eco :=
  e1 <- change_border_1way fuel source dest m e ;;
  if twoway then change_border_1way fuel dest source m e1 else Ok e1.
Definition close_border (fuel : nat) (source dest : string) (twoway : bool) (e : eco) :=
  change_border fuel source dest twoway MClose e.
Definition reopen_border (fuel : nat) (source dest : string) (twoway : bool) (e : eco) :=
  change_border fuel source dest twoway MReopen e.

(** ** Ecosystem: camps and location types *)

Definition on_named_loc (name : pystr) (f : location -> location) (e : eco) : res eco :=
  let x := convert_name e name in
  _ <- loc_of e x ;; Ok (up_loc x f e).

(** Ecosystem.close_camp, open_camp (flee/flee.py 1362-1375, 1436-1449) *)
Definition close_camp (S : settings) (name : pystr) (idp : bool) (e : eco) : res eco :=
  on_named_loc name (loc_close_camp S) e.
Definition open_camp (S : settings) (name : pystr) (idp : bool) (e : eco) : res eco :=
  on_named_loc name (loc_open_camp S idp) e.

(** Ecosystem.change_location_type (flee/flee.py 1379-1432).  The conflict branch
    reads [self.attributes], which an Ecosystem does not have ([AttributeError]); the
    error branch prints the undefined variable [name] ([NameError]). *)
Definition change_location_type (S : settings) (name : pystr) (location_type : string)
    (e : eco) : res eco :=
  let t := lower location_type in
  let clear := fun l => set_conflict (-1) (set_type_flags false false false false false false l) in
  if str_in "camp" t then
    on_named_loc name
      (fun l => let l1 := set_movechance (s_CampMoveChance S) (up_l_camp (fun _ => true) (clear l)) in
                if str_in "idp" t
                then set_movechance (s_IDPCampMoveChance S) (up_l_idpcamp (fun _ => true) l1)
                else l1) e
  else if str_in "conflict" t then
    _ <- on_named_loc name clear e ;; Err AttributeError
  else if str_in "forward" t then
    on_named_loc name (fun l => up_l_forward (fun _ => true) (set_movechance 1 (clear l))) e
  else if str_in "marker" t then
    on_named_loc name (fun l => up_l_marker (fun _ => true) (set_movechance 1 (clear l))) e
  else if str_in "flood_zone" t then
    on_named_loc name (fun l => up_l_flood_zone (fun _ => true)
                                  (set_movechance (s_DefaultMoveChance S) (clear l))) e
  else if (str_in "default" t || str_in "town" t)%bool then
    on_named_loc name (fun l => set_movechance (s_DefaultMoveChance S)
                                  (up_l_town (fun _ => true) (clear l))) e
  else _ <- on_named_loc name clear e ;; Err NameError.

(** Ecosystem.set_forced_redirection (flee/flee.py 1453-1471) *)
Definition set_forced_redirection (name1 name2 : pystr) (v : bool) (e : eco) : res eco :=
  l <- loc_of e (convert_name e name1) ;;
  foldM (fun e1 ki =>
           k <- link_of e1 ki ;;
           ep <- endpoint_of e1 k ;;
           if String.eqb (lname ep) (sval name2)
           then Ok (up_link ki (up_k_forced_redirection (fun _ => v)) e1)
           else Ok e1)
        (l_links l) e.

(** ** Ecosystem: closure schedule (flee/flee.py 879-935) *)

Definition enact_close (fuel : nat) (S : settings) (twoway : bool) (c : closure) (e : eco)
  : res eco :=
  if String.eqb (c_kind c) "country" then
    close_border fuel (sval (c_source c)) (sval (c_dest c)) twoway e
  else if String.eqb (c_kind c) "location" then
    rmap fst (close_location fuel (sval (c_source c)) twoway e)
  else if String.eqb (c_kind c) "link" then
    rmap fst (close_link (c_source c) (c_dest c) twoway e)
  else if String.eqb (c_kind c) "camp" then close_camp S (c_source c) false e
  else if String.eqb (c_kind c) "idpcamp" then close_camp S (c_source c) true e
  else if String.eqb (c_kind c) "remove_forced_redirection" then
    set_forced_redirection (c_source c) (c_dest c) false e
  else Ok e.

Definition enact_open (fuel : nat) (S : settings) (twoway : bool) (c : closure) (e : eco)
  : res eco :=
  if String.eqb (c_kind c) "country" then
    reopen_border fuel (sval (c_source c)) (sval (c_dest c)) twoway e
  else if String.eqb (c_kind c) "location" then
    rmap fst (reopen_location fuel (sval (c_source c)) twoway e)
  else if String.eqb (c_kind c) "link" then
    rmap fst (reopen_link (c_source c) (c_dest c) twoway e)
  else if String.eqb (c_kind c) "camp" then open_camp S (c_source c) false e
  else if String.eqb (c_kind c) "idpcamp" then open_camp S (c_source c) true e
  else if String.eqb (c_kind c) "remove_forced_redirection" then
    set_forced_redirection (c_source c) (c_dest c) true e
  else Ok e.

Definition enact_one (fuel : nat) (S : settings) (time : Z) (twoway : bool) (e : eco)
    (c : closure) : res eco :=
  e1 <- (if (time =? c_start c)%Z then enact_close fuel S twoway c e else Ok e) ;;
  if (time =? c_end c)%Z then enact_open fuel S twoway c e1 else Ok e1.

Definition enact_border_closures (fuel : nat) (S : settings) (time : Z) (twoway : bool)
    (e : eco) : res eco :=
  foldM (enact_one fuel S time twoway) (e_closures e) e.

(** ** Spawn weights: flee/spawning.py 38-80

    The weight of one location. *)
Definition spawn_weight (S : settings) (time : Z) (l : location) : res Q :=
  if s_conflict_driven_spawning S then Ok 0
  else if Qltb 0 (l_conflict l) then
    m <- (match s_conflict_spawn_decay S with
          | None | Some [] => Ok (l_conflict l)
          | Some _ => d <- get_location_conflict_decay S time l ;; Ok (l_conflict l * d)
          end) ;;
    Ok (inject_Z (l_pop l) * 1 * m)
  else Ok 0.

(** The code writes into the existing array [spawn_weights]; an array that is too
    short raises [IndexError], surplus entries stay. *)
Definition refresh_spawn_weights (S : settings) (e : eco) : res eco :=
  ws <- mapM (spawn_weight S (e_time e)) (e_locations e) ;;
  if (List.length (e_spawn_weights e) <? List.length ws)%nat then Err IndexError
  else Ok (up_e_spawn_weights (fun old => ws ++ skipn (List.length ws) old) e).

(** ** Ecosystem: conflict zones *)

(** Position of the first element of [names] equal to [n], if any. *)
Fixpoint first_index (n : string) (names : list string) (i : nat) : option nat :=
  match names with
  | [] => None
  | m :: names' => if String.eqb m n then Some i else first_index n names' (Datatypes.S i)
  end.

(** Ecosystem.add_conflict_zone (flee/flee.py 1521-1556) *)
Definition add_conflict_zone (S : settings) (name : string) (intensity : Q) (change : bool)
    (e : eco) : res eco :=
  match first_index name (map sval (e_locationNames e)) 0 with
  | None => Ok e
  | Some i =>
      _ <- loc_of e i ;;
      refresh_spawn_weights S
        (up_loc i (fun l =>
           up_l_time_of_conflict (fun _ => e_time e)
             (if change
              then up_l_town (fun _ => false)
                     (set_conflict intensity (set_movechance (s_ConflictMoveChance S) l))
              else l)) e)
  end.

(** Ecosystem.remove_conflict_zone (flee/flee.py 1560-1581) *)
Definition remove_conflict_zone (S : settings) (name : string) (change : bool) (e : eco)
  : res eco :=
  e1 <- foldM (fun e1 i =>
                 ni <- of_option IndexError (nth_error (e_locationNames e1) i) ;;
                 if String.eqb (sval ni) name then
                   _ <- loc_of e1 i ;;
                   Ok (up_loc i (fun l =>
                         up_l_town (fun _ => true)
                           (set_conflict (-1)
                             (if change then set_movechance (s_DefaultMoveChance S) l else l))) e1)
                 else Ok e1)
              (seq 0 (List.length (e_locationNames e))) e ;;
  refresh_spawn_weights S e1.

(** Ecosystem.set_conflict_intensity (flee/flee.py 1585-1601) *)
Definition set_conflict_intensity (S : settings) (name : string) (intensity : Q)
    (change : bool) (e : eco) : res eco :=
  if Qltb intensity (1 # 1000000) then remove_conflict_zone S name change e
  else add_conflict_zone S name intensity change e.

(** Ecosystem.pick_spawn_locations (flee/flee.py 1605-1627).  [np.random.choice] with
    probabilities [p] draws uniform numbers and looks them up in the normalised
    cumulative sum; it raises [ValueError] for negative probabilities, for a negative
    count and for arrays of different length. *)
Fixpoint np_choices (cdf : list Q) (n : nat) (g : rng) : list nat * rng :=
  match n with
  | O => ([], g)
  | Datatypes.S n' =>
      let '(u, g1) := rng_nu g in
      let '(is_, g2) := np_choices cdf n' g1 in
      (bisect_right cdf u :: is_, g2)
  end.

Definition pick_spawn_locations (number : Z) (e : eco) (g : rng) : res (list nat * rng) :=
  let total := sumQ (e_spawn_weights e) in
  if negb (Qltb 0 total) then Err AssertionError
  else if (number <? 0)%Z then Err ValueError
  else if negb (Nat.eqb (List.length (e_spawn_weights e)) (List.length (e_locations e)))
  then Err ValueError
  else if existsb (fun w => Qltb w 0) (e_spawn_weights e) then Err ValueError
  else
    let p := map (fun w => w / total) (e_spawn_weights e) in
    let cum := accumulate 0 p in
    let cdf := map (fun c => c / List.last cum 1) cum in
    Ok (np_choices cdf (Z.to_nat number) g).

(** ** Ecosystem: building the network *)

(** Ecosystem.addLocation (flee/flee.py 1693-1749).  [attrs = None] means that the
    argument is omitted: the default dictionary object (cell 0) is shared by all such
    locations. *)
Definition add_location (S : settings) (o : oracle) (name : pystr) (region : string)
    (x y : Q) (lt : option string) (movechance : Q) (capacity pop : Z) (foreign : bool)
    (country : string) (attrs : option dict) (e : eco) (g : rng) : res (eco * rng) :=
  let '(e0, did) := match attrs with
                    | None => (e, 0%nat)
                    | Some d => (up_e_dicts (fun ds => ds ++ [d]) e, List.length (e_dicts e))
                    end in
  d <- dict_of e0 did ;;
  l <- new_location S d name region x y lt movechance capacity pop foreign country did ;;
  let i := List.length (e_locations e0) in
  '(e1, g1) <- updateLocationScore S o 0 i (up_e_locations (fun ls => ls ++ [l]) e0) g ;;
  let e2 := up_e_locationNames (fun ns => ns ++ [name])
              (up_e_spawn_weights (fun ws => ws ++ [0]) e1) in
  e3 <- refresh_spawn_weights S e2 ;;
  Ok (e3, g1).

(** Ecosystem.linkUp (flee/flee.py 1891-1950) *)
Definition link_up (name1 name2 : string) (distance : Q) (forced : bool)
    (attrs : option dict) (e : eco) : res eco :=
  let names := map sval (e_locationNames e) in
  match last_index name1 names 0 None, last_index name2 names 0 None with
  | Some i1, Some i2 =>
      _ <- loc_of e i1 ;;
      _ <- loc_of e i2 ;;
      let '(e0, did) := match attrs with
                        | None => (e, 1%nat)
                        | Some d => (up_e_dicts (fun ds => ds ++ [d]) e, List.length (e_dicts e))
                        end in
      let n := List.length (e_links e0) in
      let e1 := up_loc i1 (up_l_links (fun ks => ks ++ [n]))
                  (up_e_links (fun h => h ++ [Link i1 i2 false distance 0 0 0 forced did []]) e0) in
      Ok (up_loc i2 (up_l_links (fun ks => ks ++ [Datatypes.S n]))
            (up_e_links (fun h => h ++ [Link i2 i1 false distance 0 0 0 false did []]) e1))
  | _, _ => Err SystemExit
  end.

(** Location.setAttribute (flee/flee.py 467-479) on location [i]. *)
Definition set_loc_attribute (i : nat) (k : string) (v : pyval) (e : eco) : res eco :=
  l <- loc_of e i ;; _ <- loc_attrs e l ;;
  Ok (up_e_dicts (upd (l_attributes l) (dict_set k v)) e).

(** ** Ecosystem: agents *)

(** [self.agents.append(Person(location, attributes))] *)
Definition append_agent (loc : nat) (attrs : dict) (e : eco) : res eco :=
  _ <- loc_of e loc ;;
  Ok (up_loc loc (loc_add (e_par e) 1) (up_e_agents (fun l => l ++ [new_agent loc attrs]) e)).

(** Ecosystem.addAgent (flee/flee.py 1753-1776) *)
Definition add_agent (S : settings) (loc : nat) (attrs : dict) (e : eco) : res eco :=
  l <- loc_of e loc ;;
  let e1 := if s_TakeFromPopulation S then
              up_loc loc (fun l =>
                up_l_numAgentsSpawned (fun z => z + 1)%Z
                  (if (0 <? l_pop l)%Z then up_l_pop (fun z => z - 1)%Z l else l)) e
            else e in
  append_agent loc attrs e1.

(** Ecosystem.insertAgent, insertAgents (flee/flee.py 1780-1810) *)
Definition insert_agent (loc : nat) (attrs : dict) (e : eco) : res eco :=
  append_agent loc attrs e.
Definition insert_agents (loc : nat) (number : Z) (e : eco) : res eco :=
  foldM (fun e1 _ => insert_agent loc [] e1) (seq 0 (Z.to_nat number)) e.

(** Name of the object an agent is in; [None.name] raises [AttributeError]. *)
Definition pos_name (e : eco) (p : pos) : res string :=
  match p with
  | PLoc i => l <- loc_of e i ;; Ok (lname l)
  | PLink ki => k <- link_of e ki ;; link_name e k
  | PGone _ => Err AttributeError
  end.

(** Ecosystem.clearLocationsFromAgents (flee/flee.py 1814-1834).  Keeping an agent
    executes [new_agents += agent], which raises [TypeError]. *)
Definition clear_locations (names : list string) (e : eco) : res eco :=
  e1 <- foldM (fun e1 a =>
                 n <- pos_name e1 (a_location a) ;;
                 if mem_str n names then dec_at (a_location a) e1 else Err TypeError)
              (e_agents e) e ;;
  Ok (up_e_agents (fun _ => []) e1).

(** Ecosystem.numAgents, numIDPs (flee/flee.py 1855-1887) *)
Definition num_agents (e : eco) : nat := List.length (e_agents e).
Definition num_idps (e : eco) : Z :=
  sumZ (map l_numAgents (filter l_idpcamp (e_locations e))).

(** ** Ecosystem.evolve (flee/flee.py 1631-1689) *)

(** Lines 1645-1647 *)
Definition update_scores (S : settings) (o : oracle) (e : eco) (g : rng) : res (eco * rng) :=
  foldM (fun st i =>
           let '(e1, g1) := st in
           updateLocationScore S o (e_time e1) i (up_loc i (up_l_routes (fun _ => [])) e1) g1)
        (seq 0 (List.length (e_locations e))) (e, g).

(** Lines 1650-1654 *)
Definition evolve_agents (S : settings) (o : oracle) (e : eco) (g : rng) : res (eco * rng) :=
  foldM (fun st ai =>
           let '(e1, g1) := st in
           let e2 := if (1 <? s_log_agent S)%Z
                     then up_agent ai (up_a_locations_visited (fun _ => [])) e1 else e1 in
           a <- agent_of e2 ai ;;
           match a_location a with
           | PGone _ => Ok (e2, g1)
           | _ => person_evolve S o (e_time e2) false ai e2 g1
           end)
        (seq 0 (List.length (e_agents e))) (e, g).

(** Lines 1656-1659 *)
Definition finish_agents (fuel : nat) (S : settings) (o : oracle) (e : eco) (g : rng)
  : res (eco * rng) :=
  foldM (fun st ai =>
           let '(e1, g1) := st in
           a <- agent_of e1 ai ;;
           match a_location a with
           | PGone _ => Ok (e1, g1)
           | _ =>
               '(e2, g2) <- finish_travel fuel S o (e_time e1) ai e1 g1 ;;
               Ok (up_agent ai (up_a_timesteps_since_departure (fun z => z + 1)%Z) e2, g2)
           end)
        (seq 0 (List.length (e_agents e))) (e, g).

(** Lines 1668-1673 *)
Definition update_recent (S : settings) (e : eco) : res eco :=
  agents <- mapM (fun a =>
                    r <- fdiv (a_distance_moved_this_timestep a) (s_MaxMoveSpeed S) ;;
                    Ok (up_a_distance_moved_this_timestep (fun _ => 0)
                          (up_a_recent_travel_distance (fun q => (q + r) / 2) a)))
                 (e_agents e) ;;
  Ok (up_e_agents (fun _ => agents) e).

(** Ecosystem._aggregate_arrivals (flee/flee.py 845-872) *)
Definition aggregate_arrivals (S : settings) (e : eco) : eco :=
  if (0 <? s_log_camp S)%Z then
    let lengths := flat_map l_incoming_journey_lengths (filter l_camp (e_locations e)) in
    let n := Z.of_nat (List.length lengths) in
    let dur := if (0 <? n)%Z then inject_Z (sumZ lengths) / inject_Z n else 0 in
    up_e_travel_durations (fun l => l ++ [dur])
      (up_e_num_arrivals (fun l => l ++ [n])
        (up_e_locations (map (fun l => if l_camp l
                                       then up_l_incoming_journey_lengths (fun _ => []) l
                                       else l)) e))
  else e.

(** Lines 1680-1687 *)
Definition deactivate (S : settings) (e : eco) (g : rng) : res (eco * rng) :=
  if s_camps_are_sinks S then
    foldM (fun st ai =>
             let '(e1, g1) := st in
             a <- agent_of e1 ai ;;
             if a_travelling a then Ok (e1, g1)
             else
               match a_location a with
               | PLoc i =>
                   l <- loc_of e1 i ;;
                   if l_camp l then
                     let '(u, g2) := rng_u g1 in
                     d <- loc_attrs e1 l ;;
                     p <- py_num (dict_get_default "deactivation_probability" d (VFloat 0)) ;;
                     if Qltb u p then Ok (up_agent ai (up_a_location (fun _ => PGone i)) e1, g2)
                     else Ok (e1, g2)
                   else Ok (e1, g1)
               | PLink _ => Err AttributeError
               | PGone _ => Ok (e1, g1)
               end)
          (seq 0 (List.length (e_agents e))) (e, g)
  else Ok (e, g).

Definition evolve (fuel : nat) (S : settings) (o : oracle) (e : eco) (g : rng)
  : res (eco * rng) :=
  e0 <- refresh_spawn_weights S e ;;
  '(e1, g1) <- update_scores S o e0 g ;;
  '(e2, g2) <- evolve_agents S o e1 g1 ;;
  '(e3, g3) <- finish_agents fuel S o e2 g2 ;;
  e4 <- (if (0 <? s_log_agent S)%Z then write_agents S e3 else Ok e3) ;;
  e5 <- (if (0 <? s_log_link S)%Z then write_links S e4 else Ok e4) ;;
  e6 <- update_recent S e5 ;;
  let e7 := aggregate_arrivals S e6 in
  '(e8, g4) <- deactivate S e7 g3 ;;
  Ok (up_e_time (fun t => t + 1)%Z e8, g4).

(** ** A new ecosystem (flee/flee.py 776-801)

    Dictionary cells 0 and 1 are the default arguments of [addLocation] and [linkUp]
    (Python creates them once, when the class is defined). *)
Definition empty_eco : eco :=
  Eco [] [] [] [[]; []] [] [] 0 [] [] [] [] [] false 0 1 0.
