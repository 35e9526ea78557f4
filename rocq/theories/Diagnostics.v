(** * Diagnostics: flee/Diagnostics.py, the agent and link logs

    A log file is the list of its data lines; the header line is not kept. *)

From Verif Require Import Base State Moving.
Local Open Scope Q_scope.

(** [Link.name] (flee/flee.py 659) *)
Definition link_name (e : eco) (k : link) : res string :=
  s <- loc_of e (k_startpoint k) ;;
  t <- loc_of e (k_endpoint k) ;;
  Ok ("L:" ++ lname s ++ ":" ++ lname t)%string.

(** [Link.x], [Link.y] (flee/flee.py 668-669) *)
Definition link_xy (e : eco) (k : link) : res (Q * Q) :=
  s <- loc_of e (k_startpoint k) ;;
  t <- loc_of e (k_endpoint k) ;;
  Ok ((l_x s + l_x t) / 2, (l_y s + l_y t) / 2).

(** Name and coordinates of the place of an agent; [None] if it has none. *)
Definition place_of (e : eco) (p : pos) : res (option (string * (Q * Q))) :=
  match p with
  | PLoc i => l <- loc_of e i ;; Ok (Some (lname l, (l_x l, l_y l)))
  | PLink ki => k <- link_of e ki ;; n <- link_name e k ;; xy <- link_xy e k ;;
                Ok (Some (n, xy))
  | PGone _ => Ok None
  end.

Definition is_region (S : settings) : bool := String.eqb (s_granularity S) "region".

Definition mk_row (e : eco) (time hop : Z) (n : nat) (a : agent) (name : string)
    (xy : Q * Q) : res agent_row :=
  h <- loc_of e (a_home_location a) ;;
  Ok (AgentRow time hop n (lname h) name (fst xy) (snd xy) (a_travelling a)
        (a_distance_travelled a) (a_places_travelled a)
        (a_distance_moved_this_timestep a) (map snd (a_attributes a))).

(** Lines 117-174: extra lines for the links passed in this step.  With log level 3
    they are numbered from 1, with log level 2 they are not.  [l.region] of a link
    does not exist: [AttributeError]. *)
Fixpoint hop_rows (S : settings) (e : eco) (time : Z) (n : nat) (a : agent) (hop : Z)
    (ks : list nat) : res (list agent_row) :=
  match ks with
  | [] => Ok []
  | ki :: ks' =>
      if is_region S then Err AttributeError
      else
        k <- link_of e ki ;; nm <- link_name e k ;; xy <- link_xy e k ;;
        r <- mk_row e time (if (2 <? s_log_agent S)%Z then hop else 0%Z) n a nm xy ;;
        rs <- hop_rows S e time n a (hop + 1)%Z ks' ;;
        Ok (r :: rs)
  end.

(** Lines 84-174 for agent number [n].  [location.region] in line 95 uses an
    undefined variable: [NameError]. *)
Definition agent_rows (S : settings) (e : eco) (time : Z) (n : nat) (a : agent)
  : res (list agent_row) :=
  p <- place_of e (a_location a) ;;
  match p with
  | None => Ok []
  | Some (nm, xy) =>
      if is_region S then Err NameError
      else
        r <- mk_row e time 0 n a nm xy ;;
        hs <- (if (1 <? s_log_agent S)%Z
               then hop_rows S e time n a 1 (a_locations_visited a) else Ok []) ;;
        Ok (r :: hs)
  end.

Fixpoint all_agent_rows (S : settings) (e : eco) (time : Z) (n : nat) (l : list agent)
  : res (list agent_row) :=
  match l with
  | [] => Ok []
  | a :: l' =>
      r <- agent_rows S e time n a ;;
      rs <- all_agent_rows S e time (Datatypes.S n) l' ;;
      Ok (r ++ rs)
  end.

(** ** write_agents / write_agents_par (flee/Diagnostics.py 49-194)

    With the defaults [max_written = -1], [timestep_interval = 1] used by [evolve].
    At time 0 the file is emptied and the header needs [agents[0]]. *)
Definition write_agents (S : settings) (e : eco) : res eco :=
  old <- (if (e_time e =? 0)%Z then
            match e_agents e with [] => Err IndexError | _ => Ok [] end
          else Ok (e_agents_out e)) ;;
  rows <- all_agent_rows S e (e_time e) 0 (e_agents e) ;;
  Ok (up_e_agents_out (fun _ => old ++ rows) e).

(** ** write_links / write_links_par (flee/Diagnostics.py 197-303) *)
Definition link_rows (S : settings) (e : eco) (time : Z) (ki : nat) : res (list link_row) :=
  k <- link_of e ki ;;
  s <- loc_of e (k_startpoint k) ;;
  t <- loc_of e (k_endpoint k) ;;
  let sn := if is_region S then l_region s else lname s in
  let tn := if is_region S then l_region t else lname t in
  let total := LinkRow time sn tn (k_cumNumAgents k) None in
  let by_attr :=
    if (1 <? s_log_link S)%Z then
      flat_map (fun c => map (fun vc => LinkRow time sn tn (snd vc) (Some (fst c, fst vc)))
                             (snd c)) (k_cumByAttribute k)
    else [] in
  Ok (total :: by_attr).

Definition write_links (S : settings) (e : eco) : res eco :=
  rows <- mapM (link_rows S e (e_time e)) (flat_map l_links (e_locations e)) ;;
  let old := if (e_time e =? 0)%Z then [] else e_links_out e in
  Ok (up_e_links_out (fun _ => old ++ List.concat rows) e).
