(** * Pflee: flee/pflee.py, the MPI version

    A parallel run on [n] processes is the list of the [n] local ecosystems (fields
    [e_par = true], [e_rank] = position, [e_mpi_size = n]) and of their generators.
    Processes interact in collective operations only; those are functions on the
    list.  The scores array [Ecosystem.scores] is kept in [l_score0], [l_score1].
    Overflow of the 32 bit counters in the MPI buffers is not modelled. *)

From Verif Require Import Base State Moving Crawling Scoring Diagnostics Flee.
Local Open Scope Q_scope.

(** ** Local operations *)

(** Ecosystem.__init__ (lines 385-424) on process [r] of [n]. *)
Definition empty_par (r n : Z) : eco :=
  Eco [] [] [] [[]; []] [] [] 0 [] [] [] [] [] true r n 0.

(** Ecosystem.addLocation (lines 897-975) *)
Definition par_add_location (S : settings) (o : oracle) (name : pystr) (region : string)
    (x y : Q) (lt : option string) (movechance : Q) (capacity pop : Z) (foreign : bool)
    (country : string) (attrs : option dict) (e : eco) (g : rng) : res (eco * rng) :=
  add_location S o name region x y lt
    (if Qltb movechance 0 then s_DefaultMoveChance S else movechance)
    capacity pop foreign country attrs e g.

(** Lines 630-632, 648-650: the agent is created on one process only. *)
Definition par_own (loc : nat) (attrs : dict) (e : eco) : res eco :=
  _ <- loc_of e loc ;;
  let e1 := up_e_total_agents (fun z => z + 1)%Z e in
  if (e_mpi_size e1 =? 0)%Z then Err ZeroDivisionError
  else if (e_total_agents e1 mod e_mpi_size e1 =? e_rank e1)%Z then append_agent loc attrs e1
  else Ok e1.

(** Ecosystem.addAgent (lines 605-632), insertAgent(s) (635-669) *)
Definition par_add_agent (S : settings) (loc : nat) (attrs : dict) (e : eco) : res eco :=
  l <- loc_of e loc ;;
  e1 <- (if s_TakeFromPopulation S then
           if (1 <? l_pop l)%Z then
             Ok (up_loc loc (fun l =>
                   up_l_numAgentsSpawned (fun z => z + 1)%Z
                     (up_l_numAgentsSpawnedOnRank (fun z => z + 1)%Z
                       (up_l_pop (fun z => z - 1)%Z l))) e)
           else Err AssertionError
         else Ok e) ;;
  par_own loc attrs e1.
Definition par_insert_agent (loc : nat) (attrs : dict) (e : eco) : res eco :=
  par_own loc attrs e.
Definition par_insert_agents (loc : nat) (number : Z) (e : eco) : res eco :=
  foldM (fun e1 _ => par_insert_agent loc [] e1) (seq 0 (Z.to_nat number)) e.

(** Ecosystem.clearLocationsFromAgents, local part (lines 688-698).
    [agent.location.numAgentsOnRank -= 1]. *)
Definition dec_on_rank (p : pos) (e : eco) : res eco :=
  match p with
  | PLoc i => Ok (up_loc i (up_l_numAgentsOnRank (fun z => z - 1)%Z) e)
  | PLink k => Ok (up_link k (up_k_numAgentsOnRank (fun z => z - 1)%Z) e)
  | PGone _ => Err AttributeError
  end.
Definition par_clear_local (names : list string) (e : eco) : res eco :=
  '(e1, kept) <-
    foldM (fun st a =>
             let '(e1, kept) := st in
             n <- pos_name e1 (a_location a) ;;
             if mem_str n names then e2 <- dec_on_rank (a_location a) e1 ;; Ok (e2, kept)
             else Ok (e1, kept ++ [a]))
          (e_agents e) (e, []) ;;
  Ok (up_e_agents (fun _ => kept) e1).

(** ** Collectives *)

(** The counters of one process in the order of lines 540-554, 566-576. *)
Definition loc_counters (h : list link) (closed : bool) (l : location) : list Z :=
  let lk ki := match nth_error h ki with Some k => k_numAgentsOnRank k | None => 0%Z end in
  l_numAgentsOnRank l :: map lk (l_links l) ++ (if closed then map lk (l_closed_links l) else []).
Definition counters (closed : bool) (e : eco) : list Z :=
  flat_map (loc_counters (e_links e) closed) (e_locations e).

(** [MPI.SUM] of equally long buffers; buffers of different length are an error. *)
Definition vadd (a b : list Z) : list Z := map (fun p => (fst p + snd p)%Z) (combine a b).
Definition allreduce (bufs : list (list Z)) : res (list Z) :=
  match bufs with
  | [] => Err ValueError
  | b :: bs => if forallb (fun c => Nat.eqb (List.length c) (List.length b)) bs
               then Ok (fold_left vadd bs b) else Err ValueError
  end.

(** CalcCommWorldTotal (lines 48-57) asserts a non-empty buffer. *)
Definition comm_total (bufs : list (list Z)) : res (list Z) :=
  if forallb (fun b => (0 <? List.length b)%nat) bufs then allreduce bufs
  else Err AssertionError.

(** Low latency mode (CalcCommWorldTotalSingle, lines 40-45): the j-th Allreduce of every process is matched. *)
Definition single_totals (bufs : list (list Z)) : res (list Z) :=
  match bufs with
  | [] => Err ValueError
  | b :: bs =>
      if forallb (fun c => Nat.eqb (List.length c) (List.length b)) bs
      then mapM (fun j => xs <- mapM (fun c => of_option IndexError (nth_error c j)) bufs ;;
                          Ok (sumZ xs))
                (seq 0 (List.length b))
      else Err ValueError
  end.

(** Writing the totals back (lines 580-590): consumes the buffer. *)
Definition write_link_total (st : list link * list Z) (ki : nat) : list link * list Z :=
  let '(h, buf) := st in
  match buf with
  | [] => (h, [])
  | t :: buf' => (upd ki (up_k_numAgents (fun _ => t)) h, buf')
  end.
Definition write_loc_total (closed : bool) (st : list location * list link * list Z)
    (l : location) : list location * list link * list Z :=
  let '(ls, h, buf) := st in
  match buf with
  | [] => (ls ++ [l], h, [])
  | t :: buf1 =>
      let ks := l_links l ++ (if closed then l_closed_links l else []) in
      let '(h', buf') := fold_left write_link_total ks (h, buf1) in
      (ls ++ [up_l_numAgents (fun _ => t) l], h', buf')
  end.
Definition write_totals (closed : bool) (totals : list Z) (e : eco) : eco :=
  let '(ls, h, _) := fold_left (write_loc_total closed) (e_locations e) ([], e_links e, totals) in
  up_e_total_agents (fun _ => sumZ totals)
    (up_e_locations (fun _ => ls) (up_e_links (fun _ => h) e)).

Inductive latency : Type := HighLatency | LowLatency.

(** Ecosystem.updateNumAgents (lines 523-597) *)
Definition update_num_agents (lat : latency) (closed : bool) (es : list eco) : res (list eco) :=
  let bufs := map (counters closed) es in
  totals <- (match lat with
             | HighLatency => comm_total bufs
             | LowLatency => single_totals bufs
             end) ;;
  Ok (map (write_totals closed totals) es).

(** Ecosystem.clearLocationsFromAgents (lines 672-702) on all processes *)
Definition par_clear_locations (lat : latency) (names : list string) (es : list eco)
  : res (list eco) :=
  es1 <- mapM (par_clear_local names) es ;;
  update_num_agents lat false es1.

(** Ecosystem.numAgents, numIDPs (lines 705-717, 452-471) *)
Definition par_num_agents (e : eco) : Z := e_total_agents e.
Definition par_num_idps (es : list eco) : Z := sumZ (map num_idps es).

(** ** Location partition *)

(** Lines 816-822: first location and number of locations of process [r]; [nloc]
    locations on [n] processes. *)
Definition part_offset (nloc n r : Z) : Z := (r * (nloc / n) + Z.min r (nloc mod n))%Z.
Definition part_count (nloc n r : Z) : Z :=
  (nloc / n + (if r <? nloc mod n then 1 else 0))%Z.

(** synchronize_locations (lines 751-761): sizes and offsets of the segments of the
    scores array; [nsc] is the length of that array, 2 scores per location. *)
Definition sync_sizes (nsc n : Z) : list Z :=
  map (fun r => 2 * (nsc / 2 / n + (if Z.of_nat r <? nsc / 2 mod n then 1 else 0)))%Z
      (seq 0 (Z.to_nat n)).
Fixpoint cumsum (acc : Z) (l : list Z) : list Z :=
  match l with [] => [] | a :: l' => (acc + a)%Z :: cumsum (acc + a)%Z l' end.
Definition sync_offsets (nsc n : Z) : list Z :=
  match sync_sizes nsc n with
  | [] => []
  | _ :: _ => 0%Z :: removelast (cumsum 0 (sync_sizes nsc n))
  end.

Definition slice {A : Type} (start size : Z) (l : list A) : list A :=
  firstn (Z.to_nat size) (skipn (Z.to_nat start) l).

(** [Allgatherv]: the segment of each process, in order. *)
Fixpoint allgather {A : Type} (sizes offsets : list Z) (bufs : list (list A)) : list A :=
  match sizes, offsets, bufs with
  | s :: sizes', t :: offsets', b :: bufs' =>
      slice t s b ++ allgather sizes' offsets' bufs'
  | _, _, _ => []
  end.

(** The scores array of one process *)
Definition scores (e : eco) : list Q :=
  flat_map (fun l => [l_score0 l; l_score1 l]) (e_locations e).
Fixpoint set_scores (sc : list Q) (ls : list location) : list location :=
  match ls, sc with
  | l :: ls', s0 :: s1 :: sc' =>
      up_l_score0 (fun _ => s0) (up_l_score1 (fun _ => s1) l) :: set_scores sc' ls'
  | _, _ => ls
  end.

(** synchronize_locations (lines 735-777); with [nsc = 2 * number of locations] (one
    Ecosystem per program) the assertions of lines 763-764 hold. *)
Definition synchronize (es : list eco) : list eco :=
  let n := Z.of_nat (List.length es) in
  let nsc := match es with [] => 0%Z | e :: _ => Z.of_nat (List.length (scores e)) end in
  let all := allgather (sync_sizes nsc n) (sync_offsets nsc n) (map scores es) in
  map (fun e => up_e_locations (set_scores all) e) es.

(** ** Ecosystem.evolve (lines 780-893) *)

Definition zip {A B : Type} (l : list A) (m : list B) : list (A * B) := combine l m.

(** A local phase on every process. *)
Definition local (f : eco -> rng -> res (eco * rng)) (st : list (eco * rng))
  : res (list (eco * rng)) :=
  mapM (fun p => f (fst p) (snd p)) st.

(** A collective phase *)
Definition collective (f : list eco -> res (list eco)) (st : list (eco * rng))
  : res (list (eco * rng)) :=
  es <- f (map fst st) ;; Ok (combine es (map snd st)).

(** updateAllScores of the given locations *)
Definition update_scores_of (S : settings) (o : oracle) (is_ : list nat) (e : eco) (g : rng)
  : res (eco * rng) :=
  foldM (fun st i => let '(e1, g1) := st in updateLocationScore S o (e_time e1) i e1 g1)
        is_ (e, g).

Definition own_round_robin (e : eco) : list nat :=
  filter (fun i => (Z.of_nat i mod e_mpi_size e =? e_rank e)%Z)
         (seq 0 (List.length (e_locations e))).
Definition own_range (e : eco) : list nat :=
  let nloc := Z.of_nat (List.length (e_locations e)) in
  seq (Z.to_nat (part_offset nloc (e_mpi_size e) (e_rank e)))
      (Z.to_nat (part_count nloc (e_mpi_size e) (e_rank e))).

(** Lines 793-801 *)
Definition first_scores (S : settings) (o : oracle) (e : eco) (g : rng) : res (eco * rng) :=
  if (e_time e =? 0)%Z then
    foldM (fun st _ => let '(e1, g1) := st in update_scores_of S o (own_round_robin e1) e1 g1)
          (seq 0 3) (e, g)
  else Ok (e, g).

(** Lines 832-837: routes of the locations that have none. *)
Definition missing_routes (S : settings) (o : oracle) (e : eco) (g : rng) : res (eco * rng) :=
  if s_FixedRoutes S then
    foldM (fun st i =>
             let '(e1, g1) := st in
             l <- loc_of e1 i ;;
             match l_routes l with
             | [] => generateLocationRoutes S o i e1 g1
             | _ => Ok (e1, g1)
             end)
          (seq 0 (List.length (e_locations e))) (e, g)
  else Ok (e, g).

Inductive pmode : Type := Classic | LocPar.

Definition par_scores (m : pmode) (S : settings) (o : oracle) (st : list (eco * rng))
  : res (list (eco * rng)) :=
  match m with
  | Classic => local (update_scores S o) st
  | LocPar =>
      st1 <- local (fun e g => update_scores_of S o (own_range e) e g) st ;;
      st2 <- collective (fun es => Ok (synchronize es)) st1 ;;
      local (missing_routes S o) st2
  end.

(** Lines 840-851 *)
Fixpoint set_spawned (ts : list Z) (ls : list location) : list location :=
  match ls, ts with
  | l :: ls', t :: ts' => up_l_numAgentsSpawned (fun _ => t) l :: set_spawned ts' ls'
  | _, _ => ls
  end.
Definition sync_spawned (es : list eco) : res (list eco) :=
  ts <- comm_total (map (fun e => map l_numAgentsSpawnedOnRank (e_locations e)) es) ;;
  Ok (map (up_e_locations (set_spawned ts)) es).

(** Lines 854-855: no test for deactivated agents. *)
Definition par_evolve_agents (S : settings) (o : oracle) (e : eco) (g : rng)
  : res (eco * rng) :=
  foldM (fun st ai => let '(e1, g1) := st in person_evolve S o (e_time e1) false ai e1 g1)
        (seq 0 (List.length (e_agents e))) (e, g).

(** Lines 860-862 *)
Definition par_finish_agents (fuel : nat) (S : settings) (o : oracle) (e : eco) (g : rng)
  : res (eco * rng) :=
  foldM (fun st ai =>
           let '(e1, g1) := st in
           '(e2, g2) <- finish_travel fuel S o (e_time e1) ai e1 g1 ;;
           Ok (up_agent ai (up_a_timesteps_since_departure (fun z => z + 1)%Z) e2, g2))
        (seq 0 (List.length (e_agents e))) (e, g).

(** Lines 864-875 *)
Definition par_logs (S : settings) (e : eco) (g : rng) : res (eco * rng) :=
  e1 <- (if (0 <? s_log_agent S)%Z then write_agents S e else Ok e) ;;
  e2 <- (if (0 <? s_log_link S)%Z then write_links S e1 else Ok e1) ;;
  e3 <- update_recent S e2 ;;
  Ok (e3, g).

(** Lines 884-891: the module [random] is not imported, so the first agent found in a
    camp raises [NameError]. *)
Fixpoint par_sinks_loop (e : eco) (l : list agent) : res unit :=
  match l with
  | [] => Ok tt
  | a :: l' =>
      if a_travelling a then par_sinks_loop e l'
      else match a_location a with
           | PLoc i => c <- loc_of e i ;;
                       if l_camp c then Err NameError else par_sinks_loop e l'
           | _ => Err AttributeError
           end
  end.
Definition par_sinks (S : settings) (e : eco) (g : rng) : res (eco * rng) :=
  if s_camps_are_sinks S then _ <- par_sinks_loop e (e_agents e) ;; Ok (e, g) else Ok (e, g).

Definition par_evolve (m : pmode) (lat : latency) (fuel : nat) (S : settings) (o : oracle)
    (st : list (eco * rng)) : res (list (eco * rng)) :=
  st0 <- local (first_scores S o) st ;;
  st1 <- par_scores m S o st0 ;;
  st2 <- collective sync_spawned st1 ;;
  st3 <- local (par_evolve_agents S o) st2 ;;
  st4 <- collective (update_num_agents lat true) st3 ;;
  st5 <- local (par_finish_agents fuel S o) st4 ;;
  st6 <- local (par_logs S) st5 ;;
  st7 <- collective (update_num_agents lat false) st6 ;;
  st8 <- local (fun e g => Ok (aggregate_arrivals S e, g)) st7 ;;
  st9 <- local (par_sinks S) st8 ;;
  local (fun e g => Ok (up_e_time (fun t => t + 1)%Z e, g)) st9.
