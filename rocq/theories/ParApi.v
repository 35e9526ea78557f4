(** * ParApi: the calls of a parallel program (pflee.py) and histories of such calls

    Every process runs the same program.  A call either runs on each process by itself or
    is a collective operation.  A call that raises an exception on some process ends the
    history (the other processes wait for it for ever or are aborted).  Arguments that a
    program may compute from its own random numbers (the location and the attributes of a
    new agent) may differ between processes: they are given per process.  Not in this
    list: the functions of spawning.py, moving agents in from files and InputGeography,
    which call the methods below. *)

From Verif Require Import Base State Moving Crawling Scoring Diagnostics Flee DataTable
  Spawning InputGeography Api Pflee.

(** The methods that pflee.Ecosystem inherits from flee.Ecosystem (pflee.py 376, the class
    statement) and that call no overridden method, and [linkUp], which pflee.py (475-520)
    repeats line by line *)
Definition inherited (c : op) : bool :=
  match c with
  | OAddLocation _ _ _ _ _ _ _ _ _ _ _ | OAddAgent _ _ | OInsertAgent _ _ | OInsertAgents _ _
  | OClearLocations _ | OEvolve _ | OAddInitialRefugees _ _ _ | OSpawnDailyDisplaced _ _ _ _
  | OReadAgents _ | OStoreInput _ _ _ => false
  | _ => true
  end.

Inductive pop : Type :=
| PEach (c : op)
| PAddLocation (name : pystr) (region : string) (x y : Q) (lt : option string)
    (movechance : Q) (capacity pop : Z) (foreign : bool) (country : string)
    (attrs : option dict)
| PAddAgent (args : list (nat * dict))
| PInsertAgent (args : list (nat * dict))
| PInsertAgents (locs : list nat) (number : Z)
| PClearLocations (lat : latency) (names : list string)
| PUpdateNumAgents (lat : latency) (closed : bool)
| PEvolve (m : pmode) (lat : latency) (fuel : nat).

(** One argument per process *)
Definition local2 {A : Type} (f : A -> eco -> res eco) (args : list A) (st : list (eco * rng))
  : res (list (eco * rng)) :=
  if Nat.eqb (List.length args) (List.length st)
  then mapM (fun p => e1 <- f (fst p) (fst (snd p)) ;; Ok (e1, snd (snd p))) (combine args st)
  else Err TypeError.

(** Effect of one call on all processes *)
Definition pstep (o : oracle) (S : settings) (c : pop) (st : list (eco * rng))
  : res (list (eco * rng)) :=
  match c with
  | PEach c => if inherited c then local (step o S c) st else Err TypeError
  | PAddLocation n r x y lt mc cap pop f c a =>
      local (par_add_location S o n r x y lt mc cap pop f c a) st
  | PAddAgent args => local2 (fun a => par_add_agent S (fst a) (snd a)) args st
  | PInsertAgent args => local2 (fun a => par_insert_agent (fst a) (snd a)) args st
  | PInsertAgents locs n => local2 (fun i => par_insert_agents i n) locs st
  | PClearLocations lat ns => collective (par_clear_locations lat ns) st
  | PUpdateNumAgents lat closed => collective (update_num_agents lat closed) st
  | PEvolve m lat fuel => par_evolve m lat fuel S o st
  end.

Definition prun (o : oracle) (h : list (settings * pop)) (st : list (eco * rng))
  : res (list (eco * rng)) :=
  foldM (fun st c => pstep o (fst c) (snd c) st) h st.

(** A new parallel program: process [r] of [n] starts with an empty ecosystem and its own
    random numbers. *)
Definition pstart (gs : list rng) : list (eco * rng) :=
  combine (map (fun r => empty_par (Z.of_nat r) (Z.of_nat (List.length gs)))
               (seq 0 (List.length gs))) gs.

(** The states a parallel program on [n] processes can reach *)
Definition preachable (o : oracle) (n : nat) (st : list (eco * rng)) : Prop :=
  exists h gs, List.length gs = n /\ prun o h (pstart gs) = Ok st.
