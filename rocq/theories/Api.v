(** * Api: the calls a program can make on an ecosystem (flee.py, spawning.py,
    InputGeography.py), and histories of such calls

    A call takes the settings that hold when it is made, so settings may change between
    calls.  The history ends at the first call that raises an exception.  [fuel]
    arguments bound the number of iterations of the loops that need not terminate. *)

From Verif Require Import Base State Moving Crawling Scoring Diagnostics Flee DataTable
  Spawning InputGeography.
Local Open Scope Q_scope.

Inductive op : Type :=
| OAddLocation (name : pystr) (region : string) (x y : Q) (lt : option string)
    (movechance : Q) (capacity pop : Z) (foreign : bool) (country : string)
    (attrs : option dict)
| OLinkUp (name1 name2 : string) (distance : Q) (forced : bool) (attrs : option dict)
| OSetAttribute (loc : nat) (key : string) (v : pyval)
| OAddAgent (loc : nat) (attrs : dict)
| OInsertAgent (loc : nat) (attrs : dict)
| OInsertAgents (loc : nat) (number : Z)
| OClearLocations (names : list string)
| OEvolve (fuel : nat)
| ORemoveLink (startpoint endpoint : pystr) (twoway close_only : bool)
| OReopenLink (startpoint endpoint : pystr) (twoway : bool)
| OCloseLocation (fuel : nat) (name : string) (twoway : bool)
| OReopenLocation (fuel : nat) (name : string) (twoway : bool)
| OCloseBorder (fuel : nat) (source dest : string) (twoway : bool)
| OReopenBorder (fuel : nat) (source dest : string) (twoway : bool)
| OCloseCamp (name : pystr) (idp : bool)
| OOpenCamp (name : pystr) (idp : bool)
| OChangeLocationType (name : pystr) (location_type : string)
| OSetForcedRedirection (name1 name2 : pystr) (v : bool)
| OSetClosures (cs : list closure)
| OEnactBorderClosures (fuel : nat) (time : Z) (twoway : bool)
| ORefreshSpawnWeights
| OAddConflictZone (name : string) (intensity : Q) (change : bool)
| ORemoveConflictZone (name : string) (change : bool)
| OSetConflictIntensity (name : string) (intensity : Q) (change : bool)
| OAddInitialRefugees (dm : demographics) (d : dtable) (loc : nat)
| OSpawnDailyDisplaced (dm : demographics) (t : Z) (sp : spawn_state) (d : dtable)
| OReadAgents (rows : list row)
| OStoreInput (factor : Z) (ig : igeo) (changes : list row)
| OUpdateAttributes (ig : igeo) (attribute : string) (time : Z)
| OAddNewConflictZones (conflict_file : bool) (ig : igeo) (time : Z).

(** Effect of one call *)
Definition step (o : oracle) (S : settings) (c : op) (e : eco) (g : rng) : res (eco * rng) :=
  let pure (m : res eco) := e1 <- m ;; Ok (e1, g) in
  match c with
  | OAddLocation n r x y lt mc cap pop f c a => add_location S o n r x y lt mc cap pop f c a e g
  | OLinkUp n1 n2 d f a => pure (link_up n1 n2 d f a e)
  | OSetAttribute i k v => pure (set_loc_attribute i k v e)
  | OAddAgent i a => pure (add_agent S i a e)
  | OInsertAgent i a => pure (insert_agent i a e)
  | OInsertAgents i n => pure (insert_agents i n e)
  | OClearLocations ns => pure (clear_locations ns e)
  | OEvolve fuel => evolve fuel S o e g
  | ORemoveLink a b tw c => pure (rmap fst (remove_link a b tw c e))
  | OReopenLink a b tw => pure (rmap fst (reopen_link a b tw e))
  | OCloseLocation fuel n tw => pure (rmap fst (close_location fuel n tw e))
  | OReopenLocation fuel n tw => pure (rmap fst (reopen_location fuel n tw e))
  | OCloseBorder fuel s d tw => pure (close_border fuel s d tw e)
  | OReopenBorder fuel s d tw => pure (reopen_border fuel s d tw e)
  | OCloseCamp n i => pure (close_camp S n i e)
  | OOpenCamp n i => pure (open_camp S n i e)
  | OChangeLocationType n t => pure (change_location_type S n t e)
  | OSetForcedRedirection n m v => pure (set_forced_redirection n m v e)
  | OSetClosures cs => Ok (up_e_closures (fun _ => cs) e, g)
  | OEnactBorderClosures fuel t tw => pure (enact_border_closures fuel S t tw e)
  | ORefreshSpawnWeights => pure (refresh_spawn_weights S e)
  | OAddConflictZone n q c => pure (add_conflict_zone S n q c e)
  | ORemoveConflictZone n c => pure (remove_conflict_zone S n c e)
  | OSetConflictIntensity n q c => pure (set_conflict_intensity S n q c e)
  | OAddInitialRefugees dm d i => add_initial_refugees S dm d i e g
  | OSpawnDailyDisplaced dm t sp d =>
      '(_, _, _, e1, g1) <- spawn_daily_displaced S dm t sp d e g ;; Ok (e1, g1)
  | OReadAgents rows => pure (read_agents S rows e)
  | OStoreInput f ig ch => '(e1, g1, _) <- store_input S o f ig ch e g ;; Ok (e1, g1)
  | OUpdateAttributes ig a t => pure (update_attributes ig a t e)
  | OAddNewConflictZones f ig t => pure (add_new_conflict_zones S f ig t e)
  end.

(** A history of calls, starting from a given state *)
Definition history : Type := list (settings * op).

Definition run (o : oracle) (h : history) (e : eco) (g : rng) : res (eco * rng) :=
  foldM (fun st c => step o (fst c) (snd c) (fst st) (snd st)) h (e, g).

(** The states a serial program can reach *)
Definition reachable (o : oracle) (e : eco) (g : rng) : Prop :=
  exists h g0, run o h empty_eco g0 = Ok (e, g).
