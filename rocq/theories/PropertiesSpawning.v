(** * PropertiesSpawning: C29, C31, C33, C34, C48, C49

    Data tables and new agents.  The vocabulary is in SpecData.v ([increasing], [on_line],
    [whole], [total_on]) and SpecSpawn.v ([grown], [fresh_in], [fits], [spawn_days]). *)

From Verif Require Import Base State Moving Flee DataTable Spawning Api SpecHistory SpecChoice SpecData SpecSpawn
  Lemmas Defaults ExampleRun ClosureWitness ZoneWitness DataProofs SpawnProofs SpawnWitness.
Local Open Scope string_scope.
Local Open Scope Q_scope.
Local Opaque run.

(** C29. One day of data-driven spawning: the number of new agents minus the new debt is
    the change in the data minus the old debt, one of the two is zero; the new agents are
    fresh agents in the picked locations, and nothing but agents and counts changes. *)
Theorem C29_one_day : forall o S dm t sp d e g n sp' d' e' g',
  reachable o e g -> rng_ok g -> s_conflict_driven_spawning S = false -> s_flood_driven_spawning S = false ->
  (s_InsertDayZero S = false \/ t <> 0%Z) -> (0 <= sp_debt sp)%Z ->
  spawn_daily_displaced S dm t sp d e g = Ok (n, sp', d', e', g') ->
  exists diff d1 diff2 picks g1 new,
    get_daily_difference d t true (s_sum_from_camps S) = Ok (diff, d1) /\
    get_daily_difference d1 t true (s_sum_from_camps S) = Ok (diff2, d') /\ sp_raw sp' = (sp_raw sp + diff2)%Z /\
    (0 <= n /\ 0 <= sp_debt sp' /\ n - sp_debt sp' = diff - sp_debt sp /\ (n = 0 \/ sp_debt sp' = 0))%Z /\
    pick_spawn_locations n e g = Ok (picks, g1) /\ Z.of_nat (List.length picks) = n /\
    grown (s_TakeFromPopulation S) new e e' /\ fresh_in dm e picks new.
Proof. exact data_day. Qed.
Print Assumptions C29_one_day.

(** On day 0, when the registered people were placed in the camps, nobody is spawned, and
    all that changes is that limited capacities are reduced by the numbers registered for
    the places on that day. *)
Theorem C29_day_zero : forall S dm sp d e g n sp' d' e' g',
  s_conflict_driven_spawning S = false -> s_flood_driven_spawning S = false -> s_InsertDayZero S = true ->
  (0 <= sp_debt sp)%Z -> d_day0 d = [] ->
  spawn_daily_displaced S dm 0 sp d e g = Ok (n, sp', d', e', g') ->
  n = 0%Z /\ sp_debt sp' = 0%Z /\ e' = up_e_locations (fun _ => e_locations e') e /\
  Forall2 (fun l l' => exists z, (lname l <> "total"%string -> registered d (lname l) z) /\
                         l' = if (0 <? l_capacity l)%Z then up_l_capacity (fun c => c - z)%Z l else l) (e_locations e) (e_locations e') /\
  exists diff d1 diff2, get_daily_difference d 0 true (s_sum_from_camps S) = Ok (diff, d1) /\
    get_daily_difference d1 0 true (s_sum_from_camps S) = Ok (diff2, d') /\ sp_raw sp' = (sp_raw sp + diff2)%Z.
Proof. exact day_zero. Qed.
Print Assumptions C29_day_zero.

(** Over any number of days: agents minus debt is the sum of the changes, the debt is
    never negative, and the number of agents is the largest of the partial sums of the
    changes (the empty one included). *)
Theorem C29_days : forall sp0 diffs ns sp,
  spawn_days sp0 diffs ns sp -> sp_debt sp0 = 0%Z ->
  (sumZ ns - sp_debt sp = sumZ diffs)%Z /\ (0 <= sp_debt sp)%Z /\ Forall (fun n => 0 <= n)%Z ns /\
  (forall k, (k <= List.length diffs)%nat -> (sumZ (firstn k diffs) <= sumZ ns)%Z) /\
  (exists k, (k <= List.length diffs)%nat /\ sumZ (firstn k diffs) = sumZ ns).
Proof. exact debt_days. Qed.
Print Assumptions C29_days.

Example C29_example :
  (exists sp, spawn_days (Spawn 0 0) [5; -5]%Z [5; 0]%Z sp /\ sp_debt sp = 5%Z) /\
  reachable ex_oracle (then_eco []) (then_rng []) /\ rng_ok (then_rng []) /\
  rmap (fun r => match r with (ks, sp, e, _) => (ks, sp_debt sp, List.length (e_agents e)) end)
    (days 1 10 (Spawn 0 0) (then_eco []) (then_rng [])) =
    Ok ([5; 5; 5; 5; 0; 0; 0; 0; 5; 5]%Z, 0%Z, 33%nat).
Proof.
  split; [exact two_days|]. split; [exact reach0|]. split; [exact (then_rng_ok [] eq_refl)|]. vm_compute; reflexivity.
Qed.
Example C29_day_zero_example : d_day0 (ex_table 0) = [] /\
  rmap (fun r => match r with (n, _, _, e, _) => (n, map l_capacity (e_locations e)) end)
    (spawn_daily_displaced (up_s_InsertDayZero (fun _ => true) data_S) ages 0 (Spawn 0 0) (ex_table 0) (then_eco []) (then_rng [])) =
  Ok (0, [-1; -1; 996])%Z.
Proof. split; vm_compute; reflexivity. Qed.

(** C31. Conflict-driven spawning with constant numbers or numbers proportional to the
    population: each conflict zone gets its amount of fresh agents, other locations none,
    nothing else changes, and the number reported is the sum of the amounts; *)
Theorem C31_amounts : forall o S dm t sp d e g n sp' d' e' g',
  reachable o e g -> rng_ok g -> s_conflict_driven_spawning S = true ->
  String.eqb (lower (s_conflict_spawn_mode S)) "poisson" = false ->
  spawn_daily_displaced S dm t sp d e g = Ok (n, sp', d', e', g') ->
  sp' = sp /\ d' = d /\ n = sumZ (map (daily_amount S) (e_locations e)) /\
  exists new, grown (s_TakeFromPopulation S) new e e' /\
    fresh_in dm e (flat_map (fun il => repeat (fst il) (Z.to_nat (daily_amount S (snd il))))
                            (combine (seq 0 (List.length (e_locations e))) (e_locations e))) new.
Proof. exact conflict_spawning. Qed.
Print Assumptions C31_amounts.

(** that is the number of agents added, if rate and populations are not negative. *)
Theorem C31_count : forall o S dm t sp d e g n sp' d' e' g',
  reachable o e g -> rng_ok g -> s_conflict_driven_spawning S = true ->
  String.eqb (lower (s_conflict_spawn_mode S)) "poisson" = false ->
  0 <= s_displaced_per_conflict_day S -> (forall l, In l (e_locations e) -> (0 <= l_pop l)%Z) ->
  spawn_daily_displaced S dm t sp d e g = Ok (n, sp', d', e', g') ->
  (0 <= n)%Z /\ Z.of_nat (List.length (e_agents e')) = (Z.of_nat (List.length (e_agents e)) + n)%Z.
Proof. exact conflict_count. Qed.
Print Assumptions C31_count.

Definition ratio_S : settings :=
  up_s_displaced_per_conflict_day (fun _ => 1 # 40) (up_s_conflict_spawn_mode (fun _ => "pop_ratio")
    (up_s_conflict_driven_spawning (fun _ => true) take_S)).
Example C31_example :
  reachable ex_oracle (then_eco [OAddConflictZone "B" 3 true]) (then_rng [OAddConflictZone "B" 3 true]) /\
  map (daily_amount ratio_S) (e_locations (then_eco [OAddConflictZone "B" 3 true])) = [2; 3; 0]%Z /\
  rmap (fun r => match r with (n, _, _, e, _) => (n, map a_location (skipn 3 (e_agents e)), map l_pop (e_locations e)) end)
    (spawn_daily_displaced ratio_S ages 0 (Spawn 0 0) (ex_table 0) (then_eco [OAddConflictZone "B" 3 true]) (then_rng [])) =
  Ok (5%Z, [PLoc 0; PLoc 0; PLoc 1; PLoc 1; PLoc 1], [98; 47; 0]%Z).
Proof. split; [apply then_reachable; vm_compute; reflexivity|]. vm_compute; repeat split; reflexivity. Qed.

(** C33. Interpolation gives the whole number of the value of the line through the data, *)
Theorem C33_line : forall t day, t <> [] -> increasing t ->
  exists z y, interpolate t day = Ok z /\ on_line t (inject_Z day) y /\ whole y z.
Proof. exact interpolate_line. Qed.
Print Assumptions C33_line.

(** of which there is just one; *)
Theorem C33_one_line : forall t x x' y y', increasing t -> x == x' -> on_line t x y -> on_line t x' y' -> y == y'.
Proof. exact line_unique. Qed.
Print Assumptions C33_one_line.
Theorem C33_one_whole : forall y z z', whole y z -> whole y z' -> z = z'.
Proof. exact whole_unique. Qed.
Print Assumptions C33_one_whole.

(** so on a day with data it is that value, *)
Theorem C33_exact : forall t day i r, increasing t -> nth_error t i = Some r -> fst r == inject_Z day ->
  exists z, interpolate t day = Ok z /\ whole (snd r) z.
Proof. exact interpolate_exact. Qed.
Print Assumptions C33_exact.

(** on other days it lies between the neighbouring values, *)
Theorem C33_between : forall t day i a b, increasing t -> nth_error t i = Some a -> nth_error t (Datatypes.S i) = Some b ->
  fst a <= inject_Z day -> inject_Z day <= fst b ->
  exists z za zb, interpolate t day = Ok z /\ whole (snd a) za /\ whole (snd b) zb /\
    (Z.min za zb <= z <= Z.max za zb)%Z.
Proof. exact interpolate_between. Qed.
Print Assumptions C33_between.

(** before the data it is the first value, after the data the last, *)
Theorem C33_before : forall t day r, nth_error t 0 = Some r -> inject_Z day <= fst r ->
  interpolate t day = Ok (Qtrunc (snd r)).
Proof. exact interpolate_before. Qed.
Print Assumptions C33_before.
Theorem C33_after : forall t day r i, increasing t -> nth_error t i = Some r -> Datatypes.S i = List.length t -> fst r <= inject_Z day ->
  exists z, interpolate t day = Ok z /\ whole (snd r) z.
Proof. exact interpolate_after. Qed.
Print Assumptions C33_after.

(** and growing data give growing numbers. *)
Theorem C33_monotone : forall t d1 d2 z1 z2, increasing t -> growing t -> (d1 <= d2)%Z ->
  interpolate t d1 = Ok z1 -> interpolate t d2 = Ok z2 -> (z1 <= z2)%Z.
Proof. exact interpolate_grows. Qed.
Print Assumptions C33_monotone.

(** Without interpolation: the value of the last row that is not later than the day (the
    first row before the data). *)
Theorem C33_raw : forall t day i r, increasing t -> nth_error t i = Some r ->
  (i = 0%nat \/ fst r <= inject_Z day) -> (forall r', nth_error t (Datatypes.S i) = Some r' -> inject_Z day < fst r') ->
  raw_data t day = Ok (Qtrunc (snd r)).
Proof. exact raw_spec. Qed.
Print Assumptions C33_raw.

Example C33_example :
  increasing reg_total /\ increasing reg_C /\ growing reg_C /\
  map (interpolate reg_total) [-3; 0; 1; 4; 5; 6; 9; 10; 99]%Z = map Ok [10; 10; 15; 30; 25; 20; 35; 40; 40]%Z /\
  map (raw_data reg_total) [-3; 0; 1; 4; 5; 6; 9; 10; 99]%Z = map Ok [10; 10; 10; 30; 30; 20; 20; 40; 40]%Z.
Proof.
  split; [apply increasing_ok; reflexivity|]. split; [apply increasing_ok; reflexivity|]. split; [exact reg_C_growing|].
  vm_compute; repeat split; reflexivity.
Qed.

(** C34. The daily difference is the difference of the totals of the day and the day
    before, and does not change the table; *)
Theorem C34_difference : forall d day full sc n d', day <> 0%Z -> get_daily_difference d day full sc = Ok (n, d') ->
  d' = d /\ exists v1 v0, total_on d day full sc = Ok v1 /\ total_on d (day - 1) full sc = Ok v0 /\ n = (v1 - v0)%Z.
Proof. exact difference_spec. Qed.
Print Assumptions C34_difference.

(** it exists; *)
Theorem C34_succeeds : forall d day sc, table_ok d -> day <> 0%Z -> exists n, get_daily_difference d day true sc = Ok (n, d).
Proof. exact difference_ok. Qed.
Print Assumptions C34_succeeds.

(** the sum of the differences of the days 1 to [n] is the difference of the totals. *)
Theorem C34_telescope : forall d full sc f n v0 vn,
  (forall k, (1 <= k <= n)%nat -> exists d', get_daily_difference d (Z.of_nat k) full sc = Ok (f k, d')) ->
  total_on d 0 full sc = Ok v0 -> total_on d (Z.of_nat n) full sc = Ok vn -> sum_days f n = (vn - v0)%Z.
Proof. exact telescope. Qed.
Print Assumptions C34_telescope.

(** On day 0 the "sum over the camps" includes the total, so people are counted twice. *)
Theorem C34_day_zero_refuted : exists d n d', table_ok d /\ get_daily_difference d 0 true true = Ok (n, d') /\
  total_on d 0 true true = Ok 4%Z /\ n = 14%Z.
Proof. exact day0_double. Qed.
Print Assumptions C34_day_zero_refuted.

(** A run that starts with empty camps counts the camps, but not the total, from zero. *)
Theorem C34_empty_start_refuted : exists d n d', table_ok d /\ d_start_empty d = 1%Z /\
  get_daily_difference d 0 true false = Ok (n, d') /\
  get_field d' "C" 0 true = Ok 0%Z /\ get_field d' "total" 0 true = Ok 10%Z.
Proof. exact start_empty_total. Qed.
Print Assumptions C34_empty_start_refuted.

Example C34_example :
  table_ok (ex_table 0) /\
  map (fun t => rmap fst (get_daily_difference (ex_table 0) t true false)) [1; 2; 5; 11]%Z = [Ok 5; Ok 5; Ok (-5); Ok 0]%Z /\
  map (fun t => rmap fst (get_daily_difference (ex_table 0) t true true)) [1; 2; 5; 11]%Z = [Ok 1; Ok 1; Ok 1; Ok 0]%Z /\
  total_on (ex_table 0) 7 true false = Ok 25%Z.
Proof. split; [apply ex_table_ok|]. vm_compute; repeat split; reflexivity. Qed.

(** C48. The attributes drawn for a new agent: one value for each demographic table, each
    a value of the table with positive weight for the home location. *)
Theorem C48_attributes_fit : forall name dm g attrs g',
  rng_ok g -> draw_samples dm name g = Ok (attrs, g') -> rng_ok g' /\ fits dm name attrs.
Proof. exact samples_fit. Qed.
Print Assumptions C48_attributes_fit.

Example C48_example :
  rng_ok ex_draws /\
  rmap fst (draw_samples ages "A" ex_draws) = Ok [("age", VInt 30)] /\
  rmap fst (draw_samples ages "B" (Rng (g_u ex_draws) (fun _ => 0) (g_nk ex_draws) 0 0 0)) = Ok [("age", VInt 10)].
Proof. split; [exact ex_draws_ok|]. vm_compute; repeat split; reflexivity. Qed.

(** C49. Initial refugees: unless camps start empty, the location gets as many fresh agents
    as were registered on day 0 (if those are to be placed) plus its initial IDPs. *)
Theorem C49_initial : forall o S dm d i l e g e' g',
  reachable o e g -> rng_ok g -> nth_error (e_locations e) i = Some l ->
  add_initial_refugees S dm d i e g = Ok (e', g') ->
  (s_EmptyCampsOnDay0 S = true /\ e' = e) \/
  s_EmptyCampsOnDay0 S = false /\ exists at_ n0 n1 new,
    loc_attrs e l = Ok at_ /\ (if s_InsertDayZero S then get_field d (lname l) 0 true = Ok n0 else n0 = 0%Z) /\
    py_int (dict_get_default "initial_idps" at_ (VInt 0)) = Ok n1 /\
    grown false new e e' /\ fresh_in dm e (repeat i (Z.to_nat (n0 + n1))) new.
Proof. exact initial_spec. Qed.
Print Assumptions C49_initial.

Example C49_example :
  reachable ex_oracle (then_eco []) (then_rng []) /\ rng_ok (then_rng []) /\
  rmap (fun r => (skipn 3 (map a_location (e_agents (fst r))), map l_numAgents (e_locations (fst r))))
    (add_initial_refugees (up_s_InsertDayZero (fun _ => true) ex_S) ages (ex_table 0) 2 (then_eco []) (then_rng [])) =
  Ok (repeat (PLoc 2) 4, [0; 2; 4]%Z).
Proof. split; [exact reach0|]. split; [exact (then_rng_ok [] eq_refl)|]. vm_compute; reflexivity. Qed.
