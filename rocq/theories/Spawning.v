(** * Spawning: flee/spawning.py

    [refresh_spawn_weights] is in [Flee].  The module globals [__refugees_raw] and
    [__refugee_debt] are the record [spawn_state]; [__demographics] is an argument. *)

From Verif Require Import Base State Moving Flee DataTable.
Local Open Scope Q_scope.

(** A demographics table: the values of the attribute and the weight columns
    (one per location name, plus ["Default"]). *)
Record demo_table : Type := Demo {
  t_values : list pyval;
  t_columns : list (string * list Q) }.
Definition demographics : Type := list (string * demo_table).

(** [df.sample(n=1, weights=col)]: pandas normalises the weights, raises [ValueError]
    for negative or all-zero weights or a wrong length, and picks one row with
    [np.random.choice]. *)
Definition sample_row (values : list pyval) (w : list Q) (g : rng) : res (pyval * rng) :=
  if existsb (fun x => Qltb x 0) w then Err ValueError
  else if negb (Qltb 0 (sumQ w)) then Err ValueError
  else if negb (Nat.eqb (List.length w) (List.length values)) then Err ValueError
  else
    let cum := accumulate 0 (map (fun x => x / sumQ w) w) in
    let '(u, g1) := rng_nu g in
    v <- of_option IndexError
           (nth_error values (bisect_right (map (fun c => c / List.last cum 1) cum) u)) ;;
    Ok (v, g1).

(** draw_sample (lines 140-164).  A table without a column for the location uses the
    column ["Default"]. *)
Definition draw_sample (t : demo_table) (locname : string) (g : rng) : res (pyval * rng) :=
  w <- (match dict_get locname (t_columns t) with
        | Some w => Ok w
        | None => of_option KeyError (dict_get "Default" (t_columns t))
        end) ;;
  sample_row (t_values t) w g.

(** draw_samples (lines 167-182) *)
Fixpoint draw_samples (dm : demographics) (locname : string) (g : rng) : res (dict * rng) :=
  match dm with
  | [] => Ok ([], g)
  | (a, t) :: dm' =>
      '(v, g1) <- draw_sample t locname g ;;
      '(d, g2) <- draw_samples dm' locname g1 ;;
      Ok ((a, v) :: d, g2)
  end.

(** The loops "for j in range(0, n)" over [insertAgent] / [addAgent] at location [i]. *)
Definition spawn_one (S : settings) (dm : demographics) (take : bool) (i : nat)
    (st : eco * rng) : res (eco * rng) :=
  let '(e, g) := st in
  l <- loc_of e i ;;
  '(attrs, g1) <- draw_samples dm (lname l) g ;;
  e1 <- (if take : bool then add_agent S i attrs e else insert_agent i attrs e) ;;
  Ok (e1, g1).

Definition spawn_n (S : settings) (dm : demographics) (take : bool) (i : nat) (n : Z)
    (st : eco * rng) : res (eco * rng) :=
  foldM (fun st _ => spawn_one S dm take i st) (seq 0 (Z.to_nat n)) st.

(** add_initial_refugees (lines 185-214) for location [i] *)
Definition add_initial_refugees (S : settings) (dm : demographics) (d : dtable) (i : nat)
    (e : eco) (g : rng) : res (eco * rng) :=
  if s_EmptyCampsOnDay0 S then Ok (e, g)
  else
    l <- loc_of e i ;;
    n0 <- (if s_InsertDayZero S then get_field d (lname l) 0 true else Ok 0%Z) ;;
    at_ <- loc_attrs e l ;;
    n1 <- py_int (dict_get_default "initial_idps" at_ (VInt 0)) ;;
    spawn_n S dm false i (n0 + n1)%Z (e, g).

Record spawn_state : Type := Spawn { sp_raw : Z; sp_debt : Z }.

(** Number of agents a conflict location spawns (lines 244-257) *)
Definition conflict_spawn_number (S : settings) (l : location) (g : rng) : res (Z * rng) :=
  let rate := s_displaced_per_conflict_day S in
  if Qltb 0 (l_conflict l) then
    if String.eqb (s_conflict_spawn_mode S) "constant" then
      Ok (Qtrunc (rate * l_conflict l), g)
    else if String.eqb (s_conflict_spawn_mode S) "pop_ratio" then
      Ok (Qtrunc (rate * inject_Z (l_pop l) * l_conflict l), g)
    else if String.eqb (lower (s_conflict_spawn_mode S)) "poisson" then
      np_poisson (rate * l_conflict l) g
    else Ok (0%Z, g)
  else Ok (0%Z, g).

(** Number of agents a flooded location spawns (lines 271-284) *)
Definition flood_spawn_number (S : settings) (d : dict) (l : location) (g : rng)
  : res (Z * rng) :=
  let fl := dict_get_default "flood_level" d (VInt 0) in
  n <- py_num fl ;;
  if Qltb 0 n then
    i <- py_as_index fl ;;
    rate <- py_index (s_displaced_per_flood_day S) i ;;
    if String.eqb (s_flood_spawn_mode S) "constant" then Ok (Qtrunc rate, g)
    else if String.eqb (s_flood_spawn_mode S) "pop_ratio" then
      Ok (Qtrunc (rate * inject_Z (l_pop l)), g)
    else if String.eqb (lower (s_flood_spawn_mode S)) "poisson" then
      np_poisson (inject_Z (Qtrunc rate)) g
    else Ok (0%Z, g)
  else Ok (0%Z, g).

(** The loops of lines 242-264 and 269-291: state (total, ecosystem, generator). *)
Definition spawn_loop (S : settings) (dm : demographics)
    (number : eco -> location -> rng -> res (Z * rng)) (e : eco) (g : rng)
  : res (Z * eco * rng) :=
  foldM (fun st i =>
           let '(total, e1, g1) := st in
           l <- loc_of e1 i ;;
           '(n, g2) <- number e1 l g1 ;;
           '(e2, g3) <- spawn_n S dm true i n (e1, g2) ;;
           Ok ((total + n)%Z, e2, g3))
        (seq 0 (List.length (e_locations e))) (0%Z, e, g).

(** Lines 301-310: on day 0 the capacities are reduced by the initial camp
    populations. *)
Definition reduce_capacities (d : dtable) (e : eco) : eco :=
  up_e_locations (map (fun l =>
    if (0 <? l_capacity l)%Z
    then up_l_capacity (fun c => c - day0_get (lname l) d)%Z l else l)) e.

(** Lines 313-317: the new debt and the number of agents to spawn. *)
Definition settle_debt (new_refs debt : Z) : Z * Z :=
  if (new_refs <? 0)%Z then (0, - new_refs)%Z
  else if (0 <? debt)%Z then (new_refs, 0%Z)
  else (new_refs, debt).

(** Lines 321-323 *)
Definition spawn_at (S : settings) (dm : demographics) (locs : list nat) (st : eco * rng)
  : res (eco * rng) :=
  foldM (fun st i => spawn_one S dm true i st) locs st.

(** spawn_daily_displaced (lines 217-325): returns the number of new agents. *)
Definition spawn_daily_displaced (S : settings) (dm : demographics) (t : Z)
    (sp : spawn_state) (d : dtable) (e : eco) (g : rng)
  : res (Z * spawn_state * dtable * eco * rng) :=
  if s_conflict_driven_spawning S then
    '(n, e1, g1) <- spawn_loop S dm (fun _ l g => conflict_spawn_number S l g) e g ;;
    Ok (n, sp, d, e1, g1)
  else if s_flood_driven_spawning S then
    '(n, e1, g1) <- spawn_loop S dm (fun e1 l g => at_ <- loc_attrs e1 l ;;
                                                   flood_spawn_number S at_ l g) e g ;;
    Ok (n, sp, d, e1, g1)
  else
    '(diff1, d1) <- get_daily_difference d t true (s_sum_from_camps S) ;;
    '(diff2, d2) <- get_daily_difference d1 t true (s_sum_from_camps S) ;;
    let raw := (sp_raw sp + diff2)%Z in
    let zero_day := (s_InsertDayZero S && (t =? 0)%Z)%bool in
    let e1 := if zero_day then reduce_capacities d2 e else e in
    let new0 := if zero_day then 0%Z else (diff1 - sp_debt sp)%Z in
    let '(n, debt) := settle_debt new0 (sp_debt sp) in
    '(locs, g1) <- pick_spawn_locations n e1 g ;;
    '(e2, g2) <- spawn_at S dm locs (e1, g1) ;;
    Ok (n, Spawn raw debt, d2, e2, g2).
