(** * Properties of weights and choices: C14, C17, C18, C19 *)

From Verif Require Import Base State Moving SpecChoice Defaults ChoiceProofs.
Local Open Scope Q_scope.

(** C14. For every location and all settings the multiplier exists and is in [0,1]; it is
    1 for a capacity below one (unlimited) and up to the buffer, 0 from the capacity on
    (if the buffer is below one), and linear in between. *)
Theorem C14_capacity_multiplier : forall S l,
  let cap := inject_Z (l_capacity l) * s_CapacityScaling S in
  let buffer := s_CapacityBuffer S * cap in
  let n := inject_Z (l_numAgents l) in
  exists w, getCapMultiplier S l = Ok w /\ 0 <= w <= 1 /\
    (cap < 1 -> w == 1) /\
    (n <= buffer -> w == 1) /\
    (s_CapacityBuffer S < 1 -> 1 <= cap -> cap <= n -> w == 0) /\
    (1 <= cap -> buffer < n -> n < cap -> w == (cap - n) / (cap - buffer)).
Proof. exact cap_total. Qed.
Print Assumptions C14_capacity_multiplier.

(** More agents never increase it. *)
Theorem C14_monotone : forall S l n m w v, (l_numAgents l = n)%Z -> (n <= m)%Z ->
  getCapMultiplier S l = Ok w -> getCapMultiplier S (up_l_numAgents (fun _ => m) l) = Ok v ->
  v <= w.
Proof. exact cap_monotone. Qed.
Print Assumptions C14_monotone.

(** With a buffer of one a location that is exactly full still counts as empty. *)
Theorem C14_full_buffer_refuted : exists S l,
  s_CapacityBuffer S = 1 /\ (l_numAgents l = l_capacity l)%Z /\ (0 < l_capacity l)%Z /\
  s_CapacityScaling S = 1 /\ getCapMultiplier S l = Ok 1.
Proof. exact cap_full_buffer. Qed.
Print Assumptions C14_full_buffer_refuted.

(** 95 agents in a camp for 100 with the default settings *)
Example C14_example : exists l, l_numAgents l = 95%Z /\ l_capacity l = 100%Z /\
  s_CapacityBuffer default_settings < 1 /\
  match getCapMultiplier default_settings l with Ok w => w == 1 # 2 | Err _ => False end.
Proof. exact cap_example. Qed.

(** C17. With at least one option, non-negative weights and a draw in [0,1), one of the
    options is returned and one number is drawn; the option has positive weight if any
    has, and more precisely it is the one whose share of the total weight the draw hits. *)
Theorem C17_choice : forall {A} (options : list A) ws g,
  Forall (fun w => 0 <= w) ws -> List.length options = List.length ws -> ws <> [] ->
  0 <= next_draw g -> next_draw g < 1 ->
  exists i r, chooseFromWeights ws options g = Ok (Some r, snd (rng_u g)) /\
    nth_error options i = Some r /\
    ((exists w, In w ws /\ 0 < w) -> exists w, nth_error ws i = Some w /\ 0 < w) /\
    (0 < sumQ ws -> share ws i (next_draw g)).
Proof. exact @choose_positive. Qed.
Print Assumptions C17_choice.

(** No option of positive weight is ruled out. *)
Theorem C17_all_possible : forall {A} (options : list A) ws i w r,
  Forall (fun w => 0 <= w) ws -> List.length options = List.length ws ->
  nth_error ws i = Some w -> 0 < w -> nth_error options i = Some r ->
  exists u, 0 <= u /\ u < 1 /\ forall g, next_draw g == u ->
    chooseFromWeights ws options g = Ok (Some r, snd (rng_u g)).
Proof. exact @choose_possible. Qed.
Print Assumptions C17_all_possible.

(** The share of an option is an interval of draws as long as its weight relative to the
    total, and different options have disjoint shares. *)
Theorem C17_share_size : forall ws i w u, Forall (fun w => 0 <= w) ws -> 0 < sumQ ws ->
  nth_error ws i = Some w ->
  (share ws i u <-> before i ws / sumQ ws <= u /\ u < before i ws / sumQ ws + w / sumQ ws).
Proof. exact share_interval. Qed.
Print Assumptions C17_share_size.

Theorem C17_shares_disjoint : forall ws i j u, Forall (fun w => 0 <= w) ws ->
  share ws i u -> share ws j u -> i = j.
Proof. exact share_unique. Qed.
Print Assumptions C17_shares_disjoint.

(** Without options nothing is returned and nothing is drawn. *)
Theorem C17_no_options : forall {A} (options : list A) g,
  chooseFromWeights [] options g = Ok (None, g).
Proof. exact @choose_empty. Qed.
Print Assumptions C17_no_options.

Example C17_example :
  Forall (fun w => 0 <= w) [2; 0; 1] /\
  chooseFromWeights [2; 0; 1] ["a"; "b"; "c"]%string (rng_const (1 # 2)) =
    Ok (Some "a"%string, snd (rng_u (rng_const (1 # 2)))) /\
  chooseFromWeights [2; 0; 1] ["a"; "b"; "c"]%string (rng_const (2 # 3)) =
    Ok (Some "c"%string, snd (rng_u (rng_const (2 # 3)))).
Proof. split; [repeat constructor; discriminate|split; reflexivity]. Qed.

(** C18 *)
Theorem C18_length : forall ws, List.length (normalizeWeights ws) = List.length ws.
Proof. exact normalize_length. Qed.
Print Assumptions C18_length.

Theorem C18_sum : forall ws, ws <> [] -> Forall (fun w => 0 <= w) ws ->
  sumQ (normalizeWeights ws) == 1.
Proof. exact normalize_sum. Qed.
Print Assumptions C18_sum.

Theorem C18_nonneg : forall ws, Forall (fun w => 0 <= w) ws ->
  Forall (fun w => 0 <= w) (normalizeWeights ws).
Proof. exact normalize_nonneg. Qed.
Print Assumptions C18_nonneg.

Theorem C18_ratios : forall ws i j wi wj vi vj, 0 < sumQ ws ->
  nth_error ws i = Some wi -> nth_error ws j = Some wj ->
  nth_error (normalizeWeights ws) i = Some vi -> nth_error (normalizeWeights ws) j = Some vj ->
  vi * wj == vj * wi.
Proof. exact normalize_ratio. Qed.
Print Assumptions C18_ratios.

Theorem C18_zero_sum : forall ws, Forall (fun w => 0 <= w) ws -> sumQ ws == 0 ->
  Forall (fun v => v == 1 / inject_Z (Z.of_nat (List.length ws))) (normalizeWeights ws).
Proof. exact normalize_zero. Qed.
Print Assumptions C18_zero_sum.

Example C18_example : 0 < sumQ [2; 0; 1] /\ sumQ [0; 0] == 0 /\
  Forall2 Qeq (normalizeWeights [2; 0; 1]) [2 # 3; 0; 1 # 3] /\
  Forall2 Qeq (normalizeWeights [0; 0]) [1 # 2; 1 # 2].
Proof. repeat split; repeat constructor; vm_compute; reflexivity. Qed.

(** C19. Different routes, a threshold of at least 1.001: what is kept is exactly the
    pairs of weight at least max/threshold, in their order. *)
Theorem C19_pruning : forall S ws routes m, NoDup routes -> List.length ws = List.length routes ->
  (1001 # 1000) <= s_PruningThreshold S -> is_max m ws ->
  let keep := filter (fun p => Qle_bool (m / s_PruningThreshold S) (fst p)) (combine ws routes) in
  pruneRoutes S ws routes = Ok (map fst keep, map snd keep).
Proof. exact prune_spec. Qed.
Print Assumptions C19_pruning.

Theorem C19_best_survives : forall S ws routes m r i, NoDup routes ->
  List.length ws = List.length routes ->
  (1001 # 1000) <= s_PruningThreshold S -> is_max m ws -> 0 <= m ->
  nth_error ws i = Some m -> nth_error routes i = Some r ->
  forall ws' routes', pruneRoutes S ws routes = Ok (ws', routes') ->
  exists j, nth_error ws' j = Some m /\ nth_error routes' j = Some r.
Proof. exact prune_keeps_best. Qed.
Print Assumptions C19_best_survives.

Theorem C19_off : forall S ws routes, s_PruningThreshold S < (1001 # 1000) ->
  pruneRoutes S ws routes = Ok (ws, routes).
Proof. exact prune_off. Qed.
Print Assumptions C19_off.

(** If a route occurs twice, pruning can pair a route with the weight of another one:
    here the route A of weight 10 and the route B of weight 8 swap their weights. *)
Theorem C19_duplicates_refuted : exists S,
  s_PruningThreshold S = 2 /\
  pruneRoutes S [10; 8; 1] [["A"]; ["B"]; ["A"]]%string = Ok ([10; 8], [["B"]; ["A"]]%string).
Proof. exact prune_duplicates. Qed.
Print Assumptions C19_duplicates_refuted.

(** An agent without candidate routes makes pruning fail. *)
Theorem C19_no_routes_refuted : exists S, (1001 # 1000) <= s_PruningThreshold S /\
  pruneRoutes S [] [] = Err ValueError.
Proof. exact prune_empty. Qed.
Print Assumptions C19_no_routes_refuted.

Example C19_example : NoDup [["A"]; ["B"]; ["C"]; ["C"; "D"]]%string /\ is_max 10 [1; 10; 6; 4] /\
  pruneRoutes (up_s_PruningThreshold (fun _ => 2) default_settings) [1; 10; 6; 4]
    [["A"]; ["B"]; ["C"]; ["C"; "D"]]%string = Ok ([10; 6], [["B"]; ["C"]]%string).
Proof. exact prune_example. Qed.
