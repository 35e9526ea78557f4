(** * SerialWitness: concrete programs on one process *)

From Verif Require Import Base State Moving Crawling Scoring Diagnostics Flee Api Pflee ParApi
  SpecAgents SpecParallel SpecSerial Defaults ExampleRun ParallelWitness SerialRun.
Local Open Scope string_scope.
Local Open Scope Q_scope.
Local Open Scope list_scope.

(** A conflict zone A, a town B and a camp C of capacity [cap], 50 km apart; three people
    at A *)
Definition sr_build (cap : Z) : list pop :=
  [ PAddLocation nA "r" 0 0 (Some "conflict_zone") 1 (-1) 100 false "X" (Some []);
    PAddLocation nB "r" 1 0 (Some "town") (-1) (-1) 50 false "X" (Some []);
    PAddLocation nC "r" 2 0 (Some "camp") 0 cap 0 true "Y" (Some []);
    PEach (OLinkUp "A" "B" 50 false None); PEach (OLinkUp "B" "C" 50 false None);
    PAddAgent [(0%nat, [])]; PInsertAgents [0%nat] 2 ].
Definition sr_day : pop := PEvolve Classic HighLatency 10.
Definition sr_program (S : settings) (cap : Z) (days : nat) : list (settings * pop) :=
  map (pair S) (sr_build cap ++ repeat sr_day days).
Definition sr_log (n : Z) : settings := up_s_log_agent (fun _ => n) default_settings.

Lemma sr_ordinary n cap days : (n <= 1)%Z -> (cap <= 0)%Z ->
  forall S c, In (S, c) (sr_program (sr_log n) cap days) -> ordinary S c.
Proof.
  intros N C S c I. unfold sr_program in I. apply in_map_iff in I as (d & E & I). injection E as <- <-.
  constructor; try reflexivity; [exact N|discriminate|..].
  - intros. subst d. apply in_app_iff in I as [I|I].
    + cbn in I. repeat (destruct I as [I|I]; [try discriminate; injection I; intros; subst; try discriminate; assumption|]). destruct I.
    + apply repeat_spec in I. discriminate.
  - intros lat ns ->. apply in_app_iff in I as [I|I].
    + cbn in I. repeat (destruct I as [I|I]; [discriminate|]). destruct I.
    + apply repeat_spec in I. discriminate.
Qed.

Definition sr_par (S : settings) (cap : Z) (days : nat) : res (list (eco * rng)) :=
  prun ex_oracle (sr_program S cap days) (pstart [rng_const (1 # 4)]).
Definition sr_ser (S : settings) (cap : Z) (days : nat) : res (eco * rng) :=
  run ex_oracle (serial_program (sr_program S cap days)) empty_eco (rng_const (1 # 4)).


(** The ecosystem and the random numbers of the first and the second process *)
Definition first_eco (r : res (list (eco * rng))) : eco := match r with Ok ((e, _) :: _) => e | _ => empty_eco end.
Definition first_rng (r : res (list (eco * rng))) : rng := match r with Ok ((_, g) :: _) => g | _ => rng_const 0 end.
Definition second_eco (r : res (list (eco * rng))) : eco := match r with Ok (_ :: (e, _) :: _) => e | _ => empty_eco end.
Definition second_rng (r : res (list (eco * rng))) : rng := match r with Ok (_ :: (_, g) :: _) => g | _ => rng_const 0 end.
Definition ends (n : nat) (r : res (list (eco * rng))) : bool := match r with Ok st => (List.length st =? n)%nat | _ => false end.
Lemma ends_1 r : ends 1 r = true -> r = Ok [(first_eco r, first_rng r)].
Proof. destruct r as [[|[e g] [|]]|]; try discriminate. reflexivity. Qed.
Lemma ends_2 r : ends 2 r = true -> r = Ok [(first_eco r, first_rng r); (second_eco r, second_rng r)].
Proof. destruct r as [[|[e g] [|[e1 g1] [|]]]|]; try discriminate. reflexivity. Qed.

Local Opaque prun run.

(** The full camp: *)
Lemma sr_capacity : exists o h g e e' g1 g1',
  (forall S c, In (S, c) h -> S = default_settings /\ forall lat ns, c <> PClearLocations lat ns) /\
  prun o h (pstart [g]) = Ok [(e', g1')] /\ run o (serial_program h) empty_eco g = Ok (e, g1) /\
  map l_capacity (e_locations e') = [(-1)%Z; (-1)%Z; 1%Z] /\
  map a_location (e_agents e) = [PLoc 2; PLoc 0; PLoc 0] /\
  map a_location (e_agents e') = [PLoc 2; PLoc 2; PLoc 2].
Proof.
  exists ex_oracle, (sr_program default_settings 1 1), (rng_const (1 # 4)),
    (end_eco (sr_ser default_settings 1 1)), (first_eco (sr_par default_settings 1 1)),
    (end_rng (sr_ser default_settings 1 1)), (first_rng (sr_par default_settings 1 1)).
  split; [|split; [|split; [|split; [|split]]]].
  - intros S c I. split.
    + unfold sr_program in I. apply in_map_iff in I as (d & E & _). now injection E as <- <-.
    + intros lat ns ->. cbn in I. repeat (destruct I as [I|I]; [discriminate|]). destruct I.
  - apply (ends_1 (sr_par default_settings 1 1)). vm_compute. reflexivity.
  - apply (end_ok (sr_ser default_settings 1 1)). vm_compute. reflexivity.
  - vm_compute. reflexivity.
  - vm_compute. reflexivity.
  - vm_compute. reflexivity.
Qed.

(** Intermediate stops of an earlier day are written again: *)
Definition places_logged (t : Z) (n : nat) (rows : list agent_row) : list string :=
  map ar_loc (filter (fun r => (ar_time r =? t)%Z && (ar_agent r =? n)%nat)%bool rows).
Lemma sr_stops : exists o h g e e' g1 g1',
  (forall S c, In (S, c) h -> S = sr_log 2) /\
  prun o h (pstart [g]) = Ok [(e', g1')] /\ run o (serial_program h) empty_eco g = Ok (e, g1) /\
  map a_location (e_agents e') = map a_location (e_agents e) /\
  places_logged 1 0 (e_agents_out e) = ["C"] /\
  places_logged 1 0 (e_agents_out e') = ["C"; "L:A:B"; "L:B:C"].
Proof.
  exists ex_oracle, (sr_program (sr_log 2) (-1) 2), (rng_const (1 # 4)),
    (end_eco (sr_ser (sr_log 2) (-1) 2)), (first_eco (sr_par (sr_log 2) (-1) 2)),
    (end_rng (sr_ser (sr_log 2) (-1) 2)), (first_rng (sr_par (sr_log 2) (-1) 2)).
  split; [|split; [|split; [|split; [|split]]]].
  - intros S c I. unfold sr_program in I. apply in_map_iff in I as (d & E & _). now injection E as <- <-.
  - apply (ends_1 (sr_par (sr_log 2) (-1) 2)). vm_compute. reflexivity.
  - apply (end_ok (sr_ser (sr_log 2) (-1) 2)). vm_compute. reflexivity.
  - vm_compute. reflexivity.
  - vm_compute. reflexivity.
  - vm_compute. reflexivity.
Qed.

(** ** Stored routes on two processes: A, B and C with roads A-B, A-C and B-C; the road from
    B to C is closed after the first day and two people appear at B. *)
Definition fx_S : settings := up_s_FixedRoutes (fun _ => true) default_settings.
Definition fx_build : list pop :=
  [ PAddLocation nA "r" 0 0 (Some "conflict_zone") 1 (-1) 100 false "X" (Some []);
    PAddLocation nB "r" 1 0 (Some "town") 1 (-1) 50 false "X" (Some []);
    PAddLocation nC "r" 2 0 (Some "town") 1 1000 0 false "X" (Some []);
    PEach (OLinkUp "B" "C" 100 false None); PEach (OLinkUp "A" "B" 1000 false None);
    PEach (OLinkUp "A" "C" 100 false None) ].
Definition fx_at_B : pop := PInsertAgent [(1%nat, []); (1%nat, [])].
Definition fx_calls (m : pmode) : list pop :=
  [ day m; PEach (ORemoveLink nB nC false true); fx_at_B; fx_at_B; day m ].
Definition fx_program (m : pmode) : list (settings * pop) := map (pair fx_S) (fx_build ++ fx_calls m).
Definition fx (m : pmode) : res (list (eco * rng)) :=
  prun ex_oracle (fx_program m) (pstart [rng_const (1 # 4); rng_const (1 # 8)]).

Lemma fx_routes : exists h gs e0 g0 e1 g1,
  prun ex_oracle h (pstart gs) = Ok [(e0, g0); (e1, g1)] /\
  map l_links (e_locations e0) = map l_links (e_locations e1) /\
  map (fun l => map fst (l_routes l)) (e_locations e0) = [["B"; "C"]; ["A"]; ["B"; "A"]] /\
  map (fun l => map fst (l_routes l)) (e_locations e1) = [["B"; "C"]; ["C"; "A"]; ["B"; "A"]] /\
  map (fun l => map (fun k => match nth_error (e_links e1) k with Some x => k_endpoint x | None => 0%nat end) (l_links l))
    (e_locations e1) = [[1%nat; 2%nat]; [0%nat]; [1%nat; 0%nat]] /\
  map a_location (e_agents e0) = [PLink 3] /\ map a_location (e_agents e1) = [PLoc 1].
Proof.
  exists (fx_program LocPar), [rng_const (1 # 4); rng_const (1 # 8)],
    (first_eco (fx LocPar)), (first_rng (fx LocPar)), (second_eco (fx LocPar)), (second_rng (fx LocPar)).
  split; [|split; [|split; [|split; [|split; [|split]]]]].
  - apply (ends_2 (fx LocPar)). vm_compute. reflexivity.
  - vm_compute. reflexivity.
  - vm_compute. reflexivity.
  - vm_compute. reflexivity.
  - vm_compute. reflexivity.
  - vm_compute. reflexivity.
  - vm_compute. reflexivity.
Qed.
