(** * FloodWitness: examples for the properties of floods *)

From Verif Require Import Base State Moving Crawling Flee DataTable Spawning InputGeography Api SpecHistory SpecChoice SpecReports SpecFloods
  Lemmas Defaults ExampleRun ClosureWitness ScoreFrames Streams ReportWitness ZoneWitness SpawnWitness NetworkWitness WeightWitness FloodProofs.
Local Open Scope string_scope.
Local Open Scope Q_scope.
Local Open Scope list_scope.

(** The network of [tables], with flood levels and forecasts *)
Definition flood_tables : igeo :=
  IGeo (ig_locations tables) (ig_columns tables) (ig_links tables) (ig_link_columns tables) (ig_major_routes tables)
    (ig_closures tables) (Some []) []
    [("flood_level", [("A", [0; 2; 1]%Z); ("C", [1; 0; 3]%Z)]); ("forecast_flood_levels", [("C", [1; 0; 3]%Z)])].
Definition flood_day_S : settings :=
  up_s_flood_driven_spawning (fun _ => true) (up_s_flood_spawn_mode (fun _ => "constant")
    (up_s_displaced_per_flood_day (fun _ => [0; 3; 5 # 2; 1])
    (up_s_FloodForecaster (fun _ => true) (up_s_FloodRulesEnabled (fun _ => true) flood_S)))).

Definition attribute_at (k : string) (e : eco) : list (option pyval) :=
  map (fun l => match nth_error (e_dicts e) (l_attributes l) with Some d => dict_get k d | None => None end) (e_locations e).

Lemma empty_own : own_attributes empty_eco.
Proof. intros i j l m H. destruct i; discriminate. Qed.
Lemma flood_net_ok : is_ok (net_of flood_tables) = true. Proof. vm_compute. reflexivity. Qed.
Lemma net_own t : is_ok (net_of t) = true -> own_attributes (net_eco t).
Proof.
  intro H. apply net_stored in H. eapply stored_own; [apply (empty_reachable ex_oracle ex_draws)|exact empty_own|exact H].
Qed.

Definition flooded (ig : igeo) (t : Z) (e : eco) : eco :=
  match add_new_conflict_zones flood_day_S true ig t e with Ok e' => e' | Err _ => e end.
Lemma flooded_ok ig t e : is_ok (add_new_conflict_zones flood_day_S true ig t e) = true ->
  add_new_conflict_zones flood_day_S true ig t e = Ok (flooded ig t e).
Proof. unfold flooded. destruct (add_new_conflict_zones _ _ _ _ _); [reflexivity|discriminate]. Qed.
Lemma flooded_reached o ig t e g : reachable o e g -> is_ok (add_new_conflict_zones flood_day_S true ig t e) = true -> reachable o (flooded ig t e) g.
Proof.
  intros (h & g0 & R) H. apply flooded_ok in H. exists (h ++ [(flood_day_S, OAddNewConflictZones true ig t)]), g0.
  unfold run in *. rewrite foldM_app, R. cbn [bind foldM fst snd]. unfold step. rewrite H. reflexivity.
Qed.

(** Two locations added without attributes *)
Definition plain_ops : list op :=
  [OAddLocation (PS "D" 4) "r" 3 0 (Some "town") 1 (-1) 0 false "X" None;
   OAddLocation (PS "E" 5) "r" 3 1 (Some "town") 1 (-1) 0 false "X" None].
Definition level_tables : igeo := IGeo [] None [] None [] None None [] [("flood_level", [("D", [2%Z])])].
Lemma shared_case : exists e g e' l d, reachable ex_oracle e g /\ update_attributes level_tables "flood_level" 0 e = Ok e' /\
  nth_error (e_locations e) 3 = Some l /\ lname l = "D" /\ attributes_of e' l d /\ dict_get "flood_level" d = Some (VInt 0).
Proof.
  assert (R : is_ok (then_ plain_ops) = true) by (vm_compute; reflexivity). apply then_reachable in R.
  assert (Y : rmap (fun e => (nth_error (map lname (e_locations e)) 3, nth_error (attribute_at "flood_level" e) 3))
      (update_attributes level_tables "flood_level" 0 (then_eco plain_ops)) = Ok (Some "D", Some (Some (VInt 0)))) by (vm_compute; reflexivity).
  assert (L : forall e e', update_attributes level_tables "flood_level" 0 e = Ok e' -> e_locations e' = e_locations e).
  { intros e e' H. unfold update_attributes in H. rstep H. clear E. eapply (foldM_rel (fun a b => e_locations b = e_locations a)) in H; [exact H|reflexivity|congruence|].
    intros a i b _ Hs. rstep Hs. rstep Hs. unfold set_loc_attribute in Hs. rstep Hs. rstep Hs. injection Hs as <-. reflexivity. }
  revert R Y. generalize (then_eco plain_ops) (then_rng plain_ops). intros e g R Y.
  destruct (update_attributes level_tables "flood_level" 0 e) as [e'|] eqn:E; [|discriminate]. cbn [rmap bind] in Y.
  apply L in E as L'. rewrite L' in Y. unfold attribute_at in Y. rewrite L', !nth_error_map in Y.
  destruct (nth_error (e_locations e) 3) as [l|] eqn:Hl; [|discriminate]. cbn [option_map] in Y.
  destruct (nth_error (e_dicts e') (l_attributes l)) as [d|] eqn:Hd; [|discriminate].
  injection Y as Y1 Y2. exists e, g, e', l, d. repeat (split; [eassumption || reflexivity|]). exact Y2.
Qed.

Lemma shared_false : ~ (forall o e g ig k t e', reachable o e g -> update_attributes ig k t e = Ok e' -> (0 <= t)%Z ->
  exists table, dict_get k (ig_attributes ig) = Some table /\ only_attribute k (value_on k table t) e e').
Proof.
  intro H. destruct shared_case as (e & g & e' & l & d & R & U & Hl & Nm & Hd & Dv).
  destruct (H ex_oracle e g level_tables "flood_level" 0%Z e' R U (Z.le_refl _)) as (table & [= <-] & _ & _ & _ & Al).
  destruct (Al l) as (d0 & d' & v & _ & D' & Dv' & Rv & _); [eapply nth_error_In; eauto|].
  assert (d' = d) as -> by (unfold attributes_of in *; congruence). assert (v = VInt 0) as -> by congruence.
  rewrite Nm in Rv. destruct Rv as [[_ (z & [= <-] & [(row & [= <-] & _ & Hz)|[Hz _]])]|[Hz _]]; discriminate.
Qed.

Lemma net_rng_ok : rng_ok (net_rng flood_tables).
Proof.
  assert (X : run ex_oracle [(ex_S, OStoreInput 10 flood_tables [])] empty_eco ex_draws = Ok (net_eco flood_tables, net_rng flood_tables)).
  { pose proof (net_stored _ flood_net_ok) as H. unfold run. cbn [foldM fst snd]. unfold step. rewrite H. reflexivity. }
  apply (streams_ok ex_draws); [|exact ex_draws_ok]. exact (run_streams _ _ _ _ _ _ X).
Qed.
