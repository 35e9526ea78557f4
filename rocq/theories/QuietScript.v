(** * QuietScript: the main program prints the same whatever it logs *)

From Verif Require Import Base State Moving Crawling Scoring Diagnostics Flee DataTable
  Spawning InputGeography Dates DataFiles Analysis RunScript Api SpecQuiet Lemmas QuietReads QuietCalls QuietRun.
Local Open Scope list_scope.

Lemma h_names e : map lname (e_locations (hide e)) = map lname (e_locations e).
Proof. cbn. rewrite map_map. reflexivity. Qed.
Lemma h_lm e n : lm_index (hide e) n = lm_index e n.
Proof. unfold lm_index. now rewrite h_names. Qed.
Lemma h_lm_num e n : lm_numAgents (hide e) n = lm_numAgents e n.
Proof.
  unfold lm_numAgents. rewrite h_lm. apply bind_ext. intros i _. rewrite h_loc, bind_rmap. reflexivity.
Qed.
Lemma h_idps e : num_idps (hide e) = num_idps e.
Proof.
  unfold num_idps. cbn. induction (e_locations e) as [|l ls IH]; [reflexivity|]. cbn [map filter].
  change (l_idpcamp (hl l)) with (l_idpcamp l). destruct (l_idpcamp l); cbn [map]; [|exact IH]. cbn [map sumZ fold_right] in *.
  change (l_numAgents (hl l)) with (l_numAgents l). now rewrite IH.
Qed.
Lemma h_camps e : get_camp_names (hide e) = get_camp_names e.
Proof.
  unfold get_camp_names. cbn. induction (e_locations e) as [|l ls IH]; [reflexivity|]. cbn [map filter].
  change (l_camp (hl l)) with (l_camp l). destruct (l_camp l); cbn [map]; [|exact IH]. now rewrite IH.
Qed.

Lemma h_report idp start camps t sp d e : report_day idp start camps t sp d (hide e) = report_day idp start camps t sp d e.
Proof.
  unfold report_day. rewrite (mapM_ext (fun c => _ <- lm_index e c ;; get_field d c t true)).
  2: { intro c. now rewrite h_lm. }
  apply bind_ext. intros ld _. rewrite (mapM_ext (lm_numAgents e)) by (intro; apply h_lm_num). apply bind_ext. intros sims _.
  apply bind_ext. intros date _. rewrite h_idps.
  replace (num_agents (hide e)) with (num_agents e); [reflexivity|]. unfold num_agents. cbn. now rewrite map_length.
Qed.

Definition hw (w : world) : world := World (w_start w) (w_end w) (w_geo w) (w_data w) (w_camps w) (hide (w_eco w)) (w_rng w).

Lemma h_set_up S o inp g : set_up (off S) o inp g = rmap hw (set_up S o inp g).
Proof.
  unfold set_up. change (s_EmptyCampsOnDay0 (off S)) with (s_EmptyCampsOnDay0 S). into. intros [start n] _.
  change empty_eco with (hide empty_eco) at 1. rewrite h_store, bind_rmap, rmap_bind. apply bind_ext. intros [[e g1] ig] _.
  unfold hi. cbn [fst snd].
  assert (A : match in_agents inp with Some rows => read_agents (off S) rows (hide e) | None => Ok (hide e) end
              = rmap hide match in_agents inp with Some rows => read_agents S rows e | None => Ok e end).
  { destruct (in_agents inp); [apply h_read_agents|reflexivity]. }
  rewrite A, bind_rmap, rmap_bind. apply bind_ext. intros e1 _. into. intros d0 _. into. intros d _. rewrite h_camps.
  change (hide e1, g1) with (hp (e1, g1)).
  rewrite (foldM_map hp (fun st c => let '(e, g) := st in i <- lm_index e c ;; add_initial_refugees S (in_dm inp) d i e g)).
  2: { intros [e2 g2] c. unfold hp at 1. cbn [fst snd]. rewrite h_lm, rmap_bind. apply bind_ext. intros i _. apply h_initial. }
  rewrite bind_rmap, rmap_bind. apply bind_ext. intros [e2 g2] _. reflexivity.
Qed.

Definition hq (p : spawn_state * dtable * eco * rng * list report) : spawn_state * dtable * eco * rng * list report :=
  let '(sp, d, e, g, l) := p in (sp, d, hide e, g, l).

Local Opaque evolve spawn_daily_displaced add_new_conflict_zones enact_border_closures refresh_spawn_weights report_day without_logs.
Lemma s_run_day fuel S o inp w st t : sim hq (run_day fuel S o inp w st t) (run_day fuel (off S) o inp (hw w) (hq st) t).
Proof.
  destruct st as [[[[sp d] e] g] ls]. unfold run_day, hq at 2. change (w_geo (hw w)) with (w_geo w).
  apply (sim_bind hide); [apply sim_eq, h_zones|]. intros e1 _.
  apply (sim_bind hd5); [apply sim_eq, h_spawn|]. intros [[[[n sp1] d1] e2] g2] _. unfold hd5. cbn [fst snd].
  apply (sim_bind hide); [apply sim_eq, h_refresh|]. intros e3 _.
  apply (sim_bind hide); [apply sim_eq, h_enact|]. intros e4 _.
  apply (sim_bind hp); [apply s_evolve|]. intros [e5 g5] _. unfold hp. cbn [fst snd].
  rewrite h_report. apply sim_same. intros line _. apply sim_ok. reflexivity.
Qed.

Lemma f_program_quiet fuel S o inp g out : run_script fuel S o inp g = Ok out -> run_script fuel (quiet_settings S) o inp g = Ok out.
Proof.
  assert (X : sim (fun p => p) (run_script fuel S o inp g) (run_script fuel (off S) o inp g)); [|exact (X out)].
  unfold run_script. apply (sim_bind hw); [apply sim_eq, h_set_up|]. intros w _.
  apply (sim_bind hq).
  - change (Spawn 0 0, w_data (hw w), w_eco (hw w), w_rng (hw w), @nil report) with (hq (Spawn 0 0, w_data w, w_eco w, w_rng w, [])).
    apply sim_foldM. intros st t. apply s_run_day.
  - intros [[[[sp d] e] g1] ls] _. apply sim_ok. reflexivity.
Qed.

Theorem f_program fuel S S' o inp g out out' : same_but_logging S S' ->
  run_script fuel S o inp g = Ok out -> run_script fuel S' o inp g = Ok out' -> out' = out.
Proof.
  intros (a & k & c & ->) R R'. apply f_program_quiet in R, R'. change (quiet_settings (logging a k c S)) with (quiet_settings S) in R'.
  rewrite R in R'. now injection R' as ->.
Qed.
