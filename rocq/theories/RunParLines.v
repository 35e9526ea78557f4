(** * RunParLines: what the main program prints on several processes *)

From Coq Require Import Lia Lqa.
From Verif Require Import Base State Moving Crawling Scoring Diagnostics Flee DataTable
  Spawning InputGeography Dates DataFiles Analysis RunScript Api Pflee ParApi RunPar SpecAgents SpecHistory SpecNetwork SpecDates SpecData SpecSpawn SpecParallel SpecRun SpecRunPar
  Lemmas Inv InvMoves InvStruct Frames ScoreFrames Travel Profile ReportProofs Skeleton ParProofs ParInv ParSteps ParProps ParCounts ParTotals NetworkProofs
  DateProofs DataProofs SpawnProofs AnalysisProofs RunProofs DayChain RunParSetup RunParBuild RunParProofs.
From Verif Require Import Base.
Local Open Scope string_scope.
Local Open Scope list_scope.

Definition fresh_table (S : settings) (d : dtable) : Prop :=
  d_day0 d = [] /\ d_start_empty d = (if s_EmptyCampsOnDay0 S then 1 else 0)%Z.
Lemma setup_fresh mc add ins S o inp e0 g w : setup_with mc add ins S o inp e0 g = Ok w -> fresh_table S (w_data w).
Proof.
  intro H. apply setup_parts in H as (e & g1 & ig & e1 & _ & _ & _ & _ & _ & d0 & E3 & E4). unfold fresh_table.
  apply corrections_keep in E4 as [-> ->]. unfold new_table in E3. destruct (foldM _ _ _) as [[h ts]|] in E3; [|discriminate].
  cbn [bind] in E3. injection E3 as <-. cbn [d_day0 d_start_empty]. auto.
Qed.

Lemma twin_lnames a b : Twin a b -> map lname (e_locations a) = map lname (e_locations b).
Proof. intro T. apply twin_locs in T. apply (f_equal (map lname)) in T. now rewrite !map_map in T. Qed.

Lemma par_report_spec S inp w n k t sp d st k0 e r : from_data S -> fresh_table S (w_data w) -> Ready inp n st k -> Counts inp st ->
  chain S (w_data w) (Datatypes.S t) sp d k0 -> In e (map fst st) ->
  par_report_day (w_start w) (w_camps w) (Z.of_nat t) sp d e = Ok r -> par_line_of S inp w t (sp_raw sp) (sp_debt sp) st r.
Proof.
  intros F [E0 Se] Rd [C1 C2] Ch Ie H. unfold par_report_day in H.
  destruct (mapM _ (w_camps w)) as [data|] eqn:E1 in H; [|discriminate]. cbn [bind] in H.
  destruct (mapM _ (w_camps w)) as [sims|] eqn:E2 in H; [|discriminate]. cbn [bind] in H. cbv zeta in H.
  destruct (steps_to_date _ _) as [date|] eqn:E3; [|discriminate]. cbn [bind] in H.
  apply mapM_Forall2 in E1, E2. apply steps_iff in E3 as (d0 & X0 & W0 & X1 & A1).
  assert (L : List.length sims = List.length data) by (apply F2_len in E1, E2; congruence).
  destruct (rows_sums sims data L) as (S1 & S2 & S3).
  assert (Rows : Forall2 (fun camp (x : Z * Z * Q) => let '(sim, data, err) := x in
      (exists i, (forall e g, In (e, g) st -> called e camp i) /\ sim = people_in st i) /\
      (camp <> "total"%string -> data_shown S (w_data w) camp (Z.of_nat t) data) /\
      error_shown sim data err) (w_camps w)
     (map (fun p => (fst p, snd p, rel_error (inject_Z (fst p)) (inject_Z (snd p)))) (combine sims data))).
  { eapply F2_mono; [|eapply rows_spec; [exact E2|exact E1]]. intros c [[s z] err] (Hp & Hd & ->). split; [|split].
    - unfold lm_numAgents in Hp. destruct (lm_index e c) as [i|] eqn:Ei; [|discriminate]. cbn [bind] in Hp. unfold loc_of in Hp.
      destruct (nth_error (e_locations e) i) as [l|] eqn:El; [|discriminate]. cbn [of_option bind] in Hp. injection Hp as <-. exists i. split; [|now apply C2 with (e := e)].
      intros e' g' He'. apply lm_called. rewrite <- Ei. unfold lm_index. rewrite (twin_lnames e' e); [reflexivity|].
      apply (pr_twin _ _ (rd_procs _ _ _ _ Rd)); [|exact Ie]. apply (in_map fst) in He'. exact He'.
    - intro N. destruct (lm_index e c); [|discriminate]. cbn [bind] in Hd. eapply chain_shown; eauto.
    - apply error_spec. }
  assert (Date : exists d0 d, civil d0 /\ written (w_start w) d0 /\ civil d /\ days_apart d0 (Z.of_nat t) d /\ written (show_date date) d)
    by (exists d0, date; do 4 (split; [assumption|]); now apply show_written).
  assert (T : ig_closures (in_geo inp) = Some [] -> par_num_agents e = people st) by (intro Cl; exact (C1 Cl e Ie)).
  destruct (0 <? sp_raw sp)%Z eqn:B; injection H as <-; (constructor; cbn [r_day r_date r_camps r_total r_in_camps r_idps r_raw r_debt r_data r_error]; auto);
    try (rewrite S1; reflexivity); intro X; try (exfalso; lia).
  - split; [reflexivity|]. split; [reflexivity|]. rewrite S2. split; [reflexivity|]. rewrite S3. reflexivity.
Qed.

Definition alike (a b : world) : Prop :=
  w_start a = w_start b /\ w_end a = w_end b /\ w_geo a = w_geo b /\ w_data a = w_data b /\ w_camps a = w_camps b.

(** The part of a day that each process computes by itself *)
Lemma morning_parts fuel S o inp t p p' : par_morning fuel S o inp t p = Ok p' -> exists x1, 
  step o S (OAddNewConflictZones (in_conflict_file inp) (w_geo (p_world p)) t) (p_eco p) (p_rng p) = Ok x1 /\ exists x2,
  (exists n, par_spawn_daily_displaced S (in_dm inp) t (p_sp p) (p_data p) (fst x1) (snd x1) = Ok (n, p_sp p', p_data p', fst x2, snd x2)) /\ exists x3,
  step o S ORefreshSpawnWeights (fst x2) (snd x2) = Ok x3 /\
  step o S (OEnactBorderClosures fuel t true) (fst x3) (snd x3) = Ok (p_eco p', p_rng p') /\
  p_world p' = p_world p /\ p_header p' = p_header p /\ p_lines p' = p_lines p.
Proof.
  unfold par_morning. intro H. apply bind_ok in H as (e1 & H1 & H). apply bind_ok in H as ([[[[n sp1] d1] e2] g2] & H2 & H).
  apply bind_ok in H as (e3 & H3 & H). apply bind_ok in H as (e4 & H4 & H). injection H as <-. cbn [p_sp p_data p_eco p_rng p_world p_header p_lines].
  exists (e1, p_rng p). split; [cbn [step]; rewrite H1; reflexivity|]. exists (e2, g2). split; [exists n; exact H2|]. exists (e3, g2).
  split; [cbn [step fst snd]; rewrite H3; reflexivity|]. split; [cbn [step fst snd]; rewrite H4; reflexivity|]. auto.
Qed.

Record Loop fuel m lat S o inp (w : world) (st0 : list (eco * rng)) (t : nat) (ps : list proc) : Prop := {
  lp_state : exists sp d, par_simulated fuel m lat S o inp w st0 t sp d (ecos ps) /\ forall p, In p ps -> p_sp p = sp /\ p_data p = d;
  lp_world : forall p, In p ps -> alike (p_world p) w;
  lp_first : forall p, nth_error ps 0 = Some p -> p_header p = Some (w_camps w) /\ List.length (p_lines p) = t /\
    forall i r, nth_error (p_lines p) i = Some r -> exists sp d st e, par_simulated fuel m lat S o inp w st0 (Datatypes.S i) sp d st /\
      In e (map fst st) /\ par_report_day (w_start w) (w_camps w) (Z.of_nat i) sp d e = Ok r;
  lp_others : forall i p, nth_error ps (Datatypes.S i) = Some p -> p_header p = None /\ p_lines p = [] }.

Lemma F2_local f st st' : Forall2 (fun x y => f (fst x) (snd x) = Ok y) st st' -> local f st = Ok st'.
Proof. intro H. unfold local. apply F2_mapM. eapply F2_mono; [|exact H]. intros [e g] y X. exact X. Qed.

Lemma F2_combine {A B} (l : list A) (m : list B) i x : nth_error (combine l m) i = Some x -> nth_error l i = Some (fst x) /\ nth_error m i = Some (snd x).
Proof.
  revert m i. induction l as [|a l IH]; intros [|b m] [|i] H; try discriminate; cbn in *; [injection H as <-; auto|auto].
Qed.

Lemma loop_day fuel m lat S o inp w st0 n k0 t ps ps' : from_data S -> (0 < n)%nat -> Ready inp n st0 k0 ->
  Loop fuel m lat S o inp w st0 t ps -> par_run_day fuel m lat S o inp ps t = Ok ps' -> Loop fuel m lat S o inp w st0 (Datatypes.S t) ps'.
Proof.
  intros F N R0 [(sp & d & Sim & Eq) W L0 L1] H. unfold par_run_day in H. cbv zeta in H.
  apply bind_ok in H as (ps1 & Hm & H). apply bind_ok in H as (st & He & Hl).
  destruct (simulated_ready _ _ _ _ _ _ _ _ _ _ F N R0 _ _ _ _ Sim) as (k & Ch & R & _).
  apply mapM_Forall2 in Hm.
  assert (Lp : List.length ps = n). { pose proof (pr_len _ _ (rd_procs _ _ _ _ R)) as X. unfold ecos in X. now rewrite !map_length in X. }
  (* the new registered totals and data are the same everywhere *)
  assert (D : exists j sp' d', daily S (Z.of_nat t) sp d = Ok (j, sp', d') /\ forall p', In p' ps1 -> p_sp p' = sp' /\ p_data p' = d').
  { assert (Each : forall p', In p' ps1 -> exists j, daily S (Z.of_nat t) sp d = Ok (j, p_sp p', p_data p')).
    { intros p' Hp. apply In_nth_error in Hp as [i Hp]. destruct (Forall2_nth_inv _ _ _ _ _ Hm Hp) as (p & Hp0 & X).
      apply morning_parts in X as (x1 & _ & x2 & (j & X) & _). destruct (Eq p (nth_error_In _ _ Hp0)) as [Q1 Q2]. rewrite Q1, Q2 in X.
      exists j. now apply par_daily in X. }
    destruct ps1 as [|p1 ps1]; [apply Forall2_len in Hm; cbn in Hm; lia|]. destruct (Each p1 (or_introl eq_refl)) as (j & X).
    exists j, (p_sp p1), (p_data p1). split; [exact X|]. intros p' Hp. destruct (Each p' Hp) as (j' & X'). rewrite X in X'. injection X' as -> -> ->. auto. }
  destruct D as (j & sp' & d' & D & Eq1).
  (* the states between the calls *)
  assert (M : Forall2 (fun p p' => exists x1, step o S (OAddNewConflictZones (in_conflict_file inp) (w_geo w) (Z.of_nat t)) (p_eco p) (p_rng p) = Ok x1 /\ exists x2,
      (exists n, par_spawn_daily_displaced S (in_dm inp) (Z.of_nat t) sp d (fst x1) (snd x1) = Ok (n, sp', d', fst x2, snd x2)) /\ exists x3,
      step o S ORefreshSpawnWeights (fst x2) (snd x2) = Ok x3 /\
      step o S (OEnactBorderClosures fuel (Z.of_nat t) true) (fst x3) (snd x3) = Ok (p_eco p', p_rng p')) ps ps1).
  { clear - Hm Eq Eq1 W. induction Hm as [|p p' ps ps1 X _ IH]; constructor.
    - apply morning_parts in X as (x1 & A & x2 & (i & B) & x3 & C & E & _). destruct (W p (or_introl eq_refl)) as (_ & _ & Wg & _). rewrite Wg in A.
      destruct (Eq p (or_introl eq_refl)) as [Q1 Q2]. destruct (Eq1 p' (or_introl eq_refl)) as [Q3 Q4]. rewrite Q1, Q2, Q3, Q4 in B.
      exists x1. split; [exact A|]. exists x2. split; [eauto|]. exists x3. auto.
    - apply IH; intros; [apply Eq|apply W|apply Eq1]; now right. }
  apply F2_split in M as (st1 & M1 & M). apply F2_split in M as (st2 & M2 & M). apply F2_split in M as (st3 & M3 & M4).
  assert (P1 : local (step o S (OAddNewConflictZones (in_conflict_file inp) (w_geo w) (Z.of_nat t))) (ecos ps) = Ok st1).
  { apply F2_local. rewrite <- (map_id st1). unfold ecos. apply F2_maps. exact M1. }
  assert (P3 : local (step o S ORefreshSpawnWeights) st2 = Ok st3) by (apply F2_local, M3).
  assert (P4 : local (step o S (OEnactBorderClosures fuel (Z.of_nat t) true)) st3 = Ok (ecos ps1)).
  { apply F2_local. rewrite <- (map_id st3). unfold ecos. apply F2_maps. exact M4. }
  assert (Sim' : par_simulated fuel m lat S o inp w st0 (Datatypes.S t) sp' d' st).
  { eapply Par_one_more; [exact Sim| |exact M2|].
    - unfold prun. cbn [foldM fst snd pstep inherited]. rewrite P1. reflexivity.
    - unfold prun. cbn [foldM fst snd pstep inherited]. rewrite P3. cbn [bind]. rewrite P4. cbn [bind]. rewrite He. reflexivity. }
  destruct (simulated_ready _ _ _ _ _ _ _ _ _ _ F N R0 _ _ _ _ Sim') as (k' & Ch' & R' & Cn). specialize (Cn ltac:(lia)).
  assert (Ls : List.length st = n). { pose proof (pr_len _ _ (rd_procs _ _ _ _ R')) as X. now rewrite map_length in X. }
  assert (Ls1 : List.length ps1 = n) by (rewrite <- (Forall2_len _ _ _ Hm); exact Lp).
  apply mapM_Forall2 in Hl.
  assert (Lq : List.length ps' = n) by (rewrite <- (Forall2_len _ _ _ Hl), combine_length; lia).
  assert (Ev : forall i p', nth_error ps' i = Some p' -> exists p p1 x line, nth_error ps i = Some p /\ nth_error ps1 i = Some p1 /\ nth_error st i = Some x /\
    par_report_day (w_start w) (w_camps w) (Z.of_nat t) sp' d' (fst x) = Ok line /\ (p_eco p', p_rng p') = x /\ p_sp p' = sp' /\ p_data p' = d' /\ p_world p' = p_world p /\ p_header p' = p_header p /\
    p_lines p' = (if (e_rank (fst x) =? 0)%Z then p_lines p ++ [line] else p_lines p)).
  { intros i p' Hp'. destruct (Forall2_nth_inv _ _ _ _ _ Hl Hp') as ([p1 x] & Hx & X). apply F2_combine in Hx as [H1 H2]. cbn [fst snd] in *.
    destruct (Forall2_nth_inv _ _ _ _ _ Hm H1) as (p & Hp & Y). apply morning_parts in Y as (_ & _ & _ & _ & _ & _ & _ & Y1 & Y2 & Y3).
    destruct (Eq1 p1 (nth_error_In _ _ H1)) as [Q1 Q2]. destruct (W p (nth_error_In _ _ Hp)) as (W1 & _ & _ & _ & W5).
    unfold par_evening, resume in X. cbn [p_world p_sp p_data p_eco p_rng p_header p_lines] in X. rewrite Y1, W1, W5, Q1, Q2 in X.
    apply bind_ok in X as (line & X1 & X). injection X as <-. exists p, p1, x, line. cbn [p_world p_sp p_data p_eco p_rng p_header p_lines].
    rewrite Y2, Y3. destruct x. cbn [fst snd] in *. repeat split; assumption. }
  assert (Ec : ecos ps' = st).
  { apply nth_ext with (d := (p_eco (hd (Proc w sp d empty_eco (w_rng w) None []) ps'), w_rng w)) (d' := (p_eco (hd (Proc w sp d empty_eco (w_rng w) None []) ps'), w_rng w)).
    - unfold ecos. rewrite map_length. congruence.
    - intros i Hi. unfold ecos in *. rewrite map_length in Hi. destruct (nth_error ps' i) as [p'|] eqn:Hp'; [|apply nth_error_None in Hp'; lia].
      destruct (Ev i p' Hp') as (p & p1 & x & line & _ & _ & Hx & _ & Ex & _). rewrite (nth_error_nth _ _ _ Hx), <- Ex.
      apply nth_error_nth. rewrite nth_error_map, Hp'. reflexivity. }
  split.
  - exists sp', d'. rewrite Ec. split; [exact Sim'|]. intros p' Hp'. apply In_nth_error in Hp' as [i Hp']. destruct (Ev i p' Hp') as (? & ? & ? & ? & _ & _ & _ & _ & _ & A & B & _). auto.
  - intros p' Hp'. apply In_nth_error in Hp' as [i Hp']. destruct (Ev i p' Hp') as (p & ? & ? & ? & Hp & _ & _ & _ & _ & _ & _ & -> & _). apply W. eapply nth_error_In; eauto.
  - intros p' Hp'. destruct (Ev 0%nat p' Hp') as (p & p1 & x & line & Hp & _ & Hx & Hr & _ & _ & _ & _ & -> & ->). destruct (L0 p Hp) as (A & B & C).
    assert (Rk : (e_rank (fst x) =? 0)%Z = true). { assert (Hx' : nth_error (map fst st) 0 = Some (fst x)) by (rewrite nth_error_map, Hx; reflexivity).
      destruct (pr_each _ _ (rd_procs _ _ _ _ R') _ _ Hx') as (_ & _ & -> & _). reflexivity. }
    rewrite Rk. split; [exact A|]. split; [rewrite app_length; cbn; lia|]. intros i r Hi.
    destruct (lt_dec i t) as [Lt|Ge]; [rewrite nth_error_app1 in Hi by lia; auto|].
    rewrite nth_error_app2 in Hi by lia. destruct (i - List.length (p_lines p))%nat eqn:Ed; [|destruct n0; discriminate]. cbn in Hi. injection Hi as <-.
    assert (i = t) as -> by lia. exists sp', d', st, (fst x). split; [exact Sim'|]. split; [|exact Hr]. apply in_map. eapply nth_error_In; eauto.
  - intros i p' Hp'. destruct (Ev (Datatypes.S i) p' Hp') as (p & p1 & x & line & Hp & _ & Hx & _ & _ & _ & _ & _ & -> & ->).
    assert (Rk : (e_rank (fst x) =? 0)%Z = false). { assert (Hx' : nth_error (map fst st) (Datatypes.S i) = Some (fst x)) by (rewrite nth_error_map, Hx; reflexivity).
      destruct (pr_each _ _ (rd_procs _ _ _ _ R') _ _ Hx') as (_ & _ & -> & _). apply Z.eqb_neq. lia. }
    rewrite Rk. eauto.
Qed.

(** ** The whole program *)
Lemma started_first S o inp gs ps : gs <> [] -> mapM (fun x => par_set_up S o inp (fst x) (snd x)) (pstart gs) = Ok ps ->
  exists p0 ps0, ps = p0 :: ps0 /\ started S o inp gs (p_world p0) (ecos ps) /\ fresh_table S (w_data (p_world p0)) /\
    exists k, Ready inp (List.length gs) (ecos ps) k /\ (forall p, In p ps -> alike (p_world p) (p_world p0)) /\
    (forall p, In p ps -> p_sp p = Spawn 0 0 /\ p_data p = w_data (p_world p0)) /\
    p_header p0 = Some (w_camps (p_world p0)) /\ p_lines p0 = [] /\ (forall p, In p ps0 -> p_header p = None /\ p_lines p = []).
Proof.
  intros N H. destruct (started_ready _ _ _ _ _ N H) as (k & R & T & Wl). apply mapM_Forall2 in H.
  destruct ps as [|p0 ps0]; [apply Forall2_len in H; unfold pstart in H; rewrite combine_length, map_length, seq_length in H; destruct gs; [congruence|cbn in H; discriminate]|].
  assert (Parts : forall i p, nth_error (p0 :: ps0) i = Some p -> p_sp p = Spawn 0 0 /\ p_data p = w_data (p_world p) /\ p_lines p = [] /\ fresh_table S (w_data (p_world p)) /\
    p_header p = if (Z.of_nat i =? 0)%Z then Some (w_camps (p_world p)) else None).
  { intros i p Hp. destruct (Forall2_nth_inv _ _ _ _ _ H Hp) as ([e g] & _ & X). cbn [fst snd] in X. apply par_parts in X as (_ & X & E). apply setup_fresh in X.
    assert (Hp' : nth_error (map fst (ecos (p0 :: ps0))) i = Some (p_eco p)) by (unfold ecos; rewrite map_map, nth_error_map, Hp; reflexivity).
    destruct (pr_each _ _ (rd_procs _ _ _ _ R) _ _ Hp') as (_ & _ & Rk & _). rewrite E in Rk |- *. cbn [p_eco p_sp p_data p_lines p_header p_world] in *. rewrite Rk. auto. }
  exists p0, ps0. split; [reflexivity|]. split; [|split; [apply (Parts 0%nat p0 eq_refl)|]].
  - unfold started. assert (H2 : Forall2 (fun x p => par_set_up S o inp (fst x) (snd x) = Ok p /\ alike (p_world p) (p_world p0)) (pstart gs) (p0 :: ps0)).
    { assert (X : forall p, In p (p0 :: ps0) -> alike (p_world p) (p_world p0)) by (intros p Hp; apply Wl; [exact Hp|now left]). clear - H X.
      set (l := p0 :: ps0) in *. clearbody l. induction H; constructor; [split; [assumption|apply X; now left]|apply IHForall2; intros; apply X; now right]. }
    rewrite <- (map_id (pstart gs)). unfold ecos. apply F2_maps. eapply F2_mono; [|exact H2]. intros x p (A & B). exists p. split; [exact A|]. split; [reflexivity|exact B].
  - exists k. split; [exact R|]. split; [intros p Hp; apply Wl; [exact Hp|now left]|]. split.
    + intros p Hp. destruct (Wl p p0 Hp (or_introl eq_refl)) as (_ & _ & _ & <- & _). apply In_nth_error in Hp as [i Hp]. destruct (Parts i p Hp) as (A & B & _). auto.
    + destruct (Parts 0%nat p0 eq_refl) as (_ & _ & A & _ & B). split; [exact B|]. split; [exact A|].
      intros p Hp. apply In_nth_error in Hp as [i Hp]. destruct (Parts (Datatypes.S i) p Hp) as (_ & _ & C & _ & D). split; [|exact C]. rewrite D.
      replace (Z.of_nat (Datatypes.S i) =? 0)%Z with false; [reflexivity|]. symmetry. apply Z.eqb_neq. lia.
Qed.

Lemma loop_all fuel m lat S o inp w st0 n k0 : from_data S -> (0 < n)%nat -> Ready inp n st0 k0 -> forall days t ps ps',
  Loop fuel m lat S o inp w st0 t ps -> foldM (par_run_day fuel m lat S o inp) (seq t days) ps = Ok ps' -> Loop fuel m lat S o inp w st0 (t + days) ps'.
Proof.
  intros F N R0 days. induction days as [|days IH]; intros t ps ps' L H; cbn [seq foldM] in H.
  - injection H as <-. now rewrite Nat.add_0_r.
  - apply bind_ok in H as (ps1 & H1 & H). rewrite Nat.add_succ_r. apply (IH (Datatypes.S t) ps1); [|exact H]. eapply loop_day; eauto.
Qed.

Lemma repeat_all {A} (a : A) l : (forall x, In x l -> x = a) -> l = repeat a (List.length l).
Proof. induction l as [|x l IH]; intro H; [reflexivity|]. cbn. rewrite <- IH by (intros; apply H; now right). f_equal. apply H. now left. Qed.

Lemma script_raw_lines fuel m lat S o inp gs outs : run_par_script fuel m lat S o inp gs = Ok outs -> gs <> [] -> from_data S ->
  exists w st0 k0 lines, started S o inp gs w st0 /\ fresh_table S (w_data w) /\ Ready inp (List.length gs) st0 k0 /\
    outs = (Some (w_camps w), lines) :: repeat (None, []) (List.length gs - 1) /\ List.length lines = Z.to_nat (w_end w) /\
    forall t r, nth_error lines t = Some r -> exists sp d st e, par_simulated fuel m lat S o inp w st0 (Datatypes.S t) sp d st /\
      In e (map fst st) /\ par_report_day (w_start w) (w_camps w) (Z.of_nat t) sp d e = Ok r.
Proof.
  unfold run_par_script. intros H N F. apply bind_ok in H as (ps & H0 & H). cbv zeta in H.
  destruct (started_first _ _ _ _ _ N H0) as (p0 & ps0 & E & St & Fr & k & R & Al & Sp & Hd & Ln & Ot). rewrite E in H. cbv iota in H.
  apply bind_ok in H as (ps' & H1 & H). injection H as <-.
  assert (Np : (0 < List.length gs)%nat) by (destruct gs; [congruence|cbn; lia]).
  assert (L0 : Loop fuel m lat S o inp (p_world p0) (ecos ps) 0 ps).
  { split.
    - exists (Spawn 0 0), (w_data (p_world p0)). split; [constructor|exact Sp].
    - exact Al.
    - rewrite E. intros p Hp. cbn in Hp. injection Hp as <-. rewrite Ln. split; [exact Hd|]. split; [reflexivity|]. intros i r Hi. destruct i; discriminate.
    - rewrite E. intros i p Hp. cbn in Hp. apply Ot. eapply nth_error_In; eauto. }
  rewrite <- E in H1. pose proof (loop_all _ _ _ _ _ _ _ _ _ _ F Np R _ _ _ _ L0 H1) as [(sp & d & Sim & _) W L1 L2].
  destruct (simulated_ready _ _ _ _ _ _ _ _ _ _ F Np R _ _ _ _ Sim) as (j & _ & R' & _).
  pose proof (pr_len _ _ (rd_procs _ _ _ _ R')) as Len. unfold ecos in Len. rewrite !map_length in Len.
  destruct ps' as [|q0 qs]; [cbn in Len; lia|]. destruct (L1 q0 eq_refl) as (A & B & C).
  exists (p_world p0), (ecos ps), k, (p_lines q0). split; [exact St|]. split; [exact Fr|]. split; [exact R|]. split; [|split; [exact B|exact C]].
  cbn [map]. rewrite A. f_equal. cbn in Len. replace (List.length gs - 1)%nat with (List.length (map (fun p => (p_header p, p_lines p)) qs)) by (rewrite map_length; lia).
  apply repeat_all. intros x Hx. apply in_map_iff in Hx as (q & <- & Hq). apply In_nth_error in Hq as [i Hq]. destruct (L2 i q Hq) as [-> ->]. reflexivity.
Qed.

Theorem par_script_lines fuel m lat S o inp gs outs : run_par_script fuel m lat S o inp gs = Ok outs -> gs <> [] -> from_data S ->
  exists w st0 lines, started S o inp gs w st0 /\ outs = (Some (w_camps w), lines) :: repeat (None, []) (List.length gs - 1) /\
    List.length lines = Z.to_nat (w_end w) /\
    forall t r, nth_error lines t = Some r -> exists sp d st, par_simulated fuel m lat S o inp w st0 (Datatypes.S t) sp d st /\
      par_line_of S inp w t (sp_raw sp) (sp_debt sp) st r.
Proof.
  intros H N F. destruct (script_raw_lines _ _ _ _ _ _ _ _ H N F) as (w & st0 & k0 & lines & St & Fr & R & E & L & Ls).
  exists w, st0, lines. split; [exact St|]. split; [exact E|]. split; [exact L|]. intros t r Hr. destruct (Ls t r Hr) as (sp & d & st & e & Sim & Ie & X).
  exists sp, d, st. split; [exact Sim|]. assert (Np : (0 < List.length gs)%nat) by (destruct gs; [congruence|cbn; lia]).
  destruct (simulated_ready _ _ _ _ _ _ _ _ _ _ F Np R _ _ _ _ Sim) as (j & Ch & R' & Cn). eapply par_report_spec; eauto. apply Cn. lia.
Qed.

Lemma fresh_empty S d : fresh_table S d -> d_start_empty d = 0%Z \/ d_start_empty d = 1%Z.
Proof. intros [_ ->]. destruct (s_EmptyCampsOnDay0 S); auto. Qed.
Theorem par_script_balance fuel m lat S o inp gs outs : run_par_script fuel m lat S o inp gs = Ok outs -> gs <> [] -> from_data S ->
  exists w st0 lines, started S o inp gs w st0 /\ nth_error outs 0 = Some (Some (w_camps w), lines) /\
    forall t r, nth_error lines t = Some r ->
    exists sp d st first d1 z debt, par_simulated fuel m lat S o inp w st0 (Datatypes.S t) sp d st /\
      get_daily_difference (w_data w) 0 true (s_sum_from_camps S) = Ok (first, d1) /\
      to_spawn S (w_data w) (Z.of_nat t) z /\ (0 <= debt)%Z /\
      people st = (people st0 + z + debt)%Z /\ highest S (w_data w) (Z.of_nat t) (people st - people st0) /\
      r_raw r = Z.max 0 (z + if s_InsertDayZero S then first else 0) /\ ((0 < r_raw r)%Z -> r_debt r = debt).
Proof.
  intros H N F. destruct (script_raw_lines _ _ _ _ _ _ _ _ H N F) as (w & st0 & k0 & lines & St & Fr & R & E & L & Ls).
  exists w, st0, lines. split; [exact St|]. split; [rewrite E; reflexivity|]. intros t r Hr. destruct (Ls t r Hr) as (sp & d & st & e & Sim & Ie & X).
  assert (Np : (0 < List.length gs)%nat) by (destruct gs; [congruence|cbn; lia]).
  destruct (simulated_ready _ _ _ _ _ _ _ _ _ _ F Np R _ _ _ _ Sim) as (k & Ch & R' & Cn). specialize (Cn ltac:(lia)).
  pose proof (par_report_spec _ _ _ _ _ _ _ _ _ _ _ _ F Fr R' Cn Ch Ie X) as Ln.
  destruct (chain_balance _ _ (proj1 Fr) (fresh_empty _ _ Fr) _ _ _ _ Ch) as (D & [(A & _)|(s & z & first & d1 & A & _ & G & Tz & Rw & Db & Hi)]); [discriminate|].
  injection A as <-. exists sp, d, st, first, d1, z, (sp_debt sp). rewrite (rd_people _ _ _ _ R'), (rd_people _ _ _ _ R).
  split; [exact Sim|]. split; [exact G|]. split; [exact Tz|]. split; [exact D|]. split; [lia|]. split; [replace (k0 + k - k0)%Z with k by lia; exact Hi|].
  destruct (Z_lt_le_dec 0 (sp_raw sp)) as [Pos|Neg].
  - destruct (pl_raw _ _ _ _ _ _ _ _ Ln Pos) as (-> & -> & _). split; [lia|auto].
  - destruct (pl_none _ _ _ _ _ _ _ _ Ln Neg) as (-> & _). split; [lia|lia].
Qed.

(** With the log level idp_totals the program fails. *)
Theorem par_script_idps fuel m lat S o inp gs outs : (0 < in_idp_totals inp)%Z -> gs <> [] -> run_par_script fuel m lat S o inp gs <> Ok outs.
Proof.
  intros I N H. unfold run_par_script in H. apply bind_ok in H as (ps & H & _). apply mapM_Forall2 in H.
  destruct gs as [|g gs]; [congruence|]. unfold pstart in H. cbn [List.length seq map combine] in H. inversion H as [|x p l l2 X _ E1 E2]; subst.
  cbn [fst snd] in X. apply par_parts in X as (Y & _). lia.
Qed.

(** ** Two runs of the program *)
Lemma data_same d t camps : forall e e' l l',
  Forall2 (fun c z => (_ <- lm_index e c ;; get_field d c t true) = Ok z) camps l ->
  Forall2 (fun c z => (_ <- lm_index e' c ;; get_field d c t true) = Ok z) camps l' -> l = l'.
Proof.
  intros e e' l l' A. revert l'. induction A as [|c z camps l H _ IH]; intros l' B; inversion B as [|? z' ? l2 H' B']; subst; [reflexivity|].
  destruct (lm_index e c) in H; [|discriminate]. destruct (lm_index e' c) in H'; [|discriminate]. cbn [bind] in H, H'. rewrite H in H'. injection H' as <-.
  f_equal. auto.
Qed.
Definition same_columns (r r' : report) : Prop :=
  r_day r = r_day r' /\ r_date r = r_date r' /\ map (fun x => snd (fst x)) (r_camps r) = map (fun x => snd (fst x)) (r_camps r') /\
  r_data r = r_data r' /\ r_raw r = r_raw r' /\ r_debt r = r_debt r'.
Lemma par_columns start camps t sp d e e' r r' : par_report_day start camps t sp d e = Ok r -> par_report_day start camps t sp d e' = Ok r' -> same_columns r r'.
Proof.
  unfold par_report_day. intros A B.
  destruct (mapM _ camps) as [l|] eqn:E1 in A; [|discriminate]. cbn [bind] in A. destruct (mapM _ camps) as [s|] eqn:E2 in A; [|discriminate]. cbn [bind] in A. cbv zeta in A.
  destruct (mapM _ camps) as [l'|] eqn:E3 in B; [|discriminate]. cbn [bind] in B. destruct (mapM _ camps) as [s'|] eqn:E4 in B; [|discriminate]. cbn [bind] in B. cbv zeta in B.
  destruct (steps_to_date t start) as [date|]; [|discriminate]. cbn [bind] in A, B. apply mapM_Forall2 in E1, E2, E3, E4.
  pose proof (data_same _ _ _ _ _ _ _ E1 E3) as <-.
  assert (L : List.length s = List.length l) by (apply F2_len in E1, E2; congruence). assert (L' : List.length s' = List.length l) by (apply F2_len in E1, E4; congruence).
  destruct (rows_sums s l L) as (_ & S2 & _). destruct (rows_sums s' l L') as (_ & S2' & _).
  destruct (0 <? sp_raw sp)%Z; injection A as <-; injection B as <-; unfold same_columns; cbn [r_day r_date r_camps r_data r_raw r_debt]; rewrite S2, S2'; auto 8.
Qed.
Lemma serial_columns idps start camps t sp d e e' r r' : report_day idps start camps t sp d e = Ok r -> par_report_day start camps t sp d e' = Ok r' -> same_columns r r'.
Proof.
  unfold par_report_day, report_day. intros A B.
  destruct (mapM _ camps) as [l|] eqn:E1 in A; [|discriminate]. cbn [bind] in A. destruct (mapM _ camps) as [s|] eqn:E2 in A; [|discriminate]. cbn [bind] in A. cbv zeta in A.
  destruct (mapM _ camps) as [l'|] eqn:E3 in B; [|discriminate]. cbn [bind] in B. destruct (mapM _ camps) as [s'|] eqn:E4 in B; [|discriminate]. cbn [bind] in B. cbv zeta in B.
  destruct (steps_to_date t start) as [date|]; [|discriminate]. cbn [bind] in A, B. apply mapM_Forall2 in E1, E2, E3, E4.
  pose proof (data_same _ _ _ _ _ _ _ E1 E3) as <-.
  assert (L : List.length s = List.length l) by (apply F2_len in E1, E2; congruence). assert (L' : List.length s' = List.length l) by (apply F2_len in E1, E4; congruence).
  destruct (rows_sums s l L) as (_ & S2 & _). destruct (rows_sums s' l L') as (_ & S2' & _).
  destruct (0 <? sp_raw sp)%Z; injection A as <-; injection B as <-; unfold same_columns; cbn [r_day r_date r_camps r_data r_raw r_debt]; rewrite S2, S2'; auto 8.
Qed.

Lemma started_one S o inp gs w st0 n k0 : started S o inp gs w st0 -> gs <> [] -> Ready inp n st0 k0 -> exists e0 g0 p, e_par e0 = true /\ view e0 = view empty_eco /\ e_total_agents e0 = 0%Z /\
  setup_with (s_DefaultMoveChance S) (par_add_agent S) par_insert_agent S o inp e0 g0 = Ok p /\ alike p w /\ In (w_eco p, w_rng p) st0.
Proof.
  intros St N _. unfold started in St. destruct gs as [|g gs]; [congruence|]. unfold pstart in St. cbn [List.length seq map combine] in St.
  inversion St as [|x y l m (p & X & Y & Al) _ E1 E2]; subst. cbn [fst snd] in X. apply par_parts in X as (_ & X & E).
  eexists _, _, (p_world p). split; [|split; [|split; [|split; [exact X|]]]]; try reflexivity. split; [exact Al|]. left. rewrite E. reflexivity.
Qed.
Lemma started_people inp n st0 k0 e g gs : Ready inp n st0 k0 -> In (e, g) st0 -> (0 < n)%nat -> forall S o w, started S o inp gs w st0 -> gs <> [] -> n = List.length gs -> e_total_agents e = people st0.
Proof.
  intros R I Np S o w St N ->. unfold started in St. 
  assert (M : exists ps, mapM (fun x => par_set_up S o inp (fst x) (snd x)) (pstart gs) = Ok ps /\ st0 = ecos ps).
  { clear - St. induction St as [|x y l m (p & X & Y & _) _ (ps & A & B)]; [exists []; split; reflexivity|]. exists (p :: ps). split; [cbn [mapM]; rewrite X, A; reflexivity|].
    rewrite B, Y. reflexivity. }
  destruct M as (ps & M & ->). destruct (started_ready _ _ _ _ _ N M) as (k & R' & T & _). rewrite (rd_people _ _ _ _ R').
  unfold ecos in I. apply in_map_iff in I as (p & E & Hp). injection E as <- <-. now apply T.
Qed.

Theorem two_par_scripts f m lat f' m' lat' S o inp gs gs' outs outs' :
  run_par_script f m lat S o inp gs = Ok outs -> run_par_script f' m' lat' S o inp gs' = Ok outs' -> gs <> [] -> gs' <> [] -> from_data S ->
  exists camps lines lines', nth_error outs 0 = Some (Some camps, lines) /\ nth_error outs' 0 = Some (Some camps, lines') /\ List.length lines = List.length lines' /\
  forall t r r', nth_error lines t = Some r -> nth_error lines' t = Some r' ->
    r_day r = r_day r' /\ r_date r = r_date r' /\ map (fun x => snd (fst x)) (r_camps r) = map (fun x => snd (fst x)) (r_camps r') /\
    r_data r = r_data r' /\ r_raw r = r_raw r' /\ r_debt r = r_debt r' /\
    (ig_closures (in_geo inp) = Some [] -> r_total r = r_total r').
Proof.
  intros H H' N N' F. destruct (script_raw_lines _ _ _ _ _ _ _ _ H N F) as (w & st0 & k0 & lines & St & Fr & R & E & L & Ls).
  destruct (script_raw_lines _ _ _ _ _ _ _ _ H' N' F) as (w' & st0' & k0' & lines' & St' & Fr' & R' & E' & L' & Ls').
  assert (Np : (0 < List.length gs)%nat) by (destruct gs; [congruence|cbn; lia]). assert (Np' : (0 < List.length gs')%nat) by (destruct gs'; [congruence|cbn; lia]).
  destruct (started_one _ _ _ _ _ _ _ _ St N R) as (a & ga & pa & A1 & A2 & A3 & A4 & A5 & A6). destruct (started_one _ _ _ _ _ _ _ _ St' N' R') as (b & gb & pb & B1 & B2 & B3 & B4 & B5 & B6).
  assert (Lk : Like true true 0 a b). { split; [exact A1|exact B1|congruence|]. unfold count. rewrite A1, B1. lia. }
  destruct (setup_like true true 0 _ _ _ _ _ _ _ _ _ _ _ _ _ _ _ (or_introl eq_refl) (adder_par S) adder_par_insert (adder_par S) adder_par_insert Lk A4 B4) as (X1 & X2 & X3 & X4 & X5 & X6).
  destruct A5 as (A51 & A52 & A53 & A54 & A55), B5 as (B51 & B52 & B53 & B54 & B55).
  assert (Ws : w_start w' = w_start w) by congruence. assert (We : w_end w' = w_end w) by congruence. assert (Wd : w_data w' = w_data w) by congruence. assert (Wc : w_camps w' = w_camps w) by congruence.
  assert (K : k0 = k0').
  { rewrite <- (rd_people _ _ _ _ R), <- (rd_people _ _ _ _ R'). rewrite <- (started_people _ _ _ _ _ _ _ R A6 Np _ _ _ St N eq_refl), <- (started_people _ _ _ _ _ _ _ R' B6 Np' _ _ _ St' N' eq_refl).
    destruct X6 as [Y1 Y2 _ Y3]. unfold count in Y3. rewrite Y1, Y2 in Y3. lia. }
  exists (w_camps w), lines, lines'. split; [now rewrite E|]. split; [rewrite E', Wc; reflexivity|]. split; [congruence|].
  intros t r r' Hr Hr'. destruct (Ls t r Hr) as (sp & d & st & e & Sim & Ie & X). destruct (Ls' t r' Hr') as (sp' & d' & st' & e' & Sim' & Ie' & X').
  destruct (simulated_ready _ _ _ _ _ _ _ _ _ _ F Np R _ _ _ _ Sim) as (k & Ch & Rt & Cn). specialize (Cn ltac:(lia)).
  destruct (simulated_ready _ _ _ _ _ _ _ _ _ _ F Np' R' _ _ _ _ Sim') as (k' & Ch' & Rt' & Cn'). specialize (Cn' ltac:(lia)).
  pose proof (pl_total _ _ _ _ _ _ _ _ (par_report_spec _ _ _ _ _ _ _ _ _ _ _ _ F Fr Rt Cn Ch Ie X)) as T.
  pose proof (pl_total _ _ _ _ _ _ _ _ (par_report_spec _ _ _ _ _ _ _ _ _ _ _ _ F Fr' Rt' Cn' Ch' Ie' X')) as T'.
  rewrite Wd in Ch'. destruct (chain_fun _ _ _ _ _ _ _ _ _ Ch Ch') as (<- & <- & <-). rewrite Ws, Wc in X'.
  destruct (par_columns _ _ _ _ _ _ _ _ _ X X') as (Y1 & Y2 & Y3 & Y4 & Y5 & Y6). repeat (split; [assumption|]).
  intro Cl. rewrite (T Cl), (T' Cl), (rd_people _ _ _ _ Rt), (rd_people _ _ _ _ Rt'). lia.
Qed.

Theorem serial_par_scripts f f' m lat S o inp g gs camps lines outs :
  run_script f S o inp g = Ok (camps, lines) -> run_par_script f' m lat S o inp gs = Ok outs -> gs <> [] -> from_data S -> (5 # 1000 <= s_DefaultMoveChance S)%Q ->
  exists lines', nth_error outs 0 = Some (Some camps, lines') /\ List.length lines = List.length lines' /\
  forall t r r', nth_error lines t = Some r -> nth_error lines' t = Some r' ->
    r_day r = r_day r' /\ r_date r = r_date r' /\ map (fun x => snd (fst x)) (r_camps r) = map (fun x => snd (fst x)) (r_camps r') /\
    r_data r = r_data r' /\ r_raw r = r_raw r' /\ r_debt r = r_debt r' /\
    (ig_closures (in_geo inp) = Some [] -> r_total r = r_total r').
Proof.
  intros H H' N' F Mc. unfold run_script in H. destruct (set_up S o inp g) as [w|] eqn:U; [|discriminate]. cbn [bind] in H.
  destruct (foldM _ _ _) as [[[[[sp0 d0] e0] g0] ls]|] eqn:E0 in H; [|discriminate]. cbn [bind] in H. injection H as <- <-.
  apply loop_lines in E0 as (_ & L & Ls).
  destruct (script_raw_lines _ _ _ _ _ _ _ _ H' N' F) as (w' & st0' & k0' & lines' & St' & Fr' & R' & E' & L' & Ls').
  assert (Np' : (0 < List.length gs)%nat) by (destruct gs; [congruence|cbn; lia]).
  destruct (started_one _ _ _ _ _ _ _ _ St' N' R') as (b & gb & pb & B1 & B2 & B3 & B4 & B5 & B6).
  assert (Lk : Like false true 0 empty_eco b). { split; [reflexivity|exact B1|congruence|]. unfold count. rewrite B1, B3. reflexivity. }
  assert (Sc : same_camps S 1 (s_DefaultMoveChance S)) by (right; split; [unfold Qle; cbn; lia|exact Mc]).
  pose proof U as U'. rewrite serial_setup in U'.
  destruct (setup_like false true 0 _ _ _ _ _ _ _ _ _ _ _ _ _ _ _ Sc (adder_serial S) adder_serial_insert (adder_par S) adder_par_insert Lk U' B4) as (X1 & X2 & X3 & X4 & X5 & X6).
  destruct B5 as (B51 & B52 & B53 & B54 & B55).
  assert (Ws : w_start w' = w_start w) by congruence. assert (We : w_end w' = w_end w) by congruence. assert (Wd : w_data w' = w_data w) by congruence. assert (Wc : w_camps w' = w_camps w) by congruence.
  assert (K : Z.of_nat (num_agents (w_eco w)) = k0').
  { rewrite <- (rd_people _ _ _ _ R'). rewrite <- (started_people _ _ _ _ _ _ _ R' B6 Np' _ _ _ St' N' eq_refl).
    destruct X6 as [Y1 Y2 _ Y3]. unfold count in Y3. rewrite Y1, Y2 in Y3. lia. }
  exists lines'. split; [rewrite E', Wc; reflexivity|]. split; [congruence|].
  intros t r r' Hr Hr'. destruct (Ls t r Hr) as (sp & d & e & g1 & Sim & X). destruct (Ls' t r' Hr') as (sp' & d' & st' & e' & Sim' & Ie' & X').
  destruct (serial_chain _ _ _ _ _ F _ _ _ _ _ Sim) as (k & Ch & Na).
  destruct (simulated_ready _ _ _ _ _ _ _ _ _ _ F Np' R' _ _ _ _ Sim') as (k' & Ch' & Rt' & Cn'). specialize (Cn' ltac:(lia)).
  pose proof (lo_total _ _ _ _ _ _ _ _ (report_spec _ _ _ _ _ _ _ _ _ _ _ _ U Sim X)) as T.
  pose proof (pl_total _ _ _ _ _ _ _ _ (par_report_spec _ _ _ _ _ _ _ _ _ _ _ _ F Fr' Rt' Cn' Ch' Ie' X')) as T'.
  rewrite Wd in Ch'. destruct (chain_fun _ _ _ _ _ _ _ _ _ Ch Ch') as (<- & <- & <-). rewrite Ws, Wc in X'.
  destruct (serial_columns _ _ _ _ _ _ _ _ _ _ X X') as (Y1 & Y2 & Y3 & Y4 & Y5 & Y6). repeat (split; [assumption|]).
  intro Cl. rewrite T, (T' Cl), (rd_people _ _ _ _ Rt'). unfold num_agents in *. lia.
Qed.

(** The camps of the header are those of the network on every process. *)
Lemma camps_view p ins S dm d camps a : adder p ins -> forall b, e_par (fst a) = p ->
  foldM (fun st c => let '(e, g) := st in i <- lm_index e c ;; initial_with ins S dm d i e g) camps a = Ok b -> view (fst b) = view (fst a) /\ e_par (fst b) = p.
Proof.
  intros Ad b P H. assert (X : e_par (fst a) = p -> view (fst b) = view (fst a) /\ e_par (fst b) = p); [|exact (X P)]. clear P.
  eapply (foldM_rel (fun a b : eco * rng => e_par (fst a) = p -> view (fst b) = view (fst a) /\ e_par (fst b) = p)); [| | |exact H].
  - auto.
  - intros x y z A B C. destruct (A C) as [D E]. destruct (B E) as [G I]. split; [congruence|exact I].
  - clear - Ad. intros [e g] c [e' g'] _ H P. cbn [fst] in *. destruct (lm_index e c) as [i|]; [|discriminate]. cbn [bind] in H. unfold initial_with in H.
    destruct (s_EmptyCampsOnDay0 S); [injection H as <- <-; auto|]. destruct (loc_of e i) as [l|]; [|discriminate]. cbn [bind] in H.
    destruct (if s_InsertDayZero S then _ else _) in H; [|discriminate]. cbn [bind] in H. destruct (loc_attrs e l) in H; [|discriminate]. cbn [bind] in H.
    destruct (py_int _) in H; [|discriminate]. cbn [bind] in H. unfold spawn_n_with in H.
    assert (X : e_par (fst (e, g)) = p -> view (fst (e', g')) = view (fst (e, g)) /\ e_par (fst (e', g')) = p); [|exact (X P)].
    eapply (foldM_rel (fun a b : eco * rng => e_par (fst a) = p -> view (fst b) = view (fst a) /\ e_par (fst b) = p)); [| | |exact H].
    + auto.
    + intros x y z A B C. destruct (A C) as [D E]. destruct (B E) as [G I]. split; [congruence|exact I].
    + intros [x gx] k [y gy] _ Hs Px. cbn [fst] in *. destruct (loc_of x i) in Hs; [|discriminate]. cbn [bind] in Hs. destruct (draw_samples _ _ _) as [[at_ g3]|] in Hs; [|discriminate].
      cbn [bind] in Hs. destruct (ins i at_ x) as [x1|] eqn:Ei in Hs; [|discriminate]. cbn [bind] in Hs. injection Hs as <- <-. apply Ad in Ei as (K1 & K2 & _); [|exact Px]. split; congruence.
Qed.
Theorem par_started_camps S o inp gs w st : started S o inp gs w st -> gs <> [] ->
  List.length st = List.length gs /\
  (forall e g, In (e, g) st -> w_camps w = map (fun l => sval (l_name l)) (filter l_camp (e_locations e))) /\
  (exists n, read_sim_period (in_period inp) = Ok (w_start w, n) /\ w_end w = if (0 <? in_days inp)%Z then in_days inp else n).
Proof.
  intros St N. unfold started in St.
  assert (Each : forall e g, In (e, g) st -> w_camps w = get_camp_names e /\ (exists n, read_sim_period (in_period inp) = Ok (w_start w, n) /\ w_end w = if (0 <? in_days inp)%Z then in_days inp else n)).
  { intros e g I. apply In_nth_error in I as [i I]. destruct (Forall2_nth_inv _ _ _ _ _ St I) as ([e0 g0] & Hx & p & X & Y & W1 & W2 & _ & _ & W5). cbn [fst snd] in X.
    assert (P0 : e_par e0 = true). { apply nth_error_In, (in_map fst) in Hx. cbn [fst] in Hx. now apply start_total in Hx as (_ & _ & _ & ->). }
    apply par_parts in X as (_ & X & E). injection Y as -> ->. rewrite E. cbn [p_eco]. apply setup_parts in X as (e1 & g1 & ig & e2 & I1 & I2 & I3 & I4 & I5 & _).
    rewrite <- W1, <- W2, <- W5. split; [|exact I5]. rewrite I4. symmetry. apply view_camps.
    assert (P2 : e_par e2 = true).
    { apply input_spec in I1 as (_ & M & _). apply meta_par in M. destruct (in_agents inp) as [rows|]; [|injection I2 as <-; congruence].
      change (par_read_agents S rows e1 = Ok e2) in I2. apply grow_read in I2 as (k & _ & M' & _). apply meta_par in M'. congruence. }
    destruct (camps_view true par_insert_agent S (in_dm inp) (w_data (p_world p)) _ (e2, g1) adder_par_insert _ P2 I3) as [V _]. exact V. }
  split.
  - rewrite <- (Forall2_len _ _ _ St). unfold pstart. rewrite combine_length, map_length, seq_length. lia.
  - split; [intros e g I; exact (proj1 (Each e g I))|]. destruct gs as [|g gs]; [congruence|]. unfold pstart in St. cbn [List.length seq map combine] in St.
    inversion St as [|x [e ge] l m _ _ E1 E2]; subst. exact (proj2 (Each e ge (or_introl eq_refl))).
Qed.
