(** * RunProofs: the lines the main program prints *)

From Coq Require Import Lia Lqa Qabs.
From Verif Require Import Base State Moving Crawling Scoring Diagnostics Flee DataTable Spawning InputGeography Dates DataFiles
  Analysis RunScript Api SpecAgents SpecHistory SpecNetwork SpecDates SpecData SpecRun Lemmas Inv InvMoves InvStruct Frames Streams ScoreFrames
  CoreProofs NetworkProofs DateProofs DataProofs SpecSpawn SpawnProofs AnalysisProofs Pflee ParCounts.
From Verif Require Import Base.
Local Open Scope string_scope.
Local Open Scope Q_scope.
Local Open Scope list_scope.

(** ** Steps of a reachable state *)

Lemma reachable_step o S c e g e' g' : reachable o e g -> step o S c e g = Ok (e', g') -> reachable o e' g'.
Proof.
  intros (h & g0 & R) H. exists (h ++ [(S, c)]), g0. unfold run in *. rewrite foldM_app, R. cbn [bind foldM fst snd]. rewrite H. reflexivity.
Qed.
Lemma reachable_run o h e g e' g' : reachable o e g -> run o h e g = Ok (e', g') -> reachable o e' g'.
Proof. intros (h0 & g0 & R) H. exists (h0 ++ h), g0. unfold run in *. rewrite foldM_app, R. exact H. Qed.
Lemma run_one o S c e g : run o [(S, c)] e g = step o S c e g.
Proof. unfold run. cbn [foldM fst snd]. destruct (step o S c e g) as [[e' g']|]; reflexivity. Qed.
Lemma run_cons o S c h e g : run o ((S, c) :: h) e g = bind (step o S c e g) (fun st => run o h (fst st) (snd st)).
Proof. unfold run. cbn [foldM fst snd]. destruct (step o S c e g) as [[e' g']|]; reflexivity. Qed.

(** ** Setting up *)

Lemma initial_fold S dm d : forall camps o e g e' g', reachable o e g ->
  foldM (fun st c => let '(e, g) := st in i <- lm_index e c ;; add_initial_refugees S dm d i e g) camps (e, g) = Ok (e', g') ->
  reachable o e' g' /\ e_time e' = e_time e /\ Streams g g'.
Proof.
  induction camps as [|c camps IH]; intros o e g e' g' R H; cbn [foldM] in H.
  - injection H as <- <-. split; [exact R|]. split; [reflexivity|]. repeat split.
  - destruct (lm_index e c) as [i|]; [|discriminate]. cbn [bind] in H.
    destruct (add_initial_refugees S dm d i e g) as [[e1 g1]|] eqn:E; [|discriminate]. cbn [bind] in H.
    assert (St : step o S (OAddInitialRefugees dm d i) e g = Ok (e1, g1)) by exact E.
    apply (IH o) in H as (A & B & C); [|eapply reachable_step; eauto].
    split; [exact A|]. split; [rewrite B; apply step_clock in St; cbn [is_evolve] in St; lia|].
    apply step_streams in St. destruct St as (X & Y & Z1), C as (X' & Y' & Z2). repeat split; congruence.
Qed.

Lemma corrections_keep start file d d' : read_corrections start file d = Ok d' ->
  d_day0 d' = d_day0 d /\ d_start_empty d' = d_start_empty d.
Proof.
  unfold read_corrections. destruct file as [rows|]; [|intro H; now injection H as <-]. intro H.
  apply (foldM_rel (fun a b : dtable => d_day0 b = d_day0 a /\ d_start_empty b = d_start_empty a)) in H; auto.
  - intros a b c [A B] [C D]. split; congruence.
  - clear. intros d r d' _ H. unfold correction_row in H. destruct (1 <? List.length r)%nat; [|injection H as <-; auto].
    do 2 (destruct (of_option _ _) in H; [|discriminate]; cbn [bind] in H).
    destruct (correct_level1_text _ _ _ _) as [[d1 q]|] eqn:E in H; [|discriminate]. cbn [bind] in H. injection H as <-.
    unfold correct_level1_text in E. destruct (find_header _ _ _) in E; [|discriminate]. cbn [bind] in E.
    destruct (subtract_dates _ _) in E; [|discriminate]. cbn [bind] in E. unfold correct_level1 in E.
    repeat (rstep E; try discriminate); try (injection E as <- <-; auto).
Qed.

Lemma set_up_spec S o inp g w : set_up S o inp g = Ok w ->
  reachable o (w_eco w) (w_rng w) /\ e_time (w_eco w) = 0%Z /\ Streams g (w_rng w) /\
  d_day0 (w_data w) = [] /\ d_start_empty (w_data w) = (if s_EmptyCampsOnDay0 S then 1 else 0)%Z.
Proof.
  unfold set_up. intro H. destruct (read_sim_period (in_period inp)) as [[start n]|]; [|discriminate]. cbn [bind] in H. cbv zeta in H.
  destruct (store_input S o (in_factor inp) (in_geo inp) (in_changes inp) empty_eco g) as [[[e g1] ig]|] eqn:E1; [|discriminate]. cbn [bind] in H.
  assert (R1 : step o S (OStoreInput (in_factor inp) (in_geo inp) (in_changes inp)) empty_eco g = Ok (e, g1)) by (cbn [step]; rewrite E1; reflexivity).
  destruct (match in_agents inp with Some rows => _ | None => _ end) as [e1|] eqn:E2; [|discriminate]. cbn [bind] in H.
  assert (R2 : reachable o e1 g1 /\ e_time e1 = 0%Z).
  { assert (R : reachable o e g1). { eapply reachable_step; [|exact R1]. exists [], g. reflexivity. }
    assert (T : e_time e = 0%Z). { apply step_clock in R1. cbn [is_evolve] in R1. rewrite R1. reflexivity. }
    destruct (in_agents inp) as [rows|]; [|injection E2 as <-; auto].
    assert (R2 : step o S (OReadAgents rows) e g1 = Ok (e1, g1)) by (cbn [step]; rewrite E2; reflexivity).
    split; [eapply reachable_step; eauto|]. apply step_clock in R2. cbn [is_evolve] in R2. lia. }
  destruct (new_table _ _ _ _ _) as [d0|] eqn:E3; [|discriminate]. cbn [bind] in H.
  destruct (read_corrections _ _ _) as [d|] eqn:E4; [|discriminate]. cbn [bind] in H.
  destruct (foldM _ _ _) as [[e2 g2]|] eqn:E5 in H; [|discriminate]. cbn [bind] in H. injection H as <-. cbn [w_eco w_rng w_data].
  apply (initial_fold S (in_dm inp) d _ o) in E5 as (A & B & C); [|apply R2].
  split; [exact A|]. split; [rewrite B; apply R2|]. split.
  { apply step_streams in R1. destruct R1 as (X & Y & Z1), C as (X' & Y' & Z2). repeat split; congruence. }
  apply corrections_keep in E4 as [-> ->]. unfold new_table in E3. destruct (foldM _ _ _) as [[h ts]|] in E3; [|discriminate].
  cbn [bind] in E3. injection E3 as <-. cbn [d_day0 d_start_empty]. auto.
Qed.

(** The camps are those of the network when the program starts. *)
Definition flags (e : eco) : list (pystr * bool) := map (fun l => (l_name l, l_camp l)) (e_locations e).
Lemma flags_upd i e attrs e' : insert_agent i attrs e = Ok e' -> flags e' = flags e.
Proof.
  unfold insert_agent, append_agent. intro H. destruct (loc_of e i) as [l|]; [|discriminate]. cbn [bind] in H. injection H as <-.
  unfold flags. cbn [e_locations up_e_agents up_loc up_e_locations]. apply map_upd. intro x. now destruct (e_par e).
Qed.
Lemma flags_initial S dm d i e g e' g' : add_initial_refugees S dm d i e g = Ok (e', g') -> flags e' = flags e.
Proof.
  unfold add_initial_refugees. intro H. destruct (s_EmptyCampsOnDay0 S); [injection H as <- <-; reflexivity|].
  destruct (loc_of e i) as [l|]; [|discriminate]. cbn [bind] in H. destruct (if s_InsertDayZero S then _ else _) in H; [|discriminate]. cbn [bind] in H.
  destruct (loc_attrs e l) in H; [|discriminate]. cbn [bind] in H. destruct (py_int _) in H; [|discriminate]. cbn [bind] in H.
  unfold spawn_n in H. eapply (foldM_rel (fun a b : eco * rng => flags (fst b) = flags (fst a))) in H; [exact H|reflexivity|congruence|].
  intros [e1 g1] n [e2 g2] _ Hs. unfold spawn_one in Hs. destruct (loc_of e1 i) in Hs; [|discriminate]. cbn [bind] in Hs.
  destruct (draw_samples _ _ _) as [[at_ g3]|] in Hs; [|discriminate]. cbn [bind] in Hs. destruct (insert_agent i at_ e1) as [e3|] eqn:E in Hs; [|discriminate].
  cbn [bind] in Hs. injection Hs as <- <-. cbn [fst]. eapply flags_upd; exact E.
Qed.
Lemma flags_camps e e' : flags e' = flags e -> get_camp_names e' = get_camp_names e.
Proof.
  unfold flags, get_camp_names. generalize (e_locations e) (e_locations e'). clear.
  induction l as [|x l IH]; intros [|x' l'] H; try discriminate; [reflexivity|]. cbn [map] in H. injection H as N C H. cbn [filter]. rewrite C.
  destruct (l_camp x); cbn [map]; [unfold lname at 1 3; rewrite N|]; now rewrite (IH l' H).
Qed.

Lemma set_up_camps S o inp g w : set_up S o inp g = Ok w ->
  w_camps w = map (fun l => sval (l_name l)) (filter l_camp (e_locations (w_eco w))) /\
  (exists n, read_sim_period (in_period inp) = Ok (w_start w, n) /\ w_end w = if (0 <? in_days inp)%Z then in_days inp else n).
Proof.
  unfold set_up. intro H. destruct (read_sim_period (in_period inp)) as [[start n]|]; [|discriminate]. cbn [bind] in H. cbv zeta in H.
  destruct (store_input S o (in_factor inp) (in_geo inp) (in_changes inp) empty_eco g) as [[[e g1] ig]|] eqn:E1; [|discriminate]. cbn [bind] in H.
  destruct (match in_agents inp with Some rows => _ | None => _ end) as [e1|] eqn:E2; [|discriminate]. cbn [bind] in H.
  destruct (new_table _ _ _ _ _) as [d0|] eqn:E3; [|discriminate]. cbn [bind] in H.
  destruct (read_corrections _ _ _) as [d|] eqn:E4; [|discriminate]. cbn [bind] in H.
  destruct (foldM _ _ _) as [[e2 g2]|] eqn:E5 in H; [|discriminate]. cbn [bind] in H. injection H as <-. cbn [w_eco w_camps w_start w_end].
  split; [|eauto]. change (get_camp_names e1 = get_camp_names e2). symmetry. apply flags_camps.
  eapply (foldM_rel (fun a b : eco * rng => flags (fst b) = flags (fst a))) in E5; [exact E5|reflexivity|congruence|].
  intros [ea ga] c [eb gb] _ Hs. destruct (lm_index ea c) in Hs; [|discriminate]. cbn [bind] in Hs. cbn [fst]. eapply flags_initial; exact Hs.
Qed.

(** ** The loop *)

Lemma loop_lines fuel S o inp w : forall n sp d e g lines,
  foldM (run_day fuel S o inp w) (seq 0 n) (Spawn 0 0, w_data w, w_eco w, w_rng w, []) = Ok (sp, d, e, g, lines) ->
  simulated fuel S o inp w n sp d e g /\ List.length lines = n /\
  forall t r, nth_error lines t = Some r -> exists sp' d' e' g', simulated fuel S o inp w (Datatypes.S t) sp' d' e' g' /\
    report_day (in_idp_totals inp) (w_start w) (w_camps w) (Z.of_nat t) sp' d' e' = Ok r.
Proof.
  induction n as [|n IH]; intros sp d e g lines H.
  - cbn [seq foldM] in H. injection H as <- <- <- <- <-. split; [constructor|]. split; [reflexivity|]. intros [|t] r X; discriminate.
  - rewrite seq_S, Nat.add_0_l, foldM_app in H. destruct (foldM _ (seq 0 n) _) as [[[[[sp0 d0] e0] g0] lines0]|] eqn:E in H; [|discriminate].
    cbn [bind] in H. apply IH in E as (A & L & Ls). cbn [foldM] in H.
    destruct (run_day _ _ _ _ _ _ _) as [st|] eqn:D in H; [|discriminate]. cbn [bind] in H. injection H as ->.
    unfold run_day in D. cbv zeta in D.
    destruct (add_new_conflict_zones _ _ _ _ _) as [e1|] eqn:D1; [|discriminate]. cbn [bind] in D.
    destruct (spawn_daily_displaced _ _ _ _ _ _ _) as [[[[[m sp1] d1] e2] g2]|] eqn:D2; [|discriminate]. cbn [bind] in D.
    destruct (refresh_spawn_weights _ _) as [e3|] eqn:D3; [|discriminate]. cbn [bind] in D.
    destruct (enact_border_closures _ _ _ _ _) as [e4|] eqn:D4; [|discriminate]. cbn [bind] in D.
    destruct (evolve _ _ _ _ _) as [[e5 g5]|] eqn:D5; [|discriminate]. cbn [bind] in D.
    destruct (report_day _ _ _ _ _ _ _) as [line|] eqn:D6; [|discriminate]. cbn [bind] in D. injection D as <- <- <- <- <-.
    assert (B : simulated fuel S o inp w (Datatypes.S n) sp1 d1 e5 g5).
    { eapply One_more; [exact A| | |].
      - unfold step. rewrite D1. reflexivity.
      - exact D2.
      - rewrite run_cons. unfold step at 1. rewrite D3. cbn [bind fst snd]. rewrite run_cons. unfold step at 1. rewrite D4. cbn [bind fst snd].
        rewrite run_one. exact D5. }
    split; [exact B|]. split; [rewrite app_length, L; cbn; lia|]. intros t r Hr.
    destruct (Nat.lt_ge_cases t n) as [T|T].
    + rewrite nth_error_app1 in Hr by lia. eauto.
    + rewrite nth_error_app2 in Hr by lia. rewrite L in Hr. destruct (t - n)%nat as [|k] eqn:K; [|destruct k; discriminate].
      injection Hr as <-. replace t with n by lia. eauto 6.
Qed.

Lemma simulated_reachable fuel S o inp g0 w : set_up S o inp g0 = Ok w -> forall t sp d e g, simulated fuel S o inp w t sp d e g ->
  reachable o e g /\ e_time e = Z.of_nat t /\ Streams g0 g.
Proof.
  intros U t sp d e g H. apply set_up_spec in U as (R & T & Ss & _). induction H as [|t sp d e g e1 g1 n sp' d' e2 g2 e' g' _ IH H1 H2 H3].
  - auto.
  - destruct IH as (IR & IT & IS). pose proof (reachable_step _ _ _ _ _ _ _ IR H1) as R1.
    assert (H2' : step o S (OSpawnDailyDisplaced (in_dm inp) (Z.of_nat t) sp d) e1 g1 = Ok (e2, g2)) by (unfold step; rewrite H2; reflexivity).
    pose proof (reachable_step _ _ _ _ _ _ _ R1 H2') as R2. pose proof (reachable_run _ _ _ _ _ _ R2 H3) as R3.
    split; [exact R3|]. apply step_clock in H1 as T1. apply step_clock in H2' as T2. cbn [is_evolve] in T1, T2. split.
    + rewrite run_cons in H3. destruct (step o S ORefreshSpawnWeights e2 g2) as [[e3 g3]|] eqn:E3; [|discriminate]. cbn [bind fst snd] in H3.
      rewrite run_cons in H3. destruct (step o S (OEnactBorderClosures _ _ _) e3 g3) as [[e4 g4]|] eqn:E4; [|discriminate]. cbn [bind fst snd] in H3.
      rewrite run_one in H3. apply step_clock in E3, E4, H3. cbn [is_evolve] in E3, E4, H3. lia.
    + apply step_streams in H1, H2'. apply run_streams in H3. destruct IS as (X1 & X2 & X3), H1 as (Y1 & Y2 & Y3), H2' as (Z1 & Z2 & Z3), H3 as (V1 & V2 & V3).
      repeat split; congruence.
Qed.

(** ** Counting *)

Lemma stays_one i j a : stays i a = true -> stays j a = true -> i = j.
Proof.
  unfold stays, in_location, left_from. destruct (a_location a) as [k|k|k]; cbn; rewrite ?orb_false_r; intros A B; try discriminate;
    apply Nat.eqb_eq in A, B; congruence.
Qed.
Lemma count_or {A} (f h : A -> bool) l : (forall a, f a = true -> h a = true -> False) ->
  countZ (fun a => f a || h a)%bool l = (countZ f l + countZ h l)%Z.
Proof.
  intro D. induction l as [|a l IH]; [reflexivity|]. rewrite !countZ_cons, IH. specialize (D a). destruct (f a), (h a); cbn [orb]; try lia; exfalso; auto.
Qed.
Lemma sum_stays ags : forall is, NoDup is ->
  sumZ (map (fun i => countZ (stays i) ags) is) = countZ (fun a => existsb (fun i => stays i a) is) ags.
Proof.
  induction 1 as [|i is Hn _ IH]; cbn [map sumZ existsb].
  - induction ags as [|a ags IHa]; [reflexivity|]. rewrite countZ_cons. exact IHa.
  - rewrite count_or, IH; [reflexivity|]. intros a A B. apply existsb_exists in B as (j & Hj & B). apply Hn. now rewrite (stays_one i j a).
Qed.
Lemma count_le {A} (f : A -> bool) l : (countZ f l <= Z.of_nat (List.length l))%Z.
Proof. induction l as [|a l IH]; [reflexivity|]. rewrite countZ_cons. cbn [List.length]. destruct (f a); lia. Qed.
Lemma count_ext {A} (f h : A -> bool) l : (forall a, In a l -> f a = h a) -> countZ f l = countZ h l.
Proof. induction l as [|a l IH]; intro E; [reflexivity|]. rewrite !countZ_cons, (E a) by (now left). rewrite IH; [reflexivity|]. intros; apply E; now right. Qed.

Lemma idps_spec o e g : reachable o e g -> num_idps e = how_many (in_idp_camp e) (e_agents e).
Proof.
  intro R. pose proof (location_counts o e g R) as C. rewrite how_many_countZ. unfold num_idps.
  set (idp i := match nth_error (e_locations e) i with Some l => l_idpcamp l | None => false end).
  assert (X : forall ls n, (forall i l, nth_error ls i = Some l -> nth_error (e_locations e) (n + i) = Some l) ->
    sumZ (map l_numAgents (filter l_idpcamp ls)) = sumZ (map (fun i => countZ (stays i) (e_agents e)) (filter idp (seq n (List.length ls))))).
  { induction ls as [|l ls IH]; intros n E; [reflexivity|]. cbn [List.length seq filter].
    assert (E0 : nth_error (e_locations e) n = Some l) by (specialize (E 0%nat l eq_refl); now rewrite Nat.add_0_r in E).
    assert (idp n = l_idpcamp l) as -> by (unfold idp; now rewrite E0).
    assert (IH' : sumZ (map l_numAgents (filter l_idpcamp ls)) = sumZ (map (fun i => countZ (stays i) (e_agents e)) (filter idp (seq (Datatypes.S n) (List.length ls))))).
    { apply IH. intros i l' Hi. rewrite <- (E (Datatypes.S i) l' Hi). f_equal. lia. }
    destruct (l_idpcamp l); [|exact IH']. cbn [map sumZ]. rewrite IH'. f_equal.
    destruct (C n l E0) as [-> _]. rewrite how_many_countZ. reflexivity. }
  rewrite (X (e_locations e) 0%nat) by auto. rewrite sum_stays by (apply NoDup_filter, seq_NoDup).
  apply count_ext. intros a Ha. unfold in_idp_camp.
  assert (K : forall i, stays i a = true <-> a_location a = PLoc i \/ a_location a = PGone i).
  { intro i. unfold stays, in_location, left_from. destruct (a_location a) as [k|k|k]; cbn; rewrite ?orb_false_r; rewrite ?Nat.eqb_eq; split; try (intros [H|H]); try congruence; try discriminate; auto. }
  assert (Y : forall i, a_location a = PLoc i \/ a_location a = PGone i ->
    existsb (fun j => stays j a) (filter idp (seq 0 (List.length (e_locations e)))) = idp i).
  { intros i Hi. apply K in Hi. destruct (idp i) eqn:Di.
    - apply existsb_exists. exists i. split; [|exact Hi]. apply filter_In. split; [|exact Di]. apply in_seq. split; [lia|].
      unfold idp in Di. destruct (nth_error (e_locations e) i) eqn:N; [|discriminate]. apply nth_error_Some. congruence.
    - apply Bool.not_true_is_false. intro T. apply existsb_exists in T as (j & Hj & Sj). apply filter_In in Hj as [_ Dj].
      rewrite (stays_one j i a Sj Hi) in Dj. congruence. }
  destruct (a_location a) as [i|k|i] eqn:L.
  - apply (Y i). now left.
  - apply Bool.not_true_is_false. intro T. apply existsb_exists in T as (j & _ & Sj). apply K in Sj as [Sj|Sj]; discriminate.
  - apply (Y i). now right.
Qed.

(** ** The data *)

(** The same tables, whatever is registered as the numbers of day 0 *)
Definition same_tables (d0 d : dtable) : Prop :=
  d_header d = d_header d0 /\ d_tables d = d_tables d0 /\ d_start_empty d = d_start_empty d0.
Lemma same_refl d : same_tables d d. Proof. repeat split. Qed.
Lemma same_trans a b c : same_tables a b -> same_tables b c -> same_tables a c.
Proof. intros (A & B & C) (A' & B' & C'). repeat split; congruence. Qed.
Lemma same_set0 f d : same_tables d (set_day0 f d). Proof. repeat split. Qed.

Lemma field_any d0 d name day : d_day0 d0 = [] -> same_tables d0 d ->
  get_field d name day true = rmap (fun v => v - day0_get name d * d_start_empty d0)%Z (get_field d0 name day true).
Proof.
  intros E0 (A & B & C). unfold get_field. rewrite A, B, C. destruct (find_header name (d_header d0) 0) as [i|]; [|reflexivity]. cbn [bind].
  destruct (nth_error (d_tables d0) i) as [t|]; [|reflexivity]. cbn [of_option bind]. destruct (interpolate t day) as [v|]; [|reflexivity]. cbn [bind rmap].
  unfold day0_get at 2. rewrite E0. cbn [dict_get]. f_equal. lia.
Qed.
Lemma sums_any d0 d : d_day0 d0 = [] -> same_tables d0 d -> forall names, exists k, forall day,
  sum_fields d day true names = rmap (fun v => v - k)%Z (sum_fields d0 day true names).
Proof.
  intros E0 St. induction names as [|n names (k & IH)]; [exists 0%Z; reflexivity|]. exists (day0_get n d * d_start_empty d0 + k)%Z. intro day.
  cbn [sum_fields]. rewrite (field_any d0 d n day E0 St), IH. destruct (get_field d0 n day true) as [v|]; [|reflexivity]. cbn [rmap bind].
  destruct (sum_fields d0 day true names) as [s|]; [|reflexivity]. cbn [rmap bind]. f_equal. lia.
Qed.
Lemma total_any d0 d sc : d_day0 d0 = [] -> same_tables d0 d -> exists k, forall day,
  total_on d day true sc = rmap (fun v => v - k)%Z (total_on d0 day true sc).
Proof.
  intros E0 St. unfold total_on. destruct sc.
  - destruct (sums_any d0 d E0 St (tl (d_header d0))) as (k & K). exists k. intro day. rewrite <- K. destruct St as (-> & _). reflexivity.
  - eexists. intro day. apply field_any; auto.
Qed.
Lemma total_growth d0 d sc t v1 v0 : d_day0 d0 = [] -> same_tables d0 d ->
  total_on d t true sc = Ok v1 -> total_on d 0 true sc = Ok v0 ->
  exists u1 u0, total_on d0 t true sc = Ok u1 /\ total_on d0 0 true sc = Ok u0 /\ (v1 - v0 = u1 - u0)%Z.
Proof.
  intros E0 St H1 H0. destruct (total_any d0 d sc E0 St) as (k & K). rewrite K in H1, H0.
  destruct (total_on d0 t true sc) as [u1|]; [|discriminate]. destruct (total_on d0 0 true sc) as [u0|]; [|discriminate].
  injection H1 as <-. injection H0 as <-. exists u1, u0. repeat split; lia.
Qed.

Lemma step_same full sc d n name d' n' : day0_step full sc (d, n) name = Ok (d', n') -> same_tables d d'.
Proof.
  unfold day0_step. destruct (get_field d name 0 full) as [p|]; [|discriminate]. cbn [bind]. cbv zeta. intro H.
  assert (X : same_tables d (if (day0_get name d =? 0)%Z then set_day0 (dict_set name p) d else d)) by (destruct (day0_get name d =? 0)%Z; [apply same_set0|apply same_refl]).
  destruct sc; injection H as <- <-; [|exact X]. exact X.
Qed.
Lemma daily_same d t sc diff d' : get_daily_difference d t true sc = Ok (diff, d') -> same_tables d d'.
Proof.
  intro H. destruct (Z.eq_dec t 0) as [->|N].
  - unfold get_daily_difference in H. cbn [Z.eqb] in H. destruct (foldM _ _ _) as [[d1 n]|] eqn:E in H; [|discriminate]. cbn [bind] in H.
    assert (X : same_tables d d1).
    { eapply (foldM_rel (fun a b : dtable * Z => same_tables (fst a) (fst b))) in E; [|intros; apply same_refl|intros a b c; apply same_trans|].
      - eapply same_trans; [|exact E]. apply same_set0.
      - intros [a n0] name [b n1] _ Hs. cbn [fst]. eapply step_same; exact Hs. }
    destruct sc; [injection H as <- <-; exact X|]. destruct (get_field d1 "total" 0 true) as [n1|]; [|discriminate]. cbn [bind] in H.
    apply (f_equal (fun r => match r with Ok p => snd p | Err _ => d1 end)) in H. cbn [snd] in H. subst d'.
    eapply same_trans; [exact X|]. apply same_set0.
  - apply difference_spec in H as [-> _]; [apply same_refl|exact N].
Qed.

(** The difference does not change when it is asked for again. *)
Lemma fold_same_sum sc : forall names a b n a' na b' nb, same_tables a b -> d_start_empty a = 0%Z ->
  foldM (day0_step true sc) names (a, n) = Ok (a', na) -> foldM (day0_step true sc) names (b, n) = Ok (b', nb) -> na = nb /\ same_tables a' b'.
Proof.
  induction names as [|x names IH]; intros a b n a' na b' nb St E0 Ha Hb; cbn [foldM] in Ha, Hb.
  - injection Ha as <- <-. injection Hb as <- <-. auto.
  - destruct (day0_step true sc (a, n) x) as [[a1 n1]|] eqn:Ea; [|discriminate]. destruct (day0_step true sc (b, n) x) as [[b1 m1]|] eqn:Eb; [|discriminate].
    cbn [bind] in Ha, Hb. pose proof (step_same _ _ _ _ _ _ _ Ea) as Sa. pose proof (step_same _ _ _ _ _ _ _ Eb) as Sb.
    assert (n1 = m1) as ->.
    { unfold day0_step in Ea, Eb.
      assert (G : get_field b x 0 true = get_field a x 0 true).
      { unfold get_field. destruct St as (-> & -> & ->). rewrite E0. destruct (find_header x (d_header a) 0); [|reflexivity]. cbn [bind].
        destruct (of_option _ _); [|reflexivity]. cbn [bind]. destruct (interpolate _ _); [|reflexivity]. cbn [bind]. f_equal. lia. }
      rewrite G in Eb. destruct (get_field a x 0 true) as [p|]; [|discriminate]. cbn [bind] in Ea, Eb. cbv zeta in Ea, Eb.
      destruct sc; injection Ea as _ <-; injection Eb as _ <-; reflexivity. }
    eapply IH; [| |exact Ha|exact Hb].
    + destruct St as (A & B & C), Sa as (A1 & B1 & C1), Sb as (A2 & B2 & C2). repeat split; congruence.
    + destruct Sa as (_ & _ & ->). exact E0.
Qed.
Lemma asked_again d t sc x d1 y d2 : d_start_empty d = 0%Z \/ d_start_empty d = 1%Z ->
  get_daily_difference d t true sc = Ok (x, d1) -> get_daily_difference d1 t true sc = Ok (y, d2) -> y = x.
Proof.
  intros Se H1 H2. destruct (Z.eq_dec t 0) as [->|N].
  - pose proof (daily_same _ _ _ _ _ H1) as St. assert (Se1 : d_start_empty d1 = d_start_empty d) by apply St.
    unfold get_daily_difference in H1, H2. cbn [Z.eqb] in H1, H2. rewrite Se1 in H2. assert (Hd : d_header d1 = d_header d) by apply St. rewrite Hd in H2.
    destruct (foldM _ _ (set_day0 _ d, _)) as [[a na]|] eqn:E1 in H1; [|discriminate]. cbn [bind] in H1.
    destruct (foldM _ _ (set_day0 _ d1, _)) as [[b nb]|] eqn:E2 in H2; [|discriminate]. cbn [bind] in H2.
    assert (Fst : forall {A B} (p q : A) (r s : B), Ok (p, r) = Ok (q, s) -> p = q) by (intros A B p q r s E; congruence).
    destruct Se as [Se|Se].
    + assert (St' : same_tables (set_day0 (dict_set "total" 0%Z) d) (set_day0 (dict_set "total" 0%Z) d1)) by exact St.
      destruct (fold_same_sum sc _ _ _ _ _ _ _ _ St' Se E1 E2) as [-> Sab]. destruct sc.
      * apply Fst in H1, H2. congruence.
      * assert (Sa : d_start_empty a = 0%Z).
        { eapply (foldM_rel (fun a b : dtable * Z => same_tables (fst a) (fst b))) in E1; [|intros; apply same_refl|intros u v c; apply same_trans|].
          - destruct E1 as (_ & _ & E1). cbn [fst] in E1. rewrite E1. exact Se.
          - intros [u n0] name [v n1] _ Hs. cbn [fst]. eapply step_same; exact Hs. }
        assert (G : get_field b "total" 0 true = get_field a "total" 0 true).
        { unfold get_field. destruct Sab as (-> & -> & ->). rewrite Sa. destruct (find_header _ (d_header a) 0); [|reflexivity]. cbn [bind].
          destruct (of_option _ _); [|reflexivity]. cbn [bind]. destruct (interpolate _ _); [|reflexivity]. cbn [bind]. f_equal. lia. }
        rewrite G in H2. destruct (get_field a "total" 0 true) as [n1|]; [|discriminate]. cbn [bind] in H1, H2. apply Fst in H1, H2. congruence.
    + rewrite Se in H1, H2. change (1 - 1)%Z with 0%Z in H1, H2. destruct sc.
      * apply Fst in H1, H2. lia.
      * destruct (get_field a "total" 0 true) as [n1|]; [|discriminate]. destruct (get_field b "total" 0 true) as [n2|]; [|discriminate].
        cbn [bind] in H1, H2. apply Fst in H1, H2. lia.
  - apply difference_spec in H1 as D1; [|exact N]. destruct D1 as [-> _]. congruence.
Qed.

(** ** Day by day *)

Lemma driven_days fuel S o inp w : ~ from_data S -> forall t sp d e g, simulated fuel S o inp w t sp d e g ->
  d = w_data w /\ sp = Spawn 0 0.
Proof.
  intros F t sp d e g H. induction H as [|t sp d e g e1 g1 n sp' d' e2 g2 e' g' _ IH H1 H2 H3]; [auto|].
  assert (X : sp' = sp /\ d' = d); [|intuition congruence].
  unfold spawn_daily_displaced in H2. unfold from_data in F. destruct (s_conflict_driven_spawning S).
  - destruct (spawn_loop _ _ _ _ _) as [[[m ea] ga]|] in H2; [|discriminate]. cbn [bind] in H2. injection H2 as <- <- <- <- <-. auto.
  - destruct (s_flood_driven_spawning S); [|exfalso; auto].
    destruct (spawn_loop _ _ _ _ _) as [[[m ea] ga]|] in H2; [|discriminate]. cbn [bind] in H2. injection H2 as <- <- <- <- <-. auto.
Qed.

Lemma data_step S dm t sp d e g n sp' d' e' g' : from_data S -> spawn_daily_displaced S dm t sp d e g = Ok (n, sp', d', e', g') ->
  exists diff1 d1 diff2, get_daily_difference d t true (s_sum_from_camps S) = Ok (diff1, d1) /\
    get_daily_difference d1 t true (s_sum_from_camps S) = Ok (diff2, d').
Proof.
  intros [F1 F2] H. unfold spawn_daily_displaced in H. rewrite F1, F2 in H.
  destruct (get_daily_difference d t true (s_sum_from_camps S)) as [[diff1 d1]|] eqn:E1; [|discriminate]. cbn [bind] in H.
  destruct (get_daily_difference d1 t true (s_sum_from_camps S)) as [[diff2 d2]|] eqn:E2; [|discriminate]. cbn [bind] in H. cbv zeta in H.
  destruct (settle_debt _ _) as [m debt]. destruct (pick_spawn_locations _ _ _) as [[locs g1]|] in H; [|discriminate]. cbn [bind] in H.
  destruct (spawn_at _ _ _ _) as [[e2 g2]|] in H; [|discriminate]. cbn [bind] in H. injection H as _ _ <- _ _. eauto.
Qed.

Definition day0_full (d0 d : dtable) : Prop :=
  forall k z, In k (d_header d0) -> k <> "total" -> get_field d0 k 0 true = Ok z -> day0_get k d = z.
Lemma data_days fuel S o inp w : from_data S -> d_day0 (w_data w) = [] -> forall t sp d e g, simulated fuel S o inp w t sp d e g ->
  day0_inv (w_data w) d /\ ((t = 0%nat /\ d = w_data w /\ sp = Spawn 0 0) \/ ((0 < t)%nat /\ day0_full (w_data w) d)).
Proof.
  intros F E0 t sp d e g H. induction H as [|t sp d e g e1 g1 n sp' d' e2 g2 e' g' _ IH H1 H2 H3].
  - split; [|left; auto]. split; [reflexivity|]. split; [reflexivity|]. split; [reflexivity|]. intros name N. split.
    + intros _ z _. left. unfold day0_get. now rewrite E0.
    + intros _. unfold day0_get. now rewrite E0.
  - apply data_step in H2 as (x & d1 & y & D1 & D2); [|exact F]. destruct IH as [I C]. destruct t as [|t].
    + change (Z.of_nat 0) with 0%Z in D1, D2. apply (day0_daily (w_data w)) in D1 as [I1 _]; auto. apply (day0_daily (w_data w)) in D2 as [I2 X2]; [|exact E0|exact I1].
      split; [exact I2|]. right. split; [lia|exact X2].
    + apply difference_spec in D1 as [-> _]; [|lia]. apply difference_spec in D2 as [-> _]; [|lia].
      split; [exact I|]. right. split; [lia|]. destruct C as [(? & _)|C]; [discriminate|apply C].
Qed.

Lemma field_in d name day z : get_field d name day true = Ok z -> In name (d_header d).
Proof.
  unfold get_field. destruct (find_header name (d_header d) 0) as [i|] eqn:E; [|discriminate]. intros _. revert E. generalize 0%nat.
  induction (d_header d) as [|h hs IH]; intros n E; [discriminate|]. cbn in E. destruct (String.eqb_spec h name) as [->|]; [now left|right; eauto].
Qed.
Lemma fold_defined d0 sc : d_day0 d0 = [] -> forall names d n d' n', same_tables d0 d ->
  foldM (day0_step true sc) names (d, n) = Ok (d', n') -> forall k, In k names -> exists z, get_field d0 k 0 true = Ok z.
Proof.
  intros E0. induction names as [|x names IH]; intros d n d' n' St H k Hk; [destruct Hk|]. cbn [foldM] in H.
  destruct (day0_step true sc (d, n) x) as [[d1 n1]|] eqn:E; [|discriminate]. cbn [bind] in H. destruct Hk as [->|Hk].
  - unfold day0_step in E. rewrite (field_any d0 d k 0 E0 St) in E. destruct (get_field d0 k 0 true) as [z|]; [eauto|discriminate].
  - eapply IH; [|exact H|exact Hk]. eapply same_trans; [exact St|]. eapply step_same; exact E.
Qed.
Lemma days_defined fuel S o inp w : from_data S -> d_day0 (w_data w) = [] -> forall t sp d e g, simulated fuel S o inp w t sp d e g ->
  (0 < t)%nat -> forall k, In k (d_header (w_data w)) -> exists z, get_field (w_data w) k 0 true = Ok z.
Proof.
  intros F E0 t sp d e g H T. induction H as [|t sp d e g e1 g1 n sp' d' e2 g2 e' g' Hs IH H1 H2 H3]; [lia|].
  destruct t as [|t]; [|apply IH; lia]. destruct (data_days _ _ _ _ _ F E0 _ _ _ _ _ Hs) as [_ [(_ & -> & _)|[X _]]]; [|lia].
  apply data_step in H2 as (x & d1 & y & D1 & _); [|exact F]. change (Z.of_nat 0) with 0%Z in D1.
  unfold get_daily_difference in D1. cbn [Z.eqb] in D1. destruct (foldM _ _ _) as [[a na]|] eqn:E in D1; [|discriminate].
  eapply fold_defined; [exact E0| |exact E]. apply same_set0.
Qed.

Lemma shown_spec fuel S o inp w g0 t sp d e g camp z : set_up S o inp g0 = Ok w -> simulated fuel S o inp w (Datatypes.S t) sp d e g ->
  camp <> "total" -> get_field d camp (Z.of_nat t) true = Ok z -> data_shown S (w_data w) camp (Z.of_nat t) z.
Proof.
  intros U H N G. apply set_up_spec in U as (_ & _ & _ & E0 & Se).
  assert (D : {from_data S} + {~ from_data S}).
  { unfold from_data. destruct (s_conflict_driven_spawning S), (s_flood_driven_spawning S); auto; right; intros [? ?]; discriminate. }
  destruct D as [F|F].
  - pose proof (days_defined _ _ _ _ _ F E0 _ _ _ _ _ H ltac:(lia) camp) as Df. apply data_days in H as [I [(? & _)|[_ X]]]; auto; [discriminate|]. destruct I as (A & B & C & _).
    rewrite (field_any (w_data w) d camp _ E0) in G by (repeat split; assumption).
    destruct (get_field (w_data w) camp (Z.of_nat t) true) as [v|] eqn:V; [|discriminate]. injection G as G.
    pose proof (field_in _ _ _ _ V) as Hin. destruct (Df Hin) as (z0 & G0). rewrite (X camp z0 Hin N G0) in G. rewrite Se in G. exists v. split; [exact V|].
    destruct (s_EmptyCampsOnDay0 S); [left|right].
    + split; [exact F|]. split; [reflexivity|]. exists z0. split; [exact G0|lia].
    + split; [intros [_ ?]; discriminate|lia].
  - apply driven_days in H as [-> _]; [|exact F]. exists z. split; [exact G|]. right. split; [|reflexivity]. now intros [? _].
Qed.

(** ** One line *)

Lemma lm_called e name i : lm_index e name = Ok i -> called e name i.
Proof.
  unfold lm_index. intro H. apply of_option_ok in H. apply last_index_ok in H as [[H _]|(j & -> & J & L)]; [discriminate|]. cbn [Nat.add].
  rewrite nth_error_map in J. destruct (nth_error (e_locations e) j) as [l|] eqn:El; [|discriminate]. cbn in J. injection J as J.
  split; [eauto|]. intros j' l' Lt Hl'. apply (L j' _ Lt). rewrite nth_error_map, Hl'. reflexivity.
Qed.
Lemma lm_count o e g name z : reachable o e g -> lm_numAgents e name = Ok z ->
  exists i, called e name i /\ z = how_many (fun a => in_location i a || left_from i a)%bool (e_agents e).
Proof.
  intros R H. unfold lm_numAgents in H. destruct (lm_index e name) as [i|] eqn:E; [|discriminate]. cbn [bind] in H.
  unfold loc_of in H. destruct (nth_error (e_locations e) i) as [l|] eqn:El; [|discriminate]. cbn [of_option bind] in H. injection H as <-.
  exists i. split; [now apply lm_called|]. now apply (location_counts o e g R i l El).
Qed.
Lemma error_spec sim data : error_shown sim data (rel_error (inject_Z sim) (inject_Z data)).
Proof.
  unfold error_shown. destruct (Z_le_gt_dec data 0) as [L|G]; [left|right].
  - split; [exact L|]. rewrite rel_small; [reflexivity|]. rewrite Zle_Qle in L. change (inject_Z 0) with 0 in L. lra.
  - split; [lia|]. assert (1 <= inject_Z data) by (change 1 with (inject_Z 1); rewrite <- Zle_Qle; lia).
    eapply rounded4_comp; [|apply rounded_rel; lra]. unfold Z.sub. rewrite inject_Z_plus, inject_Z_opp. reflexivity.
Qed.

Lemma F2_mono {A B} (P R : A -> B -> Prop) l m : (forall a b, P a b -> R a b) -> Forall2 P l m -> Forall2 R l m.
Proof. intros H F. induction F; constructor; auto. Qed.
Lemma rows_spec (P : string -> Z -> Prop) (D : string -> Z -> Prop) camps sims data :
  Forall2 P camps sims -> Forall2 D camps data ->
  Forall2 (fun c (x : Z * Z * Q) => let '(s, d, err) := x in P c s /\ D c d /\ err = rel_error (inject_Z s) (inject_Z d)) camps
    (map (fun p => (fst p, snd p, rel_error (inject_Z (fst p)) (inject_Z (snd p)))) (combine sims data)).
Proof.
  intros H. revert data. induction H as [|c s cs ss Hp _ IH]; intros data Hd; inversion Hd; subst; cbn [combine map]; constructor; auto.
Qed.
Lemma rows_sums sims : forall data, List.length sims = List.length data ->
  let rows := map (fun p => (fst p, snd p, rel_error (inject_Z (fst p)) (inject_Z (snd p)))) (combine sims data) in
  map (fun x => fst (fst x)) rows = sims /\ map (fun x => snd (fst x)) rows = data /\
  sumQ (map (fun p => abs_error (inject_Z (fst p)) (inject_Z (snd p))) (combine sims data)) ==
    inject_Z (sumZ (map (fun x => Z.abs (fst (fst x) - snd (fst x))) rows)).
Proof.
  induction sims as [|s sims IH]; intros [|d data] H; try discriminate; [repeat split|]. injection H as H. destruct (IH data H) as (A & B & C).
  cbn [combine map fst snd]. rewrite A, B. split; [reflexivity|]. split; [reflexivity|]. cbn [sumQ sumZ]. rewrite C, inject_Z_plus, abs_int. reflexivity.
Qed.

Lemma report_spec fuel S o inp w g0 t sp d e g r : set_up S o inp g0 = Ok w -> simulated fuel S o inp w (Datatypes.S t) sp d e g ->
  report_day (in_idp_totals inp) (w_start w) (w_camps w) (Z.of_nat t) sp d e = Ok r -> line_of S inp w t (sp_raw sp) (sp_debt sp) e r.
Proof.
  intros U Hs H. destruct (simulated_reachable _ _ _ _ _ _ U _ _ _ _ _ Hs) as (R & _ & _). unfold report_day in H.
  destruct (mapM _ (w_camps w)) as [data|] eqn:E1 in H; [|discriminate]. cbn [bind] in H.
  destruct (mapM _ (w_camps w)) as [sims|] eqn:E2 in H; [|discriminate]. cbn [bind] in H. cbv zeta in H.
  destruct (steps_to_date _ _) as [date|] eqn:E3; [|discriminate]. cbn [bind] in H.
  apply mapM_Forall2 in E1, E2. apply steps_iff in E3 as (d0 & C0 & W0 & C1 & A1).
  assert (L : List.length sims = List.length data) by (apply F2_len in E1, E2; congruence).
  destruct (rows_sums sims data L) as (S1 & S2 & S3).
  assert (Rows : Forall2 (fun camp (x : Z * Z * Q) => let '(sim, data, err) := x in
      (exists i, called e camp i /\ sim = how_many (fun a => in_location i a || left_from i a)%bool (e_agents e)) /\
      (camp <> "total"%string -> data_shown S (w_data w) camp (Z.of_nat t) data) /\
      error_shown sim data err) (w_camps w)
     (map (fun p => (fst p, snd p, rel_error (inject_Z (fst p)) (inject_Z (snd p)))) (combine sims data))).
  { eapply F2_mono; [|eapply rows_spec; [exact E2|exact E1]]. intros c [[s z] err] (Hp & Hd & ->). split; [|split].
    - eapply lm_count; eauto.
    - intro N. destruct (lm_index e c); [|discriminate]. cbn [bind] in Hd. eapply shown_spec; eauto.
    - apply error_spec. }
  assert (Date : exists d0 d, civil d0 /\ written (w_start w) d0 /\ civil d /\ days_apart d0 (Z.of_nat t) d /\ written (show_date date) d)
    by (exists d0, date; do 4 (split; [assumption|]); now apply show_written).
  destruct (0 <? sp_raw sp)%Z eqn:B; injection H as <-; (constructor; cbn [r_day r_date r_camps r_total r_in_camps r_idps r_raw r_debt r_data r_error]; auto);
    try (rewrite S1; reflexivity); try (destruct (0 <? in_idp_totals inp)%Z; [rewrite (idps_spec o e g R)|]; reflexivity); intro X; try (exfalso; lia).
  - split; [reflexivity|]. split; [reflexivity|]. rewrite S2. split; [reflexivity|]. rewrite S3. reflexivity.
Qed.

Theorem script_lines fuel S o inp g camps lines : run_script fuel S o inp g = Ok (camps, lines) ->
  exists w, set_up S o inp g = Ok w /\ camps = w_camps w /\ List.length lines = Z.to_nat (w_end w) /\
  forall t r, nth_error lines t = Some r -> exists sp d e g',
    simulated fuel S o inp w (Datatypes.S t) sp d e g' /\ reachable o e g' /\ e_time e = (Z.of_nat t + 1)%Z /\
    line_of S inp w t (sp_raw sp) (sp_debt sp) e r.
Proof.
  unfold run_script. intro H. destruct (set_up S o inp g) as [w|] eqn:U; [|discriminate]. cbn [bind] in H.
  destruct (foldM _ _ _) as [[[[[sp d] e] g'] ls]|] eqn:E in H; [|discriminate]. cbn [bind] in H. injection H as <- <-.
  apply loop_lines in E as (_ & L & Ls). exists w. split; [reflexivity|]. split; [reflexivity|]. split; [exact L|].
  intros t r Hr. destruct (Ls t r Hr) as (sp' & d' & e' & g1 & Hs & Hd). exists sp', d', e', g1.
  destruct (simulated_reachable _ _ _ _ _ _ U _ _ _ _ _ Hs) as (R & T & _).
  split; [exact Hs|]. split; [exact R|]. split; [lia|]. eapply report_spec; eauto.
Qed.

(** ** Agents and registered totals *)

Lemma total_defined d sc x d1 : d_day0 d = [] -> get_daily_difference d 0 true sc = Ok (x, d1) -> exists v, total_on d 0 true sc = Ok v.
Proof.
  intros E0 H. unfold get_daily_difference in H. cbn [Z.eqb] in H. destruct (foldM _ _ _) as [[a na]|] eqn:E in H; [|discriminate]. cbn [bind] in H.
  unfold total_on. destruct sc.
  - assert (X : forall k, In k (tl (d_header d)) -> exists z, get_field d k 0 true = Ok z).
    { intros k Hk. eapply fold_defined; [exact E0| |exact E|]; [apply same_set0|]. destruct (d_header d); [destruct Hk|now right]. }
    clear - X. induction (tl (d_header d)) as [|k ks IH]; [exists 0%Z; reflexivity|]. cbn [sum_fields].
    destruct (X k (or_introl eq_refl)) as (z & ->). destruct IH as (v & ->); [intros; apply X; now right|]. eexists; reflexivity.
  - destruct (get_field a "total" 0 true) as [n1|] eqn:G; [|discriminate].
    assert (St : same_tables d a).
    { eapply (foldM_rel (fun a b : dtable * Z => same_tables (fst a) (fst b))) in E; [|intros; apply same_refl|intros u v c; apply same_trans|].
      - eapply same_trans; [|exact E]. apply same_set0.
      - intros [u n0] name [v n2] _ Hs. cbn [fst]. eapply step_same; exact Hs. }
    rewrite (field_any d a _ _ E0 St) in G. destruct (get_field d "total" 0 true) as [z|]; [eauto|discriminate].
Qed.

Lemma rest_agents fuel S o t e g e' g' :
  run o [(S, ORefreshSpawnWeights); (S, OEnactBorderClosures fuel t true); (S, OEvolve fuel)] e g = Ok (e', g') -> num_agents e' = num_agents e.
Proof.
  intro H. rewrite run_cons in H. destruct (step o S ORefreshSpawnWeights e g) as [[e3 g3]|] eqn:E3; [|discriminate]. cbn [bind fst snd] in H.
  rewrite run_cons in H. destruct (step o S (OEnactBorderClosures _ _ _) e3 g3) as [[e4 g4]|] eqn:E4; [|discriminate]. cbn [bind fst snd] in H.
  rewrite run_one in H. apply sa_step in E3; [|reflexivity]. apply sa_step in E4; [|reflexivity]. apply evolve_keeps in H as (-> & _).
  unfold num_agents. now rewrite E4, E3.
Qed.
Lemma grown_agents take new e e' : grown take new e e' -> num_agents e' = (num_agents e + List.length new)%nat.
Proof. intros (-> & _). unfold num_agents. cbn [e_agents up_e_agents up_e_locations]. apply app_length. Qed.

Lemma to_spawn_fun S d t a b : to_spawn S d t a -> to_spawn S d t b -> a = b.
Proof. intros (f & d1 & v & v0 & A & B & C & ->) (f' & d1' & v' & v0' & A' & B' & C' & ->).
  assert (f = f') by congruence. assert (v = v') by congruence. assert (v0 = v0') by congruence. now subst. Qed.

Lemma balance_days fuel S o inp w g0 : set_up S o inp g0 = Ok w -> rng_ok g0 -> from_data S ->
  forall t sp d e g, simulated fuel S o inp w t sp d e g ->
  let start := Z.of_nat (num_agents (w_eco w)) in let agents := Z.of_nat (num_agents e) in
  (0 <= sp_debt sp)%Z /\
  ((t = 0%nat /\ sp = Spawn 0 0 /\ d = w_data w /\ agents = start) \/
   exists s z first d1, t = Datatypes.S s /\ same_tables (w_data w) d /\
     get_daily_difference (w_data w) 0 true (s_sum_from_camps S) = Ok (first, d1) /\ to_spawn S (w_data w) (Z.of_nat s) z /\
     sp_raw sp = (z + if s_InsertDayZero S then first else 0)%Z /\ sp_debt sp = (agents - start - z)%Z /\
     highest S (w_data w) (Z.of_nat s) (agents - start)).
Proof.
  intros U G F t sp d e g Hs start agents. pose proof (set_up_spec _ _ _ _ _ U) as (_ & _ & _ & E0 & Se0).
  assert (Se : d_start_empty (w_data w) = 0%Z \/ d_start_empty (w_data w) = 1%Z) by (rewrite Se0; destruct (s_EmptyCampsOnDay0 S); auto).
  subst agents. induction Hs as [|t sp d e g e1 g1 n sp' d' e2 g2 e' g' Hs IH H1 H2 H3].
  - split; [reflexivity|]. left. auto.
  - destruct IH as [Debt IH]. destruct (simulated_reachable _ _ _ _ _ _ U _ _ _ _ _ Hs) as (R & _ & Str).
    pose proof (reachable_step _ _ _ _ _ _ _ R H1) as R1. assert (G1 : rng_ok g1).
    { eapply streams_ok; [|exact G]. apply step_streams in H1. destruct Str as (X & Y & Z1), H1 as (X' & Y' & Z2). repeat split; congruence. }
    apply sa_step in H1 as A1; [|reflexivity]. apply rest_agents in H3 as A3. assert (A1' : num_agents e1 = num_agents e) by (unfold num_agents; now rewrite A1).
    set (sc := s_sum_from_camps S) in *.
    assert (Day : forall z x d1, get_daily_difference d (Z.of_nat t) true sc = Ok (x, d1) -> get_daily_difference d1 (Z.of_nat t) true sc = Ok (z, d') -> z = x).
    { intros z x d1 X Y. eapply asked_again; [|exact X|exact Y]. assert (St : same_tables (w_data w) d) by (destruct IH as [(_ & _ & -> & _)|(? & ? & ? & ? & _ & St & _)]; [apply same_refl|exact St]).
      destruct St as (_ & _ & ->). exact Se. }
    destruct t as [|t].
    + destruct IH as [(_ & -> & -> & A0)|(s & ? & ? & ? & X & _)]; [|discriminate]. change (Z.of_nat 0) with 0%Z in *.
      destruct (s_InsertDayZero S) eqn:Ins.
      * pose proof H2 as Z0. apply day_zero in Z0; try apply F; auto.
        destruct Z0 as (-> & D' & Eq & _ & diff & d1 & diff2 & D1 & D2 & Rw).
        pose proof (Day _ _ _ D1 D2) as ->. cbn [sp_raw] in Rw. destruct (total_defined _ _ _ _ E0 D1) as (v0 & V0).
        assert (N' : num_agents e' = num_agents (w_eco w)).
        { apply Nat2Z.inj. fold start. rewrite A3. rewrite <- A0, <- A1'. f_equal. unfold num_agents. rewrite Eq. reflexivity. }
        assert (TS : to_spawn S (w_data w) 0 0) by (exists diff, d1, v0, v0; rewrite Ins; repeat split; auto; lia).
        rewrite N'. fold start. split; [lia|]. right. exists 0%nat, 0%Z, diff, d1. split; [reflexivity|].
        split; [eapply same_trans; eapply daily_same; eassumption|]. split; [exact D1|]. split; [exact TS|]. split; [lia|]. split; [lia|].
        rewrite Z.sub_diag. split; [lia|]. split; [|now left]. intros s z Hs' Hz. change (Z.of_nat 0) with 0%Z in Hs'. assert (s = 0%Z) as -> by lia. rewrite (to_spawn_fun _ _ _ _ _ Hz TS). lia.
      * pose proof H2 as Z0. eapply data_day in Z0; [|exact R1|exact G1|apply F|apply F|now left|reflexivity].
        destruct Z0 as (diff & d1 & diff2 & picks & gp & new & D1 & D2 & Rw & (N0 & Db & Bal & Or) & _ & Lp & Gr & Fr).
        pose proof (Day _ _ _ D1 D2) as ->. destruct (total_defined _ _ _ _ E0 D1) as (v0 & V0). cbn [sp_raw sp_debt] in *.
        assert (TS : to_spawn S (w_data w) 0 diff) by (exists diff, d1, v0, v0; rewrite Ins; repeat split; auto; lia).
        assert (N' : Z.of_nat (num_agents e') = (start + n)%Z).
        { rewrite A3, (grown_agents _ _ _ _ Gr), A1', (fresh_length _ _ _ _ Fr). lia. }
        split; [exact Db|]. right. exists 0%nat, diff, diff, d1. split; [reflexivity|].
        split; [eapply same_trans; eapply daily_same; eassumption|]. split; [exact D1|]. split; [exact TS|]. split; [lia|]. split; [lia|].
        split; [lia|]. change (Z.of_nat 0) with 0%Z. split.
        -- intros s z Hs' Hz. assert (s = 0%Z) as -> by lia. rewrite (to_spawn_fun _ _ _ _ _ Hz TS). lia.
        -- destruct Or as [Or|Or]; [left; lia|]. right. exists 0%Z. split; [lia|]. replace (Z.of_nat (num_agents e') - start)%Z with diff by lia. exact TS.
    + destruct IH as [(X & _)|(s & z & first & df & T & St & Df & TS & Rw0 & Db0 & Hg)]; [discriminate|]. injection T as <-.
      pose proof H2 as Z0. eapply data_day in Z0; [|exact R1|exact G1|apply F|apply F|right; lia|exact Debt].
      destruct Z0 as (diff & d1 & diff2 & picks & gp & new & D1 & D2 & Rw & (N0 & Db & Bal & Or) & _ & Lp & Gr & Fr).
      pose proof (Day _ _ _ D1 D2) as ->.
      assert (N' : Z.of_nat (num_agents e') = (Z.of_nat (num_agents e) + n)%Z).
      { rewrite A3, (grown_agents _ _ _ _ Gr), A1', (fresh_length _ _ _ _ Fr). lia. }
      pose proof (daily_same _ _ _ _ _ D1) as S1. pose proof (daily_same _ _ _ _ _ D2) as S2.
      assert (TS' : to_spawn S (w_data w) (Z.of_nat (Datatypes.S t)) (z + diff)).
      { apply difference_spec in D1 as (_ & v1 & v2 & V1 & V2 & ->); [|lia]. destruct TS as (f & df' & u & u0 & Tf & Tu & Tu0 & ->). fold sc in Tf, Tu, Tu0.
        destruct (total_any (w_data w) d sc E0 St) as (k & K). rewrite K in V1, V2.
        replace (Z.of_nat (Datatypes.S t) - 1)%Z with (Z.of_nat t) in V2 by lia. rewrite Tu in V2. injection V2 as V2.
        destruct (total_on (w_data w) (Z.of_nat (Datatypes.S t)) true sc) as [u1|] eqn:U1; [|discriminate]. injection V1 as V1.
        exists f, df', u1, u0. split; [exact Tf|]. split; [exact U1|]. split; [exact Tu0|]. lia. }
      split; [exact Db|]. right. exists (Datatypes.S t), (z + diff)%Z, first, df. split; [reflexivity|].
      split; [eapply same_trans; [exact St|]; eapply same_trans; eassumption|]. split; [exact Df|]. split; [exact TS'|]. split; [lia|]. split; [lia|].
      destruct Hg as (Hg0 & Hg1 & Hg2). split; [lia|]. split.
      * intros s' z' Hs' Hz. destruct (Z.eq_dec s' (Z.of_nat (Datatypes.S t))) as [->|Ne].
        -- rewrite (to_spawn_fun _ _ _ _ _ Hz TS'). lia.
        -- specialize (Hg1 s' z' ltac:(lia) Hz). lia.
      * destruct Or as [->|Or].
        -- replace (Z.of_nat (num_agents e') - start)%Z with (Z.of_nat (num_agents e) - start)%Z by lia. destruct Hg2 as [Hg2|(s' & Hs' & Ts')]; [now left|].
           right. exists s'. split; [lia|exact Ts'].
        -- right. exists (Z.of_nat (Datatypes.S t)). split; [lia|]. replace (Z.of_nat (num_agents e') - start)%Z with (z + diff)%Z by lia. exact TS'.
Qed.

Theorem script_balance fuel S o inp g camps lines : run_script fuel S o inp g = Ok (camps, lines) -> rng_ok g -> from_data S ->
  exists w, set_up S o inp g = Ok w /\ forall t r, nth_error lines t = Some r ->
  exists first d1 z debt, get_daily_difference (w_data w) 0 true (s_sum_from_camps S) = Ok (first, d1) /\
    to_spawn S (w_data w) (Z.of_nat t) z /\ (0 <= debt)%Z /\
    r_total r = (Z.of_nat (List.length (e_agents (w_eco w))) + z + debt)%Z /\
    highest S (w_data w) (Z.of_nat t) (r_total r - Z.of_nat (List.length (e_agents (w_eco w)))) /\
    r_raw r = Z.max 0 (z + if s_InsertDayZero S then first else 0) /\ ((0 < r_raw r)%Z -> r_debt r = debt).
Proof.
  intros H G F. apply script_lines in H as (w & U & _ & _ & Ls). exists w. split; [exact U|]. intros t r Hr.
  destruct (Ls t r Hr) as (sp & d & e & g' & Hs & _ & _ & L).
  destruct (balance_days _ _ _ _ _ _ U G F _ _ _ _ _ Hs) as [Db [(X & _)|(s & z & first & d1 & T & _ & Df & TS & Rw & De & Hg)]]; [discriminate|].
  injection T as <-. exists first, d1, z, (sp_debt sp). rewrite (lo_total _ _ _ _ _ _ _ _ L). split; [exact Df|]. split; [exact TS|]. split; [exact Db|].
  split; [unfold num_agents in De; lia|]. split; [exact Hg|]. rewrite <- Rw.
  destruct (Z_lt_le_dec 0 (sp_raw sp)) as [P|P].
  - destruct (lo_raw _ _ _ _ _ _ _ _ L P) as (-> & -> & _). split; [lia|reflexivity].
  - destruct (lo_none _ _ _ _ _ _ _ _ L P) as (-> & _). split; [lia|]. intro; lia.
Qed.

Lemma first_total d x d1 v0 : d_day0 d = [] -> d_start_empty d = 0%Z \/ d_start_empty d = 1%Z ->
  get_daily_difference d 0 true false = Ok (x, d1) -> get_field d "total" 0 true = Ok v0 -> x = (v0 * (1 - d_start_empty d))%Z.
Proof.
  intros E0 Se H V. unfold get_daily_difference in H. cbn [Z.eqb] in H. destruct (foldM _ _ _) as [[a na]|] eqn:E in H; [|discriminate]. cbn [bind] in H.
  destruct (get_field a "total" 0 true) as [n1|] eqn:Gt; [|discriminate]. cbn [bind] in H.
  assert (X : x = (n1 * (1 - d_start_empty d))%Z) by congruence.
  assert (St : same_tables d a).
  { eapply (foldM_rel (fun a b : dtable * Z => same_tables (fst a) (fst b))) in E; [|intros; apply same_refl|intros u v c; apply same_trans|].
    - eapply same_trans; [|exact E]. apply same_set0.
    - intros [u n0] name [v n2] _ Hs. cbn [fst]. eapply step_same; exact Hs. }
  rewrite (field_any d a _ _ E0 St), V in Gt. cbn [rmap bind] in Gt. injection Gt as <-. destruct Se as [Se|Se]; rewrite Se in *; lia.
Qed.

Theorem script_raw fuel S o inp g camps lines : run_script fuel S o inp g = Ok (camps, lines) -> rng_ok g -> from_data S ->
  s_sum_from_camps S = false ->
  exists w, set_up S o inp g = Ok w /\ forall t r, nth_error lines t = Some r ->
  exists v v0, get_field (w_data w) "total" (Z.of_nat t) true = Ok v /\ get_field (w_data w) "total" 0 true = Ok v0 /\
    r_raw r = Z.max 0 (if s_EmptyCampsOnDay0 S then v - v0 else v).
Proof.
  intros H G F Sc. apply script_balance in H as (w & U & Ls); auto. exists w. split; [exact U|]. intros t r Hr.
  destruct (Ls t r Hr) as (first & d1 & z & debt & D & (f' & d1' & v & v0 & D' & V & V0 & Ez) & _ & _ & _ & Rw & _).
  rewrite Sc in *. unfold total_on in V, V0. exists v, v0. split; [exact V|]. split; [exact V0|].
  apply set_up_spec in U as (_ & _ & _ & E0 & Se). assert (f' = first) as -> by congruence.
  assert (X : first = (v0 * (1 - d_start_empty (w_data w)))%Z).
  { eapply first_total; eauto. rewrite Se. destruct (s_EmptyCampsOnDay0 S); auto. }
  rewrite Se in X. rewrite Rw, Ez. destruct (s_EmptyCampsOnDay0 S), (s_InsertDayZero S); lia.
Qed.

Theorem script_driven fuel S o inp g camps lines : run_script fuel S o inp g = Ok (camps, lines) -> ~ from_data S ->
  forall r, In r lines -> r_raw r = 0%Z /\ r_debt r = 0%Z /\ r_data r = 0%Z /\ r_error r = 0.
Proof.
  intros H F r Hr. apply script_lines in H as (w & U & _ & _ & Ls). apply In_nth_error in Hr as (t & Hr).
  destruct (Ls t r Hr) as (sp & d & e & g' & Hs & _ & _ & L). apply driven_days in Hs as [_ ->]; [|exact F].
  apply (lo_none _ _ _ _ _ _ _ _ L). reflexivity.
Qed.

Theorem script_camps fuel S o inp g camps lines : run_script fuel S o inp g = Ok (camps, lines) -> NoDup camps ->
  forall r, In r lines -> (0 <= r_in_camps r <= r_total r)%Z.
Proof.
  intros H N r Hr. apply script_lines in H as (w & U & -> & _ & Ls). apply In_nth_error in Hr as (t & Hr).
  destruct (Ls t r Hr) as (sp & d & e & g' & _ & _ & _ & L). rewrite (lo_in_camps _ _ _ _ _ _ _ _ L), (lo_total _ _ _ _ _ _ _ _ L).
  pose proof (lo_camps _ _ _ _ _ _ _ _ L) as Cs. revert N Cs. generalize (w_camps w) (r_camps r). clear.
  intros camps rows N F.
  assert (X : exists is, NoDup is /\ Forall2 (fun c i => called e c i) camps is /\
     map (fun x => fst (fst x)) rows = map (fun i => countZ (stays i) (e_agents e)) is).
  { induction F as [|c [[sim data] err] camps rows ((i & Ci & ->) & _) F IH]; [exists []; repeat split; constructor|].
    inversion N as [|? ? Nc Nd]; subst. destruct (IH Nd) as (is & Ni & Fi & E). exists (i :: is). split; [|split].
    - constructor; [|exact Ni]. intro Hin. apply Nc. clear - Fi Hin Ci. induction Fi as [|c' i' cs is' Hc Fi IH]; [destruct Hin|].
      destruct Hin as [->|Hin]; [|right; auto]. left. destruct Ci as [(l & A & <-) _], Hc as [(l' & A' & <-) _]. congruence.
    - constructor; assumption.
    - cbn [map fst]. rewrite how_many_countZ, E. reflexivity. }
  destruct X as (is & Ni & _ & ->). rewrite sum_stays by exact Ni. split; [apply countZ_nonneg|apply count_le].
Qed.

(** ** Before the first day *)

Lemma arrivals_repeat dm e i k new : fresh_in dm e (repeat i k) new -> arrivals i new = Z.of_nat k.
Proof.
  revert new. induction k as [|k IH]; intros new F; inversion F as [|? ? ? ? Ha F']; subst; [reflexivity|].
  destruct Ha as (l & attrs & _ & -> & _). change (newcomer i attrs :: l') with ([newcomer i attrs] ++ l').
  rewrite arrivals_app, arrivals_one, Nat.eqb_refl, (IH _ F'). lia.
Qed.
Lemma uncounted_same l l' : uncounted l' = uncounted l -> l_name l' = l_name l /\ l_attributes l' = l_attributes l /\ l_camp l' = l_camp l.
Proof.
  intro U. split; [|split].
  - change (l_name (uncounted l') = l_name (uncounted l)). now rewrite U.
  - change (l_attributes (uncounted l') = l_attributes (uncounted l)). now rewrite U.
  - change (l_camp (uncounted l') = l_camp (uncounted l)). now rewrite U.
Qed.

Lemma initial_counts S dm d : s_EmptyCampsOnDay0 S = false -> forall camps o e g e' g', reachable o e g -> rng_ok g ->
  NoDup camps -> NoDup (map lname (e_locations e)) ->
  foldM (fun st c => let '(e, g) := st in i <- lm_index e c ;; add_initial_refugees S dm d i e g) camps (e, g) = Ok (e', g') ->
  e_dicts e' = e_dicts e /\ List.length (e_locations e') = List.length (e_locations e) /\
  forall i l, nth_error (e_locations e) i = Some l -> exists l', nth_error (e_locations e') i = Some l' /\ uncounted l' = uncounted l /\
    (~ In (lname l) camps -> l_numAgents l' = l_numAgents l) /\
    (In (lname l) camps -> exists at_ n0 n1, nth_error (e_dicts e) (l_attributes l) = Some at_ /\
       (if s_InsertDayZero S then get_field d (lname l) 0 true = Ok n0 else n0 = 0%Z) /\
       py_int (dict_get_default "initial_idps" at_ (VInt 0)) = Ok n1 /\ l_numAgents l' = (l_numAgents l + Z.max 0 (n0 + n1))%Z).
Proof.
  intro Em. induction camps as [|c camps IH]; intros o e g e' g' R G Nc Nn H; cbn [foldM] in H.
  - injection H as <- <-. split; [reflexivity|]. split; [reflexivity|]. intros i l Hi. exists l. repeat split; auto. intros [].
  - destruct (lm_index e c) as [i0|] eqn:Li; [|discriminate]. cbn [bind] in H.
    destruct (add_initial_refugees S dm d i0 e g) as [[e1 g1]|] eqn:E; [|discriminate]. cbn [bind] in H.
    inversion Nc as [|? ? Nc1 Nc2]; subst. pose proof (lm_called _ _ _ Li) as [(l0 & L0 & N0) _].
    assert (St : step o S (OAddInitialRefugees dm d i0) e g = Ok (e1, g1)) by exact E.
    pose proof (initial_spec _ _ _ _ _ _ _ _ _ _ R G L0 E) as [(X & _)|(_ & at_ & n0 & n1 & new & At & F0 & P1 & Gr & Fr)]; [congruence|].
    unfold loc_attrs, dict_of in At. apply of_option_ok in At.
    assert (Dd : e_dicts e1 = e_dicts e) by (destruct Gr as (-> & _); reflexivity). pose proof (proj1 (proj2 Gr)) as Len.
    assert (Names : map lname (e_locations e1) = map lname (e_locations e)).
    { assert (Fl : flags e1 = flags e) by (eapply flags_initial; exact E). unfold flags in Fl. apply (f_equal (map (fun p => sval (fst p)))) in Fl. rewrite !map_map in Fl. exact Fl. }
    assert (G1 : rng_ok g1) by (eapply streams_ok; [eapply step_streams; exact St|exact G]).
    apply (IH o) in H as (Dd' & Len' & H); [|eapply reachable_step; eauto|exact G1|exact Nc2|now rewrite Names].
    split; [congruence|]. split; [congruence|]. intros i l Hi. destruct Gr as (_ & _ & Gr). destruct (Gr i l Hi) as (l1 & H1 & U1 & A1 & _).
    destruct (H i l1 H1) as (l' & H' & U' & Out & Inn). exists l'. split; [exact H'|]. split; [congruence|].
    destruct (uncounted_same _ _ U1) as (En & Ea & _). assert (Ln : lname l1 = lname l) by (unfold lname; now rewrite En).
    rewrite Ln, Ea, Dd in *. destruct (Nat.eq_dec i i0) as [->|Ni].
    + assert (l = l0) as -> by congruence. assert (lname l0 = c) as Lc by exact N0.
      assert (Ar : arrivals i0 new = Z.max 0 (n0 + n1)) by (rewrite (arrivals_repeat _ _ _ _ _ Fr); lia).
      split; [intro X; exfalso; apply X; now left|]. intros _. exists at_, n0, n1. split; [exact At|]. split; [exact F0|]. split; [exact P1|].
      rewrite Out, A1, Ar by (rewrite Lc; exact Nc1). lia.
    + assert (lname l <> c) as Lc.
      { intro X. apply Ni. assert (X1 : nth_error (map lname (e_locations e)) i = Some c) by (rewrite nth_error_map, Hi; cbn; congruence).
        assert (X2 : nth_error (map lname (e_locations e)) i0 = Some c) by (rewrite nth_error_map, L0; cbn; unfold lname; congruence).
        eapply NoDup_nth_error in Nn; [exact Nn| |rewrite X1, X2; reflexivity]. apply nth_error_Some. congruence. }
      assert (Ar : arrivals i new = 0%Z) by (eapply arrivals_none; [exact Fr|]; intro Y; apply repeat_spec in Y; contradiction).
      rewrite Ar, Z.add_0_r in A1. rewrite A1 in *. split.
      * intro X. apply Out. intro Y. apply X. now right.
      * intros [X|X]; [congruence|]. now apply Inn.
Qed.

Theorem set_up_counts S o inp g w : set_up S o inp g = Ok w -> rng_ok g -> in_agents inp = None ->
  NoDup (map (fun l => sval (l_name l)) (e_locations (w_eco w))) ->
  forall i l, nth_error (e_locations (w_eco w)) i = Some l ->
  (s_EmptyCampsOnDay0 S = true \/ l_camp l = false -> l_numAgents l = 0%Z) /\
  (s_EmptyCampsOnDay0 S = false -> l_camp l = true -> exists at_ n0 n1, nth_error (e_dicts (w_eco w)) (l_attributes l) = Some at_ /\
     (if s_InsertDayZero S then get_field (w_data w) (sval (l_name l)) 0 true = Ok n0 else n0 = 0%Z) /\
     py_int (dict_get_default "initial_idps" at_ (VInt 0)) = Ok n1 /\ l_numAgents l = Z.max 0 (n0 + n1)).
Proof.
  intros U G Na Nn i l Hi. pose proof (set_up_camps _ _ _ _ _ U) as [Cs _]. unfold set_up in U.
  destruct (read_sim_period (in_period inp)) as [[start n]|]; [|discriminate]. cbn [bind] in U. cbv zeta in U.
  destruct (store_input S o (in_factor inp) (in_geo inp) (in_changes inp) empty_eco g) as [[[e g1] ig]|] eqn:E1; [|discriminate]. cbn [bind] in U.
  rewrite Na in U. cbn [bind] in U.
  destruct (new_table _ _ _ _ _) as [d0|] eqn:E3; [|discriminate]. cbn [bind] in U.
  destruct (read_corrections _ _ _) as [d|] eqn:E4; [|discriminate]. cbn [bind] in U.
  destruct (foldM _ _ _) as [[e2 g2]|] eqn:E5 in U; [|discriminate]. cbn [bind] in U. injection U as <-. cbn [w_eco w_data w_camps] in *.
  assert (St : step o S (OStoreInput (in_factor inp) (in_geo inp) (in_changes inp)) empty_eco g = Ok (e, g1)) by (cbn [step]; rewrite E1; reflexivity).
  assert (R : reachable o e g1) by (eapply reachable_step; [|exact St]; exists [], g; reflexivity).
  assert (G1 : rng_ok g1) by (eapply streams_ok; [eapply step_streams; exact St|exact G]).
  assert (Ag : e_agents e = []).
  { eapply (network_stored o empty_eco g) in E1; [|exists [], g; reflexivity]. destruct E1 as (? & ? & ? & ? & ? & ? & ? & ? & ? & ? & ? & ? & ? & ? & ? & Ag & _). exact Ag. }
  assert (Zero : forall j m, nth_error (e_locations e) j = Some m -> l_numAgents m = 0%Z).
  { intros j m Hj. destruct (location_counts o e g1 R j m Hj) as [-> _]. rewrite Ag. reflexivity. }
  assert (Flg : flags e2 = flags e).
  { eapply (foldM_rel (fun a b : eco * rng => flags (fst b) = flags (fst a))) in E5; [exact E5|reflexivity|congruence|].
    intros [ea ga] c [eb gb] _ Hs. destruct (lm_index ea c) in Hs; [|discriminate]. cbn [bind] in Hs. cbn [fst]. eapply flags_initial; exact Hs. }
  assert (Names : map lname (e_locations e2) = map lname (e_locations e)).
  { unfold flags in Flg. apply (f_equal (map (fun p => sval (fst p)))) in Flg. rewrite !map_map in Flg. exact Flg. }
  change (NoDup (map lname (e_locations e2))) in Nn. rewrite Names in Nn.
  assert (exists l0, nth_error (e_locations e) i = Some l0) as (l0 & L0).
  { destruct (nth_error (e_locations e) i) eqn:X; [eauto|]. exfalso. apply nth_error_None in X. assert (i < List.length (e_locations e2))%nat as Y by (apply nth_error_Some; congruence).
    apply (f_equal (@List.length _)) in Names. rewrite !map_length in Names. lia. }
  destruct (s_EmptyCampsOnDay0 S) eqn:Em.
  - split; [|discriminate]. intros _.
    assert (e2 = e) as ->.
    { eapply (foldM_rel (fun a b : eco * rng => fst b = fst a)) in E5; [exact E5|reflexivity|congruence|].
      intros [ea ga] c [eb gb] _ Hs. destruct (lm_index ea c) in Hs; [|discriminate]. cbn [bind] in Hs. unfold add_initial_refugees in Hs. rewrite Em in Hs. injection Hs as <- <-. reflexivity. }
    eapply Zero; exact Hi.
  - assert (Inj : forall m, In m (e_locations e) -> lname m = lname l0 -> m = l0).
    { intros m Hm X. apply In_nth_error in Hm as (j & Hj). assert (j = i) as ->; [|congruence].
      eapply (proj1 (NoDup_nth_error (map lname (e_locations e))) Nn); [apply nth_error_Some; rewrite nth_error_map, Hj; discriminate|].
      rewrite !nth_error_map, Hj, L0. cbn. congruence. }
    assert (InC : In (lname l0) (get_camp_names e) <-> l_camp l0 = true).
    { unfold get_camp_names. rewrite in_map_iff. split.
      - intros (m & X & Hm). apply filter_In in Hm as [Hm C]. now rewrite <- (Inj m Hm X).
      - intro C. exists l0. split; [reflexivity|]. apply filter_In. split; [eapply nth_error_In; exact L0|exact C]. }
    assert (Nc : NoDup (get_camp_names e)).
    { unfold get_camp_names. clear - Nn. induction (e_locations e) as [|x ls IH]; [constructor|]. cbn [map] in Nn. inversion Nn as [|? ? Nx Nd]; subst. cbn [filter].
      destruct (l_camp x); [|auto]. cbn [map]. constructor; [|auto]. intro X. apply Nx. apply in_map_iff in X as (y & Y & Hy). apply filter_In in Hy as [Hy _].
      apply in_map_iff. eauto. }
    apply (initial_counts S (in_dm inp) d Em _ o) in E5 as (Dd & _ & E5); auto. destruct (E5 i l0 L0) as (l' & L' & Un & Out & Inn).
    assert (l' = l) as -> by congruence. destruct (uncounted_same _ _ Un) as (En & Ea & Ec). rewrite (Zero i l0 L0) in *. split.
    + intros [X|X]; [discriminate|]. apply Out. rewrite InC. congruence.
    + intros _ X. rewrite Dd, Ea, En. destruct Inn as (at_ & n0 & n1 & A & B & C & D); [rewrite InC; congruence|]. exists at_, n0, n1. repeat split; auto.
Qed.

Lemma set_up_start S o inp g w : set_up S o inp g = Ok w ->
  reachable o (w_eco w) (w_rng w) /\ e_time (w_eco w) = 0%Z /\
  w_camps w = map (fun l => sval (l_name l)) (filter l_camp (e_locations (w_eco w))) /\
  (exists n, read_sim_period (in_period inp) = Ok (w_start w, n) /\ w_end w = if (0 <? in_days inp)%Z then in_days inp else n).
Proof. intro H. destruct (set_up_spec _ _ _ _ _ H) as (R & T & _). destruct (set_up_camps _ _ _ _ _ H) as [C E]. auto. Qed.
