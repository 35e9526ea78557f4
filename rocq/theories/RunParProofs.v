(** * RunParProofs: the days of the main program on several processes *)

From Coq Require Import Lia Lqa.
From Verif Require Import Base State Moving Crawling Scoring Diagnostics Flee DataTable
  Spawning InputGeography Dates DataFiles Analysis RunScript Api Pflee ParApi RunPar SpecAgents SpecHistory SpecNetwork SpecDates SpecData SpecSpawn SpecParallel SpecRun SpecRunPar
  Lemmas Inv InvMoves InvStruct Frames ScoreFrames Travel Profile ReportProofs Skeleton ParProofs ParInv ParSteps ParProps ParCounts ParTotals NetworkProofs
  DateProofs DataProofs SpawnProofs AnalysisProofs RunProofs DayChain RunParSetup RunParBuild.
From Verif Require Import Base.
Local Open Scope string_scope.
Local Open Scope list_scope.

Lemma F2_split {A B C} (P : A -> B -> Prop) (R : B -> C -> Prop) l m : Forall2 (fun a c => exists b, P a b /\ R b c) l m ->
  exists k, Forall2 P l k /\ Forall2 R k m.
Proof.
  induction 1 as [|a c l m (b & Pab & Rbc) _ (k & IH1 & IH2)]; [exists []; auto|]. exists (b :: k). auto.
Qed.
Lemma F2_mapM {A B} (f : A -> res B) l m : Forall2 (fun a b => f a = Ok b) l m -> mapM f l = Ok m.
Proof. induction 1 as [|a b l m H _ IH]; [reflexivity|]. cbn [mapM]. rewrite H, IH. reflexivity. Qed.
Lemma F2_maps {A B C D} (R : C -> D -> Prop) (f : A -> C) (h : B -> D) l m : Forall2 (fun a b => R (f a) (h b)) l m -> Forall2 R (map f l) (map h m).
Proof. induction 1; cbn; auto. Qed.
Lemma F2_same {A} (P : A -> Prop) (l : list A) : (forall a, In a l -> P a) -> Forall2 (fun a b => a = b /\ P a) l l.
Proof. induction l; intro H; constructor; [split; auto; apply H; now left|]. apply IHl. intros; apply H; now right. Qed.

(** ** Before the first day *)
Lemma par_parts S o inp e0 g p : par_set_up S o inp e0 g = Ok p ->
  (in_idp_totals inp <= 0)%Z /\ setup_with (s_DefaultMoveChance S) (par_add_agent S) par_insert_agent S o inp e0 g = Ok (p_world p) /\
  p = Proc (p_world p) (Spawn 0 0) (w_data (p_world p)) (w_eco (p_world p)) (w_rng (p_world p))
           (if (e_rank (w_eco (p_world p)) =? 0)%Z then Some (w_camps (p_world p)) else None) [].
Proof.
  rewrite par_setup. intro H. destruct (setup_with _ _ _ _ _ _ _ _) as [w|]; [|discriminate]. cbn [bind] in H. unfold process_of in H.
  destruct (0 <? in_idp_totals inp)%Z eqn:E; [discriminate|]. injection H as <-. split; [lia|]. split; reflexivity.
Qed.
Lemma setup_parts mc add ins S o inp e0 g w : setup_with mc add ins S o inp e0 g = Ok w -> exists e g1 ig e1,
  input_with mc S o (in_factor inp) (in_geo inp) (in_changes inp) e0 g = Ok (e, g1, ig) /\
  match in_agents inp with Some rows => '(_, _, e1) <- foldM (read_row_with add) rows (true, None, e) ;; Ok e1 | None => Ok e end = Ok e1 /\
  foldM (fun st c => let '(e, g) := st in i <- lm_index e c ;; initial_with ins S (in_dm inp) (w_data w) i e g) (get_camp_names e1) (e1, g1) = Ok (w_eco w, w_rng w) /\
  w_camps w = get_camp_names e1 /\ (exists n, read_sim_period (in_period inp) = Ok (w_start w, n) /\ w_end w = if (0 <? in_days inp)%Z then in_days inp else n) /\
  (exists d0, new_table (in_files inp) (in_layout inp) (w_start w) (in_factor inp) (s_EmptyCampsOnDay0 S) = Ok d0 /\
     read_corrections (w_start w) (in_corrections inp) d0 = Ok (w_data w)).
Proof.
  unfold setup_with. intro H. destruct (read_sim_period _) as [[start n]|] eqn:E0; [|discriminate]. cbn [bind] in H. cbv zeta in H.
  destruct (input_with _ _ _ _ _ _ _ _) as [[[e g1] ig]|] eqn:E1; [|discriminate]. cbn [bind] in H.
  destruct (match in_agents inp with Some _ => _ | None => _ end) as [e1|] eqn:E2; [|discriminate]. cbn [bind] in H.
  destruct (new_table _ _ _ _ _) as [d0|] eqn:E3; [|discriminate]. cbn [bind] in H. destruct (read_corrections _ _ _) as [d|] eqn:E4; [|discriminate]. cbn [bind] in H.
  destruct (foldM _ (get_camp_names e1) _) as [[e2 g2]|] eqn:E5; [|discriminate]. cbn [bind] in H. injection H as <-. cbn [w_eco w_rng w_camps w_data w_start w_end].
  exists e, g1, ig, e1. split; [reflexivity|]. split; [exact E2|]. split; [exact E5|]. split; [reflexivity|]. split; [eauto|]. eauto.
Qed.
Lemma par_setup_grow S o inp e0 g p : par_set_up S o inp e0 g = Ok p -> exists e1 g1 ig k,
  input_with (s_DefaultMoveChance S) S o (in_factor inp) (in_geo inp) (in_changes inp) e0 g = Ok (e1, g1, ig) /\ Grow k e1 (p_eco p).
Proof.
  intro H. apply par_parts in H as (_ & H & ->). cbn [p_eco p_world]. apply setup_parts in H as (e & g1 & ig & e1 & A & B & C & _).
  assert (K1 : exists k, Grow k e e1).
  { destruct (in_agents inp) as [rows|]; [|injection B as <-; exists 0%nat; apply grow_refl]. eapply grow_read. exact B. }
  destruct K1 as (k1 & G1). apply grow_camps in C as (k2 & G2). exists e, g1, ig, (k1 + k2)%nat. split; [exact A|]. eapply grow_trans; eauto.
Qed.

Lemma like_refl_par e : e_par e = true -> Like true true 0 e e.
Proof. intro P. split; auto; lia. Qed.
Lemma start_like gs a ga b gb : In (a, ga) (pstart gs) -> In (b, gb) (pstart gs) -> Like true true 0 a b.
Proof.
  intros A B. apply in_combine_l in A, B. apply in_map_iff in A as (x & <- & _), B as (y & <- & _). split; reflexivity.
Qed.
Lemma start_total gs e : In e (map fst (pstart gs)) -> e_total_agents e = 0%Z /\ e_agents e = [] /\ J e /\ e_par e = true.
Proof.
  intro H. apply in_map_iff in H as ([a g] & <- & H). apply in_combine_l in H. apply in_map_iff in H as (r & <- & _). cbn [fst]. repeat split; constructor || intros ? [].
Qed.

Record Ready (inp : run_input) (n : nat) (st : list (eco * rng)) (k : Z) : Prop := {
  rd_procs : Procs n (map fst st);
  rd_alive : Alive (map fst st);
  rd_people : people st = k;
  rd_roads : ig_closures (in_geo inp) = Some [] -> AllJ (map fst st) }.

Lemma started_ready S o inp gs ps : gs <> [] -> mapM (fun x => par_set_up S o inp (fst x) (snd x)) (pstart gs) = Ok ps ->
  exists k, Ready inp (List.length gs) (ecos ps) k /\ (forall p, In p ps -> e_total_agents (p_eco p) = k) /\
    (forall p q, In p ps -> In q ps -> w_start (p_world p) = w_start (p_world q) /\ w_end (p_world p) = w_end (p_world q) /\
       w_geo (p_world p) = w_geo (p_world q) /\ w_data (p_world p) = w_data (p_world q) /\ w_camps (p_world p) = w_camps (p_world q)).
Proof.
  intros N H. apply mapM_Forall2 in H. set (n := List.length gs).
  assert (Np : (0 < n)%nat) by (unfold n; destruct gs; [congruence|cbn; lia]).
  pose proof (procs_start gs) as P0. fold n in P0.
  assert (Wl : forall p q, In p ps -> In q ps -> w_start (p_world p) = w_start (p_world q) /\ w_end (p_world p) = w_end (p_world q) /\
       w_geo (p_world p) = w_geo (p_world q) /\ w_data (p_world p) = w_data (p_world q) /\ w_camps (p_world p) = w_camps (p_world q) /\
       e_total_agents (p_eco p) = e_total_agents (p_eco q)).
  { intros p q Hp Hq. apply In_nth_error in Hp as [i Hp], Hq as [j Hq].
    destruct (Forall2_nth_inv _ _ _ _ _ H Hp) as ([a ga] & Ha & Ea). destruct (Forall2_nth_inv _ _ _ _ _ H Hq) as ([b gb] & Hb & Eb). cbn [fst snd] in *.
    apply nth_error_In in Ha, Hb. pose proof (start_like _ _ _ _ _ Ha Hb) as L. apply par_parts in Ea as (_ & Ea & Ep), Eb as (_ & Eb & Eq).
    destruct (setup_like true true 0 _ _ _ _ _ _ _ _ _ _ _ _ _ _ _ (or_introl eq_refl) (adder_par S) adder_par_insert (adder_par S) adder_par_insert L Ea Eb)
      as (X1 & X2 & X3 & X4 & X5 & X6). repeat (split; [assumption|]). rewrite Ep, Eq. cbn [p_eco].
    destruct X6 as [Y1 Y2 _ Y3]. unfold count in Y3. rewrite Y1, Y2 in Y3. lia. }
  assert (F : Forall2 (fun x p => exists e1 k, (exists g1 ig, input_with (s_DefaultMoveChance S) S o (in_factor inp) (in_geo inp) (in_changes inp) (fst x) (snd x) = Ok (e1, g1, ig)) /\ Grow k e1 (p_eco p))
                (pstart gs) ps).
  { eapply F2_mono; [|exact H]. intros [e g] p E. apply par_setup_grow in E as (e1 & g1 & ig & k & A & B). cbn [fst snd]. eauto 8. }
  assert (F' : Forall2 (fun x p => exists e1, (exists g1 ig, input_with (s_DefaultMoveChance S) S o (in_factor inp) (in_geo inp) (in_changes inp) (fst x) (snd x) = Ok (e1, g1, ig)) /\ exists k, Grow k e1 (p_eco p))
                (pstart gs) ps) by (eapply F2_mono; [|exact F]; intros x p (e1 & k & A & B); eauto).
  apply F2_split in F' as (es & F1 & F2).
  assert (F1' : Forall2 (fun e e1 => exists g g1 ig, input_with (s_DefaultMoveChance S) S o (in_factor inp) (in_geo inp) (in_changes inp) e g = Ok (e1, g1, ig)) (map fst (pstart gs)) es).
  { rewrite <- (map_id es). apply F2_maps. eapply F2_mono; [|exact F1]. intros [e g] e1 (g1 & ig & X). cbn [fst snd] in *. eauto. }
  assert (P1 : Procs n es).
  { eapply procs_step; [exact P0|exact F1'| |].
    - intros e e' _ I _ (g & g1 & ig & X). apply input_spec in X as (A & B & _). auto.
    - intros a a' b b' _ _ T (ga & ga1 & ia & A) (gb & gb1 & ib & B). eapply input_twin; eauto. }
  assert (T1 : forall e1, In e1 es -> e_total_agents e1 = 0%Z /\ e_agents e1 = [] /\ (ig_closures (in_geo inp) = Some [] -> J e1)).
  { intros e1 H1. apply In_nth_error in H1 as [i H1]. destruct (Forall2_nth_inv _ _ _ _ _ F1' H1) as (e & He & g & g1 & ig & X).
    apply nth_error_In, start_total in He as (B1 & B2 & B3 & _). apply input_spec in X as (_ & _ & Y1 & Y2 & Y3). split; [congruence|]. split; [congruence|auto]. }
  destruct ps as [|p0 ps0] eqn:Eps; [apply Forall2_len in H; destruct gs; [congruence|cbn in H; discriminate]|]. rewrite <- Eps in *.
  assert (In0 : In p0 ps) by (rewrite Eps; now left).
  assert (K : exists k, e_total_agents (p_eco p0) = Z.of_nat k).
  { apply In_nth_error in In0 as [i Hi]. destruct (Forall2_nth_inv _ _ _ _ _ F2 Hi) as (e1 & He & k & G). exists k. apply grow_total in G. rewrite G.
    now rewrite (proj1 (T1 e1 (nth_error_In _ _ He))). }
  destruct K as (k & Hk).
  assert (F3 : Forall2 (Grow k) es (map p_eco ps)).
  { rewrite <- (map_id es). apply F2_maps. assert (Z1 : Forall2 (fun e1 p => (exists k, Grow k e1 (p_eco p)) /\ e_total_agents e1 = 0%Z /\ e_total_agents (p_eco p) = Z.of_nat k) es ps).
    { clear - F2 T1 Wl Hk In0. assert (Q : forall p, In p ps -> e_total_agents (p_eco p) = Z.of_nat k).
      { intros p Hp. destruct (Wl p p0 Hp In0) as (_ & _ & _ & _ & _ & ->). exact Hk. }
      clear Wl Hk In0. revert T1 Q. induction F2 as [|e p es ps G _ IH]; intros T1 Q; constructor.
      - split; [exact G|]. split; [apply T1; now left|apply Q; now left].
      - apply IH; intros; [apply T1|apply Q]; now right. }
    eapply F2_mono; [|exact Z1]. intros e1 p ((j & G) & T & Q). pose proof (grow_total _ _ _ G) as X. assert (j = k) as -> by lia. exact G. }
  assert (Ec : map fst (ecos ps) = map p_eco ps) by (unfold ecos; rewrite map_map; reflexivity).
  exists (Z.of_nat k). split; [|split].
  - split.
    + rewrite Ec. eapply grow_all; eauto.
    + rewrite Ec. eapply grow_alive; [|exact F3]. intros e1 a H1 Ha. destruct (T1 e1 H1) as (_ & X & _). rewrite X in Ha. destruct Ha.
    + rewrite people_heads, Ec. rewrite (grow_heads n k es _ Np P1 F3).
      assert (Z0 : heads es = 0%Z). { unfold heads. clear - T1. induction es as [|e es IH]; [reflexivity|]. cbn [map sumZ]. destruct (T1 e (or_introl eq_refl)) as (_ & -> & _).
        rewrite IH; [reflexivity|]. intros; apply T1; now right. } lia.
    + intros Cl. rewrite Ec. eapply grow_roads; [|exact F3]. intros e1 H1. now apply T1.
  - intros p Hp. destruct (Wl p p0 Hp In0) as (_ & _ & _ & _ & _ & ->). exact Hk.
  - intros p q Hp Hq. destruct (Wl p q Hp Hq) as (X1 & X2 & X3 & X4 & X5 & _). auto.
Qed.

(** ** One day *)
Lemma ready_each inp n o S c st st' k : inherited c = true -> opens_closes_nothing (PEach c) = true -> Ready inp n st k ->
  pstep o S (PEach c) st = Ok st' -> Ready inp n st' k.
Proof.
  intros Hc Ho [P A Pe Js] H. split.
  - eapply pstep_procs; eauto.
  - eapply alive_pstep; eauto.
  - rewrite <- Pe. cbn [pstep] in H. rewrite Hc in H. apply local_forall2 in H. rewrite !people_heads. unfold heads.
    apply f_equal. clear P A Js. induction H as [|e e' es es' (g & g' & E) _ IH]; [reflexivity|]. cbn [map]. rewrite IH. apply sa_step in E; [|exact Hc]. now rewrite E.
  - intro Cl. cbn [pstep] in H. rewrite Hc in H. apply local_forall2 in H. eapply allj_rel; [exact (Js Cl)|exact H|].
    intros e e' _ (g & g' & E). eapply j_step; eauto.
Qed.

Lemma grow_reduce d e : Grow 0 e (reduce_capacities d e).
Proof.
  apply grow_fx; [intro I; eapply inv_still; [apply still_reduce|exact I]| |reflexivity].
  unfold reduce_capacities. apply fx_locs. rewrite map_map. apply map_ext. intro l. now destruct (0 <? l_capacity l)%Z.
Qed.
Lemma par_daily S dm t sp d e g n sp' d' e' g' : from_data S -> par_spawn_daily_displaced S dm t sp d e g = Ok (n, sp', d', e', g') ->
  daily S t sp d = Ok (n, sp', d') /\ Grow (Z.to_nat n) e e'.
Proof.
  intros [F1 F2] H. unfold par_spawn_daily_displaced in H. rewrite F1, F2 in H. unfold daily.
  destruct (get_daily_difference d t true (s_sum_from_camps S)) as [[diff1 d1]|] eqn:E1; [|discriminate]. cbn [bind] in *.
  destruct (get_daily_difference d1 t true (s_sum_from_camps S)) as [[diff2 d2]|] eqn:E2; [|discriminate]. cbn [bind] in *. cbv zeta in *.
  destruct (settle_debt _ _) as [m debt] eqn:E3.
  destruct (pick_spawn_locations _ _ _) as [[locs g1]|] eqn:E4; [|discriminate]. cbn [bind] in H.
  destruct (par_spawn_at _ _ _ _) as [[e2 g2]|] eqn:E5; [|discriminate]. cbn [bind] in H. injection H as <- <- <- <- <-. split; [reflexivity|].
  apply grow_at in E5. apply picks_length in E4. rewrite E4 in E5. refine (grow_trans 0 _ _ _ _ _ E5).
  destruct (_ && _)%bool; [apply grow_reduce|apply grow_refl].
Qed.
Lemma ready_spawn inp n S dm t sp d sp' d' st st2 k : from_data S -> (0 < n)%nat -> Ready inp n st k ->
  Forall2 (fun x y => exists n, par_spawn_daily_displaced S dm t sp d (fst x) (snd x) = Ok (n, sp', d', fst y, snd y)) st st2 ->
  exists j, daily S t sp d = Ok (j, sp', d') /\ Ready inp n st2 (k + j).
Proof.
  intros F N [P A Pe Js] H.
  assert (D : exists j, daily S t sp d = Ok (j, sp', d')).
  { pose proof (pr_len _ _ P) as L. destruct H as [|x y st st2 (j & H) _]; [cbn in L; lia|]. exists j. now apply par_daily in H. }
  destruct D as (j & D). pose proof (daily_positive _ _ _ _ _ _ _ D) as Pos. exists j. split; [exact D|].
  assert (G : Forall2 (Grow (Z.to_nat j)) (map fst st) (map fst st2)).
  { apply F2_maps. eapply F2_mono; [|exact H]. intros x y (i & X). apply par_daily in X as [X G]; [|exact F]. rewrite D in X. injection X as <-. exact G. }
  split.
  - eapply grow_all; eauto.
  - eapply grow_alive; eauto.
  - rewrite people_heads, (grow_heads _ _ _ _ N P G), <- people_heads, Pe. lia.
  - intro Cl. eapply grow_roads; [exact (Js Cl)|exact G].
Qed.
Lemma ready_evolve inp n o S m lat fuel st st' k : Ready inp n st k -> pstep o S (PEvolve m lat fuel) st = Ok st' ->
  Ready inp n st' k /\ (ig_closures (in_geo inp) = Some [] -> forall e, In e (map fst st') -> e_total_agents e = people st') /\
  (forall e i l, In e (map fst st') -> nth_error (e_locations e) i = Some l -> l_numAgents l = people_in st' i).
Proof.
  intros [P A Pe Js] H. pose proof (pstep_procs _ _ _ _ _ _ P H) as P'. pose proof (alive_pstep _ _ _ _ _ _ P A H) as A'. cbn [pstep] in H.
  assert (Vs : map V (map fst st') = map (map ptick) (map V (map fst st))).
  { destruct (evolve_parts _ _ _ _ _ _ _ _ P H) as (st6 & st7 & P6 & H7 & V6 & F).
    assert (Vs : map V (map fst st') = map V (map fst st7)).
    { clear -F. induction F as [|? ? ? ? [(E & _) _] _ IH]; [reflexivity|]. cbn. unfold V at 1 3. now rewrite E, IH. }
    rewrite Vs, (update_view _ _ _ _ _ P6 H7). exact V6. }
  split; [split|split].
  - exact P'.
  - exact A'.
  - rewrite <- Pe, !people_views, Vs. rewrite !map_map. apply f_equal, map_ext. intros [e g]. now rewrite map_length.
  - intro Cl. now destruct (evolve_tally _ _ _ _ _ _ _ _ P A (Js Cl) H) as [[_ _ X _] _].
  - intro Cl. now destruct (evolve_tally _ _ _ _ _ _ _ _ P A (Js Cl) H) as [[_ _ _ X] _].
  - intros e i l He Hl. apply In_nth_error in He as [r He]. now apply (proj1 (evolve_counts _ _ _ _ _ _ _ _ P A H r e He)).
Qed.

Definition Counts (inp : run_input) (st : list (eco * rng)) : Prop :=
  (ig_closures (in_geo inp) = Some [] -> forall e, In e (map fst st) -> e_total_agents e = people st) /\
  (forall e i l, In e (map fst st) -> nth_error (e_locations e) i = Some l -> l_numAgents l = people_in st i).
Lemma simulated_ready fuel m lat S o inp w st0 n k0 : from_data S -> (0 < n)%nat -> Ready inp n st0 k0 -> forall t sp d st,
  par_simulated fuel m lat S o inp w st0 t sp d st ->
  exists k, chain S (w_data w) t sp d k /\ Ready inp n st (k0 + k) /\ ((0 < t)%nat -> Counts inp st).
Proof.
  intros F N R0 t sp d st H. induction H as [|t sp d st st1 sp' d' st2 st' _ (k & C & R & _) H1 H2 H3].
  - exists 0%Z. split; [constructor|]. rewrite Z.add_0_r. split; [exact R0|lia].
  - unfold prun in H1. cbn [foldM fst snd] in H1. apply bind_ok in H1 as (x & H1 & X). injection X as <-.
    pose proof (fun a b => ready_each inp n _ _ _ _ _ _ a b R H1) as R1. specialize (R1 eq_refl eq_refl).
    destruct (ready_spawn _ _ _ _ _ _ _ _ _ _ _ _ F N R1 H2) as (j & D & R2). exists (k + j)%Z. split; [econstructor; eauto|]. rewrite Z.add_assoc.
    unfold prun in H3. cbn [foldM fst snd] in H3. apply bind_ok in H3 as (x3 & H3 & X). apply bind_ok in X as (x4 & H4 & X). apply bind_ok in X as (x5 & H5 & X).
    injection X as <-. pose proof (fun a b => ready_each inp n _ _ _ _ _ _ a b R2 H3) as R3. specialize (R3 eq_refl eq_refl).
    pose proof (fun a b => ready_each inp n _ _ _ _ _ _ a b R3 H4) as R4. specialize (R4 eq_refl eq_refl).
    destruct (ready_evolve _ _ _ _ _ _ _ _ _ _ R4 H5) as (R5 & X1 & X2). split; [exact R5|]. intros _. split; assumption.
Qed.
