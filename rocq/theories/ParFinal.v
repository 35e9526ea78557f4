(** * ParFinal: the statements of PropertiesParallel.v, assembled *)

From Coq Require Import Lia.
From Verif Require Import Base State Moving Crawling Scoring Diagnostics Flee DataTable
  Spawning InputGeography Api Pflee ParApi SpecAgents SpecHistory SpecParallel Lemmas Inv InvMoves InvStruct Frames
  ScoreFrames Travel Profile ReportProofs Skeleton ParProofs ParInv ParSteps ParProps ParCounts ParTotals ParSync.
Local Open Scope list_scope.

Lemma f_one_owner o n S c args st st' : (c = PAddAgent args \/ c = PInsertAgent args) -> (0 < n)%nat ->
  preachable o n st -> pstep o S c st = Ok st' ->
  exists r loc attrs, (r < n)%nat /\ nth_error args r = Some (loc, attrs) /\
    held st' r = held st r ++ [new_agent loc attrs] /\ (forall s, s <> r -> held st' s = held st s).
Proof. intros C N R. eapply add_one_owner; eauto using preachable_procs. Qed.

Lemma f_balance o n h k st st' : (0 < n)%nat -> preachable o n st -> adding h k -> prun o h st = Ok st' ->
  exists new, List.length new = n /\
    (forall r l, nth_error new r = Some l -> held st' r = held st r ++ l) /\
    (forall r s l m, nth_error new r = Some l -> nth_error new s = Some m -> (List.length l <= List.length m + 1)%nat) /\
    sumZ (map (fun l => Z.of_nat (List.length l)) new) = Z.of_nat k.
Proof. intros N R. eapply adds_balanced; eauto using preachable_procs. Qed.

Lemma f_update o n S lat closed st st' : preachable o n st -> pstep o S (PUpdateNumAgents lat closed) st = Ok st' ->
  map snd st' = map snd st /\
  forall r e e', nth_error (map fst st) r = Some e -> nth_error (map fst st') r = Some e' ->
    (forall i l', nth_error (e_locations e') i = Some l' -> l_numAgents l' = people_in st i) /\
    (forall k x', listed closed e k -> nth_error (e_links e') k = Some x' -> k_numAgents x' = people_on st k) /\
    (forall k, ~ listed closed e k -> nth_error (e_links e') k = nth_error (e_links e) k) /\
    but_counts e' = but_counts e.
Proof. intro R. apply (update_counts n); [eapply preachable_procs; eauto|eapply preachable_alive; eauto]. Qed.

Lemma f_evolve o n S m lat fuel st st' : preachable o n st -> pstep o S (PEvolve m lat fuel) st = Ok st' ->
  forall e', In e' (map fst st') ->
    (forall i l', nth_error (e_locations e') i = Some l' -> l_numAgents l' = people_in st' i) /\
    (forall k x', listed false e' k -> nth_error (e_links e') k = Some x' -> k_numAgents x' = people_on st' k).
Proof.
  intros R H e' He. apply In_nth_error in He as [r He].
  eapply (evolve_counts n); [eapply preachable_procs; eauto|eapply preachable_alive; eauto|exact H|exact He].
Qed.

Lemma f_modes o n S c d st e : preachable o n st -> In e (map fst st) -> e_locations e <> [] ->
  low_latency c = low_latency d -> pstep o S c st = pstep o S d st.
Proof. intro R. eapply pstep_both; eauto using preachable_procs. Qed.
Lemma f_modes_run o h gs st : prun o h (pstart gs) = Ok st ->
  prun o (map (fun sc => (fst sc, low_latency (snd sc))) h) (pstart gs) = Ok st.
Proof.
  apply (prun_low (List.length gs)). apply (preachable_procs o). exists [], gs. split; reflexivity.
Qed.

(** ** Partition *)

Lemma proc_owner n es e i : Procs n es -> In e es -> (i < List.length (e_locations e))%nat ->
  exists q eq, nth_error es q = Some eq /\ covers (Z.of_nat (List.length (e_locations e))) (Z.of_nat n) (Z.of_nat q) (Z.of_nat i).
Proof.
  intros P He Hi.
  assert (N : (0 < n)%nat) by (rewrite <- (pr_len _ _ P); destruct es; [destruct He|cbn; lia]).
  destruct (part_some (Z.of_nat (List.length (e_locations e))) (Z.of_nat n) (Z.of_nat i)) as (r & Hr & C); [lia|lia|].
  assert (L : (Z.to_nat r < List.length es)%nat) by (rewrite (pr_len _ _ P); lia).
  destruct (nth_error es (Z.to_nat r)) as [eq|] eqn:E; [|apply nth_error_None in E; lia].
  exists (Z.to_nat r), eq. split; [exact E|]. now rewrite Z2Nat.id by lia.
Qed.
Lemma range_covers n es e q eq i : Procs n es -> In e es -> nth_error es q = Some eq ->
  In i (own_range eq) <-> covers (Z.of_nat (List.length (e_locations e))) (Z.of_nat n) (Z.of_nat q) (Z.of_nat i).
Proof.
  intros P He Eq. destruct (pr_each _ _ P _ _ Eq) as (_ & _ & R & M).
  assert (N : (0 < n)%nat) by (rewrite <- (pr_len _ _ P); destruct es; [destruct He|cbn; lia]).
  rewrite own_range_covers by (rewrite ?M, ?R; lia). rewrite R, M.
  rewrite (twin_len_locs eq e); [reflexivity|]. apply (pr_twin _ _ P); [eapply nth_error_In; eauto|exact He].
Qed.

Lemma f_partition o n st : preachable o n st ->
  (forall r e, nth_error (map fst st) r = Some e -> forall i, In i (own_range e) -> (i < List.length (e_locations e))%nat) /\
  (forall e i, In e (map fst st) -> (i < List.length (e_locations e))%nat ->
     exists q eq, nth_error (map fst st) q = Some eq /\ In i (own_range eq) /\
       forall s es, nth_error (map fst st) s = Some es -> In i (own_range es) -> s = q) /\
  (forall e f, In e (map fst st) -> In f (map fst st) ->
     (List.length (own_range e) <= List.length (own_range f) + 1)%nat).
Proof.
  intro R. apply preachable_procs in R as P. split; [|split].
  - intros r e E i Hi. pose proof (nth_error_In _ _ E) as He. apply (range_covers _ _ e _ _ _ P He E) in Hi.
    assert (r < n)%nat by (rewrite <- (pr_len _ _ P); eapply nth_error_lt; eauto).
    apply part_inside in Hi; lia.
  - intros e i He Hi. destruct (proc_owner _ _ _ _ P He Hi) as (q & eq & Eq & C).
    exists q, eq. split; [exact Eq|]. split; [now apply (range_covers _ _ e _ _ _ P He Eq)|].
    intros s es Es Hs. apply (range_covers _ _ e _ _ _ P He Es) in Hs.
    assert (q < n)%nat by (rewrite <- (pr_len _ _ P); eapply nth_error_lt; eauto).
    assert (Z.of_nat s = Z.of_nat q) by (eapply part_unique; eauto; lia). lia.
  - intros e f He Hf. apply In_nth_error in He as [r He]. apply In_nth_error in Hf as [s Hf].
    destruct (pr_each _ _ P _ _ He) as (_ & _ & _ & M). destruct (pr_each _ _ P _ _ Hf) as (_ & _ & _ & M').
    assert (r < n)%nat by (rewrite <- (pr_len _ _ P); eapply nth_error_lt; eauto).
    unfold own_range. cbv zeta. rewrite !seq_length, M, M'.
    rewrite (twin_len_locs e f) by (apply (pr_twin _ _ P); eapply nth_error_In; eauto).
    pose proof (part_even (Z.of_nat (List.length (e_locations f))) (Z.of_nat n) (e_rank e) (e_rank f) ltac:(lia)).
    pose proof (part_count_pos (Z.of_nat (List.length (e_locations f))) (Z.of_nat n) (e_rank f) ltac:(lia) ltac:(lia)). lia.
Qed.

(** ** Segments gathered *)

Lemma offs_nth (f : nat -> Z) k : forall a acc r, (r < k)%nat ->
  nth_error (offs acc (map f (seq a k))) r = Some (acc + sumZ (map f (seq a r)))%Z.
Proof.
  induction k as [|k IH]; intros a acc r R; [lia|]. cbn [seq map offs]. destruct r as [|r]; cbn [nth_error seq map sumZ].
  - f_equal. lia.
  - rewrite IH by lia. f_equal. lia.
Qed.
Lemma f_segments nloc n r : (0 < n)%nat -> (r < n)%nat ->
  nth_error (sync_sizes (2 * nloc) (Z.of_nat n)) r = Some (2 * part_count nloc (Z.of_nat n) (Z.of_nat r))%Z /\
  nth_error (sync_offsets (2 * nloc) (Z.of_nat n)) r = Some (2 * part_offset nloc (Z.of_nat n) (Z.of_nat r))%Z.
Proof.
  intros N R.
  assert (Sz : sync_sizes (2 * nloc) (Z.of_nat n) = map (fun r => 2 * part_count nloc (Z.of_nat n) (Z.of_nat r))%Z (seq 0 n)).
  { unfold sync_sizes. rewrite (Z.mul_comm 2 nloc), Z.div_mul, Nat2Z.id by lia. reflexivity. }
  split.
  - rewrite Sz, nth_error_map, nth_error_nth' with (d := 0%nat) by (rewrite seq_length; lia). rewrite seq_nth by lia. reflexivity.
  - rewrite sync_offsets_offs, Sz, offs_nth by lia. rewrite sizes_sum by lia. reflexivity.
Qed.

Lemma f_sync o n st : preachable o n st ->
  List.length (synchronize (map fst st)) = List.length st /\
  forall r e, nth_error (map fst st) r = Some e -> exists ls,
    nth_error (synchronize (map fst st)) r = Some (up_e_locations (fun _ => ls) e) /\
    List.length ls = List.length (e_locations e) /\
    forall i l, nth_error (e_locations e) i = Some l ->
      exists q eq lq, nth_error (map fst st) q = Some eq /\ In i (own_range eq) /\ nth_error (e_locations eq) i = Some lq /\
        nth_error ls i = Some (up_l_score0 (fun _ => l_score0 lq) (up_l_score1 (fun _ => l_score1 lq) l)).
Proof.
  intro R. apply preachable_procs in R as P. destruct (synchronize_gives _ _ P) as [L G].
  split; [rewrite L, <- (pr_len _ _ P); apply map_length|].
  intros r e E. destruct (G r e E) as (ls & Els & Ll & X). exists ls. split; [exact Els|]. split; [exact Ll|].
  intros i l El. pose proof (nth_error_In _ _ E) as He.
  destruct (proc_owner _ _ e i P He) as (q & eq & Eq & C); [eapply nth_error_lt; eauto|].
  destruct (twin_nth_loc e eq i l) as [lq Elq]; [apply (pr_twin _ _ P); [exact He|eapply nth_error_In; eauto]|exact El|].
  exists q, eq, lq. split; [exact Eq|]. split; [now apply (range_covers _ _ e _ _ _ P He Eq)|]. split; [exact Elq|].
  eapply X; eauto.
Qed.

Lemma f_same_scores o n S lat fuel st st' : preachable o n st -> pstep o S (PEvolve LocPar lat fuel) st = Ok st' ->
  forall a b, In a (map fst st') -> In b (map fst st') ->
    map (fun l => (l_score0 l, l_score1 l)) (e_locations a) = map (fun l => (l_score0 l, l_score1 l)) (e_locations b).
Proof. intros R H. apply (evolve_same_scores n lat fuel S o st st'); [eapply preachable_procs; eauto|exact H]. Qed.

(** ** Totals and agents *)

Lemma f_total o h gs st : (forall S c, In (S, c) h -> opens_closes_nothing c = true) -> prun o h (pstart gs) = Ok st ->
  forall e, In e (map fst st) -> par_num_agents e = people st.
Proof. intros N H. apply (ta_total (List.length gs)). eapply tally_run; eauto using tally_start. Qed.

Lemma ptick_tview a b : tview b = ptick (tview a) ->
  a_home_location b = a_home_location a /\ a_attributes b = a_attributes a /\
  a_timesteps_since_departure b = (a_timesteps_since_departure a + 1)%Z /\ deactivated b = deactivated a.
Proof.
  unfold tview, ptick. intro H. injection H as H1 H2 H3 H4. repeat split; auto.
  unfold gone_of, deactivated in *. destruct (a_location a), (a_location b); congruence.
Qed.
Lemma f_agents o n S m lat fuel st st' : preachable o n st -> pstep o S (PEvolve m lat fuel) st = Ok st' ->
  forall r, List.length (held st' r) = List.length (held st r) /\
    forall k a a', nth_error (held st r) k = Some a -> nth_error (held st' r) k = Some a' ->
      a_home_location a' = a_home_location a /\ a_attributes a' = a_attributes a /\
      a_timesteps_since_departure a' = (a_timesteps_since_departure a + 1)%Z /\ deactivated a' = false.
Proof.
  intros R H r. pose proof (preachable_procs _ _ _ R) as P. pose proof (preachable_alive _ _ _ R) as A.
  destruct (evolve_parts n m lat fuel S o st st' P H) as (st6 & st7 & P6 & H7 & V6 & F).
  assert (W : map V (map fst st') = map (map ptick) (map V (map fst st))).
  { rewrite <- V6. rewrite <- (update_view _ _ _ _ _ P6 H7).
    clear -F. induction F as [|x y l l' [C _] _ IH]; [reflexivity|]. cbn [map]. f_equal; [|exact IH].
    unfold V. destruct C as (C1 & _). now rewrite C1. }
  rewrite !held_nth.
  destruct (nth_error (map fst st) r) as [e|] eqn:E.
  2:{ destruct (nth_error (map fst st') r) as [e'|] eqn:E'; [|split; [reflexivity|]; intros k a a'; destruct k; discriminate].
      apply (f_equal (@List.length _)) in W. rewrite !map_length in W. apply nth_error_lt in E'. apply nth_error_None in E.
      rewrite !map_length in *. lia. }
  assert (E2 : exists e', nth_error (map fst st') r = Some e' /\ V e' = map ptick (V e)).
  { pose proof (f_equal (fun l => nth_error l r) W) as X. cbv beta in X. rewrite !nth_error_map in X. rewrite nth_error_map in E.
    rewrite nth_error_map. destruct (nth_error st r); [|discriminate]. cbn in E. injection E as E.
    destruct (nth_error st' r); [|discriminate]. cbn in X. injection X as X. rewrite E in X. eexists; split; [reflexivity|exact X]. }
  destruct E2 as (e' & -> & X). split.
  - apply (f_equal (@List.length _)) in X. unfold V in X. now rewrite !map_length in X.
  - intros k a a' Ha Ha'. pose proof (f_equal (fun l => nth_error l k) X) as Y. cbv beta in Y. unfold V in Y.
    rewrite !nth_error_map, Ha, Ha' in Y. cbn [option_map] in Y. injection Y as Y1 Y2 Y3 Y4.
    destruct (ptick_tview a a') as (G1 & G2 & G3 & G4); [unfold tview, ptick; congruence|].
    repeat split; auto. rewrite G4. apply (A e); [eapply nth_error_In; eauto|eapply nth_error_In; eauto].
Qed.
