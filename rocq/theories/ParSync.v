(** * ParSync: the two latency modes; the partition of the locations and their scores *)

From Coq Require Import Lia Permutation.
From Verif Require Import Base State Moving Crawling Scoring Diagnostics Flee DataTable
  Spawning InputGeography Api Pflee ParApi SpecAgents SpecHistory SpecParallel Lemmas Inv InvMoves InvStruct Frames
  ScoreFrames Travel Profile ReportProofs Skeleton ParProofs ParInv ParSteps ParProps ParCounts ParTotals.
Local Open Scope list_scope.

(** ** Latency *)

Lemma keys_nonempty closed e : e_locations e <> [] -> nonempty (keys closed e) = true.
Proof. unfold keys. destruct (e_locations e); [easy|reflexivity]. Qed.

Lemma update_same n closed es e : Procs n es -> In e es -> e_locations e <> [] ->
  update_num_agents HighLatency closed es = update_num_agents LowLatency closed es.
Proof.
  intros P I N. rewrite !(update_spec _ _ _ e I (procs_nonempty _ _ _ P I)). now rewrite keys_nonempty.
Qed.
Lemma update_low n lat closed es es' : Procs n es -> update_num_agents lat closed es = Ok es' ->
  update_num_agents LowLatency closed es = Ok es'.
Proof.
  intros P H. destruct es as [|e0 es]; [now rewrite update_none in H|].
  assert (I0 : In e0 (e0 :: es)) by now left.
  rewrite (update_spec _ _ _ e0 I0 (procs_nonempty _ _ _ P I0)) in H.
  rewrite (update_spec _ _ _ e0 I0 (procs_nonempty _ _ _ P I0)).
  match type of H with (if ?b then _ else _) = _ => destruct b end; [|discriminate]. exact H.
Qed.
Lemma collective_ext f g st : f (map fst st) = g (map fst st) -> collective f st = collective g st.
Proof. intro H. unfold collective. now rewrite H. Qed.
Lemma bind_ext {A B} (x : res A) (f g : A -> res B) : (forall a, x = Ok a -> f a = g a) -> bind x f = bind x g.
Proof. destruct x; cbn; auto. Qed.

Lemma len_quiet f st st' : (forall e, In e (map fst st) -> e_par e = true) -> Quietly f -> local f st = Ok st' ->
  (exists e, In e (map fst st) /\ e_locations e <> []) -> exists e, In e (map fst st') /\ e_locations e <> [].
Proof.
  intros Pa Q H (e & He & N). apply local_forall2 in H. apply In_nth_error in He as Hr. destruct Hr as [r Hr].
  destruct (Forall2_nth _ _ _ _ _ H Hr) as (e' & E' & g & g' & F). exists e'. split; [eapply nth_error_In; eauto|].
  destruct (Q _ _ _ _ F (Pa e He)) as [_ X]. apply k_fx in X. unfold K in X. injection X as X _ _.
  intro Z. rewrite Z in X. destruct (e_locations e); [congruence|discriminate].
Qed.
Lemma len_update n lat closed st st' : Procs n (map fst st) -> collective (update_num_agents lat closed) st = Ok st' ->
  (exists e, In e (map fst st) /\ e_locations e <> []) -> exists e, In e (map fst st') /\ e_locations e <> [].
Proof.
  intros P H (e & He & N). destruct (update_step _ _ _ _ _ P H) as (e0 & _ & -> & _).
  eexists. split; [apply in_map, He|]. pose proof (f_equal (fun t => fst (fst t)) (k_updated (total_at (map fst st)) (keys closed e0) e)) as X.
  unfold K in X. cbn [fst] in X. intro Z. rewrite Z in X. destruct (e_locations e); [congruence|discriminate].
Qed.

Lemma evolve_latency n m fuel S o st : Procs n (map fst st) ->
  par_evolve m HighLatency fuel S o st = par_evolve m LowLatency fuel S o st.
Proof.
  intro P. unfold par_evolve.
  apply bind_ext; intros st0 H0. apply (procs_quiet n _ _ _ (quiet_first S o) P) in H0 as P0.
  apply bind_ext; intros st1 H1.
  assert (P1 : Procs n (map fst st1)).
  { destruct m; cbn [par_scores] in H1.
    - eapply procs_quiet; [apply (quiet_update_scores S o)|exact P0|exact H1].
    - apply bind_ok in H1 as (sa & Ha & H1).
      apply (procs_quiet n _ _ _ (quiet_scores_of S o own_range) P0) in Ha.
      apply bind_ok in H1 as (sb & Hb & H1).
      apply procs_collective with (n := n) in Hb; [|intros ? ? Q [= <-]; now apply procs_synchronize|exact Ha].
      eapply procs_quiet; [apply (quiet_missing S o)|exact Hb|exact H1]. }
  apply bind_ext; intros st2 H2.
  apply procs_collective with (n := n) in H2 as P2; [|intros; eapply procs_spawned; eauto|exact P1].
  assert (N2 : exists e, In e (map fst st2) /\ e_locations e <> []).
  { apply collective_map in H2 as [H2 _].
    2:{ intros es' F. unfold sync_spawned in F. apply bind_ok in F as (ts & _ & [= <-]). now rewrite !map_length. }
    unfold sync_spawned in H2. apply bind_ok in H2 as (ts & H2 & H3). injection H3 as H3. unfold comm_total in H2.
    destruct (map fst st1) as [|e es]; [discriminate|]. cbn [map forallb] in H2.
    destruct (_ <? _)%nat eqn:X in H2; [|discriminate]. rewrite <- H3. cbn [map].
    eexists. split; [now left|]. cbn. apply Nat.ltb_lt in X. rewrite map_length in X.
    destruct (e_locations e); [cbn in X; lia|]. cbn. destruct ts; discriminate. }
  apply bind_ext; intros st3 H3. apply (procs_quiet n _ _ _ (quiet_evolve_agents S o) P2) in H3 as P3.
  apply (len_quiet _ _ _ (fun e He => procs_par n _ e P2 He) (quiet_evolve_agents S o)) in H3 as N3; [|exact N2].
  assert (U : forall closed s, Procs n (map fst s) -> (exists e, In e (map fst s) /\ e_locations e <> []) ->
    collective (update_num_agents HighLatency closed) s = collective (update_num_agents LowLatency closed) s).
  { intros closed s Ps (e & He & N). apply collective_ext. eapply update_same; eauto. }
  rewrite (U true st3 P3 N3).
  apply bind_ext; intros st4 H4.
  apply procs_collective with (n := n) in H4 as P4; [|intros; eapply procs_update; eauto|exact P3].
  apply (len_update n _ _ _ _ P3) in H4 as N4; [|exact N3].
  apply bind_ext; intros st5 H5. apply (procs_quiet n _ _ _ (quiet_finish_agents fuel S o) P4) in H5 as P5.
  apply (len_quiet _ _ _ (fun e He => procs_par n _ e P4 He) (quiet_finish_agents fuel S o)) in H5 as N5; [|exact N4].
  apply bind_ext; intros st6 H6. apply (procs_quiet n _ _ _ (quiet_logs S) P5) in H6 as P6.
  apply (len_quiet _ _ _ (fun e He => procs_par n _ e P5 He) (quiet_logs S)) in H6 as N6; [|exact N5].
  now rewrite (U false st6 P6 N6).
Qed.

Lemma pstep_low n o S c st st' : Procs n (map fst st) -> pstep o S c st = Ok st' -> pstep o S (low_latency c) st = Ok st'.
Proof.
  intros P H. destruct c; cbn [low_latency]; try exact H; cbn [pstep] in *.
  - unfold collective, par_clear_locations in *. apply bind_ok in H as (es' & H & [= <-]).
    apply bind_ok in H as (es & H1 & H2). rewrite H1. cbn [bind].
    rewrite (update_low n _ _ _ _ (clear_procs _ _ _ _ P H1) H2). reflexivity.
  - unfold collective in *. apply bind_ok in H as (es' & H & [= <-]). rewrite (update_low n _ _ _ _ P H). reflexivity.
  - destruct lat; [|exact H]. now rewrite <- (evolve_latency n _ _ _ _ _ P).
Qed.
Lemma prun_low n o h : forall st st', Procs n (map fst st) -> prun o h st = Ok st' ->
  prun o (map (fun sc => (fst sc, low_latency (snd sc))) h) st = Ok st'.
Proof.
  induction h as [|[S c] h IH]; intros st st' P H; [exact H|].
  unfold prun in *. cbn [map foldM fst snd] in *. apply bind_ok in H as (st1 & H1 & H).
  rewrite (pstep_low _ _ _ _ _ _ P H1). cbn [bind]. eapply IH; [eapply pstep_procs; eauto|exact H].
Qed.
Lemma pstep_both n o S c d st e : Procs n (map fst st) -> In e (map fst st) -> e_locations e <> [] ->
  low_latency c = low_latency d -> pstep o S c st = pstep o S d st.
Proof.
  intros P I N E.
  assert (W : forall c, pstep o S c st = pstep o S (low_latency c) st).
  { clear c d E. intro c. destruct c; cbn [low_latency]; try reflexivity; cbn [pstep].
    - destruct lat; [|reflexivity]. apply collective_ext. unfold par_clear_locations. apply bind_ext. intros es H1.
      pose proof (clear_procs _ _ _ _ P H1) as P1. apply mapM_Forall2 in H1. apply In_nth_error in I as [r Hr].
      destruct (Forall2_nth _ _ _ _ _ H1 Hr) as (e' & E' & F). eapply update_same; [exact P1|eapply nth_error_In; eauto|].
      pose proof (proj2 (par_clear_spec _ _ _ (procs_par _ _ _ P (nth_error_In _ _ Hr)) F)) as X. apply k_fx in X.
      unfold K in X. injection X as X _ _. intro Z. rewrite Z in X. destruct (e_locations e); [congruence|discriminate].
    - destruct lat; [|reflexivity]. apply collective_ext. eapply update_same; eauto.
    - destruct lat; [|reflexivity]. now apply (evolve_latency n). }
  rewrite (W c), (W d), E. reflexivity.
Qed.

(** ** The partition *)

Lemma part_next nloc n r : (0 < n)%Z -> part_offset nloc n (r + 1) = (part_offset nloc n r + part_count nloc n r)%Z.
Proof.
  intro N. unfold part_offset, part_count. destruct (Z.ltb_spec r (nloc mod n)); lia.
Qed.
Lemma part_count_pos nloc n r : (0 < n)%Z -> (0 <= nloc)%Z -> (0 <= part_count nloc n r)%Z.
Proof. intros N L. unfold part_count. pose proof (Z.div_pos nloc n L N). destruct (_ <? _)%Z; lia. Qed.
Lemma part_first nloc n : (0 < n)%Z -> part_offset nloc n 0 = 0%Z.
Proof. intro N. unfold part_offset. pose proof (Z.mod_pos_bound nloc n N). lia. Qed.
Lemma part_last nloc n : (0 < n)%Z -> part_offset nloc n n = nloc.
Proof. intro N. unfold part_offset. pose proof (Z.mod_pos_bound nloc n N). pose proof (Z.div_mod nloc n ltac:(lia)). lia. Qed.
Lemma part_mono nloc n a b : (0 < n)%Z -> (0 <= nloc)%Z -> (a <= b)%Z -> (part_offset nloc n a <= part_offset nloc n b)%Z.
Proof.
  intros N L H. replace b with (a + Z.of_nat (Z.to_nat (b - a)))%Z by lia. generalize (Z.to_nat (b - a)) as k.
  induction k as [|k IH]; [rewrite Z.add_0_r; lia|].
  replace (a + Z.of_nat (S k))%Z with (a + Z.of_nat k + 1)%Z by lia. rewrite part_next by lia.
  pose proof (part_count_pos nloc n (a + Z.of_nat k) N L). lia.
Qed.
Lemma part_unique nloc n r s i : (0 < n)%Z -> (0 <= nloc)%Z -> covers nloc n r i -> covers nloc n s i -> r = s.
Proof.
  unfold covers. intros N L A B. rewrite <- !part_next in * by exact N.
  destruct (Z.lt_trichotomy r s) as [H|[H|H]]; [|exact H|].
  - pose proof (part_mono nloc n (r + 1) s N L). lia.
  - pose proof (part_mono nloc n (s + 1) r N L). lia.
Qed.
Lemma part_some nloc n i : (0 < n)%Z -> (0 <= i < nloc)%Z -> exists r, (0 <= r < n)%Z /\ covers nloc n r i.
Proof.
  intros N I.
  assert (W : forall k : nat, (i < part_offset nloc n (Z.of_nat k))%Z -> exists r, (0 <= r < Z.of_nat k)%Z /\ covers nloc n r i).
  { induction k as [|k IH]; intro H.
    - change (Z.of_nat 0) with 0%Z in H. rewrite part_first in H by exact N. lia.
    - replace (Z.of_nat (S k)) with (Z.of_nat k + 1)%Z in * by lia. 
      destruct (Z_lt_le_dec i (part_offset nloc n (Z.of_nat k))) as [L|L].
      + destruct (IH L) as (r & R & C). exists r. split; [lia|exact C].
      + exists (Z.of_nat k). split; [lia|]. unfold covers. rewrite part_next in H by exact N. lia. }
  specialize (W (Z.to_nat n)). rewrite Z2Nat.id in W by lia. apply W. rewrite part_last by exact N. lia.
Qed.
Lemma part_inside nloc n r i : (0 < n)%Z -> (0 <= nloc)%Z -> (0 <= r < n)%Z -> covers nloc n r i -> (0 <= i < nloc)%Z.
Proof.
  unfold covers. intros N L R C. rewrite <- part_next in C by exact N.
  pose proof (part_mono nloc n 0 r N L). pose proof (part_mono nloc n (r + 1) n N L).
  rewrite part_first in * by exact N. rewrite part_last in * by exact N. lia.
Qed.
Lemma part_even nloc n r s : (0 < n)%Z -> (part_count nloc n r <= part_count nloc n s + 1)%Z.
Proof. intro N. unfold part_count. destruct (_ <? _)%Z, (s <? _)%Z; lia. Qed.

Lemma own_range_covers e i : (0 < e_mpi_size e)%Z -> (0 <= e_rank e)%Z ->
  In i (own_range e) <-> covers (Z.of_nat (List.length (e_locations e))) (e_mpi_size e) (e_rank e) (Z.of_nat i).
Proof.
  intros N R. unfold own_range, covers. cbv zeta. rewrite in_seq.
  pose proof (part_count_pos (Z.of_nat (List.length (e_locations e))) (e_mpi_size e) (e_rank e) N ltac:(lia)).
  pose proof (part_mono (Z.of_nat (List.length (e_locations e))) (e_mpi_size e) 0 (e_rank e) N ltac:(lia) R).
  rewrite part_first in * by exact N. lia.
Qed.

(** ** Gathering the scores *)

Fixpoint offs (acc : Z) (l : list Z) : list Z :=
  match l with [] => [] | a :: l' => acc :: offs (acc + a)%Z l' end.
Lemma removelast_cumsum l : forall acc, l <> [] -> acc :: removelast (cumsum acc l) = offs acc l.
Proof.
  induction l as [|a l IH]; intros acc N; [congruence|]. cbn [cumsum offs]. f_equal.
  destruct l as [|b l]; [reflexivity|].
  change (cumsum (acc + a)%Z (b :: l)) with ((acc + a + b)%Z :: cumsum (acc + a + b)%Z l).
  cbn [removelast]. rewrite <- (IH (acc + a)%Z) by discriminate. reflexivity.
Qed.
Lemma sync_offsets_offs nsc n : sync_offsets nsc n = offs 0 (sync_sizes nsc n).
Proof.
  unfold sync_offsets. destruct (sync_sizes nsc n) as [|a l] eqn:E; [reflexivity|]. apply removelast_cumsum. discriminate.
Qed.

Lemma slice_nth {A} (t s : Z) (b : list A) (d : nat) : (0 <= t)%Z -> (Z.of_nat d < s)%Z ->
  nth_error (slice t s b) d = nth_error b (Z.to_nat t + d).
Proof.
  intros T D. unfold slice.
  assert (F : forall k (l : list A) d, (d < k)%nat -> nth_error (firstn k l) d = nth_error l d).
  { clear. induction k; intros [|a l] [|d] H; cbn; try lia; auto. apply IHk. lia. }
  rewrite F by lia. generalize (Z.to_nat t) as k. clear. intro k. revert b. induction k; intros [|a b]; cbn; auto.
  now destruct d.
Qed.
Lemma slice_len {A} (t s : Z) (b : list A) : (0 <= t)%Z -> (0 <= s)%Z -> (t + s <= Z.of_nat (List.length b))%Z ->
  List.length (slice t s b) = Z.to_nat s.
Proof. intros. unfold slice. rewrite firstn_length, skipn_length. lia. Qed.

Lemma gather_nth {A} (f : nat -> Z) (bufs : list (list A)) : forall a acc,
  (0 <= acc)%Z -> (forall r, 0 <= f r)%Z ->
  (forall b, In b bufs -> acc + sumZ (map f (seq a (List.length bufs))) <= Z.of_nat (List.length b))%Z ->
  forall q b d, nth_error bufs q = Some b -> (Z.of_nat d < f (a + q)%nat)%Z ->
  nth_error (allgather (map f (seq a (List.length bufs))) (offs acc (map f (seq a (List.length bufs)))) bufs)
     (Z.to_nat (sumZ (map f (seq a q))) + d) =
  nth_error b (Z.to_nat (acc + sumZ (map f (seq a q))) + d).
Proof.
  induction bufs as [|b0 bufs IH]; intros a acc Ha F L q b d Q D; [destruct q; discriminate|].
  cbn [List.length seq map offs allgather]. cbn [List.length seq map sumZ] in L.
  assert (Ps : (0 <= sumZ (map f (seq (S a) (List.length bufs))))%Z).
  { generalize (seq (S a) (List.length bufs)) as l. clear -F. induction l; cbn; [lia|]. specialize (F a). lia. }
  assert (L0 : List.length (slice acc (f a) b0) = Z.to_nat (f a)).
  { apply slice_len; auto. specialize (L b0 (or_introl eq_refl)). lia. }
  destruct q as [|q].
  - injection Q as <-. cbn [seq map sumZ Z.to_nat Nat.add]. rewrite Nat.add_0_r in D.
    rewrite nth_error_app1 by (rewrite L0; lia). rewrite Z.add_0_r. now apply slice_nth.
  - cbn [seq map sumZ].
    assert (Pq : (0 <= sumZ (map f (seq (S a) q)))%Z).
    { generalize (seq (S a) q) as l. clear -F. induction l; cbn; [lia|]. specialize (F a). lia. }
    rewrite nth_error_app2 by (rewrite L0; specialize (F a); lia). rewrite L0.
    replace (Z.to_nat (f a + sumZ (map f (seq (S a) q))) + d - Z.to_nat (f a))%nat
      with (Z.to_nat (sumZ (map f (seq (S a) q))) + d)%nat by (specialize (F a); lia).
    rewrite (IH (S a) (acc + f a)%Z) with (b := b).
    + f_equal. f_equal. f_equal. lia.
    + specialize (F a). lia.
    + exact F.
    + intros c Hc. specialize (L c (or_intror Hc)). lia.
    + exact Q.
    + now replace (S a + q)%nat with (a + S q)%nat by lia.
Qed.

Lemma scores_nth ls : forall i l, nth_error ls i = Some l ->
  nth_error (flat_map (fun l => [l_score0 l; l_score1 l]) ls) (2 * i) = Some (l_score0 l) /\
  nth_error (flat_map (fun l => [l_score0 l; l_score1 l]) ls) (2 * i + 1) = Some (l_score1 l).
Proof.
  induction ls as [|m ls IH]; intros [|i] l H; try discriminate.
  - injection H as <-. split; reflexivity.
  - replace (2 * S i)%nat with (S (S (2 * i))) by lia. apply IH, H.
Qed.
Lemma scores_len e : List.length (scores e) = (2 * List.length (e_locations e))%nat.
Proof. unfold scores. induction (e_locations e); cbn in *; [reflexivity|]. rewrite IHl. lia. Qed.
Lemma set_scores_nth ls : forall sc i l a b, nth_error ls i = Some l -> nth_error sc (2 * i) = Some a -> nth_error sc (2 * i + 1) = Some b ->
  nth_error (set_scores sc ls) i = Some (up_l_score0 (fun _ => a) (up_l_score1 (fun _ => b) l)).
Proof.
  induction ls as [|m ls IH]; intros sc [|i] l a b L A B; try discriminate.
  - destruct sc as [|s0 [|s1 sc]]; try discriminate.
    injection L as <-; injection A as <-; injection B as <-. reflexivity.
  - replace (2 * S i)%nat with (S (S (2 * i))) in A, B by lia. destruct sc as [|s0 [|s1 sc]]; try discriminate A.
    cbn [set_scores nth_error]. apply IH; auto.
Qed.

Lemma sizes_sum nloc n q : (0 < n)%Z ->
  sumZ (map (fun r => 2 * part_count nloc n (Z.of_nat r))%Z (seq 0 q)) = (2 * part_offset nloc n (Z.of_nat q))%Z.
Proof.
  intro N. induction q as [|q IH].
  - cbn [seq map sumZ]. change (Z.of_nat 0) with 0%Z. now rewrite part_first.
  - rewrite seq_S, map_app, sumZ_app, IH. cbn [map sumZ Nat.add]. replace (Z.of_nat (S q)) with (Z.of_nat q + 1)%Z by lia.
    rewrite part_next by exact N. lia.
Qed.

Lemma synchronize_gives n es : Procs n es ->
  List.length (synchronize es) = n /\
  forall r e, nth_error es r = Some e -> exists ls, nth_error (synchronize es) r = Some (up_e_locations (fun _ => ls) e) /\
    List.length ls = List.length (e_locations e) /\
    forall i l q eq lq, nth_error (e_locations e) i = Some l -> nth_error es q = Some eq ->
      nth_error (e_locations eq) i = Some lq ->
      covers (Z.of_nat (List.length (e_locations e))) (Z.of_nat n) (Z.of_nat q) (Z.of_nat i) ->
      nth_error ls i = Some (up_l_score0 (fun _ => l_score0 lq) (up_l_score1 (fun _ => l_score1 lq) l)).
Proof.
  intro P. pose proof (pr_len _ _ P) as Len. split; [unfold synchronize; now rewrite map_length|].
  intros r e E. unfold synchronize. cbv zeta.
  set (nsc := match es with [] => 0%Z | e0 :: _ => Z.of_nat (List.length (scores e0)) end).
  set (all := allgather (sync_sizes nsc (Z.of_nat (List.length es))) (sync_offsets nsc (Z.of_nat (List.length es))) (map scores es)).
  exists (set_scores all (e_locations e)). split; [|split].
  - rewrite nth_error_map, E. reflexivity.
  - pose proof (set_scores_map (fun _ => tt) all (e_locations e) ltac:(reflexivity)) as X.
    apply (f_equal (@List.length _)) in X. now rewrite !map_length in X.
  - intros i l q eq lq El Eq Elq C.
    assert (Lall : forall b, In b es -> List.length (e_locations b) = List.length (e_locations e)).
    { intros b Hb. apply (twin_len_locs b e). apply (pr_twin _ _ P); [exact Hb|eapply nth_error_In; eauto]. }
    set (nloc := Z.of_nat (List.length (e_locations e))) in *.
    assert (Nsc : nsc = (2 * nloc)%Z).
    { unfold nsc. destruct es as [|e0 es0]; [destruct r; discriminate|]. rewrite scores_len, (Lall e0 (or_introl eq_refl)). unfold nloc. lia. }
    assert (N0 : (0 < Z.of_nat n)%Z).
    { destruct es; [destruct r; discriminate|]. cbn in Len. lia. }
    assert (Sz : sync_sizes nsc (Z.of_nat (List.length es)) =
                 map (fun r => 2 * part_count nloc (Z.of_nat n) (Z.of_nat r))%Z (seq 0 (List.length (map scores es)))).
    { unfold sync_sizes. rewrite Nsc, (Z.mul_comm 2 nloc), Z.div_mul, Nat2Z.id, map_length, Len by lia. reflexivity. }
    assert (G : forall d, (Z.of_nat d < 2 * part_count nloc (Z.of_nat n) (Z.of_nat q))%Z ->
      nth_error all (Z.to_nat (2 * part_offset nloc (Z.of_nat n) (Z.of_nat q)) + d) =
      nth_error (scores eq) (Z.to_nat (2 * part_offset nloc (Z.of_nat n) (Z.of_nat q)) + d)).
    { intros d D. unfold all. rewrite sync_offsets_offs, Sz.
      pose proof (gather_nth (fun r => 2 * part_count nloc (Z.of_nat n) (Z.of_nat r))%Z (map scores es) 0 0 ltac:(lia)) as X.
      rewrite <- (sizes_sum nloc (Z.of_nat n) q N0). apply X with (q := q) (b := scores eq); clear X.
      - intro k. pose proof (part_count_pos nloc (Z.of_nat n) (Z.of_nat k) N0 ltac:(lia)). lia.
      - intros b Hb. apply in_map_iff in Hb as (e1 & <- & He1). rewrite map_length, Len, (sizes_sum nloc (Z.of_nat n) n N0), part_last by exact N0.
        rewrite scores_len, (Lall e1 He1). unfold nloc. lia.
      - now apply map_nth_error.
      - exact D. }
    unfold covers in C.
    assert (O0 : (0 <= part_offset nloc (Z.of_nat n) (Z.of_nat q))%Z).
    { pose proof (part_mono nloc (Z.of_nat n) 0 (Z.of_nat q) N0 ltac:(lia) ltac:(lia)). rewrite part_first in * by exact N0. lia. }
    destruct (scores_nth _ _ _ Elq) as [S0 S1]. fold (scores eq) in S0, S1.
    apply set_scores_nth; [exact El| |].
    + specialize (G (Z.to_nat (2 * (Z.of_nat i - part_offset nloc (Z.of_nat n) (Z.of_nat q))))). 
      replace (Z.to_nat (2 * part_offset nloc (Z.of_nat n) (Z.of_nat q)) + Z.to_nat (2 * (Z.of_nat i - part_offset nloc (Z.of_nat n) (Z.of_nat q))))%nat
        with (2 * i)%nat in G by lia. rewrite G by lia. exact S0.
    + specialize (G (Z.to_nat (2 * (Z.of_nat i - part_offset nloc (Z.of_nat n) (Z.of_nat q)) + 1))).
      replace (Z.to_nat (2 * part_offset nloc (Z.of_nat n) (Z.of_nat q)) + Z.to_nat (2 * (Z.of_nat i - part_offset nloc (Z.of_nat n) (Z.of_nat q)) + 1))%nat
        with (2 * i + 1)%nat in G by lia. rewrite G by lia. exact S1.
Qed.

(** ** The scores after a time step *)

Definition Sv (e : eco) : list (Q * Q) := map (fun l => (l_score0 l, l_score1 l)) (e_locations e).

Lemma sync_same n es : Procs n es -> forall a b, In a (synchronize es) -> In b (synchronize es) -> Sv a = Sv b.
Proof.
  intros P a b Ha Hb. destruct (synchronize_gives n es P) as [L G]. pose proof (pr_len _ _ P) as Len.
  apply In_nth_error in Ha as [r Hr]. apply In_nth_error in Hb as [s Hs].
  destruct (nth_error es r) as [ea|] eqn:Ea.
  2:{ apply nth_error_None in Ea. assert (X : nth_error (synchronize es) r <> None) by congruence. apply nth_error_Some in X. lia. }
  destruct (nth_error es s) as [eb|] eqn:Eb.
  2:{ apply nth_error_None in Eb. assert (X : nth_error (synchronize es) s <> None) by congruence. apply nth_error_Some in X. lia. }
  destruct (G r ea Ea) as (la & Ga & La & Ha). destruct (G s eb Eb) as (lb & Gb & Lb & Hb).
  rewrite Hr in Ga. injection Ga as ->. rewrite Hs in Gb. injection Gb as ->. unfold Sv. cbn.
  assert (T : List.length (e_locations ea) = List.length (e_locations eb)).
  { apply twin_len_locs, (pr_twin _ _ P); eapply nth_error_In; eauto. }
  assert (N0 : (0 < Z.of_nat n)%Z).
  { assert (X : nth_error es r <> None) by congruence. apply nth_error_Some in X. lia. }
  apply nth_ext with (d := (0, 0)) (d' := (0, 0)); [rewrite !map_length; congruence|].
  intros i Hi. rewrite map_length in Hi.
  destruct (part_some (Z.of_nat (List.length (e_locations ea))) (Z.of_nat n) (Z.of_nat i) N0 ltac:(lia)) as (q & Q & C).
  destruct (nth_error es (Z.to_nat q)) as [eq|] eqn:Eq; [|apply nth_error_None in Eq; lia].
  assert (Tq : List.length (e_locations eq) = List.length (e_locations ea)).
  { apply twin_len_locs, (pr_twin _ _ P); eapply nth_error_In; eauto. }
  destruct (nth_error (e_locations eq) i) as [lq|] eqn:Elq; [|apply nth_error_None in Elq; lia].
  destruct (nth_error (e_locations ea) i) as [l|] eqn:El; [|apply nth_error_None in El; lia].
  destruct (nth_error (e_locations eb) i) as [m|] eqn:Em; [|apply nth_error_None in Em; lia].
  rewrite <- (Z2Nat.id q) in C by lia.
  pose proof (Ha i l _ eq lq El Eq Elq C) as X. rewrite T in C. pose proof (Hb i m _ eq lq Em Eq Elq C) as Y.
  apply (map_nth_error (fun l => (l_score0 l, l_score1 l))) in X, Y.
  apply nth_error_nth with (d := (0, 0)) in X, Y. rewrite X, Y. reflexivity.
Qed.

Lemma local_sv f st st' : (forall e g e' g', f e g = Ok (e', g') -> Sv e' = Sv e) -> local f st = Ok st' ->
  map Sv (map fst st') = map Sv (map fst st).
Proof.
  intros F H. apply local_forall2 in H. induction H as [|e e' l l' (g & g' & E) _ IH]; [reflexivity|].
  cbn [map]. rewrite IH. f_equal. eapply F; eauto.
Qed.
Lemma sv_foldM2 {A} (f : eco * rng -> A -> res (eco * rng)) l e g e' g' :
  (forall e g a e' g', f (e, g) a = Ok (e', g') -> Sv e' = Sv e) ->
  foldM f l (e, g) = Ok (e', g') -> Sv e' = Sv e.
Proof.
  intros Hf H. eapply (foldM_rel (fun s s' => Sv (fst s') = Sv (fst s))) in H; [exact H|auto|intros; congruence|].
  intros [] a [] _ Hs. eapply Hf; exact Hs.
Qed.
Lemma sv_mov e e' : Mov e e' -> Sv e' = Sv e.
Proof. intros [_ B _]. unfold Sv. exact (map_via lfix (fun l => (l_score0 l, l_score1 l)) _ _ B). Qed.

Lemma evolve_scores n lat fuel S o st st' : Procs n (map fst st) -> par_evolve LocPar lat fuel S o st = Ok st' ->
  exists sa, Procs n (map fst sa) /\ exists sb, local (fun e g => update_scores_of S o (own_range e) e g) sa = Ok sb /\
    map Sv (map fst st') = map Sv (synchronize (map fst sb)) /\ Procs n (map fst sb).
Proof.
  intros P H. unfold par_evolve in H.
  apply bind_ok in H as (st0 & H0 & H). apply (procs_quiet n _ _ _ (quiet_first S o) P) in H0 as P0.
  exists st0. split; [exact P0|].
  apply bind_ok in H as (st1 & H1 & H). cbn [par_scores] in H1.
  apply bind_ok in H1 as (sb & Hb & H1). exists sb. split; [exact Hb|].
  apply (procs_quiet n _ _ _ (quiet_scores_of S o own_range) P0) in Hb as Pb. 
  apply bind_ok in H1 as (sc & Hc & H1).
  assert (Pc : Procs n (map fst sc)) by (eapply procs_collective; [|exact Pb|exact Hc]; intros ? ? Q [= <-]; now apply procs_synchronize).
  apply collective_map in Hc as [Hc _]; [|intros es' [= <-]; unfold synchronize; now rewrite !map_length].
  injection Hc as Hc.
  apply (procs_quiet n _ _ _ (quiet_missing S o) Pc) in H1 as P1.
  apply local_sv in H1.
  2:{ clear. intros e g e' g' H. unfold missing_routes in H. destruct (s_FixedRoutes S); [|now injection H as <- <-].
      eapply sv_foldM2; [|exact H]; cbv beta iota. intros e1 g1 a e2 g2 H1. rstep H1.
      destruct (l_routes v); [|now injection H1 as <- <-]. apply rt_generate in H1 as [[r ->] _].
      unfold Sv. cbn. now apply map_upd. }
  split; [|exact Pb]. rewrite Hc, <- H1.
  apply bind_ok in H as (st2 & H2 & H).
  apply procs_collective with (n := n) in H2 as P2; [|intros; eapply procs_spawned; eauto|exact P1].
  apply collective_map in H2 as [H2 _].
  2:{ intros es' F. unfold sync_spawned in F. apply bind_ok in F as (ts & _ & [= <-]). now rewrite !map_length. }
  assert (V2 : map Sv (map fst st2) = map Sv (map fst st1)).
  { unfold sync_spawned in H2. apply bind_ok in H2 as (ts & _ & H2). injection H2 as H2. rewrite <- H2, map_map. apply map_ext.
    intro e. apply set_spawned_map. reflexivity. }
  rewrite <- V2.
  apply bind_ok in H as (st3 & H3 & H). apply (procs_quiet n _ _ _ (quiet_evolve_agents S o) P2) in H3 as P3.
  apply local_sv in H3.
  2:{ clear. intros e g e' g' H. eapply sv_foldM2; [|exact H]; cbv beta iota. intros. eapply sv_mov, mov_person_evolve; eauto. }
  rewrite <- H3. apply bind_ok in H as (st4 & H4 & H).
  apply procs_collective with (n := n) in H4 as P4; [|intros; eapply procs_update; eauto|exact P3].
  assert (U : forall lat closed s s', Procs n (map fst s) -> collective (update_num_agents lat closed) s = Ok s' ->
    map Sv (map fst s') = map Sv (map fst s)).
  { clear. intros lat closed s s' P H. destruct (update_step _ _ _ _ _ P H) as (e0 & _ & -> & _). rewrite map_map.
    apply map_ext. intro e. apply set_heads_map. reflexivity. }
  rewrite <- (U _ _ _ _ P3 H4). apply bind_ok in H as (st5 & H5 & H).
  apply (procs_quiet n _ _ _ (quiet_finish_agents fuel S o) P4) in H5 as P5.
  apply local_sv in H5.
  2:{ clear. intros e g e' g' H. eapply sv_foldM2; [|exact H]; cbv beta iota. intros e1 g1 a e2 g2 H1. rstep H1.
      destruct v as [e3 g3]. injection H1 as <- <-. eapply sv_mov, mov_trans; [eapply mov_finish_travel; eauto|apply mov_up_agent]. }
  rewrite <- H5. apply bind_ok in H as (st6 & H6 & H). apply (procs_quiet n _ _ _ (quiet_logs S) P5) in H6 as P6.
  apply local_sv in H6.
  2:{ clear. intros e g e' g' H. unfold par_logs in H. do 3 rstep H. injection H as <- <-.
      assert (L1 : e_locations v = e_locations e).
      { destruct (0 <? s_log_agent S)%Z; [|now injection E as <-]. unfold write_agents in E. rinv E; reflexivity. }
      assert (L2 : e_locations v0 = e_locations v).
      { destruct (0 <? s_log_link S)%Z; [|now injection E0 as <-]. unfold write_links in E0. rinv E0; reflexivity. }
      unfold update_recent in E1. rstep E1. injection E1 as <-. unfold Sv. cbn. now rewrite L2, L1. }
  rewrite <- H6. apply bind_ok in H as (st7 & H7 & H). rewrite <- (U _ _ _ _ P6 H7).
  apply bind_ok in H as (st8 & H8 & H). apply local_sv in H8.
  2:{ clear. intros e g e' g' H. injection H as <- <-. unfold aggregate_arrivals. destruct (0 <? s_log_camp S)%Z; [|reflexivity].
      unfold Sv. cbn. rewrite map_map. apply map_ext. intro l. now destruct (l_camp l). }
  rewrite <- H8. apply bind_ok in H as (st9 & H9 & H). apply local_sv in H9.
  2:{ clear. intros e g e' g' H. unfold par_sinks in H. destruct (s_camps_are_sinks S); [rstep H|]; now injection H as <- <-. }
  rewrite <- H9. apply local_sv in H; [exact H|]. clear. intros e g e' g' [= <- <-]. reflexivity.
Qed.

Lemma evolve_same_scores n lat fuel S o st st' : Procs n (map fst st) -> par_evolve LocPar lat fuel S o st = Ok st' ->
  forall a b, In a (map fst st') -> In b (map fst st') -> Sv a = Sv b.
Proof.
  intros P H a b Ha Hb. destruct (evolve_scores _ _ _ _ _ _ _ P H) as (sa & Pa & sb & _ & E & Pb).
  apply (in_map Sv) in Ha, Hb. rewrite E in Ha, Hb.
  apply in_map_iff in Ha as (x & <- & Hx). apply in_map_iff in Hb as (y & <- & Hy). eapply sync_same; eauto.
Qed.
