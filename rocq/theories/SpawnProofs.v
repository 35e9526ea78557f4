(** * SpawnProofs: new agents *)

From Coq Require Import Lia Lqa.
From Verif Require Import Base State Moving Crawling Scoring Diagnostics Flee DataTable
  Spawning InputGeography Api SpecAgents SpecHistory SpecRoutes SpecTravel SpecClosures SpecChoice SpecZones SpecData SpecSpawn
  Lemmas Inv InvMoves InvStruct Frames ScoreFrames Travel Closures ChoiceProofs Streams Profile Zones ZoneProps DataProofs.
Local Open Scope Q_scope.

(** ** Arrivals *)

Lemma arrivals_nil i : arrivals i [] = 0%Z. Proof. reflexivity. Qed.
Lemma arrivals_app i a b : arrivals i (a ++ b) = (arrivals i a + arrivals i b)%Z.
Proof. unfold arrivals. rewrite flat_map_app, count_occ_app. lia. Qed.
Lemma arrivals_one i j attrs : arrivals i [newcomer j attrs] = if Nat.eqb i j then 1%Z else 0%Z.
Proof.
  unfold arrivals. cbn. destruct (Nat.eq_dec j i) as [->|N]; [now rewrite Nat.eqb_refl|].
  destruct (Nat.eqb_spec i j); [congruence|reflexivity].
Qed.
Lemma arrivals_pos i new : (0 <= arrivals i new)%Z. Proof. unfold arrivals. lia. Qed.

(** ** Growing *)

Lemma grown_refl take e : grown take [] e e.
Proof.
  unfold grown. split; [destruct e; unfold up_e_locations, up_e_agents; cbn; now rewrite app_nil_r|]. split; [reflexivity|].
  intros i l H. exists l. rewrite arrivals_nil. repeat split; auto; destruct take; try lia. destruct (0 <? l_pop l)%Z eqn:B; lia.
Qed.
Lemma grown_trans take n1 n2 a b c : grown take n1 a b -> grown take n2 b c -> grown take (n1 ++ n2) a c.
Proof.
  intros (A1 & A2 & A3) (B1 & B2 & B3). split; [|split; [congruence|]].
  - rewrite B1 at 1. rewrite A1 at 1. destruct a; unfold up_e_locations, up_e_agents; cbn. now rewrite app_assoc.
  - intros i l H. destruct (A3 i l H) as (l1 & H1 & U1 & N1 & S1 & P1). destruct (B3 i l1 H1) as (l2 & H2 & U2 & N2 & S2 & P2).
    exists l2. split; [exact H2|]. split; [congruence|]. rewrite arrivals_app.
    pose proof (arrivals_pos i n1). pose proof (arrivals_pos i n2).
    split; [lia|]. destruct take; [|split; congruence]. split; [lia|].
    rewrite P2, P1. destruct (0 <? l_pop l)%Z eqn:C1; [|rewrite C1; reflexivity].
    destruct (0 <? Z.max 0 (l_pop l - arrivals i n1))%Z eqn:C2; lia.
Qed.
Lemma grown_nth take new e e' i l : grown take new e e' -> nth_error (e_locations e) i = Some l ->
  exists l', nth_error (e_locations e') i = Some l' /\ l_name l' = l_name l.
Proof.
  intros (_ & _ & G) H. destruct (G i l H) as (l' & H' & U & _). exists l'. split; [exact H'|].
  assert (X : l_name (uncounted l') = l_name (uncounted l)) by now rewrite U. exact X.
Qed.
Lemma grown_uncounted take new e e' i l l' : grown take new e e' -> nth_error (e_locations e) i = Some l -> nth_error (e_locations e') i = Some l' ->
  uncounted l' = uncounted l.
Proof. intros (_ & _ & G) H H'. destruct (G i l H) as (l2 & H2 & U & _). congruence. Qed.
Lemma grown_par take new e e' : grown take new e e' -> e_par e' = e_par e.
Proof. intros (-> & _). reflexivity. Qed.

(** ** Drawing attributes *)

Lemma sample_spec values w g v g' : rng_ok g -> sample_row values w g = Ok (v, g') ->
  rng_ok g' /\ exists n q, nth_error values n = Some v /\ nth_error w n = Some q /\ 0 < q.
Proof.
  intros G H. unfold sample_row in H. do 3 (rstep H; [discriminate|]).
  apply Bool.negb_false_iff in B0, B1. apply Qltb_true in B0. apply Nat.eqb_eq in B1.
  assert (F : Forall (fun x => 0 <= x) w).
  { apply Forall_forall. intros x Hx. destruct (Qltb x 0) eqn:E; qb; [|exact E]. exfalso.
    assert (existsb (fun x => Qltb x 0) w = true); [|congruence]. apply existsb_exists. exists x. split; [exact Hx|]. now apply Qltb_true. }
  assert (NE : w <> []) by (intros ->; cbn in B0; lra).
  pose proof (cdf_shape w (sumQ w) ltac:(lra) ltac:(reflexivity) NE) as C. cbv zeta in *.
  set (cdf := map _ _) in *. clearbody cdf.
  destruct (rng_nu g) as [u g1] eqn:Eu. assert (U : 0 <= u /\ u < 1 /\ rng_ok g1).
  { destruct G as [G1 G2]. unfold rng_nu in Eu. injection Eu as <- <-. split; [apply G2|]. split; [apply G2|]. split; assumption. }
  destruct (nth_error values _) as [v1|] eqn:Ev in H; [|discriminate]. cbn in H. injection H as -> ->.
  destruct U as (U0 & U1 & G1). split; [exact G1|].
  rewrite (bisect_compat cdf (accumulate 0 w) u (u * sumQ w) (sumQ w)) in Ev by (auto; reflexivity).
  destruct (bisect_all 0 w (u * sumQ w) F) as (A & B2 & D).
  - apply Qmult_le_0_compat; lra.
  - setoid_replace (0 + sumQ w)%Q with (1 * sumQ w)%Q by ring. apply Qmult_lt_compat_r; lra.
  - set (i := bisect_right _ _) in *. assert (Sh : share w i u) by (unfold share, before; split; lra).
    apply share_positive in Sh as (q & Hq & P). eauto.
Qed.

Lemma samples_fit name : forall dm g attrs g', rng_ok g -> draw_samples dm name g = Ok (attrs, g') ->
  rng_ok g' /\ fits dm name attrs.
Proof.
  induction dm as [|[a t] dm IH]; intros g attrs g' G H; cbn [draw_samples] in H.
  - injection H as <- <-. split; [exact G|constructor].
  - destruct (draw_sample t name g) as [[v g1]|] eqn:E; [|discriminate]. cbn [bind] in H.
    destruct (draw_samples dm name g1) as [[d g2]|] eqn:E2; [|discriminate]. cbn [bind] in H. injection H as <- <-.
    unfold draw_sample in E.
    destruct (match dict_get name (t_columns t) with Some w => Ok w | None => of_option KeyError (dict_get "Default" (t_columns t)) end) as [w|] eqn:Ew; [|discriminate].
    cbn [bind] in E. apply sample_spec in E as (G1 & n & q & V & W & P); [|exact G].
    destruct (IH _ _ _ G1 E2) as [G2 F]. split; [exact G2|]. constructor; [|exact F]. cbn [fst snd]. split; [reflexivity|].
    exists w, n, q. split; [|auto]. unfold weights_for. destruct (dict_get name (t_columns t)) as [w'|].
    + left. congruence.
    + right. split; [reflexivity|]. now apply of_option_ok in Ew.
Qed.

(** ** Spawning *)

Lemma append_grown S take i attrs e e' : e_par e = false ->
  (if take : bool then add_agent S i attrs e else insert_agent i attrs e) = Ok e' ->
  grown (take && s_TakeFromPopulation S) [newcomer i attrs] e e'.
Proof.
  intros P H.
  assert (C : exists l, nth_error (e_locations e) i = Some l).
  { destruct take; unfold add_agent, insert_agent, append_agent, loc_of in H; rstep H; apply of_option_ok in E; eauto. }
  destruct C as [l Hl].
  assert (Q : e' = up_loc i (loc_add false 1) (up_e_agents (fun ags => ags ++ [newcomer i attrs])
     (if (take && s_TakeFromPopulation S)%bool then up_loc i (fun l => up_l_numAgentsSpawned (fun z => z + 1)%Z
                  (if (0 <? l_pop l)%Z then up_l_pop (fun z => z - 1)%Z l else l)) e else e))).
  { destruct take; unfold add_agent, insert_agent, append_agent, loc_of in H; rewrite Hl in H; cbn [of_option bind] in H.
    - cbn [andb]. destruct (s_TakeFromPopulation S).
      + cbn [up_loc up_e_locations e_locations] in H. rewrite nth_upd_same, Hl in H. cbn [option_map of_option bind] in H.
        injection H as <-. cbn [e_par]. rewrite P. reflexivity.
      + rewrite Hl in H. cbn [of_option bind] in H. injection H as <-. rewrite P. reflexivity.
    - cbn [andb]. injection H as <-. rewrite P. reflexivity. }
  clear H. subst e'. destruct (take && s_TakeFromPopulation S)%bool.
  - split; [reflexivity|]. split; [cbn; now rewrite !upd_length|]. intros j m Hm. rewrite arrivals_one.
    cbn [up_loc up_e_locations up_e_agents e_locations]. destruct (Nat.eqb_spec j i) as [->|N].
    + assert (m = l) as -> by congruence. rewrite !nth_upd_same, Hl. cbn [option_map]. eexists. split; [reflexivity|].
      destruct (0 <? l_pop l)%Z eqn:B; cbn; (split; [destruct l; reflexivity|]); repeat split; lia.
    + rewrite !nth_upd_other by congruence. exists m. split; [exact Hm|]. split; [reflexivity|]. split; [lia|]. split; [lia|].
      destruct (0 <? l_pop m)%Z eqn:B; lia.
  - split; [reflexivity|]. split; [cbn; now rewrite upd_length|]. intros j m Hm. rewrite arrivals_one.
    cbn [up_loc up_e_locations up_e_agents e_locations]. destruct (Nat.eqb_spec j i) as [->|N].
    + assert (m = l) as -> by congruence. rewrite !nth_upd_same, Hl. cbn [option_map]. eexists. split; [reflexivity|].
      cbn. split; [destruct l; reflexivity|]. repeat split; lia.
    + rewrite !nth_upd_other by congruence. exists m. split; [exact Hm|]. repeat split; lia.
Qed.

Lemma one_spec S dm take i e g e' g' : e_par e = false -> rng_ok g -> spawn_one S dm take i (e, g) = Ok (e', g') ->
  rng_ok g' /\ exists new, grown (take && s_TakeFromPopulation S) new e e' /\ fresh_in dm e [i] new.
Proof.
  intros P G H. unfold spawn_one, loc_of in H. destruct (nth_error (e_locations e) i) as [l|] eqn:Hl; [|discriminate].
  cbn [of_option bind] in H. destruct (draw_samples dm (lname l) g) as [[attrs g1]|] eqn:Ed; [|discriminate]. cbn [bind] in H.
  destruct (if take then _ else _) as [e1|] eqn:Ea in H; [|discriminate]. cbn [bind] in H. injection H as -> ->.
  apply samples_fit in Ed as [G1 F]; [|exact G]. split; [exact G1|]. exists [newcomer i attrs]. split; [eapply append_grown; eauto|].
  constructor; [|constructor]. exists l, attrs. auto.
Qed.

Lemma fresh_later dm take new e e1 homes more : grown take new e e1 -> fresh_in dm e1 homes more -> 
  (forall i, In i homes -> (i < List.length (e_locations e))%nat) -> fresh_in dm e homes more.
Proof.
  intros G F B. unfold fresh_in in *. induction F as [|i a homes more H F IH]; constructor.
  - destruct H as (l & attrs & Hl & -> & Fit). destruct (nth_error_ex (e_locations e) i) as [l0 H0]; [apply B; now left|].
    destruct (grown_nth _ _ _ _ _ _ G H0) as (l' & H' & N). assert (l' = l) as -> by congruence. exists l0, attrs. rewrite <- N. auto.
  - apply IH. intros; apply B; now right.
Qed.
Lemma fresh_app dm e h1 n1 h2 n2 : fresh_in dm e h1 n1 -> fresh_in dm e h2 n2 -> fresh_in dm e (h1 ++ h2) (n1 ++ n2).
Proof. apply Forall2_app. Qed.
Lemma fresh_lt dm e homes new : fresh_in dm e homes new -> forall i, In i homes -> (i < List.length (e_locations e))%nat.
Proof.
  intros F. induction F as [|i a homes new H F IH]; intros j Hj; [destruct Hj|]. destruct Hj as [->|Hj].
  - destruct H as (l & _ & Hl & _). eapply nth_error_lt; eauto.
  - auto.
Qed.

(** Many agents, one after the other *)
Lemma list_spec S dm take : forall homes e g e' g', e_par e = false -> rng_ok g ->
  foldM (fun st i => spawn_one S dm take i st) homes (e, g) = Ok (e', g') ->
  rng_ok g' /\ exists new, grown (take && s_TakeFromPopulation S) new e e' /\ fresh_in dm e homes new.
Proof.
  induction homes as [|i homes IH]; intros e g e' g' P G H; cbn [foldM] in H.
  - injection H as <- <-. split; [exact G|]. exists []. split; [apply grown_refl|constructor].
  - destruct (spawn_one S dm take i (e, g)) as [[e1 g1]|] eqn:E; [|discriminate]. cbn [bind] in H.
    apply one_spec in E as (G1 & n1 & Gr & F1); auto.
    apply IH in H as (G2 & n2 & Gr2 & F2); auto; [|erewrite grown_par; eauto].
    split; [exact G2|]. exists (n1 ++ n2)%list. split; [eapply grown_trans; eauto|]. change (i :: homes) with ([i] ++ homes)%list.
    apply fresh_app; [exact F1|]. eapply fresh_later; eauto. intros j Hj. destruct Gr as (_ & L & _). rewrite <- L. eapply fresh_lt; eauto.
Qed.
Lemma n_spec S dm take i n e g e' g' : e_par e = false -> rng_ok g -> spawn_n S dm take i n (e, g) = Ok (e', g') ->
  rng_ok g' /\ exists new, grown (take && s_TakeFromPopulation S) new e e' /\ fresh_in dm e (repeat i (Z.to_nat n)) new.
Proof.
  intros P G H. unfold spawn_n in H. apply (list_spec S dm take (repeat i (Z.to_nat n)) e g e' g' P G).
  rewrite <- H. clear. generalize 0%nat. generalize (Z.to_nat n). intro k. generalize (e, g). induction k as [|k IH]; intros st m; [reflexivity|].
  cbn [repeat seq foldM]. destruct (spawn_one S dm take i st); [|reflexivity]. cbn [bind]. apply IH.
Qed.

(** ** Conflict-driven spawning *)

Lemma number_spec S l g n g' : String.eqb (lower (s_conflict_spawn_mode S)) "poisson" = false ->
  conflict_spawn_number S l g = Ok (n, g') -> g' = g /\ n = daily_amount S l.
Proof.
  intros M H. unfold conflict_spawn_number, daily_amount in *. destruct (Qltb 0 (l_conflict l)); [|injection H as <- <-; auto].
  destruct (String.eqb (s_conflict_spawn_mode S) "constant"); [injection H as <- <-; auto|].
  destruct (String.eqb (s_conflict_spawn_mode S) "pop_ratio"); [injection H as <- <-; auto|].
  rewrite M in H. injection H as <- <-; auto.
Qed.

Definition homes_of (amount : nat -> Z) (is_ : list nat) : list nat := flat_map (fun i => repeat i (Z.to_nat (amount i))) is_.
Definition amount_at (S : settings) (e : eco) (i : nat) : Z :=
  match nth_error (e_locations e) i with Some l => daily_amount S l | None => 0%Z end.

Lemma daily_same S l l' : l_conflict l' = l_conflict l -> l_pop l' = l_pop l -> daily_amount S l' = daily_amount S l.
Proof. intros A B. unfold daily_amount. now rewrite A, B. Qed.
Lemma uncounted_conflict l l' : uncounted l' = uncounted l -> l_conflict l' = l_conflict l.
Proof. intro U. change (l_conflict (uncounted l') = l_conflict (uncounted l)). now rewrite U. Qed.

Lemma arrivals_none dm e homes new i : fresh_in dm e homes new -> ~ In i homes -> arrivals i new = 0%Z.
Proof.
  intros F. induction F as [|j a homes new H F IH]; intro N; [reflexivity|].
  destruct H as (l & attrs & _ & -> & _). change (newcomer j attrs :: new) with ([newcomer j attrs] ++ new)%list.
  rewrite arrivals_app, arrivals_one, IH by (intro; apply N; now right). destruct (Nat.eqb_spec i j) as [->|]; [|lia].
  exfalso. apply N. now left.
Qed.
Lemma homes_In amount is_ i : In i (homes_of amount is_) -> In i is_.
Proof. unfold homes_of. intro H. apply in_flat_map in H as (j & Hj & Hi). apply repeat_spec in Hi. now subst. Qed.

Lemma loop_spec S dm e0 : String.eqb (lower (s_conflict_spawn_mode S)) "poisson" = false ->
  forall is_ total e g n e' g', e_par e = false -> rng_ok g -> NoDup is_ ->
  (forall i l0, In i is_ -> nth_error (e_locations e0) i = Some l0 -> exists l, nth_error (e_locations e) i = Some l /\
      l_conflict l = l_conflict l0 /\ l_pop l = l_pop l0) ->
  (forall i, In i is_ -> (i < List.length (e_locations e0))%nat) ->
  foldM (fun st i =>
           let '(total, e1, g1) := st in
           l <- loc_of e1 i ;;
           '(n, g2) <- conflict_spawn_number S l g1 ;;
           '(e2, g3) <- spawn_n S dm true i n (e1, g2) ;;
           Ok ((total + n)%Z, e2, g3)) is_ (total, e, g) = Ok (n, e', g') ->
  rng_ok g' /\ n = (total + sumZ (map (amount_at S e0) is_))%Z /\
  exists new, grown (s_TakeFromPopulation S) new e e' /\ fresh_in dm e (homes_of (amount_at S e0) is_) new.
Proof.
  intros M. induction is_ as [|i is_ IH]; intros total e g n e' g' P G ND K B H; cbn [foldM] in H.
  - injection H as <- <- <-. split; [exact G|]. split; [cbn; lia|]. exists []. split; [apply grown_refl|constructor].
  - destruct (nth_error_ex (e_locations e0) i) as [l0 Hl0]; [apply B; now left|].
    destruct (K i l0 (or_introl eq_refl) Hl0) as (l & Hl & C1 & C2).
    unfold loc_of at 1 in H. rewrite Hl in H. cbn [of_option bind] in H.
    destruct (conflict_spawn_number S l g) as [[m g2]|] eqn:En; [|discriminate]. cbn [bind] in H.
    apply number_spec in En as [-> ->]; [|exact M].
    destruct (spawn_n S dm true i (daily_amount S l) (e, g)) as [[e2 g3]|] eqn:Es; [|discriminate]. cbn [bind] in H.
    apply n_spec in Es as (G3 & n1 & Gr & F1); auto. cbn [andb] in Gr.
    assert (A : amount_at S e0 i = daily_amount S l) by (unfold amount_at; rewrite Hl0; symmetry; now apply daily_same).
    inversion ND as [|x xs NI ND']; subst x xs.
    apply IH in H as (G4 & -> & n2 & Gr2 & F2); auto.
    + split; [exact G4|]. split; [cbn [map sumZ fold_right]; rewrite A; unfold sumZ; lia|].
      exists (n1 ++ n2)%list. split; [eapply grown_trans; eauto|].
      assert (X : homes_of (amount_at S e0) (i :: is_) = repeat i (Z.to_nat (daily_amount S l)) ++ homes_of (amount_at S e0) is_)
        by (unfold homes_of; cbn [flat_map]; now rewrite A).
      rewrite X. apply fresh_app; [exact F1|]. eapply fresh_later; eauto. intros j Hj. destruct Gr as (_ & L & _). rewrite <- L. eapply fresh_lt; eauto.
    + erewrite grown_par; eauto.
    + intros j lj Hj Hlj. destruct (K j lj (or_intror Hj) Hlj) as (m & Hm & D1 & D2). destruct Gr as (_ & _ & Gr).
      destruct (Gr j m Hm) as (m' & Hm' & U & _ & _ & Po). exists m'. split; [exact Hm'|].
      split; [rewrite (uncounted_conflict _ _ U); exact D1|]. rewrite Po, <- D2.
      assert (Z0 : arrivals j n1 = 0%Z) by (eapply arrivals_none; [exact F1|]; intro Hr; apply repeat_spec in Hr; subst; contradiction).
      rewrite Z0. destruct (s_TakeFromPopulation S); [|reflexivity]. destruct (0 <? l_pop m)%Z eqn:Bq; lia.
    + intros j Hj. apply B. now right.
Qed.

Lemma homes_count amount is_ : Z.of_nat (List.length (homes_of amount is_)) = sumZ (map (fun i => Z.max 0 (amount i)) is_).
Proof.
  unfold homes_of. induction is_ as [|i is_ IH]; [reflexivity|]. cbn [flat_map map sumZ fold_right]. rewrite app_length, repeat_length.
  unfold sumZ in IH. lia.
Qed.

Lemma flat_map_ext_seq {B} (f g : nat -> list B) : forall n k, (forall i, (k <= i < k + n)%nat -> f i = g i) -> flat_map f (seq k n) = flat_map g (seq k n).
Proof.
  induction n as [|n IH]; intros k H; [reflexivity|]. cbn [seq flat_map]. rewrite (H k) by lia. f_equal. apply IH. intros; apply H; lia.
Qed.

Theorem conflict_spawning o S dm t sp d e g n sp' d' e' g' :
  reachable o e g -> rng_ok g -> s_conflict_driven_spawning S = true ->
  String.eqb (lower (s_conflict_spawn_mode S)) "poisson" = false ->
  spawn_daily_displaced S dm t sp d e g = Ok (n, sp', d', e', g') ->
  sp' = sp /\ d' = d /\ n = sumZ (map (daily_amount S) (e_locations e)) /\
  exists new, grown (s_TakeFromPopulation S) new e e' /\
    fresh_in dm e (flat_map (fun il => repeat (fst il) (Z.to_nat (daily_amount S (snd il))))
                            (combine (seq 0 (List.length (e_locations e))) (e_locations e))) new.
Proof.
  intros R G C M H. unfold spawn_daily_displaced in H. rewrite C in H.
  destruct (spawn_loop _ _ _ _ _) as [[[n1 e1] g1]|] eqn:E; [|discriminate]. cbn [bind] in H. injection H as <- <- <- <- <-.
  split; [reflexivity|]. split; [reflexivity|]. unfold spawn_loop in E.
  assert (Bd : forall i, In i (seq 0 (List.length (e_locations e))) -> (i < List.length (e_locations e))%nat) by (intros i Hi; apply in_seq in Hi; lia).
  destruct (loop_spec S dm e M _ _ _ _ _ _ _ (reachable_par _ _ _ R) G (seq_NoDup _ _)
    (fun i l0 _ H => ex_intro _ l0 (conj H (conj eq_refl eq_refl)))
    Bd E) as (_ & -> & new & Gr & F).
  assert (X : forall k ls, map (fun i => match nth_error ls (i - k)%nat with Some l => daily_amount S l | None => 0%Z end) (seq k (List.length ls)) = map (daily_amount S) ls /\
       flat_map (fun i => repeat i (Z.to_nat (match nth_error ls (i - k)%nat with Some l => daily_amount S l | None => 0%Z end))) (seq k (List.length ls)) =
       flat_map (fun il => repeat (fst il) (Z.to_nat (daily_amount S (snd il)))) (combine (seq k (List.length ls)) ls)).
    { clear. intros k ls. revert k. induction ls as [|l ls IH]; intro k; [split; reflexivity|].
      cbn [List.length seq combine map flat_map]. rewrite Nat.sub_diag. cbn [nth_error fst snd]. destruct (IH (Datatypes.S k)) as [A B]. split.
      - f_equal. rewrite <- A. apply map_ext_in. intros i Hi. apply in_seq in Hi. replace (i - k)%nat with (Datatypes.S (i - Datatypes.S k)) by lia. reflexivity.
      - f_equal. rewrite <- B. apply flat_map_ext_seq. intros i Hi. replace (i - k)%nat with (Datatypes.S (i - Datatypes.S k)) by lia. reflexivity. }
    destruct (X 0%nat (e_locations e)) as [A B].
    assert (A' : map (amount_at S e) (seq 0 (List.length (e_locations e))) = map (daily_amount S) (e_locations e)).
    { rewrite <- A. apply map_ext. intro i. unfold amount_at. now rewrite Nat.sub_0_r. }
    rewrite A'. split; [lia|]. exists new. split; [exact Gr|]. rewrite <- B.
    assert (B' : homes_of (amount_at S e) (seq 0 (List.length (e_locations e))) =
      flat_map (fun i => repeat i (Z.to_nat (match nth_error (e_locations e) (i - 0)%nat with Some l => daily_amount S l | None => 0%Z end))) (seq 0 (List.length (e_locations e)))).
    { unfold homes_of. apply flat_map_ext. intro i. unfold amount_at. now rewrite Nat.sub_0_r. }
    now rewrite <- B'.
Qed.

Lemma amount_nonneg S l : 0 <= s_displaced_per_conflict_day S -> (0 <= l_pop l)%Z -> (0 <= daily_amount S l)%Z.
Proof.
  intros R P. unfold daily_amount. destruct (Qltb 0 (l_conflict l)) eqn:C; [|lia]. apply Qltb_true in C.
  assert (Q0 : 0 <= inject_Z (l_pop l)) by (change 0 with (inject_Z 0); now rewrite <- Zle_Qle).
  destruct (String.eqb _ _); [apply Qtrunc_nonneg; nra|]. destruct (String.eqb _ _); [|lia]. apply Qtrunc_nonneg.
  apply Qmult_le_0_compat; [apply Qmult_le_0_compat; assumption|lra].
Qed.
Lemma fresh_length dm e homes new : fresh_in dm e homes new -> List.length new = List.length homes.
Proof. intro F. induction F; cbn; congruence. Qed.
Lemma homes_length S e : Forall (fun l => 0 <= daily_amount S l)%Z (e_locations e) ->
  Z.of_nat (List.length (flat_map (fun il => repeat (fst il) (Z.to_nat (daily_amount S (snd il))))
                            (combine (seq 0 (List.length (e_locations e))) (e_locations e)))) =
  sumZ (map (daily_amount S) (e_locations e)).
Proof.
  generalize 0%nat. intros k H. revert k. induction H as [|l ls P F IH]; intro k; [reflexivity|].
  cbn [List.length seq combine flat_map map sumZ fold_right fst snd]. rewrite app_length, repeat_length. specialize (IH (Datatypes.S k)). unfold sumZ in IH. lia.
Qed.
Theorem conflict_count o S dm t sp d e g n sp' d' e' g' :
  reachable o e g -> rng_ok g -> s_conflict_driven_spawning S = true ->
  String.eqb (lower (s_conflict_spawn_mode S)) "poisson" = false ->
  0 <= s_displaced_per_conflict_day S -> (forall l, In l (e_locations e) -> (0 <= l_pop l)%Z) ->
  spawn_daily_displaced S dm t sp d e g = Ok (n, sp', d', e', g') ->
  (0 <= n)%Z /\ Z.of_nat (List.length (e_agents e')) = (Z.of_nat (List.length (e_agents e)) + n)%Z.
Proof.
  intros R G C M Ra Po H. destruct (conflict_spawning _ _ _ _ _ _ _ _ _ _ _ _ _ R G C M H) as (_ & _ & -> & new & (E & _) & F).
  assert (A : Forall (fun l => 0 <= daily_amount S l)%Z (e_locations e)).
  { apply Forall_forall. intros l Hl. apply amount_nonneg; auto. }
  apply fresh_length in F. rewrite E. cbn [up_e_locations up_e_agents e_agents]. rewrite app_length, F.
  pose proof (homes_length S e A) as L. split; lia.
Qed.

(** ** Data-driven spawning *)

Lemma settle_spec m debt n debt' : (0 <= debt)%Z -> settle_debt m debt = (n, debt') ->
  (0 <= n /\ 0 <= debt' /\ n - debt' = m /\ (n = 0 \/ debt' = 0))%Z.
Proof. unfold settle_debt. intros D H. destruct (m <? 0)%Z eqn:A; [|destruct (0 <? debt)%Z eqn:B]; injection H as <- <-; lia. Qed.

Theorem data_day o S dm t sp d e g n sp' d' e' g' :
  reachable o e g -> rng_ok g -> s_conflict_driven_spawning S = false -> s_flood_driven_spawning S = false ->
  (s_InsertDayZero S = false \/ t <> 0%Z) -> (0 <= sp_debt sp)%Z ->
  spawn_daily_displaced S dm t sp d e g = Ok (n, sp', d', e', g') ->
  exists diff d1 diff2 picks g1 new,
    get_daily_difference d t true (s_sum_from_camps S) = Ok (diff, d1) /\
    get_daily_difference d1 t true (s_sum_from_camps S) = Ok (diff2, d') /\ sp_raw sp' = (sp_raw sp + diff2)%Z /\
    (0 <= n /\ 0 <= sp_debt sp' /\ n - sp_debt sp' = diff - sp_debt sp /\ (n = 0 \/ sp_debt sp' = 0))%Z /\
    pick_spawn_locations n e g = Ok (picks, g1) /\ Z.of_nat (List.length picks) = n /\
    grown (s_TakeFromPopulation S) new e e' /\ fresh_in dm e picks new.
Proof.
  intros R G C F Z0 Dt H. unfold spawn_daily_displaced in H. rewrite C, F in H.
  destruct (get_daily_difference d t true (s_sum_from_camps S)) as [[diff d1]|] eqn:E1; [|discriminate]. cbn [bind] in H.
  destruct (get_daily_difference d1 t true (s_sum_from_camps S)) as [[diff2 d2]|] eqn:E2; [|discriminate]. cbn [bind] in H. cbv zeta in H.
  assert (Z1 : (s_InsertDayZero S && (t =? 0)%Z)%bool = false) by (destruct Z0 as [-> |Z0]; [reflexivity|]; destruct (s_InsertDayZero S); cbn; lia).
  rewrite Z1 in H. destruct (settle_debt (diff - sp_debt sp) (sp_debt sp)) as [m debt] eqn:Es.
  destruct (pick_spawn_locations m e g) as [[locs g1]|] eqn:Ep; [|discriminate]. cbn [bind] in H.
  destruct (spawn_at S dm locs (e, g1)) as [[e2 g2]|] eqn:Ea; [|discriminate]. cbn [bind] in H. injection H as <- <- <- <- <-.
  apply settle_spec in Es; [|exact Dt].
  assert (G1 : rng_ok g1).
  { eapply streams_ok; [eapply streams_pick; eauto|exact G]. }
  apply list_spec in Ea as (_ & new & Gr & Fr); auto; [|eapply reachable_par; eauto]. cbn [andb] in Gr.
  exists diff, d1, diff2, locs, g1, new. cbn [sp_raw sp_debt]. repeat (split; [assumption || reflexivity|]).
  split; [apply (pick_sound _ _ _ _ _ G Ep)|]. auto.
Qed.

(** The numbers recorded on day 0: of every name of the header but "total" the number
    of the data, of other names none. *)
Definition day0_inv (d0 d : dtable) : Prop :=
  d_header d = d_header d0 /\ d_tables d = d_tables d0 /\ d_start_empty d = d_start_empty d0 /\
  forall name, name <> "total"%string ->
    (In name (d_header d0) -> forall z, get_field d0 name 0 true = Ok z -> day0_get name d = 0%Z \/ day0_get name d = z) /\
    (~ In name (d_header d0) -> day0_get name d = 0%Z).

Lemma dget_set {A} n m (v : A) d : dict_get m (dict_set n v d) = if String.eqb m n then Some v else dict_get m d.
Proof.
  induction d as [|[k w] d IH]; cbn.
  - reflexivity.
  - destruct (String.eqb_spec n k) as [->|N]; cbn; [destruct (String.eqb_spec m k); reflexivity|].
    destruct (String.eqb_spec m k) as [->|M]; [|exact IH]. destruct (String.eqb_spec k n); [congruence|reflexivity].
Qed.
Lemma day0_set_same name z d : day0_get name (set_day0 (dict_set name z) d) = z.
Proof. unfold day0_get, set_day0. cbn [d_day0]. now rewrite dget_set, String.eqb_refl. Qed.
Lemma day0_set_other name k z d : name <> k -> day0_get name (set_day0 (dict_set k z) d) = day0_get name d.
Proof. intro N. unfold day0_get, set_day0. cbn [d_day0]. rewrite dget_set. destruct (String.eqb_spec name k); [contradiction|reflexivity]. Qed.

Lemma field_shift d0 d name : d_day0 d0 = [] -> d_header d = d_header d0 -> d_tables d = d_tables d0 -> d_start_empty d = d_start_empty d0 ->
  forall p, get_field d name 0 true = Ok p -> get_field d0 name 0 true = Ok (p + day0_get name d * d_start_empty d0)%Z.
Proof.
  intros E0 A B C p H. unfold get_field in *. rewrite A, B, C in H.
  destruct (find_header name (d_header d0) 0) as [i|]; [|discriminate]. cbn [bind] in *.
  destruct (nth_error (d_tables d0) i) as [t|]; [|discriminate]. cbn [of_option bind] in *.
  destruct (interpolate t 0) as [v|]; [|discriminate]. cbn [bind] in *. injection H as <-.
  unfold day0_get at 1. rewrite E0. cbn [dict_get]. f_equal. lia.
Qed.

Lemma day0_step_inv d0 sumcamps d n name d' n' : d_day0 d0 = [] -> In name (d_header d0) -> day0_inv d0 d ->
  day0_step true sumcamps (d, n) name = Ok (d', n') ->
  day0_inv d0 d' /\ (forall k z, k <> "total"%string -> get_field d0 k 0 true = Ok z -> day0_get k d = z -> day0_get k d' = z) /\
  (name <> "total"%string -> forall z, get_field d0 name 0 true = Ok z -> day0_get name d' = z).
Proof.
  intros E0 Hin (A & B & C & I) H. unfold day0_step in H.
  destruct (get_field d name 0 true) as [p|] eqn:Ep; [|discriminate]. cbn [bind] in H. cbv zeta in H.
  pose proof (field_shift d0 d name E0 A B C p Ep) as Fs.
  set (d1 := if (day0_get name d =? 0)%Z then set_day0 (dict_set name p) d else d) in *.
  assert (H1 : d_header d1 = d_header d0 /\ d_tables d1 = d_tables d0 /\ d_start_empty d1 = d_start_empty d0)
    by (unfold d1; destruct (day0_get name d =? 0)%Z; cbn; auto).
  assert (H2 : forall k, k <> name -> day0_get k d1 = day0_get k d)
    by (intros k Nk; unfold d1; destruct (day0_get name d =? 0)%Z; [now apply day0_set_other|reflexivity]).
  assert (H3 : name <> "total"%string -> forall z, get_field d0 name 0 true = Ok z -> day0_get name d1 = z).
  { intros Nt z Hz. rewrite Fs in Hz. injection Hz as <-. unfold d1. destruct (day0_get name d =? 0)%Z eqn:Zq.
    - apply Z.eqb_eq in Zq. rewrite day0_set_same, Zq. lia.
    - apply Z.eqb_neq in Zq. destruct (I name Nt) as [I1 _]. destruct (I1 Hin _ Fs) as [X|X]; [contradiction|exact X]. }
  assert (H4 : forall k, k <> "total"%string -> day0_get k d' = day0_get k d1 /\ d_header d' = d_header d1 /\ d_tables d' = d_tables d1 /\ d_start_empty d' = d_start_empty d1).
  { intros k Nk. destruct sumcamps; injection H as <- <-; [|auto]. split; [now apply day0_set_other|]. auto. }
  clearbody d1. split; [|split].
  - destruct (H4 "a"%string ltac:(discriminate)) as (_ & X & Y & W). destruct H1 as (U & V & T).
    split; [congruence|]. split; [congruence|]. split; [congruence|]. intros k Nk. destruct (H4 k Nk) as (-> & _).
    destruct (string_dec k name) as [->|Nn].
    + split; [intros _ z Hz; right; now apply H3|]. intro X'. contradiction.
    + rewrite (H2 k Nn). apply I, Nk.
  - intros k z Nk Hz Hk. destruct (H4 k Nk) as (-> & _). destruct (string_dec k name) as [->|Nn]; [now apply H3|]. now rewrite (H2 k Nn).
  - intros Nt z Hz. destruct (H4 name Nt) as (-> & _). now apply H3.
Qed.

Lemma day0_fold d0 sumcamps : d_day0 d0 = [] -> forall names d n d' n', (forall x, In x names -> In x (d_header d0)) -> day0_inv d0 d ->
  foldM (day0_step true sumcamps) names (d, n) = Ok (d', n') ->
  day0_inv d0 d' /\ (forall k z, k <> "total"%string -> get_field d0 k 0 true = Ok z -> day0_get k d = z -> day0_get k d' = z) /\
  (forall k z, In k names -> k <> "total"%string -> get_field d0 k 0 true = Ok z -> day0_get k d' = z).
Proof.
  intros E0. induction names as [|x names IH]; intros d n d' n' Sub I H; cbn [foldM] in H.
  - injection H as <- <-. split; [exact I|]. split; [auto|]. intros k z [].
  - destruct (day0_step true sumcamps (d, n) x) as [[d1 n1]|] eqn:E; [|discriminate]. cbn [bind] in H.
    apply (day0_step_inv d0) in E as (I1 & K1 & X1); auto; [|apply Sub; now left].
    apply IH in H as (I2 & K2 & X2); auto; [|intros; apply Sub; now right].
    split; [exact I2|]. split; [intros; eapply K2; eauto|]. intros k z [<-|Hk] Nk Hz; [|eapply X2; eauto]. apply K2; auto.
Qed.

Lemma day0_daily d0 sumcamps d diff d' : d_day0 d0 = [] -> day0_inv d0 d -> get_daily_difference d 0 true sumcamps = Ok (diff, d') ->
  day0_inv d0 d' /\ (forall k z, In k (d_header d0) -> k <> "total"%string -> get_field d0 k 0 true = Ok z -> day0_get k d' = z).
Proof.
  intros E0 I H. unfold get_daily_difference in H. cbn [Z.eqb] in H.
  assert (I0 : day0_inv d0 (set_day0 (dict_set "total" 0%Z) d)).
  { destruct I as (A & B & C & I). split; [exact A|]. split; [exact B|]. split; [exact C|]. intros k Nk. rewrite day0_set_other by exact Nk. now apply I. }
  destruct (foldM _ _ _) as [[d1 n]|] eqn:E; [|discriminate]. cbn [bind] in H. destruct I as (Hh & _).
  apply (day0_fold d0) in E as (I1 & _ & X1); auto; [|rewrite Hh; auto]. rewrite Hh in X1.
  destruct sumcamps; [injection H as <- <-; auto|].
  destruct (get_field d1 "total" 0 true) as [n1|]; [|discriminate]. cbn [bind] in H. apply (f_equal (fun r => match r with Ok p => snd p | Err _ => d1 end)) in H. cbn [snd] in H. subst d'.
  split.
  - destruct I1 as (A & B & C & I1). split; [exact A|]. split; [exact B|]. split; [exact C|]. intros k Nk. rewrite day0_set_other by exact Nk. now apply I1.
  - intros k z Hk Nk Hz. rewrite day0_set_other by exact Nk. now apply X1.
Qed.

(** On day 0, if the registered people were placed in the camps, nobody is spawned. *)
Theorem day_zero S dm sp d e g n sp' d' e' g' :
  s_conflict_driven_spawning S = false -> s_flood_driven_spawning S = false -> s_InsertDayZero S = true ->
  (0 <= sp_debt sp)%Z -> d_day0 d = [] ->
  spawn_daily_displaced S dm 0 sp d e g = Ok (n, sp', d', e', g') ->
  n = 0%Z /\ sp_debt sp' = 0%Z /\ e' = up_e_locations (fun _ => e_locations e') e /\
  Forall2 (fun l l' => exists z, (lname l <> "total"%string -> registered d (lname l) z) /\
                         l' = if (0 <? l_capacity l)%Z then up_l_capacity (fun c => c - z)%Z l else l) (e_locations e) (e_locations e') /\
  exists diff d1 diff2, get_daily_difference d 0 true (s_sum_from_camps S) = Ok (diff, d1) /\
    get_daily_difference d1 0 true (s_sum_from_camps S) = Ok (diff2, d') /\ sp_raw sp' = (sp_raw sp + diff2)%Z.
Proof.
  intros C F I Dt E0 H. unfold spawn_daily_displaced in H. rewrite C, F, I in H.
  destruct (get_daily_difference d 0 true (s_sum_from_camps S)) as [[diff d1]|] eqn:E1; [|discriminate]. cbn [bind] in H.
  destruct (get_daily_difference d1 0 true (s_sum_from_camps S)) as [[diff2 d2]|] eqn:E2; [|discriminate]. cbn [bind] in H. cbv zeta in H.
  cbn [andb Z.eqb] in H. destruct (settle_debt 0 (sp_debt sp)) as [m debt] eqn:Es.
  destruct (pick_spawn_locations m (reduce_capacities d2 e) g) as [[locs g1]|] eqn:Ep; [|discriminate]. cbn [bind] in H.
  destruct (spawn_at S dm locs (reduce_capacities d2 e, g1)) as [[e2 g2]|] eqn:Ea; [|discriminate]. cbn [bind] in H. injection H as <- <- <- <- <-.
  apply settle_spec in Es; [|exact Dt]. assert (m = 0%Z) as -> by lia. split; [reflexivity|]. split; [cbn; lia|].
  unfold pick_spawn_locations in Ep. cbv zeta in Ep. do 4 (rstep Ep; [discriminate|]). cbn in Ep. injection Ep as <- <-.
  cbn in Ea. injection Ea as <- <-. split; [reflexivity|].
  assert (I0 : day0_inv d d).
  { split; [reflexivity|]. split; [reflexivity|]. split; [reflexivity|]. intros k Nk. unfold day0_get. rewrite E0. auto. }
  assert (I1 : day0_inv d d1) by (eapply day0_daily; eauto).
  destruct (day0_daily d (s_sum_from_camps S) d1 diff2 d2 E0 I1 E2) as [(_ & _ & _ & J) X].
  split; [|exists diff, d1, diff2; auto].
  cbn [reduce_capacities up_e_locations e_locations]. clear - X J E1 E2 E0.
  assert (Fd : forall k, In k (d_header d) -> exists z, get_field d k 0 true = Ok z).
  { clear - E0 E1. unfold get_daily_difference in E1. cbn [Z.eqb] in E1. destruct (foldM _ _ _) as [[d2 n]|] eqn:E; [|discriminate]. clear E1.
    assert (K : forall names da m, (forall x, In x names -> In x (d_header d)) -> day0_inv d da ->
       foldM (day0_step true (s_sum_from_camps S)) names (da, m) = Ok (d2, n) -> forall k, In k names -> exists z, get_field d k 0 true = Ok z).
    { induction names as [|x names IH]; intros da m Sub I H k Hk; [destruct Hk|]. cbn [foldM] in H.
      destruct (day0_step true (s_sum_from_camps S) (da, m) x) as [[d3 m3]|] eqn:Ex; [|discriminate]. cbn [bind] in H.
      destruct Hk as [<-|Hk].
      - unfold day0_step in Ex. destruct (get_field da x 0 true) as [p|] eqn:Ep; [|discriminate].
        destruct I as (A & B & C & _). eexists. eapply (field_shift d da); eauto.
      - eapply (IH d3 m3); [intros; apply Sub; now right| |exact H|exact Hk]. eapply day0_step_inv in Ex; [exact (proj1 Ex)|exact E0|apply Sub; now left|exact I]. }
    intros k Hk. eapply (K _ _ _ (fun x Hx => Hx)); [|exact E|exact Hk].
    split; [reflexivity|]. split; [reflexivity|]. split; [reflexivity|]. intros k' Nk. rewrite day0_set_other by exact Nk. unfold day0_get. rewrite E0. auto. }
  induction (e_locations e) as [|l ls IH]; [constructor|]. cbn [map]. constructor; [|exact IH].
  exists (day0_get (lname l) d2). split; [|reflexivity]. intro Nt. unfold registered.
  destruct (in_dec string_dec (lname l) (d_header d)) as [Hin|Hn].
  - left. split; [exact Hin|]. destruct (Fd _ Hin) as [z Hz]. rewrite (X _ z Hin Nt Hz). exact Hz.
  - right. split; [exact Hn|]. apply J; auto.
Qed.

(** ** Debt over many days *)

Lemma sumZ_app a b : sumZ (a ++ b) = (sumZ a + sumZ b)%Z.
Proof. unfold sumZ. induction a as [|x a IH]; cbn; [reflexivity|]. rewrite IH. lia. Qed.

Lemma one_day_spec S dm t sp d e g n sp' d' e' g' diff d1 :
  s_conflict_driven_spawning S = false -> s_flood_driven_spawning S = false ->
  (s_InsertDayZero S = false \/ t <> 0%Z) -> (0 <= sp_debt sp)%Z ->
  get_daily_difference d t true (s_sum_from_camps S) = Ok (diff, d1) ->
  spawn_daily_displaced S dm t sp d e g = Ok (n, sp', d', e', g') ->
  (0 <= n /\ 0 <= sp_debt sp' /\ n - sp_debt sp' = diff - sp_debt sp /\ (n = 0 \/ sp_debt sp' = 0))%Z.
Proof.
  intros C F Z0 Dt E1 H. unfold spawn_daily_displaced in H. rewrite C, F in H. rewrite E1 in H. cbn [bind] in H.
  destruct (get_daily_difference d1 t true (s_sum_from_camps S)) as [[diff2 d2]|] eqn:E2; [|discriminate]. cbn [bind] in H. cbv zeta in H.
  assert (Z1 : (s_InsertDayZero S && (t =? 0)%Z)%bool = false) by (destruct Z0 as [-> |Z0]; [reflexivity|]; destruct (s_InsertDayZero S); cbn; lia).
  rewrite Z1 in H. destruct (settle_debt (diff - sp_debt sp) (sp_debt sp)) as [m debt] eqn:Es.
  destruct (pick_spawn_locations m e g) as [[locs g1]|] eqn:Ep; [|discriminate]. cbn [bind] in H.
  destruct (spawn_at S dm locs (e, g1)) as [[e2 g2]|] eqn:Ea; [|discriminate]. cbn [bind] in H. injection H as <- <- <- <- <-.
  now apply settle_spec in Es.
Qed.

Theorem debt_days sp0 diffs ns sp : spawn_days sp0 diffs ns sp -> sp_debt sp0 = 0%Z ->
  (sumZ ns - sp_debt sp = sumZ diffs)%Z /\ (0 <= sp_debt sp)%Z /\ Forall (fun n => 0 <= n)%Z ns /\
  (forall k, (k <= List.length diffs)%nat -> (sumZ (firstn k diffs) <= sumZ ns)%Z) /\
  (exists k, (k <= List.length diffs)%nat /\ sumZ (firstn k diffs) = sumZ ns).
Proof.
  intros H D0. induction H as [sp|sp0 diffs ns sp diff n sp' S dm t d e g d1 d' e' g' H IH C F Z0 E1 Hs].
  - split; [cbn; lia|]. split; [lia|]. split; [constructor|]. split.
    + intros k L. cbn in L. assert (k = 0%nat) as -> by lia. cbn; lia.
    + exists 0%nat. split; cbn; lia.
  - destruct (IH D0) as (A & B & P & M & k0 & K1 & K2). pose proof (one_day_spec _ _ _ _ _ _ _ _ _ _ _ _ _ _ C F Z0 B E1 Hs) as (N0 & D1 & Eq & Or).
    rewrite !sumZ_app. cbn [sumZ fold_right]. rewrite !Z.add_0_r.
    assert (T : sumZ (diffs ++ [diff]) = (sumZ diffs + diff)%Z) by (rewrite sumZ_app; cbn; lia).
    split; [lia|]. split; [lia|]. split; [apply Forall_app; split; auto|]. split.
    + intros k L. rewrite app_length in L. cbn in L. destruct (Nat.eq_dec k (List.length diffs + 1)) as [->|N].
      * rewrite firstn_all2 by (rewrite app_length; cbn; lia). rewrite T. lia.
      * rewrite firstn_app. replace (k - List.length diffs)%nat with 0%nat by lia. cbn [firstn]. rewrite app_nil_r. specialize (M k ltac:(lia)). lia.
    + destruct Or as [-> | X].
      * exists k0. split; [rewrite app_length; lia|]. rewrite firstn_app. replace (k0 - List.length diffs)%nat with 0%nat by lia.
        cbn [firstn]. rewrite app_nil_r. lia.
      * exists (List.length diffs + 1)%nat. split; [rewrite app_length; cbn; lia|].
        rewrite firstn_all2 by (rewrite app_length; cbn; lia). lia.
Qed.

(** ** Initial refugees *)

Theorem initial_spec o S dm d i l e g e' g' : reachable o e g -> rng_ok g -> nth_error (e_locations e) i = Some l ->
  add_initial_refugees S dm d i e g = Ok (e', g') ->
  (s_EmptyCampsOnDay0 S = true /\ e' = e) \/
  s_EmptyCampsOnDay0 S = false /\ exists at_ n0 n1 new,
    loc_attrs e l = Ok at_ /\ (if s_InsertDayZero S then get_field d (lname l) 0 true = Ok n0 else n0 = 0%Z) /\
    py_int (dict_get_default "initial_idps" at_ (VInt 0)) = Ok n1 /\
    grown false new e e' /\ fresh_in dm e (repeat i (Z.to_nat (n0 + n1))) new.
Proof.
  intros R G Hl H. unfold add_initial_refugees in H. destruct (s_EmptyCampsOnDay0 S); [injection H as <- <-; now left|]. right.
  split; [reflexivity|]. unfold loc_of in H. rewrite Hl in H. cbn [of_option bind] in H.
  destruct (if s_InsertDayZero S then _ else _) as [n0|] eqn:E0 in H; [|discriminate]. cbn [bind] in H.
  destruct (loc_attrs e l) as [at_|] eqn:Ea; [|discriminate]. cbn [bind] in H.
  destruct (py_int _) as [n1|] eqn:E1 in H; [|discriminate]. cbn [bind] in H.
  apply n_spec in H as (_ & new & Gr & Fr); auto; [|eapply reachable_par; eauto]. cbn [andb] in Gr.
  exists at_, n0, n1, new. repeat split; auto; try apply Gr. destruct (s_InsertDayZero S); [exact E0|congruence].
Qed.
