(** * RunParSetup: how the main programs build the network and place the first agents *)

From Coq Require Import Lia.
From Verif Require Import Base State Moving Crawling Scoring Diagnostics Flee DataTable
  Spawning InputGeography Dates DataFiles Analysis RunScript Api Pflee ParApi RunPar SpecAgents SpecParallel Lemmas Inv InvMoves InvStruct Frames
  ScoreFrames Travel Profile ReportProofs Skeleton ParProofs ParInv ParSteps ParProps ParCounts ParTotals NetworkProofs.
From Verif Require Import Base.
Local Open Scope string_scope.
Local Open Scope list_scope.

Lemma fold2 {A B C} (R : A -> B -> Prop) (f : A -> C -> res A) (h : B -> C -> res B) l :
  (forall c a b a' b', R a b -> f a c = Ok a' -> h b c = Ok b' -> R a' b') ->
  forall a b a' b', R a b -> foldM f l a = Ok a' -> foldM h l b = Ok b' -> R a' b'.
Proof.
  intro H. induction l as [|c l IH]; intros a b a' b' Rab Ha Hb; cbn [foldM] in Ha, Hb.
  - injection Ha as <-. injection Hb as <-. exact Rab.
  - destruct (f a c) as [a1|] eqn:E1; [|discriminate]. destruct (h b c) as [b1|] eqn:E2; [|discriminate]. cbn [bind] in Ha, Hb.
    eapply IH; [|exact Ha|exact Hb]. eapply H; eauto.
Qed.

(** ** Agents that are added on all processes in the same order *)

Definition Grow (k : nat) (e e' : eco) : Prop :=
  (Inv e -> Inv e') /\ Meta e e' /\ sk e' = plus_total (Z.of_nat k) (sk e) /\
  exists new, e_agents e' = e_agents e ++ new /\ (forall a, In a new -> deactivated a = false) /\
    List.length new = List.length (turns (e_mpi_size e) (e_rank e) (e_total_agents e) k).

Lemma turns_plus n r a b : forall t, List.length (turns n r t (a + b)) = (List.length (turns n r t a) + List.length (turns n r (t + Z.of_nat a) b))%nat.
Proof.
  induction a as [|a IH]; intro t; [cbn [Nat.add]; rewrite Z.add_0_r; reflexivity|].
  cbn [Nat.add]. rewrite !turns_S, !app_length, !map_length, IH. replace (t + Z.of_nat (S a))%Z with (t + 1 + Z.of_nat a)%Z by lia. lia.
Qed.
Lemma grow_fx e e' : (Inv e -> Inv e') -> Fx e e' -> e_agents e' = e_agents e -> Grow 0 e e'.
Proof.
  intros I F A. split; [exact I|]. split; [exact (meta_fx _ _ F)|]. split; [rewrite (proj1 F); cbn; now rewrite plus_total_0|].
  exists []. rewrite app_nil_r. split; [exact A|]. split; [intros ? []|reflexivity].
Qed.
Lemma grow_refl e : Grow 0 e e.
Proof. apply grow_fx; auto. Qed.
Lemma grow_trans a b e1 e2 e3 : Grow a e1 e2 -> Grow b e2 e3 -> Grow (a + b) e1 e3.
Proof.
  intros (I & M & K & n1 & A1 & D1 & L1) (I' & M' & K' & n2 & A2 & D2 & L2). split; [auto|]. split; [eapply meta_trans; eauto|].
  split; [rewrite K', K, plus_total_plus; f_equal; lia|]. exists (n1 ++ n2). split; [now rewrite A2, A1, app_assoc|].
  split; [intros x X; apply in_app_iff in X as [X|X]; auto|]. rewrite app_length, L1, L2, turns_plus.
  destruct M as (_ & -> & ->). now rewrite (f_equal e_total_agents K : e_total_agents e2 = (e_total_agents e1 + Z.of_nat a)%Z).
Qed.
Lemma turns_one n r t : turns n r t 1 = if ((t + 1) mod n =? r)%Z then [0%nat] else [].
Proof. rewrite turns_S. cbn. destruct ((t + 1) mod n =? r)%Z; reflexivity. Qed.
Lemma grow_own i a e e' : par_own i a e = Ok e' -> Grow 1 e e'.
Proof.
  intro H. apply par_own_spec in H as (I & M & K & A). split; [exact I|]. split; [exact M|]. split; [exact K|]. eexists. split; [exact A|].
  rewrite turns_one. destruct (_ =? _)%Z; (split; [|reflexivity]); [intros x [<-|[]]; reflexivity|intros ? []].
Qed.
Lemma grow_add S i a e e' : par_add_agent S i a e = Ok e' -> Grow 1 e e'.
Proof.
  intro H. apply par_add_spec in H as (I & M & K & A). split; [exact I|]. split; [exact M|]. split; [exact K|]. eexists. split; [exact A|].
  rewrite turns_one. destruct (_ =? _)%Z; (split; [|reflexivity]); [intros x [<-|[]]; reflexivity|intros ? []].
Qed.
Lemma grow_one S dm take i e g e' g' : par_spawn_one S dm take i (e, g) = Ok (e', g') -> Grow 1 e e'.
Proof.
  unfold par_spawn_one. intro H. destruct (loc_of e i) in H; [|discriminate]. cbn [bind] in H. destruct (draw_samples _ _ _) as [[at_ g3]|] in H; [|discriminate].
  cbn [bind] in H. destruct take.
  - destruct (par_add_agent S i at_ e) as [e3|] eqn:E3 in H; [|discriminate]. cbn [bind] in H. injection H as <- <-. eapply grow_add; eauto.
  - destruct (par_insert_agent i at_ e) as [e3|] eqn:E3 in H; [|discriminate]. cbn [bind] in H. injection H as <- <-. eapply grow_own; exact E3.
Qed.
Lemma grow_at S dm : forall locs e g e' g', par_spawn_at S dm locs (e, g) = Ok (e', g') -> Grow (List.length locs) e e'.
Proof.
  unfold par_spawn_at. induction locs as [|i locs IH]; intros e g e' g' H; cbn [foldM] in H; [injection H as <- <-; apply grow_refl|].
  destruct (par_spawn_one S dm true i (e, g)) as [[e1 g1]|] eqn:E; [|discriminate]. cbn [bind] in H.
  apply (grow_trans 1 (List.length locs) e e1 e'); [eapply grow_one; eauto|eapply IH; eauto].
Qed.
Lemma grow_n S dm take i n e g e' g' : par_spawn_n S dm take i n (e, g) = Ok (e', g') -> Grow (Z.to_nat n) e e'.
Proof.
  unfold par_spawn_n. rewrite <- (seq_length (Z.to_nat n) 0) at 2. generalize (seq 0 (Z.to_nat n)) as l. intro l. revert e g.
  induction l as [|x l IH]; intros e g H; cbn [foldM] in H; [injection H as <- <-; apply grow_refl|].
  destruct (par_spawn_one S dm take i (e, g)) as [[e1 g1]|] eqn:E; [|discriminate]. cbn [bind] in H.
  apply (grow_trans 1 (List.length l) e e1 e'); [eapply grow_one; eauto|eapply IH; eauto].
Qed.
Lemma grow_initial S dm d i e g e' g' : par_add_initial_refugees S dm d i e g = Ok (e', g') -> exists k, Grow k e e'.
Proof.
  unfold par_add_initial_refugees. intro H. destruct (s_EmptyCampsOnDay0 S); [injection H as <- <-; exists 0%nat; apply grow_refl|].
  destruct (loc_of e i) as [l|]; [|discriminate]. cbn [bind] in H. destruct (if s_InsertDayZero S then _ else _) in H; [|discriminate]. cbn [bind] in H.
  destruct (loc_attrs e l) in H; [|discriminate]. cbn [bind] in H. destruct (py_int _) in H; [|discriminate]. cbn [bind] in H. eexists. eapply grow_n; eauto.
Qed.
Lemma grow_fold {A C} (proj : A -> eco) (f : A -> C -> res A) l : (forall a c a', f a c = Ok a' -> exists k, Grow k (proj a) (proj a')) ->
  forall a a', foldM f l a = Ok a' -> exists k, Grow k (proj a) (proj a').
Proof.
  intro H. induction l as [|c l IH]; intros a a' E; cbn [foldM] in E; [injection E as <-; exists 0%nat; apply grow_refl|].
  destruct (f a c) as [a1|] eqn:E1; [|discriminate]. cbn [bind] in E. destruct (H _ _ _ E1) as (k & G). destruct (IH _ _ E) as (m & G').
  exists (k + m)%nat. eapply grow_trans; eauto.
Qed.
Lemma grow_read S rows e e' : par_read_agents S rows e = Ok e' -> exists k, Grow k e e'.
Proof.
  unfold par_read_agents. intro H. destruct (foldM _ _ _) as [[[f h] e1]|] eqn:E in H; [|discriminate]. cbn [bind] in H. injection H as <-.
  apply (grow_fold snd) in E; [exact E|]. clear. intros [[f h] e] r [[f' h'] e'] H. cbn [snd]. unfold par_read_agent_row in H.
  destruct (is_comment r) as [c|]; [|discriminate]. cbn [bind] in H. destruct c; [injection H as <- <- <-; exists 0%nat; apply grow_refl|].
  destruct f; [injection H as <- <- <-; exists 0%nat; apply grow_refl|]. destruct (agent_attributes _ _ _ _) as [d|] in H; [|discriminate]. cbn [bind] in H.
  destruct (cellv r 0) as [name|] in H; [|discriminate]. cbn [bind] in H. destruct (foldM _ _ _) as [e1|] eqn:E in H; [|discriminate]. cbn [bind] in H.
  injection H as <- <- <-. apply (grow_fold (fun x => x)) in E; [exact E|]. clear. intros e i e' H. cbv beta in H.
  destruct (of_option _ _) as [n|] in H; [|discriminate]. cbn [bind] in H. destruct (String.eqb _ _); [|injection H as <-; exists 0%nat; apply grow_refl].
  exists 1%nat. eapply grow_add; eauto.
Qed.
Lemma grow_camps S dm d camps e g e' g' :
  foldM (fun st c => let '(e, g) := st in i <- lm_index e c ;; par_add_initial_refugees S dm d i e g) camps (e, g) = Ok (e', g') -> exists k, Grow k e e'.
Proof.
  intro E. apply (grow_fold fst) in E; [exact E|]. clear. intros [e g] c [e' g'] H. cbn [fst]. destruct (lm_index e c) as [i|]; [|discriminate].
  cbn [bind] in H. eapply grow_initial; eauto.
Qed.

Lemma grow_total k e e' : Grow k e e' -> e_total_agents e' = (e_total_agents e + Z.of_nat k)%Z.
Proof. intros (_ & _ & K & _). exact (f_equal e_total_agents K). Qed.
Lemma k_grow k e e' : Grow k e e' -> K e' = K e.
Proof.
  intros (_ & _ & H & _). unfold K. rewrite <- (map_length kk (e_links e')), <- (map_length kk (e_links e)).
  change (e_closures e') with (e_closures (sk e')). change (e_closures e) with (e_closures (sk e)).
  change (map lk (e_locations e')) with (e_locations (sk e')). change (map lk (e_locations e)) with (e_locations (sk e)).
  change (map kk (e_links e')) with (e_links (sk e')). change (map kk (e_links e)) with (e_links (sk e)). now rewrite H.
Qed.

(** All processes at once *)
Lemma grow_all n k es es' : Procs n es -> Forall2 (Grow k) es es' -> Procs n es'.
Proof.
  intros P F. eapply procs_step; [exact P|exact F| |].
  - intros e e' _ I _ (G1 & G2 & _). auto.
  - intros a a' b b' _ _ T (_ & _ & Ka & _) (_ & _ & Kb & _). unfold Twin. now rewrite Ka, Kb, T.
Qed.
Definition heads (es : list eco) : Z := sumZ (map (fun e => Z.of_nat (List.length (e_agents e))) es).
Lemma people_heads st : people st = heads (map fst st).
Proof. unfold people, heads. now rewrite map_map. Qed.
Lemma heads_seq es : heads es = sumZ (map (fun r => Z.of_nat (match nth_error es r with Some e => List.length (e_agents e) | None => 0%nat end)) (seq 0 (List.length es))).
Proof.
  unfold heads. induction es as [|e es IH]; [reflexivity|]. cbn [List.length map sumZ seq nth_error]. rewrite IH. f_equal. rewrite <- seq_shift, map_map. reflexivity.
Qed.
Lemma grow_heads n k es es' : (0 < n)%nat -> Procs n es -> Forall2 (Grow k) es es' -> heads es' = (heads es + Z.of_nat k)%Z.
Proof.
  intros N P F. pose proof (pr_len _ _ P) as L. pose proof (Forall2_len _ _ _ F) as L'.
  destruct es as [|e0 es0] eqn:Es; [cbn in L; lia|]. rewrite <- Es in *. set (t := e_total_agents e0).
  rewrite !heads_seq, <- L', L, <- (turns_sum n k N t), <- sumZ_add. apply sumZ_ext. intros r Hr. apply in_seq in Hr.
  destruct (nth_error es r) as [e|] eqn:E; [|apply nth_error_None in E; lia].
  destruct (Forall2_nth _ _ _ _ _ F E) as (e' & E' & (_ & _ & _ & new & A & _ & Ln)). rewrite E', A, app_length, Ln.
  destruct (pr_each _ _ P _ _ E) as (_ & _ & -> & ->).
  replace (e_total_agents e) with t; [lia|]. apply twin_total, (pr_twin _ _ P); [rewrite Es; now left|]. eapply nth_error_In; eauto.
Qed.
Lemma grow_alive k es es' : Alive es -> Forall2 (Grow k) es es' -> Alive es'.
Proof.
  intros A F. eapply alive_rel; [exact A|exact F|]. intros e e' _ (_ & _ & _ & new & -> & D & _) a Ha.
  apply in_app_iff in Ha as [Ha|Ha]; [now left|right; auto].
Qed.
Lemma grow_roads k es es' : AllJ es -> Forall2 (Grow k) es es' -> AllJ es'.
Proof. intros A F. eapply allj_rel; [exact A|exact F|]. intros e e' _ G. apply j_shape. eapply k_grow; eauto. Qed.

(** ** What the numbers of the set-up depend on *)

Definition vl (l : location) := (l_name l, l_camp l, l_attributes l).
Definition view (e : eco) := (e_locationNames e, e_dicts e, map vl (e_locations e)).
Definition count (e : eco) : Z := if e_par e then e_total_agents e else Z.of_nat (num_agents e).
Record Like (p q : bool) (c : Z) (a b : eco) : Prop := {
  lk_a : e_par a = p; lk_b : e_par b = q; lk_view : view a = view b; lk_count : (count a = count b + c)%Z }.
Definition Keeps (k : Z) (e e' : eco) : Prop := e_par e' = e_par e /\ view e' = view e /\ (count e' = count e + k)%Z.

Lemma view_locs a b i l m : view a = view b -> loc_of a i = Ok l -> loc_of b i = Ok m -> vl l = vl m.
Proof.
  unfold view, loc_of. intros V A B. injection V as _ _ V. apply of_option_ok in A, B.
  pose proof (f_equal (fun x => nth_error x i) V) as E. cbn beta in E. rewrite !nth_error_map, A, B in E. cbn [option_map] in E. congruence.
Qed.
Lemma view_names a b : view a = view b -> map lname (e_locations a) = map lname (e_locations b).
Proof.
  unfold view. intro V. injection V as _ _ V. apply (f_equal (map (fun x => sval (fst (fst x))))) in V. rewrite !map_map in V. exact V.
Qed.
Lemma view_index a b c : view a = view b -> lm_index a c = lm_index b c.
Proof. intro V. unfold lm_index. now rewrite (view_names _ _ V). Qed.
Lemma view_camps a b : view a = view b -> get_camp_names a = get_camp_names b.
Proof.
  unfold view, get_camp_names. intro V. injection V as _ _ V. revert V. generalize (e_locations a) (e_locations b). clear.
  induction l as [|x l IH]; intros [|y m] V; try discriminate; [reflexivity|]. cbn [map] in V. injection V as N C _ V. cbn [filter]. rewrite C.
  destruct (l_camp y); cbn [map]; [unfold lname at 1 3; rewrite N|]; now rewrite (IH m V).
Qed.

Lemma vl_upd i f (ls : list location) : (forall l, vl (f l) = vl l) -> map vl (upd i f ls) = map vl ls.
Proof. apply map_upd. Qed.
Lemma keeps_append_serial i a e e' : e_par e = false -> append_agent i a e = Ok e' -> Keeps 1 e e'.
Proof.
  unfold append_agent. intros P H. destruct (loc_of e i) as [l|]; [|discriminate]. cbn [bind] in H. injection H as <-. split; [reflexivity|]. split.
  - unfold view. cbn [e_locationNames e_dicts e_locations up_loc up_e_locations up_e_agents]. rewrite vl_upd; [reflexivity|]. intro x. now destruct (e_par e).
  - unfold count. cbn [e_par up_loc up_e_locations up_e_agents]. rewrite P. unfold num_agents. cbn [e_agents up_loc up_e_locations up_e_agents].
    rewrite app_length. cbn. lia.
Qed.
Lemma keeps_trans a b e1 e2 e3 : Keeps a e1 e2 -> Keeps b e2 e3 -> Keeps (a + b) e1 e3.
Proof. intros (A & B & C) (D & E & F). repeat split; [congruence|congruence|lia]. Qed.
Lemma keeps_add_serial S i a e e' : e_par e = false -> add_agent S i a e = Ok e' -> Keeps 1 e e'.
Proof.
  unfold add_agent. intros P H. destruct (loc_of e i) as [l|]; [|discriminate]. cbn [bind] in H. cbv zeta in H.
  set (e1 := if s_TakeFromPopulation S then _ else e) in H. assert (K1 : Keeps 0 e e1).
  { unfold e1. destruct (s_TakeFromPopulation S); [|repeat split; lia]. split; [reflexivity|]. split.
    - unfold view. cbn [e_locationNames e_dicts e_locations up_loc up_e_locations]. rewrite vl_upd; [reflexivity|]. intro x. now destruct (0 <? l_pop x)%Z.
    - now rewrite Z.add_0_r. }
  apply keeps_append_serial in H; [|rewrite (proj1 K1); exact P]. exact (keeps_trans 0 1 _ _ _ K1 H).
Qed.
Lemma keeps_own i a e e' : e_par e = true -> par_own i a e = Ok e' -> Keeps 1 e e'.
Proof.
  unfold par_own. intros P H. destruct (loc_of e i) as [l|]; [|discriminate]. cbn [bind] in H. cbv zeta in H.
  destruct (e_mpi_size _ =? 0)%Z; [discriminate|]. destruct (_ =? _)%Z.
  - unfold append_agent in H. destruct (loc_of _ i) as [m|] in H; [|discriminate]. cbn [bind] in H. injection H as <-. split; [reflexivity|]. split.
    + unfold view. cbn [e_locationNames e_dicts e_locations up_loc up_e_locations up_e_agents up_e_total_agents]. rewrite vl_upd; [reflexivity|]. intro x. now destruct (e_par _).
    + unfold count. cbn [e_par up_loc up_e_locations up_e_agents up_e_total_agents]. rewrite P. reflexivity.
  - injection H as <-. split; [reflexivity|]. split; [reflexivity|]. unfold count. cbn [e_par up_e_total_agents]. rewrite P. reflexivity.
Qed.
Lemma keeps_add S i a e e' : e_par e = true -> par_add_agent S i a e = Ok e' -> Keeps 1 e e'.
Proof.
  unfold par_add_agent. intros P H. destruct (loc_of e i) as [l|]; [|discriminate]. cbn [bind] in H.
  destruct (if s_TakeFromPopulation S then _ else _) as [e1|] eqn:E in H; [|discriminate]. cbn [bind] in H. assert (K1 : Keeps 0 e e1).
  { destruct (s_TakeFromPopulation S); [|injection E as <-; repeat split; lia]. destruct (1 <? l_pop l)%Z; [|discriminate]. injection E as <-. split; [reflexivity|]. split.
    - unfold view. cbn [e_locationNames e_dicts e_locations up_loc up_e_locations]. rewrite vl_upd; reflexivity.
    - now rewrite Z.add_0_r. }
  apply keeps_own in H; [|rewrite (proj1 K1); exact P]. exact (keeps_trans 0 1 _ _ _ K1 H).
Qed.
Lemma like_keeps p q c k a b a' b' : Like p q c a b -> Keeps k a a' -> Keeps k b b' -> Like p q c a' b'.
Proof. intros [A B C D] (E & F & G) (E' & F' & G'). split; [congruence|congruence|congruence|lia]. Qed.
Lemma keeps_0 e : Keeps 0 e e. Proof. repeat split; lia. Qed.

(** The functions of both programs, with the function that adds an agent as a parameter *)
Definition adder (p : bool) (add : nat -> dict -> eco -> res eco) : Prop :=
  forall i d e e', e_par e = p -> add i d e = Ok e' -> Keeps 1 e e'.
Definition read_row_with (add : nat -> dict -> eco -> res eco) (st : bool * option (list string) * eco) (r : row)
  : res (bool * option (list string) * eco) :=
  let '(first, headers, e) := st in
  c <- is_comment r ;;
  if c : bool then Ok (false, headers, e)
  else if first then Ok (false, Some (map sval (tl r)), e)
  else
    d <- agent_attributes headers (tl r) 0 [] ;;
    name <- cellv r 0 ;;
    e1 <- foldM (fun e1 i =>
                   n <- of_option IndexError (nth_error (e_locationNames e1) i) ;;
                   if String.eqb (sval n) name then add i d e1 else Ok e1)
                (seq 0 (List.length (e_locationNames e))) e ;;
    Ok (false, headers, e1).
Definition spawn_n_with (add : nat -> dict -> eco -> res eco) (dm : demographics) (i : nat) (n : Z) (st : eco * rng) : res (eco * rng) :=
  foldM (fun st (_ : nat) => let '(e, g) := st in
           l <- loc_of e i ;; '(attrs, g1) <- draw_samples dm (lname l) g ;; e1 <- add i attrs e ;; Ok (e1, g1)) (seq 0 (Z.to_nat n)) st.
Definition initial_with (add : nat -> dict -> eco -> res eco) (S : settings) (dm : demographics) (d : dtable) (i : nat)
    (e : eco) (g : rng) : res (eco * rng) :=
  if s_EmptyCampsOnDay0 S then Ok (e, g)
  else
    l <- loc_of e i ;;
    n0 <- (if s_InsertDayZero S then get_field d (lname l) 0 true else Ok 0%Z) ;;
    at_ <- loc_attrs e l ;;
    n1 <- py_int (dict_get_default "initial_idps" at_ (VInt 0)) ;;
    spawn_n_with add dm i (n0 + n1)%Z (e, g).

Lemma like_read p q f h c rows a b : adder p f -> adder q h -> Like p q c a b ->
  forall a' b', foldM (read_row_with f) rows (true, None, a) = Ok a' -> foldM (read_row_with h) rows (true, None, b) = Ok b' -> Like p q c (snd a') (snd b').
Proof.
  intros Fa Fb L a' b' Ha Hb.
  assert (X : fst a' = fst b' /\ Like p q c (snd a') (snd b')); [|apply X].
  eapply (fold2 (fun x y : bool * option (list string) * eco => fst x = fst y /\ Like p q c (snd x) (snd y))); [|exact (conj eq_refl L : fst (true, @None (list string), a) = fst (true, @None (list string), b) /\ Like p q c (snd (true, @None (list string), a)) (snd (true, @None (list string), b)))|exact Ha|exact Hb].
  clear - Fa Fb. intros r [[fa ha] a] [[fb hb] b] [[fa' ha'] a'] [[fb' hb'] b'] [E L] Ha Hb. cbn [fst snd] in *. injection E as -> ->.
  unfold read_row_with in Ha, Hb. destruct (is_comment r) as [cm|]; [|discriminate]. cbn [bind] in Ha, Hb.
  destruct cm; [injection Ha as <- <- <-; injection Hb as <- <- <-; auto|].
  destruct fb; [injection Ha as <- <- <-; injection Hb as <- <- <-; auto|].
  destruct (agent_attributes _ _ _ _) as [d|]; [|discriminate]. cbn [bind] in Ha, Hb. destruct (cellv r 0) as [name|]; [|discriminate]. cbn [bind] in Ha, Hb.
  destruct (foldM _ _ a) as [a1|] eqn:Ea; [|discriminate]. destruct (foldM _ _ b) as [b1|] eqn:Eb; [|discriminate]. cbn [bind] in Ha, Hb.
  injection Ha as <- <- <-. injection Hb as <- <- <-. split; [reflexivity|].
  assert (N : e_locationNames a = e_locationNames b) by (pose proof (lk_view _ _ _ _ _ L) as V; now injection V).
  rewrite N in Ea. eapply (fold2 (Like p q c)); [|exact L|exact Ea|exact Eb]. clear - Fa Fb. intros i a b a' b' L Ha Hb. cbv beta in *.
  assert (N : e_locationNames a = e_locationNames b) by (pose proof (lk_view _ _ _ _ _ L) as V; now injection V). rewrite N in Ha.
  destruct (of_option _ _) as [n|]; [|discriminate]. cbn [bind] in Ha, Hb. destruct (String.eqb _ _); [|injection Ha as <-; injection Hb as <-; exact L].
  eapply like_keeps; [exact L|eapply Fa; [apply L|exact Ha]|eapply Fb; [apply L|exact Hb]].
Qed.

Lemma like_n p q f h c dm i n : adder p f -> adder q h -> forall a ga b gb a' ga' b' gb', Like p q c a b ->
  spawn_n_with f dm i n (a, ga) = Ok (a', ga') -> spawn_n_with h dm i n (b, gb) = Ok (b', gb') -> Like p q c a' b'.
Proof.
  intros Fa Fb a ga b gb a' ga' b' gb' L Ha Hb. unfold spawn_n_with in *.
  assert (X : Like p q c (fst (a', ga')) (fst (b', gb'))); [|exact X].
  eapply (fold2 (fun x y : eco * rng => Like p q c (fst x) (fst y))); [|exact (L : Like p q c (fst (a, ga)) (fst (b, gb)))|exact Ha|exact Hb].
  clear - Fa Fb. intros _ [a ga] [b gb] [a' ga'] [b' gb'] L Ha Hb. cbn [fst] in *.
  destruct (loc_of a i) as [la|]; [|discriminate]. destruct (loc_of b i) as [lb|]; [|discriminate]. cbn [bind] in Ha, Hb.
  destruct (draw_samples _ _ ga) as [[xa g1]|]; [|discriminate]. destruct (draw_samples _ _ gb) as [[xb g2]|]; [|discriminate]. cbn [bind] in Ha, Hb.
  destruct (f i xa a) as [a1|] eqn:Ea; [|discriminate]. destruct (h i xb b) as [b1|] eqn:Eb; [|discriminate]. cbn [bind] in Ha, Hb.
  injection Ha as <- <-. injection Hb as <- <-. eapply like_keeps; [exact L|eapply Fa; [apply L|exact Ea]|eapply Fb; [apply L|exact Eb]].
Qed.
Lemma like_initial p q f h c S dm d i : adder p f -> adder q h -> forall a ga b gb a' ga' b' gb', Like p q c a b ->
  initial_with f S dm d i a ga = Ok (a', ga') -> initial_with h S dm d i b gb = Ok (b', gb') -> Like p q c a' b'.
Proof.
  intros Fa Fb a ga b gb a' ga' b' gb' L Ha Hb. unfold initial_with in *. destruct (s_EmptyCampsOnDay0 S); [injection Ha as <- <-; injection Hb as <- <-; exact L|].
  destruct (loc_of a i) as [la|] eqn:Ea; [|discriminate]. destruct (loc_of b i) as [lb|] eqn:Eb; [|discriminate]. cbn [bind] in Ha, Hb.
  pose proof (lk_view _ _ _ _ _ L) as V. pose proof (view_locs _ _ _ _ _ V Ea Eb) as E. injection E as E1 _ E3.
  assert (E4 : loc_attrs a la = loc_attrs b lb) by (unfold loc_attrs, dict_of; rewrite E3; injection V as _ -> _; reflexivity).
  assert (E5 : lname la = lname lb) by (unfold lname; now rewrite E1). rewrite E4, E5 in Ha.
  destruct (if s_InsertDayZero S then _ else _) as [n0|]; [|discriminate]. cbn [bind] in Ha, Hb.
  destruct (loc_attrs b lb) as [at_|]; [|discriminate]. cbn [bind] in Ha, Hb. destruct (py_int _) as [n1|]; [|discriminate]. cbn [bind] in Ha, Hb.
  exact (like_n p q f h c dm i (n0 + n1)%Z Fa Fb _ _ _ _ _ _ _ _ L Ha Hb).
Qed.
Lemma like_camps p q f h c S dm d camps : adder p f -> adder q h -> forall a ga b gb a' ga' b' gb', Like p q c a b ->
  foldM (fun st c => let '(e, g) := st in i <- lm_index e c ;; initial_with f S dm d i e g) camps (a, ga) = Ok (a', ga') ->
  foldM (fun st c => let '(e, g) := st in i <- lm_index e c ;; initial_with h S dm d i e g) camps (b, gb) = Ok (b', gb') -> Like p q c a' b'.
Proof.
  intros Fa Fb a ga b gb a' ga' b' gb' L Ha Hb. assert (X : Like p q c (fst (a', ga')) (fst (b', gb'))); [|exact X].
  eapply (fold2 (fun x y : eco * rng => Like p q c (fst x) (fst y))); [|exact (L : Like p q c (fst (a, ga)) (fst (b, gb)))|exact Ha|exact Hb].
  clear - Fa Fb. intros m [a ga] [b gb] [a' ga'] [b' gb'] L Ha Hb. cbn [fst] in *. rewrite (view_index a b m (lk_view _ _ _ _ _ L)) in Ha.
  destruct (lm_index b m) as [i|]; [|discriminate]. cbn [bind] in Ha, Hb. eapply like_initial; eauto.
Qed.
