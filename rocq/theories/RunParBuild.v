(** * RunParBuild: the network that the main programs build, and all of their set-up *)

From Coq Require Import Lia.
From Verif Require Import Base State Moving Crawling Scoring Diagnostics Flee DataTable
  Spawning InputGeography Dates DataFiles Analysis RunScript Api Pflee ParApi RunPar SpecAgents SpecParallel Lemmas Inv InvMoves InvStruct Frames
  ScoreFrames Travel Profile ReportProofs Skeleton ParProofs ParInv ParSteps ParProps ParCounts ParTotals NetworkProofs RunParSetup.
From Verif Require Import Base.
Local Open Scope string_scope.
Local Open Scope list_scope.

Definition store_with (mc : Q) (S : settings) (o : oracle) (factor : Z) (ig : igeo)
    (home : string) (st : eco * rng) (loc : row) : res (eco * rng) :=
  let '(e, g) := st in
  name <- cell loc 0 ;;
  c7 <- cellv loc 7 ;;
  population <- population_cell factor c7 ;;
  c3 <- cellv loc 3 ;; x <- float_cell c3 ;;
  c4 <- cellv loc 4 ;; y <- float_cell c4 ;;
  c1 <- cellv loc 1 ;;
  let region := if empty_cell c1 then "unknown"%string else c1 in
  c2 <- cellv loc 2 ;;
  let country := if empty_cell c2 then "unknown"%string else c2 in
  let foreign := negb (String.eqb country home) in
  c5 <- cellv loc 5 ;;
  ltype <- (if str_in "conflict" (lower c5) then
              c6 <- cellv loc 6 ;;
              d <- of_option ValueError (parse_Z c6) ;;
              Ok (if (0 <? d)%Z then "town"%string else c5)
            else Ok c5) ;;
  attrs <- extra_attributes (ig_columns ig) 8 (skipn 8 loc) [] ;;
  let camp := str_in "camp" (lower ltype) in
  let i := List.length (e_locations e) in
  '(e1, g1) <- add_location S o name region x y (Some ltype) mc
                 (if camp then population else (-1)%Z) (if camp then 0%Z else population)
                 foreign country (Some attrs) e g ;;
  mrs <- mapM (major_routes_of (sval name)) (ig_major_routes ig) ;;
  Ok (up_loc i (up_l_major_routes (fun l => l ++ List.concat mrs)) e1, g1).
Lemma serial_store_with S o factor ig home st loc : store_location S o factor ig home st loc = store_with 1 S o factor ig home st loc.
Proof. reflexivity. Qed.
Lemma par_store_with S o factor ig home st loc : par_store_location S o factor ig home st loc = store_with (s_DefaultMoveChance S) S o factor ig home st loc.
Proof. reflexivity. Qed.

(** The location that a row of the table gives *)
Lemma store_parts mc S o factor ig home e g loc e' g' : store_with mc S o factor ig home (e, g) loc = Ok (e', g') ->
  exists name region x y lt cap pop f c at_ mrs e1, add_location S o name region x y lt mc cap pop f c (Some at_) e g = Ok (e1, g') /\
    e' = up_loc (List.length (e_locations e)) (up_l_major_routes (fun l => l ++ mrs)) e1 /\
    (forall mc2 e2 g2 e2' g2', store_with mc2 S o factor ig home (e2, g2) loc = Ok (e2', g2') -> exists e3,
       add_location S o name region x y lt mc2 cap pop f c (Some at_) e2 g2 = Ok (e3, g2') /\
       e2' = up_loc (List.length (e_locations e2)) (up_l_major_routes (fun l => l ++ mrs)) e3).
Proof.
  unfold store_with. intro H. rstep H. do 7 rstep H. cbv zeta in H. rstep H. rstep H. rstep H. rstep H.
  destruct (add_location _ _ _ _ _ _ _ _ _ _ _ _ _ e g) as [[e1 g1]|] eqn:A in H; [|discriminate]. cbn [bind] in H. rstep H. injection H as <- <-.
  do 12 eexists. split; [exact A|]. split; [reflexivity|]. intros mc2 e2 g2 e2' g2' H2. cbn [bind] in H2. cbv zeta in H2.
  repeat match type of H2 with bind ?x _ = _ => match goal with Q : x = Ok _ |- _ => rewrite Q in H2; cbn [bind] in H2 end end.
  destruct (add_location _ _ _ _ _ _ _ _ _ _ _ _ _ e2 g2) as [[e3 g3]|] eqn:A2 in H2; [|discriminate]. cbn [bind] in H2.
  repeat match type of H2 with bind ?x _ = _ => match goal with Q : x = Ok _ |- _ => rewrite Q in H2; cbn [bind] in H2 end end. injection H2 as <- <-.
  eexists. split; [exact A2|reflexivity].
Qed.

(** What building keeps *)
Definition Build (e e' : eco) : Prop :=
  (Inv e -> Inv e') /\ Meta e e' /\ e_agents e' = e_agents e /\ e_total_agents e' = e_total_agents e /\ (J e -> J e').
Lemma build_refl e : Build e e.
Proof. split; [auto|]. split; [repeat split|auto]. Qed.
Lemma build_trans a b c : Build a b -> Build b c -> Build a c.
Proof. intros (A & B & C & D & E) (A' & B' & C' & D' & E'). split; [auto|]. split; [eapply meta_trans; eauto|]. split; [congruence|]. split; [congruence|auto]. Qed.
Lemma build_store mc S o factor ig home st loc st' : store_with mc S o factor ig home st loc = Ok st' -> Build (fst st) (fst st').
Proof.
  destruct st as [e g], st' as [e' g']. intro H. apply store_parts in H as (n & r & x & y & lt & cap & pop & f & c & at_ & mrs & e1 & A & -> & _). cbn [fst].
  assert (F : Fx e1 (up_loc (List.length (e_locations e)) (up_l_major_routes (fun l => l ++ mrs)) e1)) by (apply fx_up_loc; reflexivity).
  assert (Sm : Same e1 (up_loc (List.length (e_locations e)) (up_l_major_routes (fun l => l ++ mrs)) e1)) by (apply same_up_loc; reflexivity).
  apply (build_trans e e1).
  - split; [intro I; eapply inv_add_location; eauto|]. split; [eapply meta_add_location; eauto|].
    destruct (add_location_full _ _ _ _ _ _ _ _ _ _ _ _ _ _ _ _ _ A) as (d & l2 & sc & rt & _ & _ & _ & E & _).
    split; [now rewrite E|]. split; [now rewrite E|]. eapply j_add_location; eauto.
  - split; [intro I; exact (inv_same _ _ Sm I)|]. split; [exact (meta_fx _ _ F)|]. split; [reflexivity|]. split; [reflexivity|exact (j_fx _ _ F)].
Qed.
Lemma link_keeps n1 n2 d f at_ e e' : link_up n1 n2 d f at_ e = Ok e' ->
  e_agents e' = e_agents e /\ e_total_agents e' = e_total_agents e /\ e_par e' = e_par e.
Proof.
  unfold link_up; intro H. cbv zeta in H. destruct (last_index n1 _ 0 None); [|discriminate].
  destruct (last_index n2 _ 0 None); [|discriminate]. do 2 rstep H. destruct at_; injection H as <-; repeat split.
Qed.
Lemma build_link_up n1 n2 d f at_ e e' : link_up n1 n2 d f at_ e = Ok e' -> Build e e'.
Proof.
  intro H. pose proof (link_keeps _ _ _ _ _ _ _ H) as (A & T & _). split; [intro I; eapply inv_link_up; eauto|]. split; [eapply meta_link_up; eauto|].
  split; [exact A|]. split; [exact T|]. eapply j_link_up; eauto.
Qed.
(** A row of the table of routes is a list of calls of linkUp, the same on all ecosystems. *)
Lemma store_link_calls ig r e e' : store_link ig e r = Ok e' -> exists calls : list (string * string * Q * bool * dict),
  (calls <> []) /\ forall a a', store_link ig a r = Ok a' ->
    foldM (fun e c => let '(n1, n2, d, f, at_) := c in link_up n1 n2 d f (Some at_) e) calls a = Ok a'.
Proof.
  unfold store_link. intro H. destruct (extra_attributes _ _ _ _) as [v|]; [|discriminate]. cbn [bind] in *. cbv zeta in *.
  destruct (match nth_error r 3 with None => _ | Some c3 => _ end) as [x|] eqn:E0 in H; [clear H|discriminate].
  destruct (cellv r 0) as [n1|]; cbn [bind] in *; [|exfalso; destruct (nth_error r 3) as [c3|]; [destruct (if empty_cell _ then _ else _) as [l3|] in E0; [|discriminate]; cbn [bind] in E0; destruct (l3 =? 1)%Z, (l3 =? 2)%Z|]; discriminate].
  destruct (cellv r 1) as [n2|]; cbn [bind] in *; [|exfalso; destruct (nth_error r 3) as [c3|]; [destruct (if empty_cell _ then _ else _) as [l3|] in E0; [|discriminate]; cbn [bind] in E0; destruct (l3 =? 1)%Z, (l3 =? 2)%Z|]; discriminate].
  destruct (cellv r 2) as [c2|]; cbn [bind] in *; [|exfalso; destruct (nth_error r 3) as [c3|]; [destruct (if empty_cell _ then _ else _) as [l3|] in E0; [|discriminate]; cbn [bind] in E0; destruct (l3 =? 1)%Z, (l3 =? 2)%Z|]; discriminate].
  destruct (of_option ValueError (parse_Q c2)) as [d|]; cbn [bind] in *; [|exfalso; destruct (nth_error r 3) as [c3|]; [destruct (if empty_cell _ then _ else _) as [l3|] in E0; [|discriminate]; cbn [bind] in E0; destruct (l3 =? 1)%Z, (l3 =? 2)%Z|]; discriminate].
  clear E0. destruct (nth_error r 3) as [c3|].
  - destruct (if empty_cell _ then _ else _) as [l3|]; cbn [bind]; [|exists [(n1, n2, d, true, v)]; split; [discriminate|]; intros a a' A; discriminate].
    destruct (l3 =? 1)%Z, (l3 =? 2)%Z; cbn [bind].
    + exists [(n1, n2, d, true, v); (n2, n1, d, true, v)]. split; [discriminate|]. intros a a' A. cbn [foldM].
      destruct (link_up n1 n2 d true (Some v) a) as [a1|]; [|discriminate]. cbn [bind] in *. now rewrite A.
    + exists [(n1, n2, d, true, v); (n1, n2, d, false, v)]. split; [discriminate|]. intros a a' A. cbn [foldM].
      destruct (link_up n1 n2 d true (Some v) a) as [a1|]; [|discriminate]. cbn [bind] in *. now rewrite A.
    + exists [(n2, n1, d, true, v)]. split; [discriminate|]. intros a a' A. cbn [foldM]. now rewrite A.
    + exists [(n1, n2, d, false, v)]. split; [discriminate|]. intros a a' A. cbn [foldM]. now rewrite A.
  - exists [(n1, n2, d, false, [])]. split; [discriminate|]. intros a a' A. cbn [foldM]. now rewrite A.
Qed.

Definition link_call (e : eco) (c : string * string * Q * bool * dict) : res eco :=
  let '(n1, n2, d, f, at_) := c in link_up n1 n2 d f (Some at_) e.
Lemma build_link ig r e e' : store_link ig e r = Ok e' -> Build e e'.
Proof.
  intro H. destruct (store_link_calls _ _ _ _ H) as (calls & _ & C). apply C in H. clear C.
  change (foldM link_call calls e = Ok e') in H. eapply (foldM_rel Build) in H; [exact H|apply build_refl|apply build_trans|].
  intros a [[[[n1 n2] d] f] at_] b E. eapply build_link_up; exact E.
Qed.

Definition same_camps (S : settings) (m1 m2 : Q) : Prop := m1 = m2 \/ (5 # 1000 <= m1)%Q /\ (5 # 1000 <= m2)%Q.
Lemma new_view S d n r x y lt m1 m2 cap pop f c at_ l1 l2 : same_camps S m1 m2 ->
  new_location S d n r x y lt m1 cap pop f c at_ = Ok l1 -> new_location S d n r x y lt m2 cap pop f c at_ = Ok l2 -> vl l1 = vl l2.
Proof.
  intros M A B. destruct M as [<-|[M1 M2]]; [congruence|]. unfold new_location, parse_location_type in *. destruct lt as [t|].
  - cbv zeta in *. destruct (str_in "camp" (lower t)); [destruct (str_in "idp" (lower t)); cbn [bind] in *; injection A as <-; injection B as <-; reflexivity|].
    destruct (str_in "conflict" (lower t)); [destruct (py_float _) in *; [|discriminate]; cbn [bind] in *; injection A as <-; injection B as <-; reflexivity|].
    destruct (str_in "forward" (lower t)); [cbn [bind] in *; injection A as <-; injection B as <-; reflexivity|]. destruct (str_in "marker" (lower t)); [cbn [bind] in *; injection A as <-; injection B as <-; reflexivity|].
    destruct (str_in "flood_zone" (lower t)); [cbn [bind] in *; injection A as <-; injection B as <-; reflexivity|].
    destruct (str_in "default" (lower t) || str_in "town" (lower t))%bool; [cbn [bind] in *; injection A as <-; injection B as <-; reflexivity|]. cbn [bind] in *.
    injection A as <-. injection B as <-. unfold auto_camp. cbn [l_movechance]. 
    rewrite (proj2 (Qltb_false m1 _) M1), (proj2 (Qltb_false m2 _) M2). reflexivity.
  - cbn [bind] in *. injection A as <-. injection B as <-. unfold auto_camp. cbn [l_movechance].
    rewrite (proj2 (Qltb_false m1 _) M1), (proj2 (Qltb_false m2 _) M2). reflexivity.
Qed.

Lemma keep_like p q c a b a' b' : Like p q c a b -> Build a a' -> Build b b' -> e_par a' = e_par a -> e_par b' = e_par b -> view a' = view b' -> Like p q c a' b'.
Proof.
  intros [A B C D] (_ & _ & Na & Ta & _) (_ & _ & Nb & Tb & _) Pa Pb V. split; [congruence|congruence|exact V|].
  unfold count, num_agents in *. now rewrite Pa, Pb, Na, Nb, Ta, Tb.
Qed.
Lemma meta_par e e' : Meta e e' -> e_par e' = e_par e.
Proof. intros (A & _). exact A. Qed.
Lemma build_par e e' : Build e e' -> e_par e' = e_par e.
Proof. intros (_ & M & _). apply meta_par, M. Qed.
Lemma like_store p q c m1 m2 S o factor ig home loc : same_camps S m1 m2 -> forall sa sb sa' sb', Like p q c (fst sa) (fst sb) ->
  store_with m1 S o factor ig home sa loc = Ok sa' -> store_with m2 S o factor ig home sb loc = Ok sb' -> Like p q c (fst sa') (fst sb').
Proof.
  intros M [a ga] [b gb] [a' ga'] [b' gb'] L A B. pose proof (build_store _ _ _ _ _ _ _ _ _ A) as Ba. pose proof (build_store _ _ _ _ _ _ _ _ _ B) as Bb.
  cbn [fst] in *. eapply keep_like; [exact L|exact Ba|exact Bb|apply build_par, Ba|apply build_par, Bb|].
  apply store_parts in A as (n & r & x & y & lt & cap & pop & f & cy & at_ & mrs & a1 & A & -> & W). apply W in B as (b1 & B & ->).
  destruct (add_location_full _ _ _ _ _ _ _ _ _ _ _ _ _ _ _ _ _ A) as (da & la & sca & rta & _ & Da & Na & Ea & _).
  destruct (add_location_full _ _ _ _ _ _ _ _ _ _ _ _ _ _ _ _ _ B) as (db & lb & scb & rtb & _ & Db & Nb & Eb & _).
  specialize (Da _ eq_refl). specialize (Db _ eq_refl). subst da db. pose proof (lk_view _ _ _ _ _ L) as V. unfold view in V. injection V as V1 V2 V3.
  cbn [dict_number] in Na, Nb. rewrite V2 in Na. pose proof (new_view _ _ _ _ _ _ _ _ _ _ _ _ _ _ _ _ M Na Nb) as X.
  unfold view. cbn [up_loc up_e_locations e_locationNames e_dicts e_locations]. rewrite !vl_upd by reflexivity. rewrite Ea, Eb.
  cbn [up_e_spawn_weights up_e_locationNames up_e_locations up_e_dicts e_locationNames e_dicts e_locations dict_added]. rewrite V1, V2, !map_app, V3. cbn [map].
  change (vl (set_score sca rta la)) with (vl la). change (vl (set_score scb rtb lb)) with (vl lb). now rewrite X.
Qed.
Lemma like_link_call p q c k a b a' b' : Like p q c a b -> link_call a k = Ok a' -> link_call b k = Ok b' -> Like p q c a' b'.
Proof.
  destruct k as [[[[n1 n2] d] f] at_]. intros L A B. unfold link_call in *. pose proof (build_link_up _ _ _ _ _ _ _ A) as Ba. pose proof (build_link_up _ _ _ _ _ _ _ B) as Bb.
  eapply keep_like; [exact L|exact Ba|exact Bb|apply build_par, Ba|apply build_par, Bb|].
  assert (W : forall e e', link_up n1 n2 d f (Some at_) e = Ok e' -> view e' = (e_locationNames e, e_dicts e ++ [at_], map vl (e_locations e))).
  { clear. intros e e' H. unfold link_up in H. cbv zeta in H. destruct (last_index n1 _ 0 None); [|discriminate].
    destruct (last_index n2 _ 0 None); [|discriminate]. do 2 rstep H. injection H as <-. unfold view.
    cbn [up_loc up_e_locations up_e_links up_e_dicts e_locationNames e_dicts e_locations]. now rewrite !vl_upd by reflexivity. }
  rewrite (W _ _ A), (W _ _ B). pose proof (lk_view _ _ _ _ _ L) as V. unfold view in V. injection V as V1 V2 V3. now rewrite V1, V2, V3.
Qed.
Lemma like_link p q c ig r a b a' b' : Like p q c a b -> store_link ig a r = Ok a' -> store_link ig b r = Ok b' -> Like p q c a' b'.
Proof.
  intros L A B. destruct (store_link_calls _ _ _ _ A) as (calls & _ & C). apply C in A, B. change (foldM link_call calls a = Ok a') in A. change (foldM link_call calls b = Ok b') in B.
  eapply (fold2 (Like p q c)); [|exact L|exact A|exact B]. intros k x y x' y'. apply like_link_call.
Qed.

(** Processes build the same network. *)
Lemma twin_store mc S o factor ig home loc sa sb sa' sb' : Twin (fst sa) (fst sb) ->
  store_with mc S o factor ig home sa loc = Ok sa' -> store_with mc S o factor ig home sb loc = Ok sb' -> Twin (fst sa') (fst sb').
Proof.
  destruct sa as [a ga], sb as [b gb], sa' as [a' ga'], sb' as [b' gb']. cbn [fst]. intros T A B.
  apply store_parts in A as (n & r & x & y & lt & cap & pop & f & cy & at_ & mrs & a1 & A & -> & W). apply W in B as (b1 & B & ->).
  pose proof (twin_add_location _ _ _ _ _ _ _ _ _ _ _ _ _ _ _ _ _ _ _ _ _ T A B) as T1.
  eapply twin_fx; [exact T1|apply fx_up_loc; reflexivity|apply fx_up_loc; reflexivity].
Qed.
Lemma twin_link ig r a b a' b' : Twin a b -> store_link ig a r = Ok a' -> store_link ig b r = Ok b' -> Twin a' b'.
Proof.
  intros L A B. destruct (store_link_calls _ _ _ _ A) as (calls & _ & C). apply C in A, B. change (foldM link_call calls a = Ok a') in A. change (foldM link_call calls b = Ok b') in B.
  eapply (fold2 Twin); [|exact L|exact A|exact B]. intros [[[[n1 n2] d] f] at_] x y x' y'. apply twin_link_up.
Qed.

(** ** The set-up as a whole *)

Definition input_with (mc : Q) (S : settings) (o : oracle) (factor : Z) (ig : igeo)
    (changes : list row) (e : eco) (g : rng) : res (eco * rng * igeo) :=
  first <- of_option IndexError (nth_error (ig_locations ig) 0) ;;
  hc <- cellv first 2 ;;
  let home := if empty_cell hc then "unknown"%string else hc in
  '(e1, g1) <- foldM (store_with mc S o factor ig home) (ig_locations ig) (e, g) ;;
  e2 <- foldM (store_link ig) (ig_links ig) e1 ;;
  rows <- of_option AttributeError (ig_closures ig) ;;
  cs <- mapM store_closure rows ;;
  lc <- read_plain changes ;;
  Ok (up_e_closures (fun _ => cs) e2, g1,
      IGeo (ig_locations ig) (ig_columns ig) (ig_links ig) (ig_link_columns ig)
           (ig_major_routes ig) (ig_closures ig) (Some lc) (ig_conflicts ig)
           (ig_attributes ig)).
Definition setup_with (mc : Q) (add ins : nat -> dict -> eco -> res eco) (S : settings) (o : oracle) (inp : run_input) (e0 : eco) (g : rng) : res world :=
  '(start, n) <- read_sim_period (in_period inp) ;;
  let end_time := if (0 <? in_days inp)%Z then in_days inp else n in
  '(e, g1, ig) <- input_with mc S o (in_factor inp) (in_geo inp) (in_changes inp) e0 g ;;
  e1 <- match in_agents inp with Some rows => '(_, _, e1) <- foldM (read_row_with add) rows (true, None, e) ;; Ok e1 | None => Ok e end ;;
  d0 <- new_table (in_files inp) (in_layout inp) start (in_factor inp) (s_EmptyCampsOnDay0 S) ;;
  d <- read_corrections start (in_corrections inp) d0 ;;
  let camps := get_camp_names e1 in
  '(e2, g2) <- foldM (fun st c => let '(e, g) := st in
                        i <- lm_index e c ;; initial_with ins S (in_dm inp) d i e g) camps (e1, g1) ;;
  Ok (World start end_time ig d camps e2 g2).
Lemma serial_setup S o inp g : set_up S o inp g = setup_with 1 (add_agent S) insert_agent S o inp empty_eco g.
Proof. reflexivity. Qed.
Definition process_of (inp : run_input) (w : world) : res proc :=
  if (0 <? in_idp_totals inp)%Z then Err NameError
  else Ok (Proc w (Spawn 0 0) (w_data w) (w_eco w) (w_rng w) (if (e_rank (w_eco w) =? 0)%Z then Some (w_camps w) else None) []).
Lemma par_setup S o inp e0 g : par_set_up S o inp e0 g =
  (w <- setup_with (s_DefaultMoveChance S) (par_add_agent S) par_insert_agent S o inp e0 g ;; process_of inp w).
Proof.
  unfold par_set_up, setup_with. change (par_store_input S o) with (input_with (s_DefaultMoveChance S) S o).
  destruct (read_sim_period _) as [[start n]|]; [|reflexivity]. cbn [bind]. cbv zeta.
  destruct (input_with _ _ _ _ _ _ e0 g) as [[[e g1] ig]|]; [|reflexivity]. cbn [bind].
  change (fun rows => par_read_agents S rows e) with (fun rows => '(_, _, e1) <- foldM (read_row_with (par_add_agent S)) rows (true, None, e) ;; Ok e1).
  assert (R : match in_agents inp with Some rows => par_read_agents S rows e | None => Ok e end =
              match in_agents inp with Some rows => '(_, _, e1) <- foldM (read_row_with (par_add_agent S)) rows (true, None, e) ;; Ok e1 | None => Ok e end) by reflexivity.
  rewrite R. clear R. destruct (match in_agents inp with Some _ => _ | None => _ end) as [e1|]; [|reflexivity]. cbn [bind].
  destruct (new_table _ _ _ _ _) as [d0|]; [|reflexivity]. cbn [bind]. destruct (read_corrections _ _ _) as [d|]; [|reflexivity]. cbn [bind].
  change (fun (st : eco * rng) (c : string) => let '(e, g) := st in i <- lm_index e c ;; par_add_initial_refugees S (in_dm inp) d i e g)
    with (fun (st : eco * rng) (c : string) => let '(e, g) := st in i <- lm_index e c ;; initial_with par_insert_agent S (in_dm inp) d i e g).
  destruct (foldM _ _ _) as [[e2 g2]|]; reflexivity.
Qed.

Lemma input_parts mc S o factor ig changes e g e' g' ig' : input_with mc S o factor ig changes e g = Ok (e', g', ig') ->
  exists home e1 e2 rows cs lc, foldM (store_with mc S o factor ig home) (ig_locations ig) (e, g) = Ok (e1, g') /\
    foldM (store_link ig) (ig_links ig) e1 = Ok e2 /\ ig_closures ig = Some rows /\ mapM store_closure rows = Ok cs /\ e' = up_e_closures (fun _ => cs) e2 /\
    ig' = IGeo (ig_locations ig) (ig_columns ig) (ig_links ig) (ig_link_columns ig) (ig_major_routes ig) (ig_closures ig) (Some lc) (ig_conflicts ig) (ig_attributes ig) /\
    (forall mc2 b h b' h' ig2, input_with mc2 S o factor ig changes b h = Ok (b', h', ig2) -> exists b1 b2,
      foldM (store_with mc2 S o factor ig home) (ig_locations ig) (b, h) = Ok (b1, h') /\
      foldM (store_link ig) (ig_links ig) b1 = Ok b2 /\ b' = up_e_closures (fun _ => cs) b2 /\ ig2 = ig').
Proof.
  unfold input_with. intro H. destruct (of_option IndexError _) as [first|]; [|discriminate]. cbn [bind] in *. destruct (cellv first 2) as [hc|]; [|discriminate].
  cbn [bind] in *. cbv zeta in *. destruct (foldM _ _ _) as [[e1 g1]|] eqn:E1 in H; [|discriminate]. cbn [bind] in H.
  destruct (foldM _ _ _) as [e2|] eqn:E2 in H; [|discriminate]. cbn [bind] in H. destruct (ig_closures ig) as [rows|] eqn:Ec; [|discriminate].
  cbn [of_option bind] in *. destruct (mapM store_closure rows) as [cs|] eqn:Em; [|discriminate]. cbn [bind] in *. destruct (read_plain changes) as [lc|]; [|discriminate].
  cbn [bind] in *. injection H as <- <- <-. do 6 eexists. split; [exact E1|]. split; [exact E2|]. split; [reflexivity|]. split; [exact Em|]. split; [reflexivity|]. split; [reflexivity|].
  intros mc2 b h b' h' ig2 H. destruct (foldM _ _ _) as [[b1 h1]|] eqn:E3 in H; [|discriminate]. cbn [bind] in H.
  destruct (foldM _ _ _) as [b2|] eqn:E4 in H; [|discriminate]. cbn [bind] in H. injection H as <- <- <-. exists b1, b2. repeat split; assumption.
Qed.

Lemma build_fold {A C} (proj : A -> eco) (f : A -> C -> res A) l : (forall a c a', f a c = Ok a' -> Build (proj a) (proj a')) ->
  forall a a', foldM f l a = Ok a' -> Build (proj a) (proj a').
Proof.
  intro H. induction l as [|c l IH]; intros a a' E; cbn [foldM] in E; [injection E as <-; apply build_refl|].
  destruct (f a c) as [a1|] eqn:E1; [|discriminate]. cbn [bind] in E. eapply build_trans; [eapply H, E1|eauto].
Qed.
Lemma closures_inv f e : Inv e -> Inv (up_e_closures f e).
Proof. intro I. eapply inv_same; [|exact I]. repeat split; auto. Qed.
Lemma input_spec mc S o factor ig changes e g e' g' ig' : input_with mc S o factor ig changes e g = Ok (e', g', ig') ->
  (Inv e -> Inv e') /\ Meta e e' /\ e_agents e' = e_agents e /\ e_total_agents e' = e_total_agents e /\ (ig_closures ig = Some [] -> J e -> J e').
Proof.
  intro H. apply input_parts in H as (home & e1 & e2 & rows & cs & lc & A & B & C & D & -> & _).
  apply (build_fold fst) in A; [|intros st c st' X; eapply build_store; exact X]. apply (build_fold (fun x => x)) in B; [|intros a c a' X; eapply build_link; exact X].
  destruct (build_trans _ _ _ A B) as (I & M & N & T & Js). cbn [fst] in *. split; [intro I0; apply closures_inv; auto|].
  split; [destruct M as (M1 & M2 & M3); repeat split; assumption|]. split; [exact N|]. split; [exact T|]. intros C0 J0. rewrite C0 in C. injection C as <-. cbn in D. injection D as <-.
  specialize (Js J0). destruct Js as (P & Q & _). split; [exact P|]. split; [exact Q|reflexivity].
Qed.
Lemma input_twin mc S o factor ig changes a ga b gb a' ga' b' gb' ia ib : Twin a b ->
  input_with mc S o factor ig changes a ga = Ok (a', ga', ia) -> input_with mc S o factor ig changes b gb = Ok (b', gb', ib) -> Twin a' b'.
Proof.
  intros T A B. apply input_parts in A as (home & a1 & a2 & rows & cs & lc & A & A2 & C & D & -> & _ & W). apply W in B as (b1 & b2 & B & B2 & -> & _).
  assert (T1 : Twin (fst (a1, ga')) (fst (b1, gb'))).
  { eapply (fold2 (fun x y : eco * rng => Twin (fst x) (fst y))); [|exact (T : Twin (fst (a, ga)) (fst (b, gb)))|exact A|exact B]. intros c x y x' y'. apply twin_store. }
  cbn [fst] in T1. assert (T2 : Twin a2 b2) by (eapply (fold2 Twin); [|exact T1|exact A2|exact B2]; intros c x y x' y'; apply twin_link).
  unfold Twin in *. change (sk (up_e_closures (fun _ => cs) a2)) with (up_e_closures (fun _ => cs) (sk a2)). now rewrite T2.
Qed.
Lemma input_like p q c m1 m2 S o factor ig changes a ga b gb a' ga' b' gb' ia ib : same_camps S m1 m2 -> Like p q c a b ->
  input_with m1 S o factor ig changes a ga = Ok (a', ga', ia) -> input_with m2 S o factor ig changes b gb = Ok (b', gb', ib) -> Like p q c a' b' /\ ia = ib.
Proof.
  intros M T A B. apply input_parts in A as (home & a1 & a2 & rows & cs & lc & A & A2 & C & D & -> & -> & W). apply W in B as (b1 & b2 & B & B2 & -> & ->).
  split; [|reflexivity]. assert (T1 : Like p q c (fst (a1, ga')) (fst (b1, gb'))).
  { eapply (fold2 (fun x y : eco * rng => Like p q c (fst x) (fst y))); [|exact (T : Like p q c (fst (a, ga)) (fst (b, gb)))|exact A|exact B]. intros k x y x' y'. apply like_store, M. }
  cbn [fst] in T1. assert (T2 : Like p q c a2 b2) by (eapply (fold2 (Like p q c)); [|exact T1|exact A2|exact B2]; intros k x y x' y'; apply like_link).
  destruct T2 as [X1 X2 X3 X4]. split; assumption.
Qed.

Lemma setup_like p q c m1 m2 f1 f2 i1 i2 S o inp a ga b gb wa wb : same_camps S m1 m2 -> adder p f1 -> adder p i1 -> adder q f2 -> adder q i2 -> Like p q c a b ->
  setup_with m1 f1 i1 S o inp a ga = Ok wa -> setup_with m2 f2 i2 S o inp b gb = Ok wb ->
  w_start wa = w_start wb /\ w_end wa = w_end wb /\ w_geo wa = w_geo wb /\ w_data wa = w_data wb /\ w_camps wa = w_camps wb /\ Like p q c (w_eco wa) (w_eco wb).
Proof.
  intros M F1 I1 F2 I2 L A B. unfold setup_with in *. destruct (read_sim_period _) as [[start n]|]; [|discriminate]. cbn [bind] in *. cbv zeta in *.
  destruct (input_with m1 _ _ _ _ _ a ga) as [[[a1 ga1] iga]|] eqn:Ea; [|discriminate]. destruct (input_with m2 _ _ _ _ _ b gb) as [[[b1 gb1] igb]|] eqn:Eb; [|discriminate].
  cbn [bind] in *. destruct (input_like _ _ _ _ _ _ _ _ _ _ _ _ _ _ _ _ _ _ _ _ M L Ea Eb) as [L1 <-].
  destruct (match in_agents inp with Some _ => _ | None => _ end) as [a2|] eqn:Ra in A; [|discriminate].
  destruct (match in_agents inp with Some _ => _ | None => _ end) as [b2|] eqn:Rb in B; [|discriminate]. cbn [bind] in *.
  assert (L2 : Like p q c a2 b2).
  { destruct (in_agents inp) as [rows|]; [|injection Ra as <-; injection Rb as <-; exact L1].
    destruct (foldM _ _ _) as [[[xa ya] a3]|] eqn:Fa in Ra; [|discriminate]. destruct (foldM _ _ _) as [[[xb yb] b3]|] eqn:Fb in Rb; [|discriminate]. cbn [bind] in *.
    injection Ra as <-. injection Rb as <-. exact (like_read p q f1 f2 c rows a1 b1 F1 F2 L1 _ _ Fa Fb). }
  destruct (new_table _ _ _ _ _) as [d0|]; [|discriminate]. cbn [bind] in *. destruct (read_corrections _ _ _) as [d|]; [|discriminate]. cbn [bind] in *.
  rewrite (view_camps a2 b2 (lk_view _ _ _ _ _ L2)) in A.
  destruct (foldM _ _ _) as [[a4 ga4]|] eqn:Ca in A; [|discriminate]. destruct (foldM _ _ _) as [[b4 gb4]|] eqn:Cb in B; [|discriminate]. cbn [bind] in *.
  injection A as <-. injection B as <-. cbn [w_start w_end w_geo w_data w_camps w_eco]. repeat (split; [reflexivity|]).
  exact (like_camps p q i1 i2 c S (in_dm inp) d _ I1 I2 _ _ _ _ _ _ _ _ L2 Ca Cb).
Qed.

Lemma adder_par S : adder true (par_add_agent S).
Proof. intros i d e e' P H. eapply keeps_add; eauto. Qed.
Lemma adder_par_insert : adder true par_insert_agent.
Proof. intros i d e e' P H. eapply keeps_own; eauto. Qed.
Lemma adder_serial S : adder false (add_agent S).
Proof. intros i d e e' P H. eapply keeps_add_serial; eauto. Qed.
Lemma adder_serial_insert : adder false insert_agent.
Proof. intros i d e e' P H. eapply keeps_append_serial; eauto. Qed.
