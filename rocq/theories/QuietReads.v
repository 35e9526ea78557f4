(** * QuietReads: nothing the simulation decides depends on its logs

    Every function of the model commutes with forgetting the logs. *)

From Coq Require Import Lia Lqa.
From Verif Require Import Base State Moving Crawling Scoring Diagnostics Flee DataTable
  Spawning InputGeography Api SpecQuiet Lemmas.
Local Open Scope list_scope.

Notation hl := location_without.
Notation hk := road_without.
Notation ha := person_without.
Notation hide := without_logs.
Notation off := quiet_settings.

(** ** Lists and results *)

Lemma map_upd {A B} (h : A -> B) n f f' l : (forall a, h (f a) = f' (h a)) -> map h (upd n f l) = upd n f' (map h l).
Proof.
  intro H. revert n. induction l as [|a l IH]; intros [|n]; cbn; try reflexivity; [now rewrite H|now rewrite IH].
Qed.
Lemma option_rmap {A B} (h : A -> B) x o : of_option x (option_map h o) = rmap h (of_option x o).
Proof. destruct o; reflexivity. Qed.
Lemma rmap_id {A} (m : res A) : rmap (fun a => a) m = m.
Proof. destruct m; reflexivity. Qed.
Lemma rmap_bind {A B C} (h : B -> C) (m : res A) k : rmap h (bind m k) = bind m (fun a => rmap h (k a)).
Proof. destruct m; reflexivity. Qed.
Lemma bind_rmap {A B C} (h : A -> B) (m : res A) (k : B -> res C) : bind (rmap h m) k = bind m (fun a => k (h a)).
Proof. destruct m; reflexivity. Qed.
Lemma bind_ext {A B} (m : res A) (k k' : A -> res B) : (forall a, m = Ok a -> k a = k' a) -> bind m k = bind m k'.
Proof. destruct m; cbn; intro H; auto. Qed.
Lemma foldM_map {X A B} (h : A -> B) (f : A -> X -> res A) (f' : B -> X -> res B) l :
  (forall a x, f' (h a) x = rmap h (f a x)) -> forall a, foldM f' l (h a) = rmap h (foldM f l a).
Proof.
  intro H. induction l as [|x l IH]; intro a; [reflexivity|]. cbn [foldM]. rewrite H, bind_rmap, rmap_bind.
  apply bind_ext. intros. apply IH.
Qed.
Lemma foldM_ext {X A} (f f' : A -> X -> res A) l : (forall a x, f' a x = f a x) -> forall a, foldM f' l a = foldM f l a.
Proof.
  intro H. induction l as [|x l IH]; intro a; [reflexivity|]. cbn [foldM]. rewrite H. apply bind_ext. intros. apply IH.
Qed.
Lemma mapM_ext {X A} (f f' : X -> res A) l : (forall x, f' x = f x) -> mapM f' l = mapM f l.
Proof. intro H. induction l as [|x l IH]; [reflexivity|]. cbn [mapM]. rewrite H, IH. reflexivity. Qed.
Lemma mapM_map {X Y A B} (h : X -> Y) (h' : A -> B) (f : X -> res A) (f' : Y -> res B) l :
  (forall x, f' (h x) = rmap h' (f x)) -> mapM f' (map h l) = rmap (map h') (mapM f l).
Proof.
  intro H. induction l as [|x l IH]; [reflexivity|]. cbn [mapM map]. rewrite H, IH.
  destruct (f x); [|reflexivity]. cbn [rmap bind]. destruct (mapM f l); reflexivity.
Qed.

(** ** Reading *)

Lemma h_loc e i : loc_of (hide e) i = rmap hl (loc_of e i).
Proof. unfold loc_of. cbn. rewrite nth_error_map. apply option_rmap. Qed.
Lemma h_link e i : link_of (hide e) i = rmap hk (link_of e i).
Proof. unfold link_of. cbn. rewrite nth_error_map. apply option_rmap. Qed.
Lemma h_agent e i : agent_of (hide e) i = rmap ha (agent_of e i).
Proof. unfold agent_of. cbn. rewrite nth_error_map. apply option_rmap. Qed.
Lemma h_endpoint e k : endpoint_of (hide e) (hk k) = rmap hl (endpoint_of e k).
Proof. apply h_loc. Qed.
Lemma h_fuel e : route_fuel (hide e) = route_fuel e.
Proof. unfold route_fuel. cbn [without_logs up_e_locations e_locations]. now rewrite map_length. Qed.

Lemma h_forecast S f t en xs acc : forecast_loop (off S) f t en xs acc = forecast_loop S f t en xs acc.
Proof.
  revert acc. induction xs as [|x xs IH]; intro acc; [reflexivity|]. cbn [forecast_loop].
  apply bind_ext. intros lv _. apply bind_ext. intros n _. apply bind_ext. intros acc' _.
  destruct (_ =? _)%Z; [reflexivity|apply IH].
Qed.

Lemma h_score S o e a ep t : getEndPointScore (off S) o (hide e) (ha a) (hl ep) t = getEndPointScore S o e a ep t.
Proof.
  unfold getEndPointScore. apply bind_ext. intros b1 _.
  replace (score_home (off S) o (hide e) (ha a) (hl ep) b1) with (score_home S o e a ep b1).
  2:{ unfold score_home. change (s_StayCloseToHome (off S)) with (s_StayCloseToHome S).
      destruct (s_StayCloseToHome S); [|reflexivity]. change (a_location (ha a)) with (a_location a).
      destruct (a_location a); try reflexivity. rewrite h_loc, bind_rmap. reflexivity. }
  apply bind_ext. intros b2 _.
  replace (score_flood (off S) (hide e) (ha a) (hl ep) t b2) with (score_flood S e a ep t b2); [reflexivity|].
  unfold score_flood. change (s_FloodRulesEnabled (off S)) with (s_FloodRulesEnabled S).
  destruct (s_FloodRulesEnabled S); [|reflexivity].
  change (loc_attrs (hide e) (hl ep)) with (loc_attrs e ep). apply bind_ext. intros d _. apply bind_ext. intros n _.
  apply bind_ext. intros b3 _. change (s_FloodForecaster (off S)) with (s_FloodForecaster S).
  destruct (s_FloodForecaster S); [|reflexivity]. change (forecast_active (off S) t) with (forecast_active S t).
  destruct (forecast_active S t) as [[ts en]|]; [|reflexivity].
  change (awareness_weight (off S) (ha a)) with (awareness_weight S a). apply bind_ext. intros aw _.
  rewrite h_forecast. reflexivity.
Qed.

Lemma h_weight S o e a k ep p t : linkWeight (off S) o (hide e) (ha a) (hk k) (hl ep) p t = linkWeight S o e a k ep p t.
Proof. unfold linkWeight. rewrite h_score. reflexivity. Qed.

Lemma h_routes fuel S o e a : forall ki p og st t,
  calculateLinkWeight fuel (off S) o (hide e) (ha a) ki p og st t = calculateLinkWeight fuel S o e a ki p og st t.
Proof.
  induction fuel as [|fuel IH]; intros; [reflexivity|]. cbn [calculateLinkWeight].
  rewrite h_link, bind_rmap. apply bind_ext. intros k _. rewrite h_endpoint, bind_rmap. apply bind_ext. intros ep _.
  rewrite h_weight. change (l_marker (hl ep)) with (l_marker ep). change (lname (hl ep)) with (lname ep).
  apply bind_ext. intros [own st1] _. change (s_AwarenessLevel (off S)) with (s_AwarenessLevel S).
  destruct (st1 <? s_AwarenessLevel S)%Z; [|reflexivity].
  apply foldM_ext. intros acc li. rewrite h_link, bind_rmap. apply bind_ext. intros k1 _.
  rewrite h_endpoint, bind_rmap. apply bind_ext. intros ep1 _. change (lname (hl ep1)) with (lname ep1).
  destruct (mem_str _ _); [reflexivity|]. change (k_distance (hk k)) with (k_distance k). rewrite IH. reflexivity.
Qed.

Lemma h_select S o e a l t g : selectRoute (off S) o (hide e) (ha a) (hl l) t g = selectRoute S o e a l t g.
Proof.
  unfold selectRoute. change (s_AwarenessLevel (off S)) with (s_AwarenessLevel S).
  destruct (_ =? _)%Z; [reflexivity|]. change (s_FixedRoutes (off S)) with (s_FixedRoutes S).
  replace (fixedRoutes (off S) o (hide e) (ha a) (hl l) t) with (fixedRoutes S o e a l t).
  2:{ unfold fixedRoutes. symmetry. apply mapM_ext. intros [n [[w r] i]]. rewrite h_loc, bind_rmap.
      apply bind_ext. intros ep _. rewrite h_score. reflexivity. }
  replace (allRoutes (off S) o (hide e) (ha a) (hl l) t) with (allRoutes S o e a l t); [reflexivity|].
  unfold allRoutes. symmetry. apply foldM_ext. intros acc ki. rewrite h_fuel, h_routes. reflexivity.
Qed.

Lemma h_chance S o e a l f t : calculateMoveChance (off S) o (hide e) (ha a) (hl l) f t = calculateMoveChance S o e a l f t.
Proof.
  unfold calculateMoveChance. change (l_town (hl l)) with (l_town l). destruct (_ && _)%bool; [reflexivity|].
  apply bind_ext. intros r _. apply bind_ext. intros m _. change (s_FloodRulesEnabled (off S)) with (s_FloodRulesEnabled S).
  destruct (s_FloodRulesEnabled S); [|reflexivity].
  apply bind_ext. intros d _. apply bind_ext. intros n _. apply bind_ext. intros b3 _.
  change (s_FloodForecaster (off S)) with (s_FloodForecaster S).
  destruct (s_FloodForecaster S); [|reflexivity]. change (forecast_active (off S) t) with (forecast_active S t).
  destruct (forecast_active S t) as [[ts en]|]; [|reflexivity].
  change (awareness_weight (off S) (ha a)) with (awareness_weight S a). apply bind_ext. intros aw _.
  rewrite h_forecast. reflexivity.
Qed.

Lemma h_full S e dest names : forall i, dest_is_full_camp (off S) (hide e) dest i names = dest_is_full_camp S e dest i names.
Proof.
  induction names as [|n names IH]; intro i; [reflexivity|]. cbn [dest_is_full_camp]. rewrite IH, h_loc, bind_rmap.
  destruct (rtok_is _ _); [|reflexivity]. reflexivity.
Qed.

Lemma h_next S e r links : take_next_step (off S) (hide e) r links = take_next_step S e r links.
Proof.
  induction links as [|k links IH]; [reflexivity|]. cbn [take_next_step]. rewrite h_link, bind_rmap.
  apply bind_ext. intros x _. rewrite h_endpoint, bind_rmap. apply bind_ext. intros ep _.
  destruct r as [[|r0 rest]|]; try reflexivity. change (lname (hl ep)) with (lname ep).
  change (e_locationNames (hide e)) with (e_locationNames e). rewrite h_full. destruct (rtok_is _ _); [reflexivity|exact IH].
Qed.

(** ** Writing *)

Ltac ecosimpl := cbv beta iota delta [up_e_locations up_e_locationNames up_e_links up_e_dicts up_e_agents up_e_closures up_e_time
  up_e_spawn_weights up_e_num_arrivals up_e_travel_durations up_e_agents_out up_e_links_out
  e_locations e_locationNames e_links e_dicts e_agents e_closures e_time e_spawn_weights e_num_arrivals
  e_travel_durations e_agents_out e_links_out e_par e_rank e_mpi_size e_total_agents].

Lemma h_up_loc i f f' e : (forall l, hl (f l) = f' (hl l)) -> hide (up_loc i f e) = up_loc i f' (hide e).
Proof. intro H. unfold up_loc, without_logs. ecosimpl. 
  now rewrite (map_upd hl i f f'). Qed.
Lemma h_up_link i f f' e : (forall l, hk (f l) = f' (hk l)) -> hide (up_link i f e) = up_link i f' (hide e).
Proof. intro H. unfold up_link, without_logs. ecosimpl. now rewrite (map_upd hk i f f'). Qed.
Lemma h_up_agent i f f' e : (forall l, ha (f l) = f' (ha l)) -> hide (up_agent i f e) = up_agent i f' (hide e).
Proof. intro H. unfold up_agent, without_logs. ecosimpl. now rewrite (map_upd ha i f f'). Qed.

Lemma h_dec p e : dec_at p (hide e) = rmap hide (dec_at p e).
Proof.
  destruct p as [i|k|i]; cbn [dec_at]; [| |reflexivity].
  - rewrite h_loc, bind_rmap, rmap_bind. apply bind_ext. intros l _. cbn [rmap]. f_equal. symmetry. apply h_up_loc.
    intro. change (e_par (hide e)) with (e_par e). destruct (e_par e); reflexivity.
  - rewrite h_link, bind_rmap, rmap_bind. apply bind_ext. intros l _. cbn [rmap]. f_equal. symmetry. apply h_up_link.
    intro. unfold link_dec. change (e_par (hide e)) with (e_par e). destruct (e_par e); reflexivity.
Qed.

(** ** Crawling and scores *)

Lemma h_crawl_weight S o e k ep p m : crawlWeight (off S) o (hide e) (hk k) (hl ep) p m = crawlWeight S o e k ep p m.
Proof. reflexivity. Qed.

Lemma h_add_route S o e src cur ki p og m :
  addLocationRoute (off S) o (hide e) src cur ki p og m = rmap hide (addLocationRoute S o e src cur ki p og m).
Proof.
  unfold addLocationRoute. rewrite h_link, bind_rmap, rmap_bind. apply bind_ext. intros k _.
  rewrite h_endpoint, bind_rmap, rmap_bind. apply bind_ext. intros ep _. rewrite h_crawl_weight, rmap_bind.
  apply bind_ext. intros w _. rewrite h_loc, bind_rmap, rmap_bind. apply bind_ext. intros c _.
  change (l_routes (hl c)) with (l_routes c). change (lname (hl ep)) with (lname ep). cbv zeta.
  destruct (Qltb _ _); [|reflexivity]. cbn [rmap]. f_equal. symmetry. now apply h_up_loc.
Qed.

Lemma h_crawl fuel S o src : forall ki p og st e,
  crawlLink fuel (off S) o src ki p og st (hide e) = rmap hide (crawlLink fuel S o src ki p og st e).
Proof.
  induction fuel as [|fuel IH]; intros; [reflexivity|]. cbn [crawlLink].
  rewrite h_link, bind_rmap, rmap_bind. apply bind_ext. intros k _. rewrite h_endpoint, bind_rmap, rmap_bind.
  apply bind_ext. intros ep _. change (l_marker (hl ep)) with (l_marker ep). rewrite h_add_route.
  replace (if l_marker ep then Ok (hide e) else rmap hide (addLocationRoute S o e src src ki p og false))
    with (rmap hide (if l_marker ep then Ok e else addLocationRoute S o e src src ki p og false)) by (destruct (l_marker ep); reflexivity).
  rewrite bind_rmap, rmap_bind. apply bind_ext. intros e1 _. change (s_AwarenessLevel (off S)) with (s_AwarenessLevel S).
  destruct (st <? s_AwarenessLevel S)%Z; [|reflexivity]. apply foldM_map. intros e2 li.
  rewrite h_link, bind_rmap, rmap_bind. apply bind_ext. intros k1 _. rewrite h_endpoint, bind_rmap, rmap_bind.
  apply bind_ext. intros ep1 _. change (lname (hl ep1)) with (lname ep1). destruct (mem_str _ _); [reflexivity|]. apply IH.
Qed.

Lemma h_find e links n : find_link_to (hide e) links n = find_link_to e links n.
Proof.
  induction links as [|k links IH]; [reflexivity|]. cbn [find_link_to]. rewrite h_link, bind_rmap. apply bind_ext. intros x _.
  rewrite h_endpoint, bind_rmap. apply bind_ext. intros ep _. rewrite IH. reflexivity.
Qed.

Lemma h_major S o src route rest : forall e cur p,
  addMajorRoute (off S) o (hide e) src cur p route rest = rmap hide (addMajorRoute S o e src cur p route rest).
Proof.
  induction rest as [|n rest IH]; intros; [reflexivity|]. cbn [addMajorRoute]. rewrite h_loc, bind_rmap, rmap_bind.
  apply bind_ext. intros c _. rewrite h_find, rmap_bind. apply bind_ext. intros [ki|] _; [|reflexivity].
  destruct rest; [apply h_add_route|]. rewrite h_link, bind_rmap, rmap_bind. apply bind_ext. intros k _.
  change (k_endpoint (hk k)) with (k_endpoint k). change (k_distance (hk k)) with (k_distance k). apply IH.
Qed.

Lemma h_insert_major S o src hub r dn e :
  insertMajorRoutesForLocation (off S) o src hub r dn (hide e) = rmap hide (insertMajorRoutesForLocation S o src hub r dn e).
Proof.
  unfold insertMajorRoutesForLocation. rewrite h_loc, bind_rmap, rmap_bind. apply bind_ext. intros l _.
  apply foldM_map. intros e1 [|m mr]; [reflexivity|]. destruct (mem_str _ _); [reflexivity|]. apply h_major.
Qed.

Lemma h_all_major S o src e : insertAllMajorRoutes (off S) o src (hide e) = rmap hide (insertAllMajorRoutes S o src e).
Proof.
  unfold insertAllMajorRoutes. rewrite h_loc, bind_rmap, rmap_bind. apply bind_ext. intros l _.
  change (compileDestList (hl l)) with (compileDestList l). rewrite (mapM_ext (fun i => d <- loc_of e i ;; Ok (lname d))).
  2:{ intro i. rewrite h_loc, bind_rmap. reflexivity. }
  rewrite rmap_bind. apply bind_ext. intros ds _. change (l_major_routes (hl l)) with (l_major_routes l).
  change (lname (hl l)) with (lname l). change (l_routes (hl l)) with (l_routes l). rewrite h_insert_major.
  replace (match l_major_routes l with [] => Ok (hide e) | _ :: _ => rmap hide (insertMajorRoutesForLocation S o src src [] (lname l :: ds) e) end)
    with (rmap hide (match l_major_routes l with [] => Ok e | _ :: _ => insertMajorRoutesForLocation S o src src [] (lname l :: ds) e end))
    by (destruct (l_major_routes l); reflexivity).
  cbv zeta. rewrite bind_rmap, rmap_bind. apply bind_ext. intros e1 _. apply foldM_map. intros e2 rn.
  rewrite h_loc, bind_rmap, rmap_bind. apply bind_ext. intros l2 _. change (l_routes (hl l2)) with (l_routes l2).
  rewrite rmap_bind. apply bind_ext. intros [[w stops] hub] _. rewrite h_loc, bind_rmap, rmap_bind. apply bind_ext. intros h _.
  change (l_major_routes (hl h)) with (l_major_routes h). destruct (l_major_routes h); [reflexivity|]. apply h_insert_major.
Qed.

Definition hp (p : eco * rng) : eco * rng := (hide (fst p), snd p).

Lemma h_generate S o src e g : generateLocationRoutes (off S) o src (hide e) g = rmap hp (generateLocationRoutes S o src e g).
Proof.
  unfold generateLocationRoutes. rewrite h_loc, bind_rmap, rmap_bind. apply bind_ext. intros l _.
  change (l_marker (hl l)) with (l_marker l). destruct (l_marker l); [reflexivity|]. cbv zeta.
  change (s_AwarenessLevel (off S)) with (s_AwarenessLevel S). change (l_links (hl l)) with (l_links l).
  rewrite <- (h_up_loc src (up_l_routes (fun _ => [])) (up_l_routes (fun _ => [])) e) by reflexivity.
  destruct (_ =? _)%Z.
  - rewrite rmap_bind. apply bind_ext. intros [z g'] _. reflexivity.
  - rewrite (foldM_map hide (fun e' ki => crawlLink (route_fuel e') S o src ki 0 [lname l] 1 e')).
    2:{ intros e1 ki. rewrite h_fuel. apply h_crawl. }
    rewrite bind_rmap, rmap_bind. apply bind_ext. intros e1 _. rewrite h_all_major, bind_rmap, rmap_bind. reflexivity.
Qed.

Lemma h_flood_factor S d t q : flood_zone_factor (off S) d t q = flood_zone_factor S d t q.
Proof.
  unfold flood_zone_factor. destruct (dict_get _ _); [|reflexivity]. apply bind_ext. intros i _. apply bind_ext. intros w _.
  change (s_FloodForecaster (off S)) with (s_FloodForecaster S). destruct (s_FloodForecaster S); [|reflexivity].
  change (forecast_active (off S) t) with (forecast_active S t). destruct (forecast_active S t) as [[ts en]|]; [|reflexivity].
  rewrite h_forecast. reflexivity.
Qed.

Lemma h_update S o t i e g : updateLocationScore (off S) o t i (hide e) g = rmap hp (updateLocationScore S o t i e g).
Proof.
  unfold updateLocationScore. rewrite h_loc, bind_rmap, rmap_bind. apply bind_ext. intros l _.
  change (loc_attrs (hide e) (hl l)) with (loc_attrs e l). rewrite rmap_bind. apply bind_ext. intros d _.
  replace (locationScore (off S) o d t (hl l)) with (locationScore S o d t l).
  2:{ unfold locationScore. apply bind_ext. intros s3 _. rewrite h_flood_factor. reflexivity. }
  rewrite rmap_bind. apply bind_ext. intros sc _. cbv zeta.
  rewrite <- (h_up_loc i (fun l => up_l_score1 (fun _ => sc) (up_l_score0 (fun _ => 1%Q) l))
    (fun l => up_l_score1 (fun _ => sc) (up_l_score0 (fun _ => 1%Q) l)) e) by reflexivity.
  change (s_FixedRoutes (off S)) with (s_FixedRoutes S). destruct (s_FixedRoutes S); [apply h_generate|reflexivity].
Qed.

Lemma h_refresh S e : refresh_spawn_weights (off S) (hide e) = rmap hide (refresh_spawn_weights S e).
Proof.
  unfold refresh_spawn_weights. change (e_time (hide e)) with (e_time e).
  replace (mapM (spawn_weight (off S) (e_time e)) (e_locations (hide e))) with (mapM (spawn_weight S (e_time e)) (e_locations e)).
  2:{ cbn [without_logs up_e_locations e_locations]. rewrite (mapM_map hl (fun q => q) (spawn_weight S (e_time e))).
      - destruct (mapM _ _); cbn [rmap]; [now rewrite map_id|reflexivity].
      - intro l. rewrite rmap_id. reflexivity. }
  rewrite rmap_bind. apply bind_ext. intros ws _. change (e_spawn_weights (hide e)) with (e_spawn_weights e).
  destruct (_ <? _)%nat; reflexivity.
Qed.
