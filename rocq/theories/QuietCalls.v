(** * QuietCalls: the calls that keep no logs commute with forgetting them *)

From Coq Require Import Lia Lqa.
From Verif Require Import Base State Moving Crawling Scoring Diagnostics Flee DataTable
  Spawning InputGeography Api SpecQuiet Lemmas QuietReads.
Local Open Scope list_scope.

Definition hb (p : eco * bool) : eco * bool := (hide (fst p), snd p).
Definition hs (p : eco * list nat * bool) : eco * list nat * bool := (hide (fst (fst p)), snd (fst p), snd p).

Ltac into := match goal with |- _ = rmap _ (bind _ _) => rewrite rmap_bind | |- _ => idtac end; apply bind_ext.
Ltac readl := first [rewrite h_loc|rewrite h_link|rewrite h_agent|rewrite h_endpoint]; rewrite bind_rmap; into.

Lemma fst_hb m : rmap fst (rmap hb m) = rmap hide (rmap fst m).
Proof. destruct m as [[]|]; reflexivity. Qed.

Lemma h_convert e n : convert_name (hide e) n = convert_name e n.
Proof. unfold convert_name. cbn [without_logs up_e_locations e_locations]. rewrite map_map. reflexivity. Qed.

Lemma h_remove_step x ep co st ki : remove_step x ep co (hs st) ki = rmap hs (remove_step x ep co st ki).
Proof.
  destruct st as [[e nl] r]. unfold hs. cbn [fst snd remove_step]. readl. intros k _. readl. intros l _.
  change (l_name (hl l)) with (l_name l). destruct (negb _); [reflexivity|]. destruct co; [|reflexivity]. cbn [rmap fst snd].
  do 3 f_equal. unfold hs. cbn [fst snd]. rewrite (h_up_loc x (up_l_closed_links (fun c => c ++ [List.length (e_links e)]))
    (up_l_closed_links (fun c => c ++ [List.length (e_links (hide e))]))).
  2:{ intro l0. cbn [without_logs up_e_locations up_e_links e_links]. rewrite map_length. reflexivity. }
  f_equal. unfold up_link, without_logs. ecosimpl. f_equal. rewrite map_app.
  now rewrite (map_upd hk ki (up_k_closed (fun _ => true)) (up_k_closed (fun _ => true))).
Qed.

Lemma h_remove_1 a b co e : remove_link_1way a b co (hide e) = rmap hb (remove_link_1way a b co e).
Proof.
  unfold remove_link_1way. rewrite h_convert. readl. intros l _. change (l_links (hl l)) with (l_links l).
  change (hide e, [], false) with (hs (e, [], false)). rewrite (foldM_map hs (remove_step (convert_name e a) b co)) by apply h_remove_step.
  rewrite bind_rmap. into. intros [[e1 nl] r] _. cbn [rmap hb hs fst snd]. unfold hb. cbn [fst snd]. do 2 f_equal.
  symmetry. now apply h_up_loc.
Qed.

Lemma h_reopen_step x ep st ki : reopen_step x ep (hs st) ki = rmap hs (reopen_step x ep st ki).
Proof.
  destruct st as [[e nl] r]. unfold hs. cbn [fst snd reopen_step]. readl. intros k _. readl. intros l _.
  change (l_name (hl l)) with (l_name l). destruct (negb _); [reflexivity|]. cbn [rmap fst snd].
  unfold hs. cbn [fst snd]. do 3 f_equal. rewrite (h_up_link ki _ (up_k_closed (fun _ => false))) by reflexivity. f_equal.
  symmetry. now apply h_up_loc.
Qed.

Lemma h_reopen_1 a b e : reopen_link_1way a b (hide e) = rmap hb (reopen_link_1way a b e).
Proof.
  unfold reopen_link_1way. rewrite h_convert. readl. intros l _. change (l_closed_links (hl l)) with (l_closed_links l).
  change (hide e, [], false) with (hs (e, [], false)). rewrite (foldM_map hs (reopen_step (convert_name e a) b)) by apply h_reopen_step.
  rewrite bind_rmap. into. intros [[e1 nl] r] _. cbn [rmap hb hs fst snd]. unfold hb. cbn [fst snd]. do 2 f_equal.
  symmetry. now apply h_up_loc.
Qed.

Lemma h_remove a b tw co e : remove_link a b tw co (hide e) = rmap hb (remove_link a b tw co e).
Proof. unfold remove_link. destruct tw; apply h_remove_1. Qed.
Lemma h_close_link a b tw e : close_link a b tw (hide e) = rmap hb (close_link a b tw e).
Proof. apply h_remove. Qed.
Lemma h_reopen a b tw e : reopen_link a b tw (hide e) = rmap hb (reopen_link a b tw e).
Proof. unfold reopen_link. destruct tw; apply h_reopen_1. Qed.

Lemma drop_hb (m : res (eco * bool)) : ('(e1, _) <- rmap hb m ;; Ok e1) = rmap hide ('(e1, _) <- m ;; Ok e1).
Proof. destruct m as [[]|]; reflexivity. Qed.

Lemma h_location_loop fuel m dir i ni : forall ls j e,
  change_location_loop fuel m dir i ni ls j (hide e) = rmap hide (change_location_loop fuel m dir i ni ls j e).
Proof.
  induction fuel as [|fuel IH]; intros ls j e; cbn [change_location_loop]; (destruct (nth_error ls j); [|reflexivity]); [reflexivity|].
  readl. intros k _. readl. intros ep _. change (l_name (hl ep)) with (l_name ep). cbv zeta. destruct m.
  - rewrite h_close_link, drop_hb.
    replace (match dir with DOut => Ok (hide e) | _ => rmap hide ('(e1, _) <- close_link (l_name ep) ni false e ;; Ok e1) end)
      with (rmap hide (match dir with DOut => Ok e | _ => '(e1, _) <- close_link (l_name ep) ni false e ;; Ok e1 end))
      by (destruct dir; reflexivity).
    rewrite bind_rmap. into. intros e1 _. destruct dir; [apply IH| |];
      (rewrite h_close_link, bind_rmap; into; intros [e2 c] _; cbn [hb fst snd]; destruct c; [readl; intros l _; apply IH|apply IH]).
  - rewrite h_reopen, drop_hb.
    replace (match dir with DOut => Ok (hide e) | _ => rmap hide ('(e1, _) <- reopen_link (l_name ep) ni false e ;; Ok e1) end)
      with (rmap hide (match dir with DOut => Ok e | _ => '(e1, _) <- reopen_link (l_name ep) ni false e ;; Ok e1 end))
      by (destruct dir; reflexivity).
    rewrite bind_rmap. into. intros e1 _. destruct dir; [apply IH| |];
      (rewrite h_reopen, bind_rmap; into; intros [e2 c] _; cbn [hb fst snd]; destruct c; [readl; intros l _; apply IH|apply IH]).
Qed.

Lemma h_change_location fuel n m dir e : change_location_1way fuel n m dir (hide e) = rmap hb (change_location_1way fuel n m dir e).
Proof.
  unfold change_location_1way. change (hide e, false) with (hb (e, false)). change (e_locationNames (hide e)) with (e_locationNames e).
  apply foldM_map. intros [e1 c] i. unfold hb at 1. cbn [fst snd]. change (e_locationNames (hide e1)) with (e_locationNames e1).
  into. intros ni _. destruct (String.eqb _ _); [|reflexivity]. readl. intros l _. cbv zeta.
  change (l_links (hl l)) with (l_links l). change (l_closed_links (hl l)) with (l_closed_links l). rewrite h_location_loop, bind_rmap.
  into. reflexivity.
Qed.
Lemma h_close_location fuel n tw e : close_location fuel n tw (hide e) = rmap hb (close_location fuel n tw e).
Proof. apply h_change_location. Qed.
Lemma h_reopen_location fuel n tw e : reopen_location fuel n tw (hide e) = rmap hb (reopen_location fuel n tw e).
Proof. apply h_change_location. Qed.

Lemma h_border_loop fuel dest m i ni : forall ls j e,
  change_border_loop fuel dest m i ni ls j (hide e) = rmap hide (change_border_loop fuel dest m i ni ls j e).
Proof.
  induction fuel as [|fuel IH]; intros ls j e; cbn [change_border_loop]; (destruct (nth_error ls j); [|reflexivity]); [reflexivity|].
  readl. intros k _. readl. intros ep _. change (l_country (hl ep)) with (l_country ep). destruct (String.eqb _ _); [|apply IH].
  change (l_name (hl ep)) with (l_name ep). rewrite h_close_link, h_reopen. destruct m;
    (rewrite bind_rmap; into; intros [e1 hit] _; cbn [hb fst snd]; destruct hit; [readl; intros l _; apply IH|apply IH]).
Qed.
Lemma h_border_1 fuel s d m e : change_border_1way fuel s d m (hide e) = rmap hide (change_border_1way fuel s d m e).
Proof.
  unfold change_border_1way. change (e_locationNames (hide e)) with (e_locationNames e). apply foldM_map. intros e1 i.
  readl. intros l _. change (l_country (hl l)) with (l_country l). destruct (String.eqb _ _); [|reflexivity].
  change (e_locationNames (hide e1)) with (e_locationNames e1). into. intros ni _. apply h_border_loop.
Qed.
Lemma h_border fuel s d tw m e : change_border fuel s d tw m (hide e) = rmap hide (change_border fuel s d tw m e).
Proof.
  unfold change_border. rewrite h_border_1, bind_rmap. into. intros e1 _. destruct tw; [apply h_border_1|reflexivity].
Qed.

Lemma h_named n f e : (forall l, hl (f l) = f (hl l)) -> on_named_loc n f (hide e) = rmap hide (on_named_loc n f e).
Proof. intro H. unfold on_named_loc. rewrite h_convert. readl. intros l _. cbn [rmap]. f_equal. symmetry. now apply h_up_loc. Qed.
Lemma h_close_camp S n i e : close_camp (off S) n i (hide e) = rmap hide (close_camp S n i e).
Proof. unfold close_camp. change (loc_close_camp (off S)) with (loc_close_camp S). now apply h_named. Qed.
Lemma h_open_camp S n i e : open_camp (off S) n i (hide e) = rmap hide (open_camp S n i e).
Proof. unfold open_camp. change (loc_open_camp (off S)) with (loc_open_camp S). apply h_named. intro l. destruct i; reflexivity. Qed.

Lemma h_type S n t e : change_location_type (off S) n t (hide e) = rmap hide (change_location_type S n t e).
Proof.
  unfold change_location_type. cbv zeta.
  change (s_CampMoveChance (off S)) with (s_CampMoveChance S). change (s_IDPCampMoveChance (off S)) with (s_IDPCampMoveChance S).
  change (s_DefaultMoveChance (off S)) with (s_DefaultMoveChance S).
  destruct (str_in "camp" (lower t)); [apply h_named; intro; destruct (str_in "idp" (lower t)); reflexivity|].
  destruct (str_in "conflict" (lower t)).
  { rewrite h_named by reflexivity. rewrite bind_rmap. into. reflexivity. }
  destruct (str_in "forward" (lower t)); [now apply h_named|]. destruct (str_in "marker" (lower t)); [now apply h_named|].
  destruct (str_in "flood_zone" (lower t)); [now apply h_named|].
  destruct (str_in "default" (lower t) || str_in "town" (lower t))%bool; [now apply h_named|].
  rewrite h_named by reflexivity. rewrite bind_rmap. into. reflexivity.
Qed.

Lemma h_forced n m v e : set_forced_redirection n m v (hide e) = rmap hide (set_forced_redirection n m v e).
Proof.
  unfold set_forced_redirection. rewrite h_convert. readl. intros l _. apply foldM_map. intros e1 ki.
  readl. intros k _. readl. intros ep _. change (lname (hl ep)) with (lname ep). destruct (String.eqb _ _); [|reflexivity].
  cbn [rmap]. f_equal. symmetry. now apply h_up_link.
Qed.

Lemma h_enact_close fuel S tw c e : enact_close fuel (off S) tw c (hide e) = rmap hide (enact_close fuel S tw c e).
Proof.
  unfold enact_close, close_border. rewrite h_border, h_close_location, h_close_link, !fst_hb, !h_close_camp, h_forced.
  repeat destruct (String.eqb _ _); reflexivity.
Qed.
Lemma h_enact_open fuel S tw c e : enact_open fuel (off S) tw c (hide e) = rmap hide (enact_open fuel S tw c e).
Proof.
  unfold enact_open, reopen_border. rewrite h_border, h_reopen_location, h_reopen, !fst_hb, !h_open_camp, h_forced.
  repeat destruct (String.eqb _ _); reflexivity.
Qed.
Lemma h_enact fuel S t tw e : enact_border_closures fuel (off S) t tw (hide e) = rmap hide (enact_border_closures fuel S t tw e).
Proof.
  unfold enact_border_closures. change (e_closures (hide e)) with (e_closures e). apply foldM_map. intros e1 c. unfold enact_one.
  rewrite h_enact_close.
  replace (if (t =? c_start c)%Z then rmap hide (enact_close fuel S tw c e1) else Ok (hide e1))
    with (rmap hide (if (t =? c_start c)%Z then enact_close fuel S tw c e1 else Ok e1)) by (destruct (_ =? _)%Z; reflexivity).
  rewrite bind_rmap. into. intros e2 _. destruct (_ =? _)%Z; [apply h_enact_open|reflexivity].
Qed.

Lemma h_add_zone S n q ch e : add_conflict_zone (off S) n q ch (hide e) = rmap hide (add_conflict_zone S n q ch e).
Proof.
  unfold add_conflict_zone. change (e_locationNames (hide e)) with (e_locationNames e).
  destruct (first_index _ _ _) as [i|]; [|reflexivity]. readl. intros l _.
  change (e_time (hide e)) with (e_time e). change (s_ConflictMoveChance (off S)) with (s_ConflictMoveChance S).
  rewrite <- h_refresh. f_equal. symmetry. apply h_up_loc. intro l0. destruct ch; reflexivity.
Qed.
Lemma h_remove_zone S n ch e : remove_conflict_zone (off S) n ch (hide e) = rmap hide (remove_conflict_zone S n ch e).
Proof.
  unfold remove_conflict_zone. change (e_locationNames (hide e)) with (e_locationNames e).
  change (s_DefaultMoveChance (off S)) with (s_DefaultMoveChance S).
  match goal with |- bind (foldM ?f _ _) _ = _ => rewrite (foldM_map hide f) end.
  - rewrite bind_rmap. into. intros e1 _. apply h_refresh.
  - intros e1 i. change (e_locationNames (hide e1)) with (e_locationNames e1). into. intros ni _.
    destruct (String.eqb _ _); [|reflexivity]. readl. intros l _. cbn [rmap]. f_equal. symmetry. apply h_up_loc.
    intro l0. destruct ch; reflexivity.
Qed.
Lemma h_set_zone S n q ch e : set_conflict_intensity (off S) n q ch (hide e) = rmap hide (set_conflict_intensity S n q ch e).
Proof. unfold set_conflict_intensity. destruct (Qltb _ _); [apply h_remove_zone|apply h_add_zone]. Qed.

(** ** Building *)

Lemma h_add_location S o n r x y lt mc cap pop f c a e g :
  add_location (off S) o n r x y lt mc cap pop f c a (hide e) g = rmap hp (add_location S o n r x y lt mc cap pop f c a e g).
Proof.
  unfold add_location. destruct a as [d|]; cbv zeta.
  - change (up_e_dicts (fun ds => ds ++ [d]) (hide e)) with (hide (up_e_dicts (fun ds => ds ++ [d]) e)).
    change (List.length (e_dicts (hide e))) with (List.length (e_dicts e)). set (e0 := up_e_dicts _ e). clearbody e0.
    change (dict_of (hide e0)) with (dict_of e0). into. intros dd _. change (new_location (off S)) with (new_location S). into. intros l N.
    assert (HL : hl l = l).
    { unfold new_location in N. apply bind_ok in N as (l1 & P & N). injection N as <-.
      assert (J : l_incoming_journey_lengths l1 = []).
      { revert P. unfold parse_location_type. destruct lt; [|intro P; injection P as <-; reflexivity]. cbv zeta.
        repeat match goal with |- context [if ?b then _ else _] => destruct b end; try (intro P; injection P as <-; reflexivity).
        intro P. apply bind_ok in P as (q & _ & P). injection P as <-. reflexivity. }
      unfold auto_camp. destruct (_ && _)%bool; destruct l1; cbn in J; subst; reflexivity. }
    replace (up_e_locations (fun ls => ls ++ [l]) (hide e0)) with (hide (up_e_locations (fun ls => ls ++ [l]) e0))
      by (unfold without_logs; ecosimpl; rewrite map_app; cbn [map]; rewrite HL; reflexivity).
    cbn [without_logs up_e_locations e_locations]. rewrite map_length. rewrite h_update, bind_rmap. into. intros [e1 g1] _.
    cbn [hp fst snd].
    match goal with |- bind (refresh_spawn_weights _ ?x) _ = rmap _ (bind (refresh_spawn_weights _ ?y) _) => change x with (hide y) end.
    rewrite h_refresh, bind_rmap. into. reflexivity.
  - change (dict_of (hide e)) with (dict_of e). into. intros dd _. change (new_location (off S)) with (new_location S). into. intros l N.
    assert (HL : hl l = l).
    { unfold new_location in N. apply bind_ok in N as (l1 & P & N). injection N as <-.
      assert (J : l_incoming_journey_lengths l1 = []).
      { revert P. unfold parse_location_type. destruct lt; [|intro P; injection P as <-; reflexivity]. cbv zeta.
        repeat match goal with |- context [if ?b then _ else _] => destruct b end; try (intro P; injection P as <-; reflexivity).
        intro P. apply bind_ok in P as (q & _ & P). injection P as <-. reflexivity. }
      unfold auto_camp. destruct (_ && _)%bool; destruct l1; cbn in J; subst; reflexivity. }
    replace (up_e_locations (fun ls => ls ++ [l]) (hide e)) with (hide (up_e_locations (fun ls => ls ++ [l]) e))
      by (unfold without_logs; ecosimpl; rewrite map_app; cbn [map]; rewrite HL; reflexivity).
    cbn [without_logs up_e_locations e_locations]. rewrite map_length. rewrite h_update, bind_rmap. into. intros [e1 g1] _.
    cbn [hp fst snd].
    match goal with |- bind (refresh_spawn_weights _ ?x) _ = rmap _ (bind (refresh_spawn_weights _ ?y) _) => change x with (hide y) end.
    rewrite h_refresh, bind_rmap. into. reflexivity.
Qed.

Lemma h_new_links i1 i2 d f did e :
  hide (up_loc i2 (up_l_links (fun ks => ks ++ [Datatypes.S (List.length (e_links e))]))
          (up_e_links (fun h => h ++ [Link i2 i1 false d 0 0 0 false did []])
            (up_loc i1 (up_l_links (fun ks => ks ++ [List.length (e_links e)]))
              (up_e_links (fun h => h ++ [Link i1 i2 false d 0 0 0 f did []]) e)))) =
  up_loc i2 (up_l_links (fun ks => ks ++ [Datatypes.S (List.length (e_links (hide e)))]))
    (up_e_links (fun h => h ++ [Link i2 i1 false d 0 0 0 false did []])
      (up_loc i1 (up_l_links (fun ks => ks ++ [List.length (e_links (hide e))]))
        (up_e_links (fun h => h ++ [Link i1 i2 false d 0 0 0 f did []]) (hide e)))).
Proof.
  unfold up_loc, without_logs. ecosimpl. rewrite !map_app, map_length. cbn [map].
  rewrite (map_upd hl i2 _ (up_l_links (fun ks => ks ++ [Datatypes.S (List.length (e_links e))]))) by reflexivity.
  rewrite (map_upd hl i1 _ (up_l_links (fun ks => ks ++ [List.length (e_links e)]))) by reflexivity. reflexivity.
Qed.
Lemma h_link_up n1 n2 d f a e : link_up n1 n2 d f a (hide e) = rmap hide (link_up n1 n2 d f a e).
Proof.
  unfold link_up. change (e_locationNames (hide e)) with (e_locationNames e). cbv zeta.
  destruct (last_index n1 _ _ _) as [i1|]; [|reflexivity]. destruct (last_index n2 _ _ _) as [i2|]; [|reflexivity].
  readl. intros l1 _. readl. intros l2 _. destruct a as [dd|].
  - change (up_e_dicts (fun ds => ds ++ [dd]) (hide e)) with (hide (up_e_dicts (fun ds => ds ++ [dd]) e)).
    change (List.length (e_dicts (hide e))) with (List.length (e_dicts e)). set (e0 := up_e_dicts _ e). clearbody e0.
    cbn [rmap]. now rewrite h_new_links.
  - cbn [rmap]. now rewrite h_new_links.
Qed.

Lemma h_attribute i k v e : set_loc_attribute i k v (hide e) = rmap hide (set_loc_attribute i k v e).
Proof. unfold set_loc_attribute. readl. intros l _. change (loc_attrs (hide e) (hl l)) with (loc_attrs e l). into. reflexivity. Qed.

Lemma h_append i a e : append_agent i a (hide e) = rmap hide (append_agent i a e).
Proof.
  unfold append_agent. readl. intros l _. cbn [rmap]. f_equal.
  rewrite (h_up_loc i (loc_add (e_par e) 1) (loc_add (e_par e) 1)) by (intro; destruct (e_par e); reflexivity).
  change (e_par (hide e)) with (e_par e). f_equal. unfold without_logs. ecosimpl. rewrite map_app. reflexivity.
Qed.
Lemma h_add S i a e : add_agent (off S) i a (hide e) = rmap hide (add_agent S i a e).
Proof.
  unfold add_agent. readl. intros l _. cbv zeta. change (s_TakeFromPopulation (off S)) with (s_TakeFromPopulation S).
  destruct (s_TakeFromPopulation S); [|apply h_append]. rewrite <- h_append. f_equal. symmetry. apply h_up_loc.
  intro l0. change (l_pop (hl l0)) with (l_pop l0). destruct (0 <? l_pop l0)%Z; reflexivity.
Qed.
Lemma h_inserts i n e : insert_agents i n (hide e) = rmap hide (insert_agents i n e).
Proof. unfold insert_agents. apply foldM_map. intros e1 _. apply h_append. Qed.

Lemma h_link_name e k : link_name (hide e) (hk k) = link_name e k.
Proof. unfold link_name. readl. intros s _. readl. intros t _. reflexivity. Qed.
Lemma h_pos_name e p : pos_name (hide e) p = pos_name e p.
Proof.
  destruct p; cbn [pos_name]; [| |reflexivity]; [readl; reflexivity|]. readl. intros x _. apply h_link_name.
Qed.
Lemma h_clear ns e : clear_locations ns (hide e) = rmap hide (clear_locations ns e).
Proof.
  unfold clear_locations.
  assert (F : forall l e, foldM (fun e1 a => n <- pos_name e1 (a_location a) ;; if mem_str n ns then dec_at (a_location a) e1 else Err TypeError) (map ha l) (hide e)
    = rmap hide (foldM (fun e1 a => n <- pos_name e1 (a_location a) ;; if mem_str n ns then dec_at (a_location a) e1 else Err TypeError) l e)).
  { induction l as [|a l IH]; intro e0; [reflexivity|]. cbn [map foldM]. change (a_location (ha a)) with (a_location a). rewrite h_pos_name, h_dec.
    destruct (pos_name e0 (a_location a)); [|reflexivity]. cbn [bind]. destruct (mem_str a0 ns); [|reflexivity].
    rewrite bind_rmap. into. intros e1 _. apply IH. }
  cbn [without_logs up_e_locations up_e_links up_e_agents e_agents].
  change (e_agents (hide e)) with (map ha (e_agents e)). rewrite F, bind_rmap. into. reflexivity.
Qed.

(** ** Spawning *)

Definition hz (p : Z * eco * rng) : Z * eco * rng := (fst (fst p), hide (snd (fst p)), snd p).

Lemma h_spawn_one S dm tk i st : spawn_one (off S) dm tk i (hp st) = rmap hp (spawn_one S dm tk i st).
Proof.
  destruct st as [e g]. unfold hp at 1. cbn [fst snd spawn_one]. readl. intros l _. change (lname (hl l)) with (lname l).
  into. intros [d g1] _. rewrite h_add. unfold insert_agent. rewrite h_append.
  destruct tk; (rewrite bind_rmap; into; reflexivity).
Qed.
Lemma h_spawn_n S dm tk i n st : spawn_n (off S) dm tk i n (hp st) = rmap hp (spawn_n S dm tk i n st).
Proof. unfold spawn_n. apply foldM_map. intros. apply h_spawn_one. Qed.
Lemma h_initial S dm d i e g : add_initial_refugees (off S) dm d i (hide e) g = rmap hp (add_initial_refugees S dm d i e g).
Proof.
  unfold add_initial_refugees. change (s_EmptyCampsOnDay0 (off S)) with (s_EmptyCampsOnDay0 S).
  destruct (s_EmptyCampsOnDay0 S); [reflexivity|]. readl. intros l _. change (s_InsertDayZero (off S)) with (s_InsertDayZero S).
  change (lname (hl l)) with (lname l). into. intros n0 _. change (loc_attrs (hide e) (hl l)) with (loc_attrs e l).
  into. intros at_ _. into. intros n1 _. change (hide e, g) with (hp (e, g)). apply h_spawn_n.
Qed.
Lemma h_spawn_loop S dm N N' e g : (forall e l g, N' (hide e) (hl l) g = N e l g) ->
  spawn_loop (off S) dm N' (hide e) g = rmap hz (spawn_loop S dm N e g).
Proof.
  intro H. unfold spawn_loop. replace (List.length (e_locations (hide e))) with (List.length (e_locations e)) by (cbn; now rewrite map_length).
  change (0%Z, hide e, g) with (hz (0%Z, e, g)). apply foldM_map. intros [[t e1] g1] i. unfold hz at 1. cbn [fst snd].
  readl. intros l _. rewrite H. into. intros [n g2] _. change (hide e1, g2) with (hp (e1, g2)). rewrite h_spawn_n, bind_rmap.
  into. intros [e2 g3] _. reflexivity.
Qed.
Lemma h_reduce d e : reduce_capacities d (hide e) = hide (reduce_capacities d e).
Proof.
  unfold reduce_capacities, without_logs. ecosimpl. f_equal. rewrite !map_map. apply map_ext. intro l.
  change (l_capacity (hl l)) with (l_capacity l). destruct (0 <? l_capacity l)%Z; reflexivity.
Qed.
Lemma h_pick n e g : pick_spawn_locations n (hide e) g = pick_spawn_locations n e g.
Proof.
  unfold pick_spawn_locations. replace (List.length (e_locations (hide e))) with (List.length (e_locations e)) by (cbn; now rewrite map_length).
  reflexivity.
Qed.
Definition hd5 (p : Z * spawn_state * dtable * eco * rng) : Z * spawn_state * dtable * eco * rng :=
  let '(n, sp, d, e, g) := p in (n, sp, d, hide e, g).
Lemma h_spawn S dm t sp d e g :
  spawn_daily_displaced (off S) dm t sp d (hide e) g = rmap hd5 (spawn_daily_displaced S dm t sp d e g).
Proof.
  unfold spawn_daily_displaced. change (s_conflict_driven_spawning (off S)) with (s_conflict_driven_spawning S).
  destruct (s_conflict_driven_spawning S).
  - rewrite (h_spawn_loop S dm (fun _ l g => conflict_spawn_number S l g)) by reflexivity. rewrite bind_rmap. into.
    intros [[n e1] g1] _. reflexivity.
  - change (s_flood_driven_spawning (off S)) with (s_flood_driven_spawning S). destruct (s_flood_driven_spawning S).
    + rewrite (h_spawn_loop S dm (fun e1 l g => at_ <- loc_attrs e1 l ;; flood_spawn_number S at_ l g)) by reflexivity.
      rewrite bind_rmap. into. intros [[n e1] g1] _. reflexivity.
    + change (s_sum_from_camps (off S)) with (s_sum_from_camps S). into. intros [f1 d1] _. into. intros [f2 d2] _. cbv zeta.
      change (s_InsertDayZero (off S)) with (s_InsertDayZero S). destruct (settle_debt _ _) as [n debt].
      replace (if (s_InsertDayZero S && (t =? 0)%Z)%bool then reduce_capacities d2 (hide e) else hide e)
        with (hide (if (s_InsertDayZero S && (t =? 0)%Z)%bool then reduce_capacities d2 e else e))
        by (destruct (_ && _)%bool; [now rewrite h_reduce|reflexivity]).
      rewrite h_pick. into. intros [locs g1] _. unfold spawn_at.
      match goal with |- context [foldM _ locs (hide ?x, g1)] => change (hide x, g1) with (hp (x, g1)) end.
      rewrite (foldM_map hp (fun st i => spawn_one S dm true i st)) by (intros; apply h_spawn_one). rewrite bind_rmap.
      into. intros [e2 g2] _. reflexivity.
Qed.

(** ** Input files *)

Lemma h_store_location S o f ig home st loc : store_location (off S) o f ig home (hp st) loc = rmap hp (store_location S o f ig home st loc).
Proof.
  destruct st as [e g]. unfold hp at 1. cbn [fst snd]. unfold store_location. do 12 (into; intros ? _; cbv zeta).
  rewrite h_add_location, bind_rmap. into. intros [e1 g1] _. unfold hp at 1. cbn [fst snd]. into. intros mrs _. cbn [rmap]. unfold hp. cbn [fst snd].
  do 2 f_equal. replace (List.length (e_locations (hide e))) with (List.length (e_locations e)) by (cbn; now rewrite map_length).
  symmetry. now apply h_up_loc.
Qed.
Lemma h_store_link ig e lk : store_link ig (hide e) lk = rmap hide (store_link ig e lk).
Proof.
  unfold store_link. into. intros attrs _. cbv zeta.
  assert (U : forall e (fo sw : bool) a, (n1 <- cellv lk 0 ;; n2 <- cellv lk 1 ;; c2 <- cellv lk 2 ;; dist <- of_option ValueError (parse_Q c2) ;;
    if sw then link_up n2 n1 dist fo (Some a) (hide e) else link_up n1 n2 dist fo (Some a) (hide e)) =
    rmap hide (n1 <- cellv lk 0 ;; n2 <- cellv lk 1 ;; c2 <- cellv lk 2 ;; dist <- of_option ValueError (parse_Q c2) ;;
    if sw then link_up n2 n1 dist fo (Some a) e else link_up n1 n2 dist fo (Some a) e)).
  { intros e0 fo sw a. do 4 (into; intros ? _). destruct sw; apply h_link_up. }
  destruct (nth_error lk 3) as [c3|]; [|exact (U e false false [])]. into. intros l3 _.
  destruct (l3 =? 1)%Z.
  - pose proof (U e true false attrs) as U1. cbn iota in U1. rewrite U1, bind_rmap. into. intros e1 _.
    destruct (l3 =? 2)%Z; [exact (U e1 true true attrs)|exact (U e1 false false attrs)].
  - cbn [bind]. destruct (l3 =? 2)%Z; [exact (U e true true attrs)|exact (U e false false attrs)].
Qed.
Definition hi (p : eco * rng * igeo) : eco * rng * igeo := (hide (fst (fst p)), snd (fst p), snd p).
Lemma h_store S o f ig ch e g : store_input (off S) o f ig ch (hide e) g = rmap hi (store_input S o f ig ch e g).
Proof.
  unfold store_input. into. intros first _. into. intros hc _. cbv zeta. change (hide e, g) with (hp (e, g)).
  rewrite (foldM_map hp (store_location S o f ig (if empty_cell hc then "unknown"%string else hc))) by (intros; apply h_store_location).
  rewrite bind_rmap. into. intros [e1 g1] _. unfold hp. cbn [fst snd].
  rewrite (foldM_map hide (store_link ig)) by (intros; apply h_store_link). rewrite bind_rmap. into. intros e2 _.
  do 3 (into; intros ? _). reflexivity.
Qed.
Lemma h_attributes ig a t e : update_attributes ig a t (hide e) = rmap hide (update_attributes ig a t e).
Proof.
  unfold update_attributes. into. intros tb _. replace (List.length (e_locations (hide e))) with (List.length (e_locations e)) by (cbn; now rewrite map_length).
  apply foldM_map. intros e1 i. readl. intros l _. change (lname (hl l)) with (lname l). into. intros v _. apply h_attribute.
Qed.
Lemma h_apply S t cs e : apply_changes (off S) t cs (hide e) = rmap hide (apply_changes S t cs e).
Proof.
  unfold apply_changes. apply foldM_map. intros e1 c. into. intros ? _. into. intros d _. destruct (_ =? _)%Z; [|reflexivity].
  into. intros ? _. into. intros ? _. apply h_type.
Qed.
Lemma h_zones S f ig t e : add_new_conflict_zones (off S) f ig t (hide e) = rmap hide (add_new_conflict_zones S f ig t e).
Proof.
  unfold add_new_conflict_zones. into. intros cs _. rewrite h_apply, bind_rmap. into. intros e1 _.
  change (s_FloodRulesEnabled (off S)) with (s_FloodRulesEnabled S). destruct (s_FloodRulesEnabled S).
  - rewrite h_attributes, bind_rmap. into. intros e2 _. change (s_FloodForecaster (off S)) with (s_FloodForecaster S).
    destruct (s_FloodForecaster S); [apply h_attributes|reflexivity].
  - destruct f.
    + apply foldM_map. intros e2 [n vals]. unfold conflict_step. destruct (_ <? _)%Z; [reflexivity|]. into. intros v _.
      rewrite h_add_zone, h_set_zone.
      match goal with |- bind ?x _ = rmap _ (bind ?y _) => assert (X : x = rmap hide y) end.
      { destruct (Qltb _ _); [|reflexivity]. destruct (0 <? t)%Z; [|reflexivity]. into. intros p _. destruct (Qltb _ _); reflexivity. }
      rewrite X, bind_rmap. into. intros e3 _. destruct (_ && _)%bool; [|reflexivity]. into. intros p _.
      destruct (Qleb _ _); [apply h_set_zone|reflexivity].
    + unfold conflicts_from_locations. apply foldM_map. intros e2 loc. into. intros c4 _. destruct (str_in _ _); [|reflexivity].
      into. intros c5 _. into. intros d _. destruct (_ =? _)%Z; [|reflexivity]. do 3 (into; intros ? _). apply h_add_zone.
Qed.

Definition hr (p : bool * option (list string) * eco) : bool * option (list string) * eco := (fst p, hide (snd p)).
Lemma h_read_agents S rows e : read_agents (off S) rows (hide e) = rmap hide (read_agents S rows e).
Proof.
  unfold read_agents. change (true, @None (list string), hide e) with (hr (true, None, e)).
  rewrite (foldM_map hr (read_agent_row S)).
  - rewrite bind_rmap. into. intros [[b h] e1] _. reflexivity.
  - intros [[b h] e1] r. unfold hr at 1. cbn [fst snd read_agent_row]. into. intros c _. destruct c; [reflexivity|].
    destruct b; [reflexivity|]. into. intros d _. into. intros n _. change (e_locationNames (hide e1)) with (e_locationNames e1).
    match goal with |- bind ?x _ = rmap _ (bind ?y _) => assert (X : x = rmap hide y) end.
    { apply foldM_map. intros e2 i. change (e_locationNames (hide e2)) with (e_locationNames e2). into. intros m _.
      destruct (String.eqb _ _); [apply h_add|reflexivity]. }
    rewrite X, bind_rmap. into. reflexivity.
Qed.
