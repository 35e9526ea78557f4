(** * SerialRel: states that differ in head counts only, and calls on such states *)

From Coq Require Import Lia Lqa.
From Verif Require Import Base State Moving Crawling Scoring Diagnostics Flee DataTable
  Spawning InputGeography Api Pflee ParApi Lemmas.
Local Open Scope list_scope.

(** ** Results *)

(** Both calls return, with related results, or both raise an exception *)
Definition both {A B} (R : A -> B -> Prop) (x : res A) (y : res B) : Prop :=
  match x, y with Ok a, Ok b => R a b | Err _, Err _ => True | _, _ => False end.

Lemma both_bind {A B C D} (R : A -> B -> Prop) (T : C -> D -> Prop) x y f h :
  both R x y -> (forall a b, R a b -> both T (f a) (h b)) -> both T (bind x f) (bind y h).
Proof. destruct x, y; cbn; intros H K; auto; contradiction. Qed.
Lemma both_ok {A B} (R : A -> B -> Prop) a b : R a b -> both R (Ok a) (Ok b). Proof. auto. Qed.
Lemma both_impl {A B} (R T : A -> B -> Prop) x y : (forall a b, R a b -> T a b) -> both R x y -> both T x y.
Proof. destruct x, y; cbn; auto. Qed.
Lemma both_eq {A} (x : res A) : both eq x x. Proof. destruct x; cbn; auto. Qed.
Lemma both_of_eq {A} (x y : res A) : x = y -> both eq x y. Proof. intros ->. apply both_eq. Qed.
Lemma both_rmap {A B C D} (R : A -> B -> Prop) (T : C -> D -> Prop) f h x y :
  (forall a b, R a b -> T (f a) (h b)) -> both R x y -> both T (rmap f x) (rmap h y).
Proof. destruct x, y; cbn; auto. Qed.
Lemma both_foldM {X A B} (R : A -> B -> Prop) (f : A -> X -> res A) (h : B -> X -> res B) l :
  (forall a b x, In x l -> R a b -> both R (f a x) (h b x)) ->
  forall a b, R a b -> both R (foldM f l a) (foldM h l b).
Proof.
  induction l as [|x l IH]; intros H a b R0; [exact R0|]. cbn [foldM].
  eapply both_bind; [apply H; [now left|exact R0]|]. intros. apply IH; auto. intros; apply H; auto. now right.
Qed.
Lemma both_mapM {X Y A B} (Q : X -> Y -> Prop) (R : A -> B -> Prop) (f : X -> res A) (h : Y -> res B) l m :
  Forall2 Q l m -> (forall x y, Q x y -> both R (f x) (h y)) -> both (Forall2 R) (mapM f l) (mapM h m).
Proof.
  intros F H. induction F as [|x y l m Hxy F IH]; [constructor|]. cbn [mapM].
  eapply both_bind; [apply H, Hxy|]. intros a b Rab. eapply both_bind; [exact IH|]. intros. constructor; auto.
Qed.
Lemma both_ok_r {A B} (R : A -> B -> Prop) x b : both R x (Ok b) -> exists a, x = Ok a /\ R a b.
Proof. destruct x; cbn; intro H; [eauto|contradiction]. Qed.

(** ** Related states *)

(** Location [l'] is [l] with other counters of people and other stored routes *)
Definition Ll (l l' : location) : Prop :=
  (l_capacity l <= 0)%Z /\ exists n r s t rt, l' =
  Location (l_name l) (l_region l) (l_x l) (l_y l) (l_movechance l) (l_links l) (l_closed_links l) rt
    (l_major_routes l) n r (l_capacity l) (l_pop l) (l_foreign l) (l_country l) (l_conflict l) (l_camp l)
    (l_idpcamp l) (l_town l) (l_forward l) (l_marker l) (l_flood_zone l) (l_time_of_conflict l) s t
    (l_attributes l) (l_score0 l) (l_score1 l) (l_incoming_journey_lengths l).
(** Road [k'] is [k] with other counters of people *)
Definition Lk (k k' : link) : Prop :=
  exists n r, k' = Link (k_startpoint k) (k_endpoint k) (k_closed k) (k_distance k) n (k_cumNumAgents k) r
    (k_forced_redirection k) (k_attributes k) (k_cumByAttribute k).

(** [e'] is the only process of a parallel program; it agrees with [e] but for counters,
    stored routes and spawn weights *)
Record Like (e e' : eco) : Prop := {
  lk_locs : Forall2 Ll (e_locations e) (e_locations e');
  lk_names : e_locationNames e' = e_locationNames e;
  lk_links : Forall2 Lk (e_links e) (e_links e');
  lk_dicts : e_dicts e' = e_dicts e;
  lk_agents : e_agents e' = e_agents e;
  lk_closures : e_closures e' = e_closures e;
  lk_time : e_time e' = e_time e;
  lk_weights : List.length (e_spawn_weights e') = List.length (e_spawn_weights e);
  lk_arrivals : e_num_arrivals e' = e_num_arrivals e;
  lk_durations : e_travel_durations e' = e_travel_durations e;
  lk_aout : e_agents_out e' = e_agents_out e;
  lk_lout : e_links_out e' = e_links_out e;
  lk_rank : e_rank e' = 0%Z;
  lk_size : e_mpi_size e' = 1%Z }.

Definition LikeG (p q : eco * rng) : Prop := Like (fst p) (fst q) /\ snd p = snd q.
Definition LikeB {T} (p q : eco * T) : Prop := Like (fst p) (fst q) /\ snd p = snd q.

Lemma F2_nth2 {A B} (R : A -> B -> Prop) l m i : Forall2 R l m ->
  (nth_error l i = None /\ nth_error m i = None) \/
  (exists a b, nth_error l i = Some a /\ nth_error m i = Some b /\ R a b).
Proof. intro F. revert i. induction F as [|a b l m H F IH]; intros [|i]; cbn; eauto 8. Qed.
Lemma F2_upd {A B} (R : A -> B -> Prop) l m i f h : Forall2 R l m ->
  (forall a b, nth_error l i = Some a -> nth_error m i = Some b -> R a b -> R (f a) (h b)) ->
  Forall2 R (upd i f l) (upd i h m).
Proof.
  intro F. revert i. induction F as [|a b l m H F IH]; intros [|i] K; cbn; constructor; auto.
Qed.
Lemma F2_app1 {A B} (R : A -> B -> Prop) l m a b : Forall2 R l m -> R a b -> Forall2 R (l ++ [a]) (m ++ [b]).
Proof. intros. apply Forall2_app; auto. Qed.
Lemma F2_length {A B} (R : A -> B -> Prop) l m : Forall2 R l m -> List.length l = List.length m.
Proof. intro F; induction F; cbn; auto. Qed.
Lemma F2_mapeq {A B C} (R : A -> B -> Prop) (f : A -> C) (h : B -> C) l m : Forall2 R l m ->
  (forall a b, R a b -> f a = h b) -> map f l = map h m.
Proof. intros F H; induction F; cbn; auto. rewrite (H x y), IHF; auto. Qed.
Lemma F2_flat {A B C} (R : A -> B -> Prop) (f : A -> list C) (h : B -> list C) l m : Forall2 R l m ->
  (forall a b, R a b -> f a = h b) -> flat_map f l = flat_map h m.
Proof. intros F H; induction F; cbn; auto. rewrite (H x y), IHF; auto. Qed.

Ltac ll H := let c := fresh "cap" in destruct H as (c & ? & ? & ? & ? & ? & ->).
Ltac llgoal := split; [assumption|]; do 5 eexists; reflexivity.
Ltac ks H := destruct H as (? & ? & ->).
Ltac kgoal := do 2 eexists; reflexivity.

(** *** Reading *)

Lemma like_loc e e' i : Like e e' -> both Ll (loc_of e i) (loc_of e' i).
Proof.
  intro L. unfold loc_of. destruct (F2_nth2 _ _ _ i (lk_locs _ _ L)) as [[-> ->]|(a & b & -> & -> & R)]; cbn; auto.
Qed.
Lemma like_link e e' i : Like e e' -> both Lk (link_of e i) (link_of e' i).
Proof.
  intro L. unfold link_of. destruct (F2_nth2 _ _ _ i (lk_links _ _ L)) as [[-> ->]|(a & b & -> & -> & R)]; cbn; auto.
Qed.
Lemma like_agent e e' i : Like e e' -> agent_of e' i = agent_of e i.
Proof. intro L. unfold agent_of. now rewrite (lk_agents _ _ L). Qed.
Lemma like_dict e e' i : Like e e' -> dict_of e' i = dict_of e i.
Proof. intro L. unfold dict_of. now rewrite (lk_dicts _ _ L). Qed.
Lemma like_attrs e e' l l' : Like e e' -> Ll l l' -> loc_attrs e' l' = loc_attrs e l.
Proof. intros L R. ll R. unfold loc_attrs. cbn. now apply like_dict. Qed.
Lemma like_kattrs e e' l l' : Like e e' -> Lk l l' -> link_attrs e' l' = link_attrs e l.
Proof. intros L R. ks R. unfold link_attrs. cbn. now apply like_dict. Qed.
Lemma like_end e e' k k' : Like e e' -> Lk k k' -> both Ll (endpoint_of e k) (endpoint_of e' k').
Proof. intros L R. ks R. unfold endpoint_of. cbn. now apply like_loc. Qed.
Lemma like_nlocs e e' : Like e e' -> List.length (e_locations e') = List.length (e_locations e).
Proof. intro L. symmetry. eapply F2_length, lk_locs, L. Qed.
Lemma like_nlinks e e' : Like e e' -> List.length (e_links e') = List.length (e_links e).
Proof. intro L. symmetry. eapply F2_length, lk_links, L. Qed.
Lemma like_convert e e' n : Like e e' -> convert_name e' n = convert_name e n.
Proof.
  intro L. unfold convert_name.
  now rewrite (F2_mapeq Ll lname lname _ _ (lk_locs _ _ L)) by (intros ? ? R; ll R; reflexivity).
Qed.

(** *** Writing *)

Lemma like_up_loc i f h e e' : Like e e' -> (forall l l', Ll l l' -> Ll (f l) (h l')) -> Like (up_loc i f e) (up_loc i h e').
Proof. intros [] H. constructor; try assumption. cbn. apply F2_upd; auto. Qed.
Lemma like_up_link i f h e e' : Like e e' -> (forall l l', Lk l l' -> Lk (f l) (h l')) -> Like (up_link i f e) (up_link i h e').
Proof. intros [] H. constructor; try assumption. cbn. apply F2_upd; auto. Qed.
Lemma like_up_link2 i k k' e e' : Like e e' -> Lk k k' -> Like (up_link i (fun _ => k) e) (up_link i (fun _ => k') e').
Proof. intros L H. apply like_up_link; auto. Qed.
Lemma like_up_agents f e e' : Like e e' -> Like (up_e_agents f e) (up_e_agents f e').
Proof. intros []. constructor; try assumption. cbn. now f_equal. Qed.
Lemma like_up_agent i f e e' : Like e e' -> Like (up_agent i f e) (up_agent i f e').
Proof. apply like_up_agents. Qed.
Lemma like_up_dicts f e e' : Like e e' -> Like (up_e_dicts f e) (up_e_dicts f e').
Proof. intros []. constructor; try assumption. cbn. now f_equal. Qed.
Lemma like_app_links k k' e e' : Like e e' -> Lk k k' ->
  Like (up_e_links (fun h => h ++ [k]) e) (up_e_links (fun h => h ++ [k']) e').
Proof. intros [] H. constructor; try assumption. cbn. now apply F2_app1. Qed.
Lemma like_app_locs k k' e e' : Like e e' -> Ll k k' ->
  Like (up_e_locations (fun h => h ++ [k]) e) (up_e_locations (fun h => h ++ [k']) e').
Proof. intros [] H. constructor; try assumption. cbn. now apply F2_app1. Qed.
Lemma like_up_closures f e e' : Like e e' -> Like (up_e_closures f e) (up_e_closures f e').
Proof. intros []. constructor; try assumption. cbn. now f_equal. Qed.
Lemma like_up_names f e e' : Like e e' -> Like (up_e_locationNames f e) (up_e_locationNames f e').
Proof. intros []. constructor; try assumption. cbn. now f_equal. Qed.
Lemma like_up_time f e e' : Like e e' -> Like (up_e_time f e) (up_e_time f e').
Proof. intros []. constructor; try assumption. cbn. now f_equal. Qed.
Lemma like_up_aout f e e' : Like e e' -> Like (up_e_agents_out f e) (up_e_agents_out f e').
Proof. intros []. constructor; try assumption. cbn. now f_equal. Qed.
Lemma like_up_lout f e e' : Like e e' -> Like (up_e_links_out f e) (up_e_links_out f e').
Proof. intros []. constructor; try assumption. cbn. now f_equal. Qed.
Lemma like_up_weights f h e e' : Like e e' ->
  List.length (f (e_spawn_weights e)) = List.length (h (e_spawn_weights e')) ->
  Like (up_e_spawn_weights f e) (up_e_spawn_weights h e').
Proof. intros [] H. constructor; try assumption. cbn. now symmetry. Qed.
Lemma like_total f e e' : Like e e' -> Like e (up_e_total_agents f e').
Proof. intros []. constructor; assumption. Qed.

(** *** Scores and weights of places *)

Lemma like_cap S l l' : Ll l l' -> (0 <= s_CapacityScaling S)%Q -> getCapMultiplier S l' = getCapMultiplier S l.
Proof.
  intros R Sc. assert (X : Qltb (inject_Z (l_capacity l) * s_CapacityScaling S) 1 = true).
  { apply Qltb_true. ll R. assert (inject_Z (l_capacity l) <= 0)%Q by (change 0%Q with (inject_Z 0); now rewrite <- Zle_Qle). nra. }
  ll R. unfold getCapMultiplier. cbn [l_capacity]. now rewrite !X.
Qed.

Ltac lstep L := first
  [ eapply both_bind; [apply (like_loc _ _ _ L)|intros ? ? ?; cbv beta]
  | eapply both_bind; [apply (like_link _ _ _ L)|intros ? ? ?; cbv beta]
  | eapply both_bind; [apply like_end; [exact L|eassumption]|intros ? ? ?; cbv beta] ].
Ltac vstep := eapply both_bind; [apply both_eq|intros ? ? <-; cbv beta].

Lemma like_score S o e e' a l l' t : Like e e' -> Ll l l' ->
  both eq (getEndPointScore S o e a l t) (getEndPointScore S o e' a l' t).
Proof.
  intros L R. unfold getEndPointScore.
  eapply both_bind; [|intros b1 ? <-].
  { apply both_of_eq. ll R. reflexivity. }
  eapply both_bind; [|intros b2 ? <-].
  { unfold score_home. destruct (s_StayCloseToHome S); [|apply both_eq].
    destruct (a_location a); [|apply both_eq..]. lstep L.
    ll R. ll H. cbn [l_x l_y]. apply both_eq. }
  eapply both_bind; [|intros b3 ? <-].
  { apply both_of_eq. unfold score_flood. now rewrite (like_attrs _ _ _ _ L R). }
  apply both_of_eq. ll R. reflexivity.
Qed.

Lemma like_weight fuel S o e e' a t : Like e e' -> (0 <= s_CapacityScaling S)%Q ->
  forall ki prior origin stp,
  both eq (calculateLinkWeight fuel S o e a ki prior origin stp t) (calculateLinkWeight fuel S o e' a ki prior origin stp t).
Proof.
  intros L Sc. induction fuel as [|fuel IH]; intros; [exact I|]. cbn [calculateLinkWeight].
  lstep L. lstep L. rename a0 into k, b into k', a1 into ep, b0 into ep', H into Rk, H0 into Rl.
  assert (Q : k_distance k' = k_distance k) by (ks Rk; reflexivity).
  assert (Qn : lname ep' = lname ep) by (ll Rl; reflexivity).
  assert (Ql : l_links ep' = l_links ep) by (ll Rl; reflexivity).
  assert (Qm : l_marker ep' = l_marker ep) by (ll Rl; reflexivity).
  rewrite Q, Qn, Ql, Qm.
  eapply both_bind.
  { destruct (l_marker ep); [apply both_eq|].
    eapply both_bind; [|intros w ? <-; apply both_eq].
    unfold linkWeight. eapply both_bind; [now apply like_score|intros sc ? <-].
    rewrite Q. vstep. vstep. rewrite (like_cap _ _ _ Rl Sc). apply both_eq. }
  intros [own s1] ? <-. destruct (s1 <? _)%Z; [|apply both_eq].
  apply both_foldM; [|reflexivity]. intros acc ? li _ <-.
  lstep L. lstep L. assert (Qj : lname b0 = lname a1) by (ll H0; reflexivity). rewrite Qj.
  destruct (mem_str _ _); [apply both_eq|]. eapply both_bind; [apply IH|intros ? ? <-; apply both_eq].
Qed.

Lemma like_route S o e e' a l l' t g : Like e e' -> (0 <= s_CapacityScaling S)%Q -> s_FixedRoutes S = false -> Ll l l' ->
  both eq (selectRoute S o e a l t g) (selectRoute S o e' a l' t g).
Proof.
  intros L Sc Fx R. unfold selectRoute. rewrite Fx.
  assert (Ql : l_links l' = l_links l) by (ll R; reflexivity). rewrite Ql.
  destruct (_ =? 0)%Z; [apply both_eq|].
  eapply both_bind; [|intros ? ? <-; apply both_eq].
  eapply both_bind; [|intros ? ? <-; apply both_eq].
  unfold allRoutes. rewrite Ql. apply both_foldM; [|reflexivity]. intros acc ? ki _ <-.
  eapply both_bind; [|intros ? ? <-; apply both_eq].
  assert (Qf : route_fuel e' = route_fuel e) by (unfold route_fuel; now rewrite (like_nlocs _ _ L)).
  assert (Qn : lname l' = lname l) by (ll R; reflexivity). rewrite Qf, Qn. now apply like_weight.
Qed.

Lemma like_movechance S o e e' a l l' fc t : Like e e' -> Ll l l' ->
  calculateMoveChance S o e' a l' fc t = calculateMoveChance S o e a l fc t.
Proof.
  intros L R. unfold calculateMoveChance. rewrite (like_attrs _ _ _ _ L R). ll R. reflexivity.
Qed.
