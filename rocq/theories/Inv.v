(** * Inv: the ecosystem invariant and its preservation *)

From Coq Require Import Lia.
From Verif Require Import Base State Moving Crawling Scoring Diagnostics Flee DataTable
  Spawning InputGeography Api SpecAgents Lemmas.

Definition stays (i : nat) (a : agent) : bool := (in_location i a || left_from i a)%bool.

(** The head counter that counts the agents of this process *)
Definition lhead (par : bool) (l : location) : Z :=
  if par then l_numAgentsOnRank l else l_numAgents l.
Definition khead (par : bool) (k : link) : Z :=
  if par then k_numAgentsOnRank k else k_numAgents k.
Definition lheads (e : eco) : list Z := map (lhead (e_par e)) (e_locations e).
Definition kheads (e : eco) : list Z := map (khead (e_par e)) (e_links e).

Definition lstruct (l : location) := (l_name l, l_links l, l_closed_links l, l_attributes l).
Definition kstruct (k : link) := (k_startpoint k, k_endpoint k, k_closed k, k_attributes k).
Definition astruct (a : agent) := (a_location a, a_home_location a, a_travelling a).

(** ** Frames *)

Record SameStruct (e e' : eco) : Prop := {
  ss_par : e_par e' = e_par e;
  ss_names : e_locationNames e' = e_locationNames e;
  ss_locs : map lstruct (e_locations e') = map lstruct (e_locations e);
  ss_links : map kstruct (e_links e') = map kstruct (e_links e);
  ss_dicts : (List.length (e_dicts e) <= List.length (e_dicts e'))%nat;
  ss_weights : List.length (e_spawn_weights e') = List.length (e_spawn_weights e) }.

Record Same (e e' : eco) : Prop := {
  s_struct : SameStruct e e';
  s_lheads : lheads e' = lheads e;
  s_kheads : kheads e' = kheads e;
  s_cums : map k_cumNumAgents (e_links e') = map k_cumNumAgents (e_links e);
  s_agents : map astruct (e_agents e') = map astruct (e_agents e) }.

Lemma ss_refl e : SameStruct e e.
Proof. split; auto. Qed.
Lemma ss_trans e1 e2 e3 : SameStruct e1 e2 -> SameStruct e2 e3 -> SameStruct e1 e3.
Proof. intros [] []; split; try congruence; lia. Qed.
Lemma same_refl e : Same e e.
Proof. split; auto using ss_refl. Qed.
Lemma same_trans e1 e2 e3 : Same e1 e2 -> Same e2 e3 -> Same e1 e3.
Proof. intros [] []; split; try congruence. eapply ss_trans; eauto. Qed.
#[export] Hint Resolve ss_refl same_refl : core.

(** Pull a [nth_error] back along equal images. *)
Lemma map_eq_nth {A B C} (f : A -> C) (g : B -> C) l m i b :
  map f l = map g m -> nth_error m i = Some b ->
  exists a, nth_error l i = Some a /\ f a = g b.
Proof.
  intros H Hi.
  assert (H1 : nth_error (map f l) i = Some (g b)) by (rewrite H; now apply map_nth_error).
  rewrite nth_error_map in H1. destruct (nth_error l i); cbn in H1; [|discriminate].
  injection H1; eauto.
Qed.

Lemma map_eq_length {A B C} (f : A -> C) (g : B -> C) l m :
  map f l = map g m -> List.length l = List.length m.
Proof. intro H; rewrite <- (map_length f), H; apply map_length. Qed.

Lemma map_eq_In {A C} (f : A -> C) l m b :
  map f l = map f m -> In b m -> exists a, In a l /\ f a = f b.
Proof.
  intros H Hb. apply In_nth_error in Hb as [i Hi].
  destruct (map_eq_nth f f l m i b H Hi) as (a & Ha & E).
  exists a; split; [eapply nth_error_In; eauto | exact E].
Qed.

(** ** The invariant *)

Definition agent_ok (e : eco) (a : agent) : Prop :=
  (a_home_location a < List.length (e_locations e))%nat /\
  match a_location a with
  | PLoc i => (i < List.length (e_locations e))%nat /\ a_travelling a = false
  | PLink k => (k < List.length (e_links e))%nat /\ a_travelling a = true
  | PGone i => (i < List.length (e_locations e))%nat /\ a_travelling a = false
  end.

Definition link_ok (e : eco) (k : link) : Prop :=
  (k_startpoint k < List.length (e_locations e))%nat /\
  (k_endpoint k < List.length (e_locations e))%nat /\
  (k_attributes k < List.length (e_dicts e))%nat.

Definition loc_ok (e : eco) (i : nat) (l : location) : Prop :=
  (l_attributes l < List.length (e_dicts e))%nat /\
  NoDup (l_links l) /\ NoDup (l_closed_links l) /\
  (forall ki, In ki (l_links l) ->
     exists k, nth_error (e_links e) ki = Some k /\ k_startpoint k = i /\ k_closed k = false) /\
  (forall ki, In ki (l_closed_links l) ->
     exists k, nth_error (e_links e) ki = Some k /\ k_startpoint k = i /\ k_closed k = true).

Record Struct (e : eco) : Prop := {
  st_names : e_locationNames e = map l_name (e_locations e);
  st_weights : List.length (e_spawn_weights e) = List.length (e_locations e);
  st_dicts : (2 <= List.length (e_dicts e))%nat;
  st_loc : forall i l, nth_error (e_locations e) i = Some l -> loc_ok e i l;
  st_link : forall ki k, nth_error (e_links e) ki = Some k -> link_ok e k }.

Record Inv (e : eco) : Prop := {
  i_struct : Struct e;
  i_agents : forall a, In a (e_agents e) -> agent_ok e a;
  i_store : forall i l ki a, nth_error (e_locations e) i = Some l ->
              In ki (l_closed_links l) -> In a (e_agents e) -> a_location a <> PLink ki;
  i_lcount : forall i z, nth_error (lheads e) i = Some z -> z = countZ (stays i) (e_agents e);
  i_kcount : forall k z, nth_error (kheads e) k = Some z -> z = countZ (on_link k) (e_agents e);
  i_cum : forall k, In k (e_links e) -> (khead (e_par e) k <= k_cumNumAgents k)%Z }.

(** ** Structure is preserved by [SameStruct] *)

Lemma lstruct_names ls ls' : map lstruct ls' = map lstruct ls -> map l_name ls' = map l_name ls.
Proof.
  intro H. assert (E : map l_name ls' = map (fun t => fst (fst (fst t))) (map lstruct ls'))
    by (rewrite map_map; reflexivity).
  rewrite E, H, map_map; reflexivity.
Qed.

Lemma struct_same e e' : SameStruct e e' -> Struct e -> Struct e'.
Proof.
  intros [Hp Hn Hl Hk Hd Hw] [S1 S2 S3 S4 S5].
  pose proof (map_eq_length _ _ _ _ Hl) as Ll.
  split.
  - rewrite Hn, S1. symmetry; now apply lstruct_names.
  - congruence.
  - lia.
  - intros i l' Hi.
    destruct (map_eq_nth lstruct lstruct (e_locations e) _ i l' (eq_sym Hl) Hi) as (l & Hi0 & E).
    destruct (S4 i l Hi0) as (A1 & A2 & A3 & A4 & A5).
    injection E as E1 E2 E3 E4. unfold loc_ok. rewrite <- E2, <- E3, <- E4.
    split; [lia|]. do 2 (split; [assumption|]).
    split; intros ki Hki; [destruct (A4 ki Hki) as (k & K1 & K2 & K3)
                          |destruct (A5 ki Hki) as (k & K1 & K2 & K3)];
      destruct (map_eq_nth kstruct kstruct (e_links e') _ ki k Hk K1) as (k' & K1' & F);
      injection F as F1 F2 F3 F4; exists k'; repeat split; congruence.
  - intros ki k' Hi.
    destruct (map_eq_nth kstruct kstruct (e_links e) _ ki k' (eq_sym Hk) Hi) as (k & Hi0 & F).
    injection F as F1 F2 F3 F4. destruct (S5 ki k Hi0) as (A1 & A2 & A3).
    unfold link_ok. rewrite <- F1, <- F2, <- F4, Ll. repeat split; try assumption; lia.
Qed.

Lemma stays_astruct i a a' : astruct a = astruct a' -> stays i a = stays i a'.
Proof. intros [=E _ _]; unfold stays, in_location, left_from; now rewrite E. Qed.
Lemma on_link_astruct i a a' : astruct a = astruct a' -> on_link i a = on_link i a'.
Proof. intros [=E _ _]; unfold on_link; now rewrite E. Qed.

Lemma countZ_map_eq {A C} (f : A -> bool) (g : A -> C) l m :
  (forall a b, g a = g b -> f a = f b) -> map g l = map g m -> countZ f l = countZ f m.
Proof.
  intro H; revert m; induction l; destruct m; cbn [map]; try discriminate; [auto|].
  intros [= E1 E2]. rewrite !countZ_cons, (IHl m) by assumption. now rewrite (H a a0).
Qed.

Lemma inv_same e e' : Same e e' -> Inv e -> Inv e'.
Proof.
  intros [SS Hlh Hkh Hc Ha] [I1 I2 I3 I4 I5 I6].
  pose proof (struct_same _ _ SS I1) as S'.
  pose proof (map_eq_length _ _ _ _ (ss_locs _ _ SS)) as Ll.
  pose proof (map_eq_length _ _ _ _ (ss_links _ _ SS)) as Lk.
  split.
  - assumption.
  - intros a' Hin. destruct (map_eq_In astruct _ _ a' (eq_sym Ha) Hin) as (a & Hin0 & E).
    injection E as E1 E2 E3. specialize (I2 a Hin0). unfold agent_ok in *.
    rewrite <- E1, <- E2, <- E3, Ll, Lk. exact I2.
  - intros i l' ki a' Hi Hki Hin.
    destruct (map_eq_In astruct _ _ a' (eq_sym Ha) Hin) as (a & Hin0 & E).
    injection E as E1 E2 E3.
    destruct (map_eq_nth lstruct lstruct (e_locations e) _ i l' (eq_sym (ss_locs _ _ SS)) Hi)
      as (l & Hi0 & F). injection F as F1 F2 F3 F4. rewrite <- E1.
    eapply I3; eauto; congruence.
  - intros i z Hi. rewrite Hlh in Hi. rewrite (I4 i z Hi).
    eapply countZ_map_eq; [|symmetry; exact Ha]. intros; now apply stays_astruct.
  - intros i z Hi. rewrite Hkh in Hi. rewrite (I5 i z Hi).
    eapply countZ_map_eq; [|symmetry; exact Ha]. intros; now apply on_link_astruct.
  - intros k' Hin. apply In_nth_error in Hin as [i Hi].
    unfold kheads in Hkh. rewrite (ss_par _ _ SS) in *.
    destruct (map_eq_nth k_cumNumAgents k_cumNumAgents (e_links e) _ i k' (eq_sym Hc) Hi)
      as (k & Hi0 & F).
    destruct (map_eq_nth (khead (e_par e)) (khead (e_par e)) (e_links e) _ i k' (eq_sym Hkh) Hi)
      as (k2 & Hi2 & F2).
    rewrite Hi0 in Hi2; injection Hi2 as <-. rewrite <- F, <- F2. apply I6.
    eapply nth_error_In; eauto.
Qed.

(** ** Updates outside the frame *)

Lemma same_up_loc i f e :
  (forall l, lstruct (f l) = lstruct l) -> (forall l, lhead (e_par e) (f l) = lhead (e_par e) l) ->
  Same e (up_loc i f e).
Proof.
  intros H1 H2; split; try reflexivity.
  - split; try reflexivity. cbn. now apply map_upd.
  - unfold lheads; cbn. now apply map_upd.
Qed.

Lemma same_map_locs f e :
  (forall l, lstruct (f l) = lstruct l) -> (forall l, lhead (e_par e) (f l) = lhead (e_par e) l) ->
  Same e (up_e_locations (map f) e).
Proof.
  intros H1 H2; split; try reflexivity.
  - split; try reflexivity. cbn. rewrite map_map; now apply map_ext.
  - unfold lheads; cbn. rewrite map_map; now apply map_ext.
Qed.

Lemma same_up_link i f e :
  (forall k, kstruct (f k) = kstruct k) -> (forall k, khead (e_par e) (f k) = khead (e_par e) k) ->
  (forall k, k_cumNumAgents (f k) = k_cumNumAgents k) ->
  Same e (up_link i f e).
Proof.
  intros H1 H2 H3; split; try reflexivity.
  - split; try reflexivity. cbn. now apply map_upd.
  - unfold kheads; cbn. now apply map_upd.
  - cbn. now apply map_upd.
Qed.

Lemma same_up_agent i f e : (forall a, astruct (f a) = astruct a) -> Same e (up_agent i f e).
Proof.
  intros H; split; try reflexivity; [split; reflexivity|]. cbn. now apply map_upd.
Qed.

Ltac lsimpl := intros; unfold lhead, khead, lstruct, kstruct, astruct;
  repeat match goal with |- context [if ?b then _ else _] => destruct b end; reflexivity.

(** ** Calls that change neither agents nor the clock *)

Record Still (e e' : eco) : Prop := {
  sl_same : Same e e';
  sl_agents : e_agents e' = e_agents e;
  sl_time : e_time e' = e_time e;
  sl_dist : map k_distance (e_links e') = map k_distance (e_links e);
  sl_tabs : map k_cumByAttribute (e_links e') = map k_cumByAttribute (e_links e) }.

Lemma still_refl e : Still e e.
Proof. split; auto. Qed.
Lemma still_trans e1 e2 e3 : Still e1 e2 -> Still e2 e3 -> Still e1 e3.
Proof. intros [] []; split; try congruence. eapply same_trans; eauto. Qed.
#[export] Hint Resolve still_refl : core.

Lemma still_up_loc i f e :
  (forall l, lstruct (f l) = lstruct l) -> (forall l, lhead (e_par e) (f l) = lhead (e_par e) l) ->
  Still e (up_loc i f e).
Proof. intros; split; try reflexivity. now apply same_up_loc. Qed.

Lemma still_map_locs f e :
  (forall l, lstruct (f l) = lstruct l) -> (forall l, lhead (e_par e) (f l) = lhead (e_par e) l) ->
  Still e (up_e_locations (map f) e).
Proof. intros; split; try reflexivity. now apply same_map_locs. Qed.

Lemma still_up_link i f e :
  (forall k, kstruct (f k) = kstruct k) -> (forall k, khead (e_par e) (f k) = khead (e_par e) k) ->
  (forall k, k_cumNumAgents (f k) = k_cumNumAgents k) ->
  (forall k, k_distance (f k) = k_distance k) ->
  (forall k, k_cumByAttribute (f k) = k_cumByAttribute k) ->
  Still e (up_link i f e).
Proof. intros; split; try reflexivity; [now apply same_up_link|..]; cbn; now apply map_upd. Qed.

(** ** Operations that stay in the frame *)

Lemma still_refresh S e e' : refresh_spawn_weights S e = Ok e' -> Still e e'.
Proof.
  unfold refresh_spawn_weights; intro H; rinv H.
  apply Nat.ltb_ge in B. split; try reflexivity. split; try reflexivity. split; try reflexivity.
  cbn. rewrite app_length, skipn_length. lia.
Qed.

Lemma still_addLocationRoute S o e src cur ki prior origin major e' :
  addLocationRoute S o e src cur ki prior origin major = Ok e' -> Still e e'.
Proof.
  unfold addLocationRoute; intro H; rinv H; auto.
  all: apply still_up_loc; lsimpl.
Qed.

Lemma still_crawlLink fuel S o src ki prior origin step e e' :
  crawlLink fuel S o src ki prior origin step e = Ok e' -> Still e e'.
Proof.
  revert ki prior origin step e e'. induction fuel as [|fuel IH]; intros ki prior origin step e e' H;
    cbn [crawlLink] in H; [discriminate|].
  rstep H. rstep H. rstep H.
  assert (S1 : Still e v1) by (rinv E1; auto; eapply still_addLocationRoute; eauto).
  rstep H; [|rinv H; assumption].
  eapply still_trans; [exact S1|].
  eapply (foldM_rel Still) in H; eauto using still_trans.
  intros s a s' _ Hs. rinv Hs; auto. eapply IH; eauto.
Qed.

Lemma still_addMajorRoute S o route rest : forall src cur prior e e',
  addMajorRoute S o e src cur prior route rest = Ok e' -> Still e e'.
Proof.
  induction rest as [|n rest IH]; intros src cur prior e e' H; cbn [addMajorRoute] in H;
    [discriminate|].
  do 3 rstep H; [|discriminate]. destruct rest.
  - eapply still_addLocationRoute; eauto.
  - rstep H. eapply IH; eauto.
Qed.

Lemma still_insertMajor S o src hub r d e e' :
  insertMajorRoutesForLocation S o src hub r d e = Ok e' -> Still e e'.
Proof.
  unfold insertMajorRoutesForLocation; intro H; rstep H.
  eapply (foldM_rel Still) in H; eauto using still_trans.
  intros s a s' _ Hs. destruct a; [discriminate|]. rstep Hs; [rinv Hs; auto|].
  cbv zeta in Hs. eapply still_addMajorRoute; eauto.
Qed.

Lemma still_insertAllMajor S o src e e' : insertAllMajorRoutes S o src e = Ok e' -> Still e e'.
Proof.
  unfold insertAllMajorRoutes; intro H; do 2 rstep H. cbv zeta in H. rstep H.
  assert (S1 : Still e v1) by (rinv E1; auto; eapply still_insertMajor; eauto).
  eapply still_trans; [exact S1|].
  eapply (foldM_rel Still) in H; eauto using still_trans.
  intros s a s' _ Hs. do 2 rstep Hs. rstep Hs. destruct a0. rstep Hs.
  rstep Hs; [rinv Hs; auto|]. eapply still_insertMajor; eauto.
Qed.

Lemma still_generate S o src e g e' g' :
  generateLocationRoutes S o src e g = Ok (e', g') -> Still e e'.
Proof.
  unfold generateLocationRoutes; intro H; rstep H. rstep H; [rinv H; auto|]. cbv zeta in H.
  assert (S0 : Still e (up_loc src (up_l_routes (fun _ => [])) e)) by (apply still_up_loc; lsimpl).
  rstep H; [rinv H; auto|]. do 2 rstep H. rinv H.
  eapply still_trans; [exact S0|]. eapply still_trans; [|eapply still_insertAllMajor; eauto].
  eapply (foldM_rel Still) in E0; eauto using still_trans.
  intros; eapply still_crawlLink; eauto.
Qed.

Lemma still_updateLocationScore S o t i e g e' g' :
  updateLocationScore S o t i e g = Ok (e', g') -> Still e e'.
Proof.
  unfold updateLocationScore; intro H; do 3 rstep H. cbv zeta in H.
  assert (S0 : Still e (up_loc i (fun l => up_l_score1 (fun _ => v1) (up_l_score0 (fun _ => 1%Q) l)) e))
    by (apply still_up_loc; lsimpl).
  rstep H; [|rinv H; auto].
  eapply still_trans; [exact S0|]. eapply still_generate; eauto.
Qed.

Lemma still_update_scores S o e g e' g' : update_scores S o e g = Ok (e', g') -> Still e e'.
Proof.
  unfold update_scores; intro H.
  eapply (foldM_rel (fun s s' => Still (fst s) (fst s'))) in H; eauto using still_trans.
  intros [e1 g1] i [e2 g2] _ Hs. cbn [fst]. eapply still_trans; [|eapply still_updateLocationScore; eauto].
  apply still_up_loc; lsimpl.
Qed.

Lemma still_on_named_loc n f e e' :
  (forall l, lstruct (f l) = lstruct l) -> (forall l, lhead (e_par e) (f l) = lhead (e_par e) l) ->
  on_named_loc n f e = Ok e' -> Still e e'.
Proof. unfold on_named_loc; intros H1 H2 H; rinv H. now apply still_up_loc. Qed.

Lemma still_close_camp S n i e e' : close_camp S n i e = Ok e' -> Still e e'.
Proof. apply still_on_named_loc; lsimpl. Qed.
Lemma still_open_camp S n i e e' : open_camp S n i e = Ok e' -> Still e e'.
Proof. apply still_on_named_loc; intros; unfold loc_open_camp; destruct i; lsimpl. Qed.
Lemma still_change_location_type S n t e e' : change_location_type S n t e = Ok e' -> Still e e'.
Proof.
  unfold change_location_type; intro H.
  repeat match type of H with (if ?b then _ else _) = _ => destruct b end;
    try (rstep H; discriminate);
    eapply still_on_named_loc; try exact H; cbv beta zeta; lsimpl.
Qed.
Lemma still_set_forced n m v e e' : set_forced_redirection n m v e = Ok e' -> Still e e'.
Proof.
  unfold set_forced_redirection; intro H; rstep H.
  eapply (foldM_rel Still) in H; eauto using still_trans.
  intros s a s' _ Hs; rinv Hs; auto. apply still_up_link; lsimpl.
Qed.
Lemma still_add_conflict S n q c e e' : add_conflict_zone S n q c e = Ok e' -> Still e e'.
Proof.
  unfold add_conflict_zone; intro H. rstep H; [|rinv H; auto]. rstep H.
  eapply still_trans; [|eapply still_refresh; eauto]. destruct c; apply still_up_loc; lsimpl.
Qed.
Lemma still_remove_conflict S n c e e' : remove_conflict_zone S n c e = Ok e' -> Still e e'.
Proof.
  unfold remove_conflict_zone; intro H. rstep H.
  eapply still_trans; [|eapply still_refresh; eauto].
  eapply (foldM_rel Still) in E; eauto using still_trans.
  intros s a s' _ Hs; rinv Hs; auto. destruct c; apply still_up_loc; lsimpl.
Qed.
Lemma still_set_intensity S n q c e e' : set_conflict_intensity S n q c e = Ok e' -> Still e e'.
Proof.
  unfold set_conflict_intensity; destruct (Qltb _ _);
    [apply still_remove_conflict | apply still_add_conflict].
Qed.

Lemma still_dicts f e : (List.length (e_dicts e) <= List.length (f (e_dicts e)))%nat ->
  Still e (up_e_dicts f e).
Proof.
  intro H; split; try reflexivity. split; try reflexivity. split; try reflexivity. exact H.
Qed.

Lemma still_set_attr i k v e e' : set_loc_attribute i k v e = Ok e' -> Still e e'.
Proof.
  unfold set_loc_attribute; intro H; rinv H. apply still_dicts. now rewrite upd_length.
Qed.

Lemma still_update_attributes ig a t e e' : update_attributes ig a t e = Ok e' -> Still e e'.
Proof.
  unfold update_attributes; intro H; rstep H.
  eapply (foldM_rel Still) in H; eauto using still_trans.
  intros s i s' _ Hs. do 2 rstep Hs. eapply still_set_attr; eauto.
Qed.

Lemma still_add_new_conflict_zones S f ig t e e' :
  add_new_conflict_zones S f ig t e = Ok e' -> Still e e'.
Proof.
  unfold add_new_conflict_zones; intro H; do 2 rstep H.
  assert (S1 : Still e v0).
  { unfold apply_changes in E0. eapply (foldM_rel Still) in E0; eauto using still_trans.
    intros s c s' _ Hs. do 2 rstep Hs. rstep Hs; [|rinv Hs; auto]. do 2 rstep Hs.
    eapply still_change_location_type; eauto. }
  eapply still_trans; [exact S1|]. rstep H; [|rstep H].
  - rstep H. rstep H.
    + eapply still_trans; eapply still_update_attributes; eauto.
    + rinv H. eapply still_update_attributes; eauto.
  - eapply (foldM_rel Still) in H; eauto using still_trans.
    intros s [n vs] s' _ Hs. unfold conflict_step in Hs.
    rstep Hs; [discriminate|]. do 2 rstep Hs.
    assert (S2 : Still s v2).
    { rinv E2; auto; first [eapply still_set_intensity; eassumption | eapply still_add_conflict; eassumption]. }
    eapply still_trans; [exact S2|].
    rinv Hs; auto. eapply still_set_intensity; eauto.
  - unfold conflicts_from_locations in H. eapply (foldM_rel Still) in H; eauto using still_trans.
    intros s l s' _ Hs. rstep Hs. rstep Hs; [|rinv Hs; auto]. do 2 rstep Hs.
    rstep Hs; [|rinv Hs; auto]. do 3 rstep Hs. eapply still_add_conflict; eauto.
Qed.

Lemma still_write_agents S e e' : write_agents S e = Ok e' -> Still e e'.
Proof. unfold write_agents; intro H; rinv H; split; try reflexivity; split; try reflexivity; split; reflexivity. Qed.
Lemma still_write_links S e e' : write_links S e = Ok e' -> Still e e'.
Proof. unfold write_links; intro H; rinv H; split; try reflexivity; split; try reflexivity; split; reflexivity. Qed.

Lemma still_closures f e : Still e (up_e_closures f e).
Proof. split; try reflexivity. split; try reflexivity; split; reflexivity. Qed.
Lemma still_reduce d e : Still e (reduce_capacities d e).
Proof.
  apply still_map_locs; intro l; destruct (0 <? l_capacity l)%Z; try reflexivity; lsimpl.
Qed.

(** ** Steps of evolve *)

Lemma same_update_recent S e e' : update_recent S e = Ok e' -> Same e e'.
Proof.
  unfold update_recent; intro H; rinv H. split; try reflexivity; [split; reflexivity|].
  cbn. clear -E. apply mapM_Forall2 in E. induction E; [reflexivity|]. cbn [map]; f_equal; auto.
  rinv H; reflexivity.
Qed.

Lemma same_aggregate S e : Same e (aggregate_arrivals S e).
Proof.
  unfold aggregate_arrivals. destruct (0 <? s_log_camp S)%Z; auto.
  eapply same_trans; [apply same_map_locs with
    (f := fun l => if l_camp l then up_l_incoming_journey_lengths (fun _ => []) l else l)|];
    [intro l; destruct (l_camp l); reflexivity | intro l; destruct (l_camp l); lsimpl |].
  split; try reflexivity. split; reflexivity.
Qed.

Lemma same_time f e : Same e (up_e_time f e).
Proof. split; try reflexivity; split; reflexivity. Qed.
