(** * SerialEvolve: one time step of the only process of a parallel program *)

From Coq Require Import Lia Lqa.
From Verif Require Import Base State Moving Crawling Scoring Diagnostics Flee DataTable
  Spawning InputGeography Api Pflee ParApi SpecAgents Lemmas Inv SerialRel SerialSteps.
Local Open Scope list_scope.

Lemma both_and {A B} (R : A -> B -> Prop) (P : A -> Prop) x y : both R x y -> (forall a, x = Ok a -> P a) ->
  both (fun a b => R a b /\ P a) x y.
Proof. destruct x, y; cbn; auto. Qed.

(** ** Logs *)

Lemma like_link_name e e' k k' : Like e e' -> Lk k k' -> both eq (link_name e k) (link_name e' k').
Proof.
  intros L R. ks R. unfold link_name. cbn. lstep L. lstep L. ll H. ll H0. apply both_eq.
Qed.
Lemma like_link_xy e e' k k' : Like e e' -> Lk k k' -> both eq (link_xy e k) (link_xy e' k').
Proof.
  intros L R. ks R. unfold link_xy. cbn. lstep L. lstep L. ll H. ll H0. apply both_eq.
Qed.
Lemma like_place e e' p : Like e e' -> both eq (place_of e p) (place_of e' p).
Proof.
  intro L. destruct p; cbn [place_of]; [| |apply both_eq].
  - lstep L. ll H. apply both_eq.
  - lstep L. eapply both_bind; [now apply like_link_name|]. intros ? ? <-.
    eapply both_bind; [now apply like_link_xy|]. intros ? ? <-. apply both_eq.
Qed.
Lemma like_row e e' t h n a nm xy : Like e e' -> both eq (mk_row e t h n a nm xy) (mk_row e' t h n a nm xy).
Proof. intro L. unfold mk_row. lstep L. ll H. apply both_eq. Qed.
Lemma like_hops S e e' t n a : Like e e' -> forall ks h, both eq (hop_rows S e t n a h ks) (hop_rows S e' t n a h ks).
Proof.
  intro L. induction ks as [|k ks IH]; intro h; [apply both_eq|]. cbn [hop_rows]. destruct (is_region S); [exact I|].
  lstep L. eapply both_bind; [now apply like_link_name|]. intros ? ? <-.
  eapply both_bind; [now apply like_link_xy|]. intros ? ? <-.
  eapply both_bind; [now apply like_row|]. intros ? ? <-. eapply both_bind; [apply IH|]. intros ? ? <-. apply both_eq.
Qed.
Lemma like_rows S e e' t : Like e e' -> forall ags n, both eq (all_agent_rows S e t n ags) (all_agent_rows S e' t n ags).
Proof.
  intro L. induction ags as [|a ags IH]; intro n; [apply both_eq|]. cbn [all_agent_rows].
  eapply both_bind.
  - unfold agent_rows. eapply both_bind; [now apply like_place|]. intros p ? <-.
    destruct p as [[nm xy]|]; [|apply both_eq]. destruct (is_region S); [exact I|].
    eapply both_bind; [now apply like_row|]. intros ? ? <-.
    eapply both_bind with (R := eq); [|intros ? ? <-; apply both_eq].
    destruct (_ <? _)%Z; [now apply like_hops|apply both_eq].
  - intros ? ? <-. eapply both_bind; [apply IH|]. intros ? ? <-. apply both_eq.
Qed.
Lemma like_write_agents S e e' : Like e e' -> both Like (write_agents S e) (write_agents S e').
Proof.
  intro L. unfold write_agents. rewrite (lk_time _ _ L), (lk_agents _ _ L), (lk_aout _ _ L). vstep.
  eapply both_bind; [now apply like_rows|]. intros ? ? <-. cbn. now apply like_up_aout.
Qed.
Lemma like_link_rows S e e' t ki : Like e e' -> both eq (link_rows S e t ki) (link_rows S e' t ki).
Proof.
  intro L. unfold link_rows. lstep L. ks H. cbn [k_startpoint k_endpoint k_cumNumAgents k_cumByAttribute].
  lstep L. lstep L. ll H. ll H0. apply both_eq.
Qed.
Lemma like_write_links S e e' : Like e e' -> both Like (write_links S e) (write_links S e').
Proof.
  intro L. unfold write_links. rewrite (lk_time _ _ L), (lk_lout _ _ L).
  rewrite <- (F2_flat Ll l_links l_links _ _ (lk_locs _ _ L)) by (intros ? ? R; ll R; reflexivity).
  eapply both_bind.
  - eapply both_impl; [|apply both_mapM with (Q := eq) (R := eq)].
    + intros a b F. instantiate (1 := eq). induction F; congruence.
    + clear. induction (flat_map _ _); constructor; auto.
    + intros k ? <-. now apply like_link_rows.
  - intros ? ? <-. cbn. now apply like_up_lout.
Qed.
Lemma like_recent S e e' : Like e e' -> both Like (update_recent S e) (update_recent S e').
Proof. intro L. unfold update_recent. rewrite (lk_agents _ _ L). vstep. cbn. now apply like_up_agents. Qed.
Lemma like_logs S e e' g : Like e e' ->
  both LikeG (e4 <- (if (0 <? s_log_agent S)%Z then write_agents S e else Ok e) ;;
              e5 <- (if (0 <? s_log_link S)%Z then write_links S e4 else Ok e4) ;;
              e6 <- update_recent S e5 ;; Ok (e6, g)) (par_logs S e' g).
Proof.
  intro L. unfold par_logs. eapply both_bind with (R := Like); [destruct (0 <? _)%Z; [now apply like_write_agents|exact L]|].
  clear e e' L. intros e e' L. eapply both_bind with (R := Like); [destruct (0 <? _)%Z; [now apply like_write_links|exact L]|].
  clear e e' L. intros e e' L. eapply both_bind; [now apply like_recent|]. intros. cbn. split; auto.
Qed.

(** ** Arrivals *)

Lemma like_arrivals S e e' : Like e e' -> Like (aggregate_arrivals S e) (aggregate_arrivals S e').
Proof.
  intro L. unfold aggregate_arrivals. destruct (0 <? _)%Z; [|exact L].
  assert (Q : flat_map l_incoming_journey_lengths (filter l_camp (e_locations e')) =
              flat_map l_incoming_journey_lengths (filter l_camp (e_locations e))).
  { pose proof (lk_locs _ _ L) as F. induction F as [|l l' ls ls' R F IH]; [reflexivity|].
    cbn. assert (X : l_camp l' = l_camp l) by (ll R; reflexivity). rewrite X. destruct (l_camp l); [|exact IH].
    cbn. rewrite IH. f_equal. ll R. reflexivity. }
  rewrite Q. destruct L. constructor; try assumption; cbn; try (now f_equal).
  clear - lk_locs. induction lk_locs as [|l l' ls ls' R F IH]; cbn; constructor; auto.
  assert (X : l_camp l' = l_camp l) by (ll R; reflexivity). rewrite X. destruct (l_camp l); [|exact R].
  now apply ll_incoming_journey_lengths.
Qed.

(** ** Counters *)

Lemma ll_counters l l' f h : Ll l l' -> (f = up_l_numAgents \/ f = up_l_numAgentsSpawned) -> Ll l (f h l').
Proof. intros R [-> | ->]; ll R; llgoal. Qed.
Lemma lk_counters k k' h : Lk k k' -> Lk k (up_k_numAgents h k').
Proof. intro R. ks R. kgoal. Qed.

Lemma like_spawned ts e e' : Like e e' -> Like e (up_e_locations (set_spawned ts) e').
Proof.
  intros []. constructor; try assumption. cbn. clear - lk_locs. revert ts.
  induction lk_locs as [|l l' ls ls' R F IH]; intros [|t ts]; cbn; constructor; auto. apply ll_counters; auto.
Qed.

Lemma write_roads ks : forall h0 h buf, Forall2 Lk h0 h -> Forall2 Lk h0 (fst (fold_left write_link_total ks (h, buf))).
Proof.
  induction ks as [|k ks IH]; intros h0 h buf F; [exact F|]. cbn [fold_left write_link_total].
  destruct buf as [|t buf]; apply IH; [exact F|]. clear IH. revert k. induction F as [|a b h0 h R F IH]; intros [|k]; cbn; constructor; auto.
  now apply lk_counters.
Qed.
Lemma like_totals closed ts e e' : Like e e' -> Like e (write_totals closed ts e').
Proof.
  intros []. unfold write_totals.
  assert (W : forall ls0 ls pre0 pre h buf, Forall2 Ll ls0 ls -> Forall2 Ll pre0 pre -> Forall2 Lk (e_links e) h ->
    match fold_left (write_loc_total closed) ls (pre, h, buf) with (ls', h', _) =>
      Forall2 Ll (pre0 ++ ls0) ls' /\ Forall2 Lk (e_links e) h' end).
  { intros ls0 ls pre0 pre h buf F. revert pre0 pre h buf. induction F as [|l l' ls0 ls R F IH]; intros pre0 pre h buf P H.
    - cbn. now rewrite app_nil_r.
    - cbn [fold_left write_loc_total]. replace (pre0 ++ l :: ls0) with ((pre0 ++ [l]) ++ ls0) by now rewrite <- app_assoc.
      destruct buf as [|t buf]; [apply IH; [now apply F2_app1|exact H]|].
      pose proof (write_roads (l_links l' ++ (if closed then l_closed_links l' else [])) _ _ buf H) as X.
      destruct (fold_left _ _ (h, buf)) as [h' buf']. apply IH; [|exact X]. apply F2_app1; auto. apply ll_counters; auto. }
  specialize (W _ _ [] [] _ ts lk_locs (Forall2_nil _) lk_links).
  destruct (fold_left _ _ _) as [[ls' h'] b]. destruct W as [W1 W2]. constructor; assumption.
Qed.

(** ** Scores *)

(** As [Ll], but for the scores *)
Definition Lx (l l' : location) : Prop :=
  (l_capacity l <= 0)%Z /\ exists n r s t rt s0 s1, l' =
  Location (l_name l) (l_region l) (l_x l) (l_y l) (l_movechance l) (l_links l) (l_closed_links l) rt
    (l_major_routes l) n r (l_capacity l) (l_pop l) (l_foreign l) (l_country l) (l_conflict l) (l_camp l)
    (l_idpcamp l) (l_town l) (l_forward l) (l_marker l) (l_flood_zone l) (l_time_of_conflict l) s t
    (l_attributes l) s0 s1 (l_incoming_journey_lengths l).
Ltac lx H := let c := fresh "cap" in destruct H as (c & ? & ? & ? & ? & ? & ? & ? & ->).

Definition bare (e : eco) : eco := up_e_locations (fun _ => []) e.
Definition LikeX (e e' : eco) : Prop :=
  Forall2 Lx (e_locations e) (e_locations e') /\ Like (bare e) (bare e').

Lemma lx_ll l l' : Ll l l' -> Lx l l'.
Proof. intro R. ll R. split; [assumption|]. do 7 eexists; reflexivity. Qed.
Lemma likex e e' : Like e e' -> LikeX e e'.
Proof.
  intro L. split.
  - pose proof (lk_locs _ _ L) as F. induction F; constructor; auto. now apply lx_ll.
  - destruct L. constructor; try assumption. constructor.
Qed.
Lemma likex_like e e' ls ls' : LikeX e e' -> Forall2 Ll ls ls' ->
  Like (up_e_locations (fun _ => ls) e) (up_e_locations (fun _ => ls') e').
Proof. intros [_ L] F. destruct L. constructor; assumption. Qed.
Lemma likex_locs e e' ls' : LikeX e e' -> Forall2 Lx (e_locations e) ls' -> LikeX e (up_e_locations (fun _ => ls') e').
Proof. intros [_ L] F. split; [exact F|]. destruct L. constructor; assumption. Qed.

(** The new score of a location, and the location with it *)
Definition score_of (S : settings) (o : oracle) (e : eco) (l : location) : res Q :=
  d <- loc_attrs e l ;; locationScore S o d (e_time e) l.
Definition scored (clear : bool) (p : location * Q) : location :=
  up_l_score1 (fun _ => snd p) (up_l_score0 (fun _ => 1%Q)
    (if clear then up_l_routes (fun _ => []) (fst p) else fst p)).
Definition score_step (clear : bool) (S : settings) (o : oracle) (st : eco * rng) (i : nat) : res (eco * rng) :=
  let '(e1, g1) := st in
  updateLocationScore S o (e_time e1) i (if clear then up_loc i (up_l_routes (fun _ => [])) e1 else e1) g1.

Lemma locs_id e ls : e_locations e = ls -> up_e_locations (fun _ => ls) e = e.
Proof. intros <-. now destruct e. Qed.
Lemma upd_mid {A} (pre : list A) a post f : upd (List.length pre) f (pre ++ a :: post) = pre ++ f a :: post.
Proof. induction pre; cbn; congruence. Qed.
Lemma nth_mid {A} (pre : list A) a post : nth_error (pre ++ a :: post) (List.length pre) = Some a.
Proof. induction pre; cbn; auto. Qed.
Lemma up_loc_mid pre a post f e : e_locations e = pre ++ a :: post ->
  up_loc (List.length pre) f e = up_e_locations (fun _ => pre ++ f a :: post) e.
Proof. unfold up_loc, up_e_locations. intro E. now rewrite E, upd_mid. Qed.

Lemma scores_form clear S o g : s_FixedRoutes S = false -> forall todo pre e, e_locations e = pre ++ todo ->
  foldM (score_step clear S o) (seq (List.length pre) (List.length todo)) (e, g) =
  (scs <- mapM (score_of S o e) todo ;;
   Ok (up_e_locations (fun _ => pre ++ map (scored clear) (combine todo scs)) e, g)).
Proof.
  intro Fx. induction todo as [|l todo IH]; intros pre e E.
  - cbn. rewrite (locs_id e (pre ++ []) E). reflexivity.
  - cbn [List.length seq foldM mapM score_step].
    set (l1 := if clear then up_l_routes (fun _ => []) l else l).
    assert (Q : (if clear then up_loc (List.length pre) (up_l_routes (fun _ => [])) e else e) =
                up_e_locations (fun _ => pre ++ l1 :: todo) e).
    { unfold l1. destruct clear; [now apply up_loc_mid|symmetry; now apply locs_id]. }
    rewrite Q. unfold updateLocationScore. rewrite Fx. unfold loc_of at 1. cbn [up_e_locations e_locations].
    rewrite nth_mid. cbn [of_option bind].
    assert (Qs : (d <- loc_attrs (up_e_locations (fun _ => pre ++ l1 :: todo) e) l1 ;; locationScore S o d (e_time e) l1) =
                 score_of S o e l) by (unfold score_of, l1; destruct clear; reflexivity).
    unfold bind in Qs at 1. unfold bind at 1 2.
    destruct (loc_attrs (up_e_locations (fun _ => pre ++ l1 :: todo) e) l1) as [d|x]; cbn [bind].
    2:{ rewrite <- Qs. reflexivity. }
    rewrite <- Qs. destruct (locationScore S o d (e_time e) l1) as [sc|]; [|reflexivity].
    cbn [bind]. rewrite (up_loc_mid pre l1 todo) by reflexivity.
    match goal with |- context[up_e_locations ?f (up_e_locations ?h e)] =>
      change (up_e_locations f (up_e_locations h e)) with (up_e_locations (fun _ => pre ++ [scored clear (l, sc)] ++ todo) e) end.
    rewrite app_assoc.
    specialize (IH (pre ++ [scored clear (l, sc)]) (up_e_locations (fun _ => (pre ++ [scored clear (l, sc)]) ++ todo) e) eq_refl).
    rewrite app_length in IH. cbn [List.length] in IH. rewrite Nat.add_1_r in IH. rewrite IH.
    assert (Q2 : mapM (score_of S o (up_e_locations (fun _ => (pre ++ [scored clear (l, sc)]) ++ todo) e)) todo =
                 mapM (score_of S o e) todo) by reflexivity.
    rewrite Q2. destruct (mapM (score_of S o e) todo) as [scs|]; [|reflexivity]. cbn [bind]. cbn [combine map].
    f_equal. f_equal. rewrite <- app_assoc. reflexivity.
Qed.

Lemma likex_score S o e e' l l' : LikeX e e' -> Lx l l' -> score_of S o e' l' = score_of S o e l.
Proof.
  intros [_ L] R. lx R. unfold score_of, loc_attrs, dict_of. cbn [l_attributes].
  pose proof (lk_dicts _ _ L) as D. pose proof (lk_time _ _ L) as T. cbn in D, T. rewrite D, T. reflexivity.
Qed.
Lemma likex_all S o e e' : LikeX e e' ->
  both eq (mapM (score_of S o e) (e_locations e)) (mapM (score_of S o e') (e_locations e')).
Proof.
  intro L. eapply both_impl; [|apply both_mapM with (Q := Lx) (R := eq); [apply L|]].
  - intros a b F. induction F; congruence.
  - intros. apply both_of_eq. symmetry. now apply likex_score.
Qed.
Lemma ll_scored c c' l l' q : Lx l l' -> Ll (scored c (l, q)) (scored c' (l', q)).
Proof. intro R. lx R. destruct c, c'; llgoal. Qed.
Lemma lx_scored c l l' q : Lx l l' -> Lx l (scored c (l', q)).
Proof. intro R. lx R. split; [assumption|]. destruct c; do 7 eexists; reflexivity. Qed.

Lemma like_scores c c' S o e e' g : LikeX e e' -> s_FixedRoutes S = false ->
  both LikeG (foldM (score_step c S o) (seq 0 (List.length (e_locations e))) (e, g))
             (foldM (score_step c' S o) (seq 0 (List.length (e_locations e'))) (e', g)).
Proof.
  intros L Fx. change 0%nat with (@List.length location []).
  rewrite (scores_form c S o g Fx _ [] e eq_refl), (scores_form c' S o g Fx _ [] e' eq_refl).
  eapply both_bind; [now apply likex_all|]. intros scs ? <-. cbn. split; [|reflexivity]. cbn [fst].
  apply likex_like; auto. destruct L as [F _]. clear - F. revert scs.
  induction F as [|l l' ls ls' R F IH]; intros [|q scs]; cbn [combine map]; constructor; auto. now apply ll_scored.
Qed.
Lemma likex_scores c S o e e' g e1 g1 : LikeX e e' -> s_FixedRoutes S = false ->
  foldM (score_step c S o) (seq 0 (List.length (e_locations e'))) (e', g) = Ok (e1, g1) -> LikeX e e1 /\ g1 = g.
Proof.
  intros L Fx. change 0%nat with (@List.length location []). rewrite (scores_form c S o g Fx _ [] e' eq_refl). intro H.
  apply bind_ok in H as (scs & M & H). injection H as <- <-. split; [|reflexivity]. apply likex_locs; auto.
  assert (N : List.length scs = List.length (e_locations e')).
  { clear - M. revert scs M. induction (e_locations e') as [|l ls IH]; cbn; intros scs M; [now injection M as <-|].
    apply bind_ok in M as (q & _ & M). apply bind_ok in M as (qs & M & E). injection E as <-. cbn. now rewrite (IH _ M). }
  destruct L as [F _]. clear - F N. revert scs N.
  induction F as [|l l' ls ls' R F IH]; intros [|q scs] N; try discriminate; constructor; auto. now apply lx_scored.
Qed.

(** One process has all locations. *)

Lemma set_own_scores ls : set_scores (flat_map (fun l => [l_score0 l; l_score1 l]) ls) ls = ls.
Proof. induction ls as [|l ls IH]; [reflexivity|]. cbn [flat_map app set_scores]. rewrite IH. now destruct l. Qed.
Lemma scores_len ls : List.length (flat_map (fun l => [l_score0 l; l_score1 l]) ls) = (2 * List.length ls)%nat.
Proof. induction ls as [|l ls IH]; [reflexivity|]. cbn [flat_map app List.length]. rewrite IH. lia. Qed.
Lemma one_sync e : synchronize [e] = [e].
Proof.
  unfold synchronize. cbn [map]. f_equal. transitivity (up_e_locations (fun x => x) e); [|now destruct e].
  unfold up_e_locations. f_equal. rewrite <- (set_own_scores (e_locations e)) at 2. f_equal.
  change (Z.of_nat (List.length [e])) with 1%Z. unfold sync_offsets, sync_sizes.
  change (Z.to_nat 1) with 1%nat. cbn [seq map removelast cumsum allgather]. rewrite app_nil_r.
  unfold scores. rewrite scores_len, Z.mod_1_r, Z.div_1_r. change (Z.of_nat 0 <? 0)%Z with false. cbv iota.
  unfold slice. change (Z.to_nat 0) with 0%nat. cbn [skipn]. apply firstn_all2. rewrite scores_len.
  replace (Z.of_nat (2 * List.length (e_locations e)) / 2)%Z with (Z.of_nat (List.length (e_locations e))).
  - lia.
  - rewrite Nat2Z.inj_mul, Z.mul_comm, Z.div_mul by easy. reflexivity.
Qed.

Lemma local_one f e g st : local f [(e, g)] = Ok st -> exists e1 g1, f e g = Ok (e1, g1) /\ st = [(e1, g1)].
Proof.
  unfold local. cbn [mapM fst snd]. intro H. apply bind_ok in H as ([e1 g1] & F & H). injection H as <-. eauto.
Qed.

Lemma likex_rank e e' : LikeX e e' -> e_rank e' = 0%Z /\ e_mpi_size e' = 1%Z.
Proof. intros [_ L]. split; [apply (lk_rank _ _ L)|apply (lk_size _ _ L)]. Qed.
Lemma onex_range e e' : LikeX e e' -> own_range e' = seq 0 (List.length (e_locations e')).
Proof.
  intro L. apply likex_rank in L as [R Z]. unfold own_range, part_offset, part_count. rewrite R, Z, Z.mod_1_r, Z.div_1_r.
  cbn [Z.ltb Z.compare]. f_equal; lia.
Qed.
Lemma onex_robin e e' : LikeX e e' -> own_round_robin e' = seq 0 (List.length (e_locations e')).
Proof.
  intro L. apply likex_rank in L as [R Z]. unfold own_round_robin. rewrite R, Z.
  generalize 0%nat as a. induction (List.length (e_locations e')) as [|n IH]; intro a; [reflexivity|]. cbn [seq filter].
  rewrite Z.mod_1_r. cbn [Z.eqb]. now rewrite IH.
Qed.

Lemma one_first S o e e' g e1 g1 : LikeX e e' -> s_FixedRoutes S = false ->
  first_scores S o e' g = Ok (e1, g1) -> LikeX e e1 /\ g1 = g.
Proof.
  intros L Fx. unfold first_scores. destruct (_ =? 0)%Z; [|intro H; injection H as <- <-; auto].
  intro H. revert L H. generalize (seq 0 3). intro n3. revert e' g. induction n3 as [|k n3 IH]; intros e' g L H.
  - injection H as <- <-. auto.
  - cbn [foldM] in H. apply bind_ok in H as ([e2 g2] & H1 & H2).
    rewrite (onex_robin _ _ L) in H1. change (update_scores_of S o) with (fun is_ e g => foldM (score_step false S o) is_ (e, g)) in H1.
    apply (likex_scores false S o e) in H1 as [L2 ->]; auto. now apply (IH e2 g).
Qed.

Lemma one_scores m S o e e' g st : LikeX e e' -> s_FixedRoutes S = false -> par_scores m S o [(e', g)] = Ok st ->
  exists e1 e1', update_scores S o e g = Ok (e1, g) /\ st = [(e1', g)] /\ Like e1 e1'.
Proof.
  intros L Fx H.
  assert (W : forall c g1 e1', foldM (score_step c S o) (seq 0 (List.length (e_locations e'))) (e', g) = Ok (e1', g1) ->
    exists e1, update_scores S o e g = Ok (e1, g) /\ g1 = g /\ Like e1 e1').
  { intros c g1 e1' E. pose proof (like_scores true c S o e e' g L Fx) as B. rewrite E in B.
    destruct (proj2 (likex_scores c S o e e' g e1' g1 L Fx E)).
    apply both_ok_r in B as ([e1 g2] & E1 & [L1 G]). cbn in L1, G. subst g2. exists e1. split; [exact E1|split; [reflexivity|exact L1]]. }
  destruct m; cbn [par_scores] in H.
  - apply local_one in H as (e1' & g1 & F & ->). apply (W true) in F as (e1 & A & -> & B). eauto.
  - apply bind_ok in H as (st1 & H1 & H). apply local_one in H1 as (e1' & g1 & F & ->).
    rewrite (onex_range _ _ L) in F. apply (W false) in F as (e1 & A & -> & B).
    unfold collective in H. cbn [map fst bind] in H. rewrite one_sync in H. cbn [combine map snd bind] in H.
    apply local_one in H as (e2 & g2 & F & ->). unfold missing_routes in F. rewrite Fx in F. injection F as <- <-. eauto.
Qed.

(** ** Agents *)

(** Nobody has been taken out of the simulation *)
Definition Here (e : eco) : Prop := forall a, In a (e_agents e) -> deactivated a = false.

Lemma in_upd {A} (f : A -> A) l : forall i x, In x (upd i f l) -> In x l \/ exists y, In y l /\ x = f y.
Proof.
  induction l as [|a l IH]; intros [|i] x; cbn; intro H; auto.
  - destruct H as [<-|H]; eauto.
  - destruct H as [<-|H]; [auto|]. apply IH in H as [H|(y & H & ->)]; eauto.
Qed.
Lemma here_up i f e : (forall a, deactivated a = false -> deactivated (f a) = false) -> Here e -> Here (up_agent i f e).
Proof. intros H E a I. cbn in I. apply in_upd in I as [I|(y & I & ->)]; auto. Qed.
Lemma here_same e e' : e_agents e' = e_agents e -> Here e -> Here e'.
Proof. intros Q H a. rewrite Q. apply H. Qed.
Lemma dec_agents p e e' : dec_at p e = Ok e' -> e_agents e' = e_agents e.
Proof.
  unfold dec_at. destruct p; intro H; [| |discriminate]; apply bind_ok in H as (? & _ & H); injection H as <-; reflexivity.
Qed.
Lemma inc_agents S at_ p e e' : inc_at S at_ p e = Ok e' -> e_agents e' = e_agents e /\ (forall i, p <> PGone i).
Proof.
  unfold inc_at. destruct p; intro H; [| |discriminate].
  - apply bind_ok in H as (? & _ & H); injection H as <-. split; [reflexivity|discriminate].
  - apply bind_ok in H as (? & _ & H). apply bind_ok in H as (? & _ & H). injection H as <-. split; [reflexivity|discriminate].
Qed.
Lemma here_travel S ai p b e e' : Here e -> handle_travel S ai p b e = Ok e' -> Here e'.
Proof.
  intros E H. unfold handle_travel in H. apply bind_ok in H as (a & _ & H). apply bind_ok in H as (e1 & D & H).
  apply bind_ok in H as (e2 & I & H). injection H as <-. apply inc_agents in I as [I P]. apply here_up; [intros; assumption|].
  eapply here_same; [exact I|]. apply here_up; [|eapply here_same; [eapply dec_agents, D|exact E]].
  intros a0 _. unfold deactivated. cbn. destruct p; auto. now elim (P i).
Qed.
Lemma here_person S o t fc ai e g e' g' : Here e -> person_evolve S o t fc ai e g = Ok (e', g') -> Here e'.
Proof.
  intros E H. unfold person_evolve in H. apply bind_ok in H as (a & _ & H).
  destruct (a_travelling a); [injection H as <- _; exact E|]. destruct (a_location a); [|discriminate..].
  apply bind_ok in H as (l & _ & H). apply bind_ok in H as (mc & _ & H). destruct (rng_u g) as [u g1].
  destruct (Qltb u mc); [|injection H as <- _; exact E]. apply bind_ok in H as ([r g2] & _ & H).
  apply bind_ok in H as ([d rest] & _ & H).
  assert (E1 : Here (up_agent ai (up_a_route (fun _ => Some rest)) e)) by (apply here_up; auto).
  destruct d; [|injection H as <- _; exact E1]. apply bind_ok in H as (e2 & T & H). injection H as <- _.
  eapply here_travel; eauto.
Qed.
Lemma here_finish fuel S o t ai : forall e g e' g', Here e -> finish_travel fuel S o t ai e g = Ok (e', g') -> Here e'.
Proof.
  induction fuel as [|fuel IH]; intros e g e' g' E H; cbn [finish_travel] in H; apply bind_ok in H as (a & _ & H).
  - destruct (negb _); [injection H as <- _; exact E|discriminate].
  - destruct (negb _); [injection H as <- _; exact E|]. destruct (a_location a) as [|ki|]; [discriminate| |discriminate].
    apply bind_ok in H as (k & _ & H). apply bind_ok in H as ([sp g1] & _ & H). cbv zeta in H.
    destruct (Qltb (k_distance k) _) in H; [|injection H as <- _; apply here_up; auto].
    set (e1 := up_agent ai _ e) in H. assert (E1 : Here e1) by (apply here_up; auto). clearbody e1.
    set (e2 := up_agent ai _ e1) in H. assert (E2 : Here e2).
    { apply here_up; auto. intros b B. destruct (_ <? _)%Z; exact B. } clearbody e2.
    destruct (k_closed k).
    + apply bind_ok in H as (e3 & T & H). injection H as <- _. eapply here_travel; eauto.
    + apply bind_ok in H as (e4 & T & H). apply here_travel in T as E4.
      2:{ destruct (_ && _)%bool; auto. apply here_up; auto. }
      apply bind_ok in H as (ep & _ & H). set (e5 := if (_ && l_camp ep)%bool then _ else e4) in H.
      assert (E5 : Here e5) by (unfold e5; destruct (_ && l_camp ep)%bool; exact E4). clearbody e5.
      destruct (Qltb _ sp); [|injection H as <- _; exact E5].
      apply bind_ok in H as (ra & _ & H). apply bind_ok in H as ([e6 g2] & P & H). apply here_person in P; eauto.
Qed.

Definition LikeH (p q : eco * rng) : Prop := LikeG p q /\ Here (fst p).

Lemma agent_here e i a : Here e -> agent_of e i = Ok a -> deactivated a = false.
Proof. intros E H. unfold agent_of in H. apply of_option_ok in H. apply E. eapply nth_error_In; eauto. Qed.

Lemma like_evolve_agents S o e e' g : plain S -> (s_log_agent S <= 1)%Z -> Like e e' -> Here e ->
  both LikeH (evolve_agents S o e g) (par_evolve_agents S o e' g).
Proof.
  intros Pl La L E. unfold evolve_agents, par_evolve_agents. rewrite (lk_agents _ _ L).
  generalize (seq 0 (List.length (e_agents e))) as ids. intro ids.
  apply both_foldM; [|split; [split; auto|exact E]]. clear e e' g L E.
  intros [e g] [e' g'] ai _ [[L G] E]. cbn in L, G, E. subst g'.
  assert (X : (1 <? s_log_agent S)%Z = false) by (apply Z.ltb_ge; exact La). rewrite X.
  rewrite (lk_time _ _ L). pose proof (like_person S o (e_time e) false ai e e' g L Pl) as P.
  apply both_and with (P := fun p => Here (fst p)) in P.
  2:{ intros [e1 g1] H. eapply here_person; eauto. }
  destruct (agent_of e ai) as [a|x] eqn:A; cbn [bind].
  - pose proof (agent_here _ _ _ E A) as D. unfold deactivated in D. destruct (a_location a); [exact P|exact P|discriminate].
  - unfold person_evolve in P |- *. rewrite (like_agent _ _ ai L), A in *. exact I.
Qed.
Lemma like_finish_agents fuel S o e e' g : plain S -> Like e e' -> Here e ->
  both LikeH (finish_agents fuel S o e g) (par_finish_agents fuel S o e' g).
Proof.
  intros Pl L E. unfold finish_agents, par_finish_agents. rewrite (lk_agents _ _ L).
  generalize (seq 0 (List.length (e_agents e))) as ids. intro ids.
  apply both_foldM; [|split; [split; auto|exact E]]. clear e e' g L E.
  intros [e g] [e' g'] ai _ [[L G] E]. cbn in L, G, E. subst g'.
  rewrite (lk_time _ _ L). pose proof (like_finish fuel S o (e_time e) ai Pl e e' g L) as P.
  apply both_and with (P := fun p => Here (fst p)) in P.
  2:{ intros [e1 g1] H. eapply here_finish; eauto. }
  assert (W : both LikeH
    ('(e2, g2) <- finish_travel fuel S o (e_time e) ai e g;; Ok (up_agent ai (up_a_timesteps_since_departure (fun z => (z + 1)%Z)) e2, g2))
    ('(e2, g2) <- finish_travel fuel S o (e_time e) ai e' g;; Ok (up_agent ai (up_a_timesteps_since_departure (fun z => (z + 1)%Z)) e2, g2))).
  { eapply both_bind; [exact P|]. intros [e2 g2] [e2' g2'] [[L2 G2] E2]. cbn in L2, G2, E2. subst g2'. cbn. split; [split|].
    - cbn. now apply like_up_agent.
    - reflexivity.
    - cbn. apply here_up; auto. }
  destruct (agent_of e ai) as [a|x] eqn:A; cbn [bind].
  - pose proof (agent_here _ _ _ E A) as D. unfold deactivated in D. destruct (a_location a); [exact W|exact W|discriminate].
  - clear - A L. destruct fuel; cbn [finish_travel]; rewrite (like_agent _ _ ai L), A; exact I.
Qed.

(** ** The spawn weights that the serial step computes first *)

Lemma weights_ok S o e scs : List.length (e_spawn_weights e) = List.length (e_locations e) ->
  mapM (score_of S o e) (e_locations e) = Ok scs -> exists e1, refresh_spawn_weights S e = Ok e1 /\
    up_e_spawn_weights (fun _ => e_spawn_weights e) e1 = e /\ List.length (e_spawn_weights e1) = List.length (e_spawn_weights e).
Proof.
  intros N H. unfold refresh_spawn_weights.
  assert (W : exists ws, mapM (spawn_weight S (e_time e)) (e_locations e) = Ok ws /\ List.length ws = List.length (e_locations e)).
  { clear N. revert scs H. induction (e_locations e) as [|l ls IH]; cbn [mapM]; intros scs H; [exists []; auto|].
    apply bind_ok in H as (q & H1 & H). apply bind_ok in H as (qs & H2 & H). destruct (IH _ H2) as (ws & -> & Nw).
    assert (X : exists w, spawn_weight S (e_time e) l = Ok w).
    { unfold score_of, locationScore in H1. apply bind_ok in H1 as (d & _ & H1). cbv zeta in H1.
      apply bind_ok in H1 as (s3 & H1 & _). unfold spawn_weight. destruct (s_conflict_driven_spawning S); [eauto|].
      destruct (Qltb 0 (l_conflict l)); [|eauto]. apply bind_ok in H1 as (dec & H1 & _).
      destruct (s_conflict_spawn_decay S) as [[|]|]; rewrite ?H1; cbn; eauto. }
    destruct X as (w & ->). exists (w :: ws). cbn. split; [reflexivity|]. now rewrite Nw. }
  destruct W as (ws & -> & Nw). cbn [bind]. rewrite N, Nw, Nat.ltb_irrefl. eexists. split; [reflexivity|]. split; [now destruct e|].
  cbn. rewrite app_length, skipn_length. lia.
Qed.

(** ** The step *)

Definition modest (S : settings) : Prop :=
  plain S /\ (s_log_agent S <= 1)%Z /\ s_camps_are_sinks S = false.

Lemma like_weights_any w e e0 e' : Like e e' -> up_e_spawn_weights (fun _ => w) e0 = e ->
  List.length (e_spawn_weights e0) = List.length (e_spawn_weights e) -> Like e0 e'.
Proof.
  intros L Q N. destruct e0. cbn in Q, N. subst e. cbn in N. destruct L. cbn in *. constructor; try assumption. cbn. congruence.
Qed.

Lemma coll_one f e g st : (forall es, f [e] = Ok es -> exists e1, es = [e1]) -> collective f [(e, g)] = Ok st ->
  exists e1, f [e] = Ok [e1] /\ st = [(e1, g)].
Proof.
  intros H C. unfold collective in C. cbn [map fst snd] in C. apply bind_ok in C as (es & F & C).
  destruct (H _ F) as (e1 & ->). injection C as <-. eauto.
Qed.
Lemma one_spawned e e' g st : Like e e' -> collective sync_spawned [(e', g)] = Ok st -> exists e1, st = [(e1, g)] /\ Like e e1.
Proof.
  intros L H. apply coll_one in H as (e1 & F & ->).
  - exists e1. split; [reflexivity|]. unfold sync_spawned in F. apply bind_ok in F as (ts & _ & F). injection F as <-.
    now apply like_spawned.
  - intros es F. unfold sync_spawned in F. apply bind_ok in F as (ts & _ & F). injection F as <-. cbn. eauto.
Qed.
Lemma one_update lat closed e e' g st : Like e e' -> collective (update_num_agents lat closed) [(e', g)] = Ok st ->
  exists e1, st = [(e1, g)] /\ Like e e1.
Proof.
  intros L H. apply coll_one in H as (e1 & F & ->).
  - exists e1. split; [reflexivity|]. unfold update_num_agents in F. cbv zeta in F. apply bind_ok in F as (ts & _ & F).
    injection F as <-. now apply like_totals.
  - intros es F. unfold update_num_agents in F. cbv zeta in F. apply bind_ok in F as (ts & _ & F). injection F as <-. cbn. eauto.
Qed.

Theorem one_evolve m lat fuel S o e e' g st : modest S -> Like e e' -> Here e ->
  List.length (e_spawn_weights e) = List.length (e_locations e) ->
  par_evolve m lat fuel S o [(e', g)] = Ok st ->
  exists e1 e1' g1, evolve fuel S o e g = Ok (e1, g1) /\ st = [(e1', g1)] /\ Like e1 e1' /\ Here e1.
Proof.
  intros ((Fx & Sc) & La & Sk) L E N H. unfold par_evolve in H.
  apply bind_ok in H as (st0 & H0 & H). apply local_one in H0 as (p0 & g0 & F0 & ->).
  apply (one_first S o e) in F0 as [X0 ->]; [|now apply likex|exact Fx].
  apply bind_ok in H as (st1 & H1 & H).
  destruct (one_scores m S o e p0 g st1 X0 Fx H1) as (q & _ & Q & _ & _).
  assert (M : exists scs, mapM (score_of S o e) (e_locations e) = Ok scs).
  { change (update_scores S o e g) with (foldM (score_step true S o) (seq 0 (List.length (e_locations e))) (e, g)) in Q.
    change 0%nat with (@List.length location []) in Q. rewrite (scores_form true S o g Fx _ [] e eq_refl) in Q.
    apply bind_ok in Q as (scs & Q & _). eauto. }
  destruct M as (scs & M). destruct (weights_ok S o e scs N M) as (e0 & R & Q0 & N0).
  assert (E0 : Here e0) by (eapply here_same; [|exact E]; rewrite <- Q0; reflexivity).
  assert (X1 : LikeX e0 p0).
  { destruct X0 as [A B]. split.
    - rewrite <- Q0 in A. exact A.
    - eapply (like_weights_any (e_spawn_weights e) (bare e) (bare e0)); [exact B| |exact N0].
      change (bare (up_e_spawn_weights (fun _ => e_spawn_weights e) e0) = bare e). now rewrite Q0. }
  destruct (one_scores m S o e0 p0 g st1 X1 Fx H1) as (e1 & e1' & U1 & -> & L1).
  assert (E1 : Here e1).
  { change (update_scores S o e0 g) with (foldM (score_step true S o) (seq 0 (List.length (e_locations e0))) (e0, g)) in U1.
    change 0%nat with (@List.length location []) in U1. rewrite (scores_form true S o g Fx _ [] e0 eq_refl) in U1.
    apply bind_ok in U1 as (? & _ & U1). injection U1 as <-. exact E0. }
  apply bind_ok in H as (st2 & H2 & H). apply (one_spawned e1) in H2 as (e2' & -> & L2); [|exact L1].
  apply bind_ok in H as (st3 & H3 & H). apply local_one in H3 as (e3' & g3 & F3 & ->).
  pose proof (like_evolve_agents S o e1 e2' g (conj Fx Sc) La L2 E1) as B3. rewrite F3 in B3.
  apply both_ok_r in B3 as ([e3 g3'] & U3 & [[L3 G3] E3]). cbn in L3, G3, E3. subst g3'.
  apply bind_ok in H as (st4 & H4 & H). apply (one_update lat true e3) in H4 as (e4' & -> & L4); [|exact L3].
  apply bind_ok in H as (st5 & H5 & H). apply local_one in H5 as (e5' & g5 & F5 & ->).
  pose proof (like_finish_agents fuel S o e3 e4' g3 (conj Fx Sc) L4 E3) as B5. rewrite F5 in B5.
  apply both_ok_r in B5 as ([e5 g5'] & U5 & [[L5 G5] E5]). cbn in L5, G5, E5. subst g5'.
  apply bind_ok in H as (st6 & H6 & H). apply local_one in H6 as (e6' & g6 & F6 & ->).
  pose proof (like_logs S e5 e5' g5 L5) as B6. rewrite F6 in B6.
  apply both_ok_r in B6 as ([e6 g6'] & U6 & [L6 G6]). cbn in L6, G6. subst g6'.
  apply bind_ok in H as (st7 & H7 & H). apply (one_update lat false e6) in H7 as (e7' & -> & L7); [|exact L6].
  apply bind_ok in H as (st8 & H8 & H). apply local_one in H8 as (e8' & g8 & F8 & ->). injection F8 as <- <-.
  apply bind_ok in H as (st9 & H9 & H). apply local_one in H9 as (e9' & g9 & F9 & ->).
  unfold par_sinks in F9. rewrite Sk in F9. injection F9 as <- <-.
  apply local_one in H as (ef' & gf & F & ->). injection F as <- <-.
  exists (up_e_time (fun t => t + 1)%Z (aggregate_arrivals S e6)), (up_e_time (fun t => t + 1)%Z (aggregate_arrivals S e7')), g6.
  apply bind_ok in U6 as (w4 & U6a & U6). apply bind_ok in U6 as (w5 & U6b & U6). apply bind_ok in U6 as (w6 & U6c & U6).
  injection U6 as <- <-.
  split; [|split; [reflexivity|split]].
  - unfold evolve. rewrite R. cbn [bind]. rewrite U1. cbn [bind]. rewrite U3. cbn [bind]. rewrite U5. cbn [bind].
    rewrite U6a. cbn [bind]. rewrite U6b. cbn [bind]. rewrite U6c. cbn [bind]. unfold deactivate. rewrite Sk. reflexivity.
  - apply like_up_time. now apply like_arrivals.
  - assert (E6 : Here w6).
    { unfold update_recent in U6c. apply bind_ok in U6c as (ags & M6 & U6c). injection U6c as <-. intros a I. cbn in I.
      assert (A5 : e_agents w5 = e_agents e5).
      { transitivity (e_agents w4).
        - destruct (0 <? s_log_link S)%Z in U6b; [|now injection U6b as <-].
          unfold write_links in U6b. apply bind_ok in U6b as (? & _ & U6b). injection U6b as <-. reflexivity.
        - destruct (0 <? s_log_agent S)%Z in U6a; [|now injection U6a as <-].
          unfold write_agents in U6a. apply bind_ok in U6a as (? & _ & U6a). apply bind_ok in U6a as (? & _ & U6a).
          injection U6a as <-. reflexivity. }
      rewrite A5 in M6. clear - M6 I E5. revert ags M6 I E5. unfold Here.
      generalize (e_agents e5) as l. induction l as [|b l IH]; cbn [mapM]; intros ags M I E5; [injection M as <-; contradiction|].
      apply bind_ok in M as (b' & Mb & M). apply bind_ok in M as (bs & M & Q). injection Q as <-.
      apply bind_ok in Mb as (r & _ & Mb). injection Mb as <-. destruct I as [<-|I].
      - specialize (E5 b (or_introl eq_refl)). exact E5.
      - apply (IH bs M I). intros; apply E5; now right. }
    intros a I. apply E6. unfold aggregate_arrivals in I. destruct (0 <? _)%Z in I; exact I.
Qed.
