(** * ReportProofs: location scores and the agent log *)

From Coq Require Import Lia Lqa.
From Verif Require Import Base State Moving Crawling Scoring Diagnostics Flee DataTable
  Spawning InputGeography Api SpecAgents SpecHistory SpecRoutes SpecTravel SpecZones SpecReports Lemmas Inv InvMoves InvStruct Frames
  ScoreFrames Travel Profile Zones ZoneProps.
Local Open Scope Q_scope.

(** ** Scores *)

Lemma table_entry t i : has_entry t i -> flood_table t i = Ok (entry t i).
Proof. destruct t as [l|]; cbn; [|tauto]. apply py_index_nth. Qed.

Lemma window_active S day : window S day = if s_FloodForecaster S then forecast_active S day else None.
Proof. unfold window, forecast_active. destruct (s_FloodForecaster S); reflexivity. Qed.

Lemma forecast_zero S day en v xs acc : (forall n, py_num v = Ok n -> n <= 0) -> is_ok (py_num v) = true ->
  forecast_loop S (fun _ => Ok v) day en xs acc = Ok acc.
Proof.
  intros V K. induction xs as [|x xs IH]; cbn; [reflexivity|]. destruct (py_num v) as [n|] eqn:E; [|discriminate].
  cbn [bind]. rewrite (proj2 (Qltb_false 0 n)) by auto. cbn [bind]. destruct (_ =? en)%Z; [reflexivity|exact IH].
Qed.

Lemma forecast_sum S day en f : (0 < f)%Z -> has_entry (s_FloodLocWeights S) f -> forall n k acc,
  (day + Z.of_nat k <= en)%Z ->
  (forall x, In x (map (fun k => (day + Z.of_nat k)%Z) (seq k (Z.to_nat (Z.min (Z.of_nat n) (en - day - Z.of_nat k + 1))))) ->
    has_entry (s_FloodForecasterWeights S) x) ->
  exists q, forecast_loop S (fun _ => Ok (VInt f)) day en (map Z.of_nat (seq k n)) acc = Ok q /\
    q == acc + sumQ (map (fun d => entry (s_FloodLocWeights S) f * entry (s_FloodForecasterWeights S) d)
       (map (fun k => (day + Z.of_nat k)%Z) (seq k (Z.to_nat (Z.min (Z.of_nat n) (en - day - Z.of_nat k + 1)))))).
Proof.
  intros F L. induction n as [|n IH]; intros k acc K W.
  - exists acc. split; [reflexivity|]. replace (Z.to_nat _) with 0%nat by lia. cbn. lra.
  - replace (Z.to_nat (Z.min (Z.of_nat (Datatypes.S n)) (en - day - Z.of_nat k + 1)))
      with (Datatypes.S (Z.to_nat (Z.min (Z.of_nat n) (en - day - Z.of_nat (Datatypes.S k) + 1)))) in * by lia.
    cbn [seq map sumQ]. cbn [seq map] in W.
    cbn [forecast_loop]. cbn [py_num py_as_index bind].
    rewrite (proj2 (Qltb_true 0 (inject_Z f))) by (rewrite <- (Qlt_le_trans 0 0 (inject_Z f)) || (unfold Qlt; cbn; lia)).
    cbn [bind]. rewrite (table_entry _ _ L). cbn [bind].
    assert (D : (if (en <=? day + Z.of_nat k)%Z then en else (day + Z.of_nat k)%Z) = (day + Z.of_nat k)%Z) by (destruct (Z.leb_spec en (day + Z.of_nat k)); lia).
    rewrite D. rewrite (table_entry _ _ (W _ (or_introl eq_refl))). cbn [bind].
    destruct (Z.eqb_spec (day + Z.of_nat k) en) as [E|E].
    + eexists. split; [reflexivity|]. replace (Z.to_nat _) with 0%nat by lia. cbn. lra.
    + destruct (IH (Datatypes.S k) (acc + entry (s_FloodLocWeights S) f * entry (s_FloodForecasterWeights S) (day + Z.of_nat k))) as (q & Hq & Eq).
      * lia.
      * intros x Hx. apply W. now right.
      * exists q. split; [exact Hq|]. rewrite Eq. lra.
Qed.

Lemma forecast_spec S day ts en v : (1 < ts)%Z -> (day <= en)%Z ->
  (exists f, v = VInt f /\ ((0 < f)%Z -> has_entry (s_FloodLocWeights S) f /\
     forall x, In x (forecast_days day ts en) -> has_entry (s_FloodForecasterWeights S) x)) ->
  exists q, forecast_loop S (fun _ => Ok v) day en (days_ahead ts) 0 = Ok q /\
    q * (q / inject_Z ts) == forecast_factor S (match v with VInt f => f | _ => 0%Z end) day ts en.
Proof.
  intros T E (f & -> & H). unfold forecast_factor. cbv zeta. destruct (Z.ltb_spec 0 f) as [F|F].
  - destruct (H F) as [L W]. unfold forecast_days in *. destruct (Z.ltb_spec day en) as [D|D].
    + destruct (forecast_sum S day en f F L (Z.to_nat ts) 1 0) as (q & Hq & Eq); [lia| |].
      * replace (Z.min (Z.of_nat (Z.to_nat ts)) (en - day - Z.of_nat 1 + 1)) with (Z.min ts (en - day)) by lia. exact W.
      * exists q. split; [exact Hq|].
        replace (Z.min (Z.of_nat (Z.to_nat ts)) (en - day - Z.of_nat 1 + 1)) with (Z.min ts (en - day)) in Eq by lia.
        rewrite Eq. rewrite Qplus_0_l. reflexivity.
    + assert (en = day) as -> by lia. unfold days_ahead. destruct (Z.to_nat ts) eqn:N; [lia|]. cbn [seq map forecast_loop].
      cbn [py_num py_as_index bind]. rewrite (proj2 (Qltb_true 0 (inject_Z f))) by (unfold Qlt; cbn; lia).
      cbn [bind]. rewrite (table_entry _ _ L). cbn [bind].
      rewrite (proj2 (Z.leb_le day (day + Z.of_nat 1))) by lia.
      rewrite (table_entry _ _ (W day (or_introl eq_refl))). cbn [bind]. rewrite Z.eqb_refl.
      eexists. split; [reflexivity|]. cbn [map sumQ]. rewrite Qplus_0_l, Qplus_0_r. reflexivity.
  - exists 0. split; [|reflexivity]. apply forecast_zero; [|reflexivity]. cbn. intros n E1. injection E1 as <-. unfold Qle; cbn; lia.
Qed.

Lemma score_ok S o day l d : decay_ok S -> 0 < s_ConflictWeight S -> (l_time_of_conflict l <= day)%Z -> flood_ok S day l d ->
  exists sc, locationScore S o d day l = Ok sc /\ sc == score_of S o day l d.
Proof.
  intros D W T F. unfold locationScore, score_of. cbv zeta.
  set (s2 := if (l_camp l || l_idpcamp l)%bool then _ else _).
  assert (E2 : s2 == factor (l_foreign l) (s_ForeignWeight S) * factor (l_camp l || l_idpcamp l) (s_CampWeight S)).
  { unfold s2, factor. destruct (l_foreign l), (l_camp l || l_idpcamp l)%bool; lra. }
  clearbody s2.
  assert (X : exists s3, (if Qltb 0 (l_conflict l) then
           dec <- get_location_conflict_decay S day l ;;
           p <- fpow o (s_ConflictWeight S) (dec * l_conflict l) ;;
           Ok (s2 * p)
         else Ok s2) = Ok s3 /\ s3 == s2 * conflict_factor S o day l).
  { unfold conflict_factor. destruct (Qltb 0 (l_conflict l)); [|exists s2; split; [reflexivity|lra]].
    unfold get_location_conflict_decay. rewrite decay_spec by (auto; lia). cbn [bind]. unfold fpow.
    replace (Qeqb (s_ConflictWeight S) 0) with false.
    - cbn [andb]. rewrite (proj2 (Qltb_false (s_ConflictWeight S) 0)) by lra. cbn [andb bind]. eexists. split; reflexivity.
    - symmetry. apply Qeqb_false. lra. }
  destruct X as (s3 & -> & E3). cbn [bind]. unfold flood_factor. unfold flood_ok in F.
  destruct (l_flood_zone l); [|exists s3; split; [reflexivity|rewrite E3, E2; lra]].
  unfold flood_zone_factor. destruct (dict_get "flood_level" d) as [v|]; [|exists s3; split; [reflexivity|rewrite E3, E2; lra]].
  destruct (F eq_refl v eq_refl) as [(lv & -> & L) G]. cbn [py_as_index bind]. rewrite (table_entry _ _ L). cbn [bind].
  rewrite window_active in *. destruct (s_FloodForecaster S); [|eexists; split; [reflexivity|rewrite E3, E2; lra]].
  destruct (forecast_active S day) as [[ts en]|] eqn:A; [|eexists; split; [reflexivity|rewrite E3, E2; lra]].
  assert (B : (1 < ts)%Z /\ (day <= en)%Z).
  { unfold forecast_active in A. destruct (s_FloodForecasterTimescale S), (s_FloodForecasterEndTime S); try discriminate.
    destruct (_ && _)%bool eqn:C; [|discriminate]. injection A as <- <-. lia. }
  destruct B as [B1 B2]. specialize (G ts en eq_refl).
  set (v := dict_get_default "forecast_flood_level" d (VInt 0)).
  destruct (forecast_spec S day ts en v B1 B2) as (q & Hq & Eq).
  { unfold v, dict_get_default. destruct (dict_get "forecast_flood_level" d) as [fv|]; [now apply G|]. exists 0%Z. split; [reflexivity|lia]. }
  rewrite Hq. cbn [bind]. unfold fdiv. replace (Qeqb (inject_Z ts) 0) with false.
  - cbn [bind]. eexists. split; [reflexivity|]. rewrite E3, E2.
    assert (M : match v with VInt f => f | _ => 0%Z end = forecast_of d).
    { unfold v, dict_get_default, forecast_of. destruct (dict_get "forecast_flood_level" d) as [[]|]; reflexivity. }
    rewrite M in Eq. rewrite Eq. lra.
  - symmetry. apply Qeqb_false. unfold Qeq; cbn. lia.
Qed.

Definition score_step (S : settings) (o : oracle) (st : eco * rng) (i : nat) : res (eco * rng) :=
  let '(e1, g1) := st in
  updateLocationScore S o (e_time e1) i (up_loc i (up_l_routes (fun _ => [])) e1) g1.

Definition scored (S : settings) (o : oracle) (e : eco) (l l' : location) : Prop :=
  exists d sc r, attributes_of e l d /\ locationScore S o d (e_time e) l = Ok sc /\ l' = set_score sc r l.

Lemma attrs_at e l d : loc_attrs e l = Ok d <-> attributes_of e l d.
Proof. unfold loc_attrs, dict_of, attributes_of. destruct (nth_error _ _); cbn; split; intro H; congruence. Qed.

Lemma scores_from S o : forall n k e g e' g', foldM (score_step S o) (seq k n) (e, g) = Ok (e', g') ->
  e' = up_e_locations (fun _ => e_locations e') e /\
  forall i l, nth_error (e_locations e) i = Some l -> exists l', nth_error (e_locations e') i = Some l' /\
    if ((k <=? i) && (i <? k + n))%nat then scored S o e l l' else l' = l.
Proof.
  induction n as [|n IH]; intros k e g e' g' H.
  - injection H as <- <-. split; [symmetry; destruct e; reflexivity|]. intros i l Hl. exists l. split; [exact Hl|].
    replace ((k <=? i) && (i <? k + 0))%nat with false; [reflexivity|]. symmetry. apply andb_false_iff.
    destruct (Nat.leb_spec k i); [right; apply Nat.ltb_ge; lia|auto].
  - cbn [seq foldM] in H. rstep H. destruct v as [e1 g1]. unfold score_step in E.
    apply updateLocationScore_spec in E as (_ & l0 & d & sc & r & L0 & D & Sc0 & -> & _).
    destruct (IH _ _ _ _ _ H) as [E1 E2]. split.
    { rewrite E1. cbn [up_loc up_e_locations e_locations]. destruct e; reflexivity. }
    intros i l Hl.
    cbn [up_loc up_e_locations e_locations] in L0. rewrite up_loc_up_loc in E2.
    destruct (Nat.eq_dec i k) as [->|Ne].
    + rewrite nth_upd_same, Hl in L0. injection L0 as <-.
      destruct (E2 k (set_score sc r (up_l_routes (fun _ => []) l))) as (l' & Hl' & X).
      { cbn [up_loc up_e_locations e_locations]. rewrite nth_upd_same, Hl. reflexivity. }
      rewrite (proj2 (Nat.leb_gt (Datatypes.S k) k)) in X by lia. cbn [andb] in X. subst l'.
      eexists. split; [exact Hl'|]. rewrite Nat.leb_refl, (proj2 (Nat.ltb_lt k _)) by lia. cbn [andb].
      exists d, sc, r. split; [apply attrs_at; exact D|]. split; [exact Sc0|]. destruct l; reflexivity.
    + destruct (E2 i l) as (l' & Hl' & X).
      { cbn [up_loc up_e_locations e_locations]. rewrite nth_upd_other by auto. exact Hl. }
      exists l'. split; [exact Hl'|]. replace (Datatypes.S k <=? i)%nat with (k <=? i)%nat in X.
      * replace (Datatypes.S k + n)%nat with (k + Datatypes.S n)%nat in X by lia. exact X.
      * destruct (Nat.leb_spec k i), (Nat.leb_spec (Datatypes.S k) i); auto; lia.
Qed.

Lemma scores_all S o e g e' g' : update_scores S o e g = Ok (e', g') ->
  e' = up_e_locations (fun _ => e_locations e') e /\ List.length (e_locations e') = List.length (e_locations e) /\
  forall i l, nth_error (e_locations e) i = Some l -> exists l', nth_error (e_locations e') i = Some l' /\ scored S o e l l'.
Proof.
  intro H. pose proof H as H0. apply sc_update_scores in H0 as [[_ H0] _]. apply (f_equal (@List.length _)) in H0. rewrite !map_length in H0.
  unfold update_scores in H. change (foldM (score_step S o) (seq 0 (List.length (e_locations e))) (e, g) = Ok (e', g')) in H.
  apply scores_from in H as [A B]. split; [exact A|]. split; [exact H0|]. intros i l Hl. destruct (B i l Hl) as (l' & Hl' & X). exists l'. split; [exact Hl'|].
  apply nth_error_lt in Hl. rewrite (proj2 (Nat.ltb_lt i _)) in X by lia. exact X.
Qed.

Lemma score_step_ok S o k e g l d sc : s_FixedRoutes S = false -> nth_error (e_locations e) k = Some l ->
  attributes_of e l d -> locationScore S o d (e_time e) l = Ok sc ->
  score_step S o (e, g) k = Ok (up_loc k (fun l => up_l_score1 (fun _ => sc) (up_l_score0 (fun _ => 1) l)) (up_loc k (up_l_routes (fun _ => [])) e), g).
Proof.
  intros F L D Sc0. unfold score_step, updateLocationScore, loc_of. rewrite F.
  assert (X : nth_error (e_locations (up_loc k (up_l_routes (fun _ => [])) e)) k = Some (up_l_routes (fun _ => []) l)).
  { cbn [up_loc up_e_locations e_locations]. rewrite nth_upd_same, L. reflexivity. }
  rewrite X. cbn [of_option bind]. rewrite (proj2 (attrs_at _ _ d)) by exact D. cbn [bind].
  change (locationScore S o d (e_time e) (up_l_routes (fun _ => []) l)) with (locationScore S o d (e_time e) l). rewrite Sc0. reflexivity.
Qed.

Lemma scores_exist S o : s_FixedRoutes S = false -> forall n k e g,
  (forall i, (k <= i < k + n)%nat -> exists l d sc, nth_error (e_locations e) i = Some l /\ attributes_of e l d /\
     locationScore S o d (e_time e) l = Ok sc) ->
  exists e', foldM (score_step S o) (seq k n) (e, g) = Ok (e', g).
Proof.
  intros F. induction n as [|n IH]; intros k e g H.
  - eexists; reflexivity.
  - destruct (H k ltac:(lia)) as (l & d & sc & L & D & Sc0). cbn [seq foldM].
    rewrite (score_step_ok S o k e g l d sc F L D Sc0). cbn [bind].
    apply IH. intros i Hi. destruct (H i ltac:(lia)) as (l1 & d1 & sc1 & L1 & D1 & S1).
    exists l1, d1, sc1. split; [|split; assumption]. cbn [up_loc up_e_locations e_locations]. rewrite !nth_upd_other by lia. exact L1.
Qed.

Theorem scores_spec o e g S g1 e' g' : reachable o e g -> decay_ok S -> 0 < s_ConflictWeight S -> floods_ok S e ->
  update_scores S o e g1 = Ok (e', g') ->
  e' = up_e_locations (fun _ => e_locations e') e /\ List.length (e_locations e') = List.length (e_locations e) /\
  forall i l, nth_error (e_locations e) i = Some l -> exists d l', attributes_of e l d /\ nth_error (e_locations e') i = Some l' /\
    rescored l l' /\ l_score0 l' = 1 /\ l_score1 l' == score_of S o (e_time e) l d.
Proof.
  intros R D W F H. apply scores_all in H as (A & A2 & B). split; [exact A|]. split; [exact A2|]. intros i l Hl.
  destruct (B i l Hl) as (l' & Hl' & d & sc & r & Hd & Hs & ->). exists d, (set_score sc r l). split; [exact Hd|]. split; [exact Hl'|].
  split; [exists 1, sc, r; reflexivity|]. split; [reflexivity|]. cbn.
  destruct (reachable_timed _ _ _ R) as [_ T]. destruct (score_ok S o (e_time e) l d) as (sc' & Hs' & E); auto.
  - apply T. eapply nth_error_In; eauto.
  - apply F; auto. eapply nth_error_In; eauto.
  - congruence.
Qed.

Theorem scores_total o e g S g1 : reachable o e g -> decay_ok S -> 0 < s_ConflictWeight S -> floods_ok S e ->
  s_FixedRoutes S = false -> exists e', update_scores S o e g1 = Ok (e', g1).
Proof.
  intros R D W F Fx. apply (scores_exist S o Fx (List.length (e_locations e)) 0 e g1). intros i Hi.
  destruct (nth_error_ex (e_locations e) i) as [l Hl]; [lia|].
  destruct (st_loc _ (i_struct _ (reachable_inv _ _ _ R)) i l Hl) as (Hd & _). apply nth_error_ex in Hd as [d Hd].
  destruct (reachable_timed _ _ _ R) as [_ T]. destruct (score_ok S o (e_time e) l d) as (sc' & Hs' & E); auto.
  - apply T. eapply nth_error_In; eauto.
  - apply F; auto. eapply nth_error_In; eauto.
  - exists l, d, sc'. auto.
Qed.

Lemma rescored_score S o day l l' d : rescored l l' -> score_of S o day l' d = score_of S o day l d.
Proof. intros (s0 & s1 & r & ->). reflexivity. Qed.

Theorem score_itself o S e1 e2 g1 g2 e1' e2' g1' g2' i j l1 l2 d :
  update_scores S o e1 g1 = Ok (e1', g1') -> update_scores S o e2 g2 = Ok (e2', g2') -> e_time e1 = e_time e2 ->
  nth_error (e_locations e1) i = Some l1 -> nth_error (e_locations e2) j = Some l2 -> rescored l1 l2 ->
  attributes_of e1 l1 d -> attributes_of e2 l2 d ->
  option_map l_score1 (nth_error (e_locations e1') i) = option_map l_score1 (nth_error (e_locations e2') j).
Proof.
  intros H1 H2 T L1 L2 R D1 D2. apply scores_all in H1 as (_ & _ & H1). apply scores_all in H2 as (_ & _ & H2).
  destruct (H1 i l1 L1) as (l1' & -> & d1 & s1 & r1 & A1 & S1 & ->). destruct (H2 j l2 L2) as (l2' & -> & d2 & s2 & r2 & A2 & S2 & ->).
  assert (d1 = d) as -> by (unfold attributes_of in *; congruence). assert (d2 = d) as -> by (unfold attributes_of in *; congruence).
  cbn. f_equal. rewrite T in S1. destruct R as (x & y & z & ->).
  change (locationScore S o d (e_time e2) l1 = Ok s2) in S2. congruence.
Qed.

Theorem score_positive S o day l d : 0 < s_ForeignWeight S -> 0 < s_CampWeight S -> 0 < s_ConflictWeight S ->
  (forall x y, 0 < x -> 0 < o_pow o x y) ->
  (l_flood_zone l = true -> window S day = None /\ forall i, has_entry (s_FloodLocWeights S) i -> 0 < entry (s_FloodLocWeights S) i) ->
  flood_ok S day l d -> 0 < score_of S o day l d.
Proof.
  intros A B C P F G. unfold score_of.
  assert (P1 : 0 < factor (l_foreign l) (s_ForeignWeight S)) by (unfold factor; destruct (l_foreign l); lra).
  assert (P2 : 0 < factor (l_camp l || l_idpcamp l) (s_CampWeight S)) by (unfold factor; destruct (_ || _)%bool; lra).
  assert (P3 : 0 < conflict_factor S o day l) by (unfold conflict_factor; destruct (Qltb _ _); [now apply P|lra]).
  assert (P4 : 0 < flood_factor S day l d).
  { unfold flood_factor. unfold flood_ok in G. destruct (l_flood_zone l); [|lra]. destruct (F eq_refl) as [-> E].
    destruct (dict_get "flood_level" d) as [v|]; [|lra]. destruct (G eq_refl v eq_refl) as [(lv & -> & X) _].
    rewrite Qmult_1_r. now apply E. }
  repeat apply Qmult_lt_0_compat; assumption.
Qed.

Theorem score_forecast_zero S o day l d ts last level : l_flood_zone l = true -> dict_get "flood_level" d = Some (VInt level) ->
  window S day = Some (ts, last) -> dict_get "forecast_flood_level" d = None -> score_of S o day l d == 0.
Proof.
  intros Z L W F. unfold score_of, flood_factor. rewrite Z, L, W. unfold forecast_of. rewrite F. unfold forecast_factor. cbn [Z.ltb Z.compare]. ring.
Qed.

(** ** The agent log *)

Lemma place_stands e p name xy : place_of e p = Ok (Some (name, xy)) ->
  stands e p name (fst xy) (snd xy).
Proof.
  destruct p as [i|ki|i]; cbn [place_of]; intro H; [| |discriminate].
  - unfold loc_of in H. rstep H. apply of_option_ok in E. injection H as <- <-. cbn. exists v. repeat split; auto; reflexivity.
  - unfold link_of in H. rstep H. apply of_option_ok in E. rename v into k. rstep H. rstep H. injection H as <- <-.
    unfold link_name, link_xy, loc_of in *. rstep E0. rstep E0. injection E0 as <-. cbn [bind] in E1. injection E1 as <-.
    apply of_option_ok in E2, E3. cbn. exists k, v1, v2. repeat split; auto; reflexivity.
Qed.

Lemma place_link e ki k n xy : link_of e ki = Ok k -> link_name e k = Ok n -> link_xy e k = Ok xy -> stands e (PLink ki) n (fst xy) (snd xy).
Proof. intros A B C. apply place_stands. cbn. rewrite A. cbn [bind]. rewrite B. cbn [bind]. now rewrite C. Qed.

Lemma mk_row_line e day hop n a name xy r p : mk_row e day hop n a name xy = Ok r -> stands e p name (fst xy) (snd xy) ->
  line e day hop n a p r /\ ar_moved r = a_distance_moved_this_timestep a.
Proof.
  unfold mk_row, loc_of; intros H X. rstep H. apply of_option_ok in E. injection H as <-. split; [|reflexivity].
  unfold line. cbn. unfold name_at. rewrite E. repeat split; auto.
Qed.

Lemma hop_passed S e day n a : forall ks hop rs, hop_rows S e day n a hop ks = Ok rs ->
  passed e day (2 <? s_log_agent S)%Z hop n a ks rs /\ Forall (fun r => ar_moved r = a_distance_moved_this_timestep a) rs.
Proof.
  induction ks as [|ki ks IH]; cbn [hop_rows]; intros hop rs H; [injection H as <-; cbn; auto|].
  rstep H; [discriminate|]. do 5 rstep H. injection H as <-.
  eapply mk_row_line in E2 as [X Y]; [|eapply place_link; eauto]. apply IH in E3 as [P Q]. cbn. auto.
Qed.

Lemma agent_block S e day n a rs : agent_rows S e day n a = Ok rs ->
  Forall (fun r => ar_moved r = a_distance_moved_this_timestep a) rs /\
  if deactivated a then rs = [] else block e day (s_log_agent S) n a rs.
Proof.
  unfold agent_rows; intro H. rstep H. unfold deactivated. destruct v as [[nm xy]|].
  - rstep H; [discriminate|]. do 2 rstep H. injection H as <-.
    eapply mk_row_line in E0 as [X Y]; [|eapply place_stands; eauto].
    assert (Z : passed e day (2 <? s_log_agent S)%Z 1 n a (if (1 <? s_log_agent S)%Z then a_locations_visited a else []) v0 /\
      Forall (fun r => ar_moved r = a_distance_moved_this_timestep a) v0).
    { destruct (1 <? s_log_agent S)%Z; [eapply hop_passed; eauto|]. injection E1 as <-. cbn. auto. }
    destruct Z as [Z1 Z2]. split; [auto|].
    assert (W : block e day (s_log_agent S) n a (v :: v0)) by (exists v, v0; auto).
    destruct (a_location a); auto. discriminate.
  - injection H as <-. split; auto. destruct (a_location a); cbn in E; auto; exfalso.
    + rstep E. discriminate.
    + do 3 rstep E. discriminate.
Qed.

(** [blocks P n l bs]: the k-th member of [bs] satisfies [P (n + k)] of the k-th agent. *)
Lemma all_blocks S e day : forall l n rs, all_agent_rows S e day n l = Ok rs -> exists bs, rs = List.concat bs /\
  List.length bs = List.length l /\
  forall k a b, nth_error l k = Some a -> nth_error bs k = Some b ->
    Forall (fun r => ar_moved r = a_distance_moved_this_timestep a) b /\
    if deactivated a then b = [] else block e day (s_log_agent S) (n + k) a b.
Proof.
  induction l as [|a l IH]; cbn [all_agent_rows]; intros n rs H.
  - injection H as <-. exists []. repeat split; auto; destruct k; discriminate.
  - do 2 rstep H. injection H as <-. apply agent_block in E. apply IH in E0 as (bs & -> & L & B). exists (v :: bs).
    split; [reflexivity|]. split; [cbn; congruence|]. intros [|k] a0 b; cbn.
    + intros [= <-] [= <-]. rewrite Nat.add_0_r. exact E.
    + intros A C. rewrite Nat.add_succ_r. exact (B k a0 b A C).
Qed.

Theorem log_step S e e' : write_agents S e = Ok e' ->
  exists bs, e' = up_e_agents_out (fun old => (if (e_time e =? 0)%Z then [] else old) ++ List.concat bs) e /\
    List.length bs = List.length (e_agents e) /\
    forall n a b, nth_error (e_agents e) n = Some a -> nth_error bs n = Some b ->
      Forall (fun r => ar_moved r = a_distance_moved_this_timestep a) b /\
      if deactivated a then b = [] else block e (e_time e) (s_log_agent S) n a b.
Proof.
  unfold write_agents; intro H. do 2 rstep H. injection H as <-. apply all_blocks in E0 as (bs & -> & L & B).
  exists bs. split; [|split; [exact L|exact B]].
  destruct (e_time e =? 0)%Z; [destruct (e_agents e); [discriminate|]|]; injection E as <-; reflexivity.
Qed.

(** Movements change agents, head counts and arrival buffers only. *)
Record Mov (e e' : eco) : Prop := {
  mo_eco : e' = up_e_locations (fun _ => e_locations e') (up_e_links (fun _ => e_links e') (up_e_agents (fun _ => e_agents e') e));
  mo_locs : map lfix (e_locations e') = map lfix (e_locations e);
  mo_links : map kfix (e_links e') = map kfix (e_links e) }.
Lemma mov_refl e : Mov e e. Proof. split; auto. now destruct e. Qed.
Lemma mov_trans a b c : Mov a b -> Mov b c -> Mov a c.
Proof. intros [A1 A2 A3] [B1 B2 B3]; split; try congruence. rewrite B1, A1. now destruct a. Qed.
Lemma mov_mv ai e e' : Mv ai e e' -> Mov e e'. Proof. intros [A B C _ _]; split; auto. Qed.
Lemma mov_up_agent i f e : Mov e (up_agent i f e). Proof. apply (mov_mv i), mv_up_agent. Qed.
Lemma mov_handle S ai p tr e e' : handle_travel S ai p tr e = Ok e' -> Mov e e'.
Proof. intro H. apply mv_handle_travel in H as [H _]. eapply mov_mv; eauto. Qed.
#[local] Hint Resolve mov_refl mov_up_agent : core.

Lemma mov_person_evolve S o t f ai e g e' g' : person_evolve S o t f ai e g = Ok (e', g') -> Mov e e'.
Proof.
  intros H. apply person_evolve_spec in H as [->|(a & i & l & rest & _ & _ & _ & _ & H)]; auto.
  destruct H as [->|(ki & _ & H)]; auto.
  eapply mov_trans; [|eapply mov_handle; exact H]. auto.
Qed.

Lemma mov_finish_travel fuel S o t ai e g e' g' : finish_travel fuel S o t ai e g = Ok (e', g') -> Mov e e'.
Proof.
  revert e g; induction fuel as [|fuel IH]; intros e g H; cbn [finish_travel] in H;
    unfold agent_of in H; rstep H; apply of_option_ok in E; (rstep H; [rinv H; auto|]);
    [discriminate|].
  rstep H; try discriminate. rstep H. rstep H. destruct v1 as [speed g1]. cbv zeta in H.
  match type of H with context [up_agent ai ?f e] => assert (S1 : Mov e (up_agent ai f e)) by auto end.
  match type of S1 with Mov e ?x => set (e1 := x) in * end.
  rstep H; [|rinv H; assumption].
  match type of H with context [up_agent ai ?f e1] => assert (S2 : Mov e (up_agent ai f e1)) by (eapply mov_trans; [exact S1|auto]) end.
  match type of S2 with Mov e ?x => set (e2 := x) in * end.
  rstep H.
  - rstep H. rinv H. eapply mov_trans; [exact S2|eapply mov_handle; eassumption].
  - rstep H.
    assert (I3 : Mov e v1).
    { eapply mov_trans; [|eapply mov_handle; eassumption]. eapply mov_trans; [exact S2|].
      match goal with |- context [if ?b then _ else _] => destruct b end; auto. }
    rstep H.
    match type of H with context [if ?b then up_loc ?i ?f v1 else v1] =>
      assert (I4 : Mov e (if b then up_loc i f v1 else v1)) by
        (destruct b; auto; eapply mov_trans; [exact I3|eapply (mov_mv 0), mv_up_loc; reflexivity]) end.
    match type of H with (if ?b then _ else _) = _ => destruct b end.
    + rstep H. rstep H. destruct v4 as [e6 g2]. eapply mov_trans; [|eapply IH; exact H].
      eapply mov_trans; [exact I4|]. eapply mov_person_evolve; eassumption.
    + rinv H. exact I4.
Qed.

Lemma mov_foldM {A} (f : eco * rng -> A -> res (eco * rng)) l e g e' g' :
  (forall e g a e' g', f (e, g) a = Ok (e', g') -> Mov e e') -> foldM f l (e, g) = Ok (e', g') -> Mov e e'.
Proof.
  intros Hf H. eapply (foldM_rel (fun s s' => Mov (fst s) (fst s'))) in H; [exact H|auto|eauto using mov_trans|].
  intros [] a [] _ Hs. eapply Hf; exact Hs.
Qed.
Lemma mov_evolve_agents S o e g e' g' : evolve_agents S o e g = Ok (e', g') -> Mov e e'.
Proof.
  unfold evolve_agents; intros H. eapply mov_foldM; [|exact H].
  clear. intros e g ai e' g' H. cbv zeta beta iota in H. rstep H.
  eapply mov_trans with (if (1 <? s_log_agent S)%Z then up_agent ai (up_a_locations_visited (fun _ => [])) e else e).
  { destruct (1 <? s_log_agent S)%Z; auto. }
  rstep H; [eapply mov_person_evolve; eauto.. | rinv H; auto].
Qed.
Lemma mov_finish_agents fuel S o e g e' g' : finish_agents fuel S o e g = Ok (e', g') -> Mov e e'.
Proof.
  unfold finish_agents; intros H. eapply mov_foldM; [|exact H].
  clear. intros e g ai e' g' H. cbv zeta beta iota in H. rstep H.
  rstep H; [rstep H; destruct v0; rinv H.. | rinv H; auto];
    (eapply mov_trans; [eapply mov_finish_travel; eauto|auto]).
Qed.

(** Lines look the same in ecosystems with the same names and places. *)
Definition lmap (l : location) := (l_name l, l_x l, l_y l).
Definition kmap (k : link) := (k_startpoint k, k_endpoint k).
Definition Map (e e' : eco) : Prop :=
  map lmap (e_locations e') = map lmap (e_locations e) /\ map kmap (e_links e') = map kmap (e_links e).
Lemma map_at e e' i l : Map e e' -> nth_error (e_locations e) i = Some l -> exists l', nth_error (e_locations e') i = Some l' /\ lmap l' = lmap l.
Proof.
  intros [H _] L. apply (f_equal (fun x => nth_error x i)) in H. rewrite !nth_error_map, L in H. cbn in H.
  destruct (nth_error (e_locations e') i); [|discriminate]. injection H as H H1 H2. eexists. split; [reflexivity|]. unfold lmap; congruence.
Qed.
Lemma map_link e e' i k : Map e e' -> nth_error (e_links e) i = Some k -> exists k', nth_error (e_links e') i = Some k' /\ kmap k' = kmap k.
Proof.
  intros [_ H] L. apply (f_equal (fun x => nth_error x i)) in H. rewrite !nth_error_map, L in H. cbn in H.
  destruct (nth_error (e_links e') i); [|discriminate]. injection H as H H1. eexists. split; [reflexivity|]. unfold kmap; congruence.
Qed.
Lemma map_stands e e' p n x y : Map e e' -> stands e p n x y -> stands e' p n x y.
Proof.
  intro M. assert (X : forall i, (exists l, nth_error (e_locations e) i = Some l /\ n = sval (l_name l) /\ x == l_x l /\ y == l_y l) ->
    exists l, nth_error (e_locations e') i = Some l /\ n = sval (l_name l) /\ x == l_x l /\ y == l_y l).
  { intros i (l & L & A & B & C). destruct (map_at _ _ _ _ M L) as (l' & L' & E). exists l'. unfold lmap in E. injection E as -> -> ->. auto. }
  destruct p as [i|ki|i]; cbn; auto. intros (k & s & t & K & Hs & Ht & A & B & C).
  destruct (map_link _ _ _ _ M K) as (k' & K' & E). unfold kmap in E. injection E as E1 E2.
  destruct (map_at _ _ _ _ M Hs) as (s' & Hs' & Es). destruct (map_at _ _ _ _ M Ht) as (t' & Ht' & Et).
  unfold lmap in Es, Et. injection Es as E3 E4 E5. injection Et as E6 E7 E8.
  exists k', s', t'. rewrite E1, E2, E3, E4, E5, E6, E7, E8. auto 8.
Qed.
Lemma map_name e e' i : Map e e' -> name_at e' i = name_at e i.
Proof.
  intros [H _]. unfold name_at. apply (f_equal (fun x => nth_error x i)) in H. rewrite !nth_error_map in H.
  destruct (nth_error (e_locations e') i), (nth_error (e_locations e) i); cbn in H; try discriminate; [|reflexivity].
  now injection H as -> _ _.
Qed.
Lemma map_line e e' day hop n a a' p p' r : Map e e' -> a_home_location a' = a_home_location a -> a_travelling a' = a_travelling a ->
  a_distance_travelled a' = a_distance_travelled a -> a_places_travelled a' = a_places_travelled a -> a_attributes a' = a_attributes a ->
  (p' = p \/ exists i, p = PLoc i /\ p' = PGone i) ->
  line e day hop n a p r -> line e' day hop n a' p' r.
Proof.
  intros M A B C D E P (L1 & L2 & L3 & L4 & L5 & L6 & L7 & L8 & L9). unfold line. rewrite A, B, C, D, E, (map_name _ _ _ M).
  repeat (split; [assumption|]). apply (map_stands _ _ _ _ _ _ M) in L5.
  split; [|auto]. destruct P as [->|(i & -> & ->)]; exact L5.
Qed.
Lemma map_passed e e' day nb n a a' : Map e e' -> a_home_location a' = a_home_location a -> a_travelling a' = a_travelling a ->
  a_distance_travelled a' = a_distance_travelled a -> a_places_travelled a' = a_places_travelled a -> a_attributes a' = a_attributes a ->
  forall ks hop rs, passed e day nb hop n a ks rs -> passed e' day nb hop n a' ks rs.
Proof.
  intros M A B C D E. induction ks as [|k ks IH]; intros hop [|r rs]; cbn; auto. intros [L R]. split; [|auto].
  eapply map_line; eauto.
Qed.

Lemma map_lsc e e' : Sc e e' -> Map e e'.
Proof. intros [A B]. split; [exact (map_via lsc lmap _ _ B)|now rewrite A]. Qed.
Lemma map_mov e e' : Mov e e' -> Map e e'.
Proof. intros [_ B C]. split; [exact (map_via lfix lmap _ _ B)|exact (map_via kfix kmap _ _ C)]. Qed.

Theorem evolve_log fuel S o e g e' g' : (0 < s_log_agent S)%Z -> evolve fuel S o e g = Ok (e', g') ->
  exists bs, e_agents_out e' = (if (e_time e =? 0)%Z then [] else e_agents_out e) ++ List.concat bs /\
    List.length bs = List.length (e_agents e') /\
    forall n a a' b, nth_error (e_agents e) n = Some a -> nth_error (e_agents e') n = Some a' -> nth_error bs n = Some b ->
      if deactivated a then b = [] else block e' (e_time e) (s_log_agent S) n a' b.
Proof.
  intros LG H. unfold evolve in H. rstep H. rename v into e0.
  assert (O0 : e_agents_out e0 = e_agents_out e /\ e_time e0 = e_time e /\ e_agents e0 = e_agents e) by (unfold refresh_spawn_weights in E; rinv E; auto).
  rstep H. destruct v as [e1 g1].
  pose proof (sl_agents _ _ (still_update_scores _ _ _ _ _ _ E0)) as A1.
  apply sc_update_scores in E0 as [C1 _]. destruct C1 as [C1 C2].
  rstep H. destruct v as [e2 g2]. pose proof (turn_evolve_agents _ _ _ _ _ _ E0) as [_ T2 V2]. apply mov_evolve_agents in E0 as [M2 _ _].
  rstep H. destruct v as [e3 g3]. pose proof (finish_agents_view _ _ _ _ _ _ _ E0) as (_ & T3 & V3). apply mov_finish_agents in E0 as [M3 _ _].
  rstep H. rename v into e4. rewrite (proj2 (Z.ltb_lt _ _) LG) in E0. apply log_step in E0 as (bs & H4 & Ln & Bs).
  rstep H. rename v into e5.
  assert (H5 : e_agents e5 = e_agents e3 /\ e_locations e5 = e_locations e3 /\ e_links e5 = e_links e3 /\ e_agents_out e5 = e_agents_out e4).
  { assert (X : e_agents e5 = e_agents e4 /\ e_locations e5 = e_locations e4 /\ e_links e5 = e_links e4 /\ e_agents_out e5 = e_agents_out e4)
      by (unfold write_links in E0; rinv E0; auto). rewrite H4 in X at 1 2 3. exact X. }
  destruct H5 as (A5 & L5 & K5 & O5).
  rstep H. rename v into e6. unfold update_recent in E1. rstep E1. rename v into ag. injection E1 as <-.
  cbv zeta in H. rstep H. destruct v as [e8 g4]. injection H as <- <-.
  set (e7 := aggregate_arrivals S (up_e_agents (fun _ => ag) e5)) in *.
  assert (H7 : e_agents e7 = ag /\ e_agents_out e7 = e_agents_out e4 /\ Map e3 e7).
  { unfold e7, aggregate_arrivals. destruct (0 <? s_log_camp S)%Z; (split; [reflexivity|split; [exact O5|]]).
    - split; cbn; [|now rewrite K5]. rewrite map_map, L5. apply map_ext. intro l. destruct (l_camp l); reflexivity.
    - split; cbn; congruence. }
  destruct H7 as (A7 & O7 & M7). clearbody e7.
  assert (O8 : e_agents_out e8 = e_agents_out e7).
  { unfold deactivate in E1. destruct (s_camps_are_sinks S); [|rinv E1; auto].
    eapply (foldM_rel (fun s s' => e_agents_out (fst s') = e_agents_out (fst s))) in E1; [exact E1|auto|congruence|].
    intros [ea ga] ai [eb gb] _ Hs. cbn [fst]. rstep Hs. rstep Hs; [rinv Hs; auto|].
    rstep Hs; try discriminate; [|rinv Hs; auto]. rstep Hs. rstep Hs; [|rinv Hs; auto].
    destruct (rng_u ga). do 2 rstep Hs. rstep Hs; rinv Hs; auto. }
  pose proof (deactivate_spec _ _ _ _ _ E1) as (_ & L8 & K8 & _ & _ & DV & D8).
  cbn [up_e_time e_agents e_agents_out].
  assert (Tm : e_time e3 = e_time e) by (rewrite T3, T2, C1; apply O0).
  assert (Om : e_agents_out e3 = e_agents_out e) by (rewrite M3, M2, C1; apply O0).
  assert (Ga : map tview (e_agents e3) = map tick (map tview (e_agents e))) by (rewrite V3, V2, A1; f_equal; f_equal; apply O0).
  exists bs. split.
  { rewrite O8, O7, H4. cbn [up_e_agents_out e_agents_out]. rewrite Tm, Om. reflexivity. }
  split.
  { rewrite Ln. apply (f_equal (@List.length _)) in DV. rewrite !map_length in DV. rewrite DV, A7.
    apply mapM_ok_length in E2. rewrite E2. now rewrite A5. }
  intros n a a' b Ha Ha' Hb.
  destruct (nth_error_ex (e_agents e3) n) as [a3 Ha3]. { rewrite <- Ln. eapply nth_error_lt; eauto. }
  assert (Gn : gone_of a3 = gone_of a).
  { apply (f_equal (fun x => nth_error x n)) in Ga. rewrite !nth_error_map, Ha, Ha3 in Ga. cbn in Ga. injection Ga as Ga.
    unfold tview, tick in Ga. destruct (gone_of a) eqn:G; congruence. }
  assert (De : deactivated a = deactivated a3).
  { unfold gone_of, deactivated in *. destruct (a_location a), (a_location a3); congruence. }
  rewrite De. destruct (Bs n a3 b Ha3 Hb) as [_ X]. destruct (deactivated a3) eqn:D3; [exact X|]. rewrite <- Tm.
  assert (Ha5 : nth_error (e_agents e5) n = Some a3) by congruence.
  destruct (mapM_nth _ _ _ _ _ E2 Ha5) as (a6 & Ha6 & H6). rstep H6. injection H6 as <-.
  rewrite <- A7 in Ha6. destruct (D8 n _ Ha6) as (a'' & Ha'' & Da). assert (a'' = a') as -> by congruence.
  assert (MM : Map e3 (up_e_time (fun t => (t + 1)%Z) e8)).
  { destruct M7 as [X1 X2]. split; cbn; congruence. }
  assert (FF : a_home_location a' = a_home_location a3 /\ a_travelling a' = a_travelling a3 /\ a_distance_travelled a' = a_distance_travelled a3 /\
    a_places_travelled a' = a_places_travelled a3 /\ a_attributes a' = a_attributes a3 /\ a_locations_visited a' = a_locations_visited a3 /\
    (a_location a' = a_location a3 \/ exists i, a_location a3 = PLoc i /\ a_location a' = PGone i)).
  { destruct Da as [->|(i & l & -> & La & _)]; [|cbn in La]; cbn; repeat (split; [reflexivity|]); eauto. }
  destruct FF as (F1 & F2 & F3 & F4 & F5 & F6 & F7). destruct X as (r & hops & -> & Li & Pa). exists r, hops. split; [reflexivity|].
  rewrite F6. split; [eapply map_line|eapply map_passed]; eauto.
Qed.

Lemma log_no_agents S e : e_time e = 0%Z -> e_agents e = [] -> write_agents S e = Err IndexError.
Proof. intros T A. unfold write_agents. rewrite T, A. reflexivity. Qed.

Lemma log_region S e a : Inv e -> s_granularity S = "region"%string -> In a (e_agents e) -> deactivated a = false ->
  write_agents S e = Err NameError.
Proof.
  intros I R Ha D. unfold write_agents.
  assert (X : forall n l, (forall a, In a l -> In a (e_agents e)) -> (exists a, In a l /\ deactivated a = false) ->
    all_agent_rows S e (e_time e) n l = Err NameError).
  { clear a Ha D. intros n l. revert n. induction l as [|a l IH]; intros n Hl (b & Hb & D); [destruct Hb|].
    cbn [all_agent_rows]. unfold agent_rows.
    pose proof (i_agents _ I a (Hl a (or_introl eq_refl))) as [_ Ok_].
    assert (P : place_of e (a_location a) = Ok None /\ deactivated a = true \/ exists nm xy, place_of e (a_location a) = Ok (Some (nm, xy))).
    { unfold deactivated. destruct (a_location a) as [i|ki|i]; cbn [place_of].
      - right. destruct Ok_ as [Ok_ _]. apply nth_error_ex in Ok_ as [l0 L0]. unfold loc_of. rewrite L0. cbn. eauto.
      - right. destruct Ok_ as [Ok_ _]. apply nth_error_ex in Ok_ as [k K]. unfold link_of. rewrite K. cbn [of_option bind].
        destruct (st_link _ (i_struct _ I) ki k K) as (A & B & _). apply nth_error_ex in A as [s A]. apply nth_error_ex in B as [t B].
        unfold link_name, link_xy, loc_of. rewrite A, B. cbn. eauto.
      - left. auto. }
    destruct P as [[P D2]|(nm & xy & P)]; rewrite P; cbn [bind].
    - rewrite IH; [reflexivity| |].
      + intros x Hx. apply Hl. now right.
      + destruct Hb as [->|Hb]; [congruence|eauto].
    - unfold is_region. rewrite R. reflexivity. }
  destruct (e_time e =? 0)%Z.
  - destruct (e_agents e) as [|x xs] eqn:E; [destruct Ha|]. cbn [bind]. rewrite X; [reflexivity|auto|eauto].
  - cbn [bind]. rewrite X; [reflexivity|auto|eauto].
Qed.

Theorem score_one S o t i e g e' g' : updateLocationScore S o t i e g = Ok (e', g') ->
  e' = up_e_locations (fun _ => e_locations e') e /\
  (forall j, j <> i -> nth_error (e_locations e') j = nth_error (e_locations e) j) /\
  exists l l', nth_error (e_locations e) i = Some l /\ nth_error (e_locations e') i = Some l' /\ rescored l l' /\ l_score0 l' = 1 /\
    (s_FixedRoutes S = false -> l_routes l' = l_routes l) /\
    (decay_ok S -> 0 < s_ConflictWeight S -> (l_time_of_conflict l <= t)%Z -> (forall d, attributes_of e l d -> flood_ok S t l d) ->
      exists d, attributes_of e l d /\ l_score1 l' == score_of S o t l d).
Proof.
  intro H. apply updateLocationScore_spec in H as (_ & l & d & sc & r & L & D & Hs & -> & F).
  split; [reflexivity|]. cbn [up_loc up_e_locations e_locations]. split; [intros j Hj; apply nth_upd_other; congruence|].
  exists l, (set_score sc r l). split; [exact L|]. split; [rewrite nth_upd_same, L; reflexivity|].
  split; [exists 1, sc, r; reflexivity|]. split; [reflexivity|]. split; [exact F|].
  intros A B C G. apply attrs_at in D. exists d. split; [exact D|]. cbn. destruct (score_ok S o t l d A B C (G d D)) as (sc' & Hs' & E).
  congruence.
Qed.
