(** * WeightProofs: attractiveness of places and chance to leave *)

From Coq Require Import Lia Lqa Qfield.
From Verif Require Import Base State Moving Crawling Scoring Diagnostics Flee DataTable Spawning InputGeography Api
  SpecAgents SpecHistory SpecRoutes SpecZones SpecReports SpecWeights Lemmas ReportProofs.
Local Open Scope string_scope.
Local Open Scope Q_scope.
Local Open Scope list_scope.

(** ** Primitives *)

Lemma item_ok {A} (l : list A) z x : py_index l z = Ok x <-> item l z = Some x.
Proof.
  unfold py_index, item. cbv zeta. destruct (Z.ltb_spec z 0) as [Hz|Hz].
  - replace (0 <=? z)%Z with false by (symmetry; apply Z.leb_gt; lia). destruct (Z.ltb_spec (z + Z.of_nat (List.length l)) 0) as [H|H].
    + replace (- Z.of_nat (List.length l) <=? z)%Z with false by (symmetry; apply Z.leb_gt; lia). split; discriminate.
    + replace (- Z.of_nat (List.length l) <=? z)%Z with true by (symmetry; apply Z.leb_le; lia).
      rewrite (Z.add_comm z). destruct (nth_error l _); cbn; split; congruence.
  - replace (0 <=? z)%Z with true by (symmetry; apply Z.leb_le; lia). replace (z <? 0)%Z with false by (symmetry; apply Z.ltb_ge; lia).
    destruct (nth_error l _); cbn; split; congruence.
Qed.
Lemma table_ok t z x : flood_table t z = Ok x <-> table_item t z = Some x.
Proof. destruct t as [l|]; cbn; [apply item_ok|split; discriminate]. Qed.

Lemma num_ok v x : py_num v = Ok x <-> numeric v x.
Proof.
  unfold numeric. destruct v; cbn; split.
  - intros [= <-]. eauto.
  - intros [(z0 & [= <-] & ->)|[=]]. reflexivity.
  - intros [= <-]. auto.
  - intros [(z0 & [=] & _)|[= ->]]. reflexivity.
  - discriminate.
  - intros [(z0 & [=] & _)|[=]].
  - discriminate.
  - intros [(z0 & [=] & _)|[=]].
Qed.

Lemma pow_ok o x y r : fpow o x y = Ok r <-> powered o x y r.
Proof.
  unfold fpow, powered. destruct (Qeqb x 0 && Qltb y 0)%bool eqn:A.
  - apply andb_prop in A as [A B]. apply Qeqb_true in A. apply Qltb_true in B. split; [discriminate|]. intros (N & _). exfalso. apply N. auto.
  - destruct (Qltb x 0 && negb (is_int y))%bool eqn:B.
    + apply andb_prop in B as [B C]. apply Qltb_true in B. apply Bool.negb_true_iff in C. split; [discriminate|]. intros (_ & N & _). exfalso. apply N. auto.
    + split; [intros [= <-]|intros (_ & _ & ->); reflexivity]. split; [|split; [|reflexivity]].
      * intros [X Y]. apply Qeqb_true in X. apply Qltb_true in Y. rewrite X, Y in A. discriminate.
      * intros [X Y]. apply Qltb_true in X. rewrite X, Y in B. discriminate.
Qed.

Lemma div_ok x y r : fdiv x y = Ok r <-> ~ y == 0 /\ r = x / y.
Proof.
  unfold fdiv. destruct (Qeqb y 0) eqn:A.
  - apply Qeqb_true in A. split; [discriminate|]. intros [N _]. contradiction.
  - split; [intros [= <-]; split; [|reflexivity]|intros [_ ->]; reflexivity]. intro E. apply Qeqb_true in E. congruence.
Qed.

(** ** The forecast *)

(** One day of the loop *)
Definition day_step (S : settings) (d : dict) (day : Z) (acc : Q) : res Q :=
  level <- forecast_level d day ;;
  n <- py_num level ;;
  (if Qltb 0 n then
     i <- py_as_index level ;;
     w <- flood_table (s_FloodLocWeights S) i ;;
     f <- flood_table (s_FloodForecasterWeights S) day ;;
     Ok (acc + w * f)
   else Ok acc).

Lemma loop_step S d time en x xs acc :
  forecast_loop S (forecast_level d) time en (x :: xs) acc =
  (let day := if (en <=? time + x)%Z then en else (time + x)%Z in
   acc' <- day_step S d day acc ;;
   if (day =? en)%Z then Ok acc' else forecast_loop S (forecast_level d) time en xs acc').
Proof.
  cbn [forecast_loop]. unfold day_step. cbv zeta. destruct (forecast_level d _) as [level|]; cbn [bind]; [|reflexivity].
  destruct (py_num level); reflexivity.
Qed.

Lemma level_ok d day v : forecast_level d day = Ok v <->
  exists levels n, dict_get "forecast_flood_levels" d = Some (VList levels) /\ item levels day = Some n /\ v = VInt n.
Proof.
  unfold forecast_level, dict_get_default. destruct (dict_get "forecast_flood_levels" d) as [w|]; [destruct w as [z|q|s|l]|]; cbn [py_getitem bind]; split;
    try discriminate; try (intros (? & ? & [=] & _); fail).
  - intro H. destruct (py_index l day) as [n|] eqn:E; [|discriminate]. cbn in H. injection H as <-. apply item_ok in E. eauto.
  - intros (levels & n & [= <-] & I & ->). apply item_ok in I. rewrite I. reflexivity.
Qed.

Lemma day_ok S d day acc acc' : day_step S d day acc = Ok acc' ->
  exists levels w, dict_get "forecast_flood_levels" d = Some (VList levels) /\ day_weight S levels day w /\ acc' == acc + w.
Proof.
  unfold day_step. intro H. rstep H. apply level_ok in E as (levels & n & D & I & ->). cbn [py_num bind py_as_index] in H.
  exists levels. destruct (Qltb 0 (inject_Z n)) eqn:P.
  - cbn [bind] in H. rstep H. rstep H. injection H as <-. apply table_ok in E, E0. exists (v * v0). split; [exact D|]. split; [|lra].
    exists n. split; [exact I|]. right. split; [|eauto]. apply Qltb_true in P. unfold Qlt in P. cbn in P. lia.
  - injection H as <-. exists 0. split; [exact D|]. split; [|lra]. exists n. split; [exact I|]. left. split; [|reflexivity].
    apply Qltb_false in P. unfold Qle in P. cbn in P. lia.
Qed.
Lemma day_back S d day acc levels w : dict_get "forecast_flood_levels" d = Some (VList levels) -> day_weight S levels day w ->
  exists acc', day_step S d day acc = Ok acc' /\ acc' == acc + w.
Proof.
  intros D (n & I & H). unfold day_step.
  assert (L : forecast_level d day = Ok (VInt n)) by (apply level_ok; eauto). rewrite L. cbn [bind py_num py_as_index].
  destruct H as [[N ->]|(N & a & b & A & B & ->)].
  - rewrite (proj2 (Qltb_false 0 (inject_Z n))) by (unfold Qle; cbn; lia). eexists. split; [reflexivity|lra].
  - rewrite (proj2 (Qltb_true 0 (inject_Z n))) by (unfold Qlt; cbn; lia). cbn [bind]. apply table_ok in A, B. rewrite A. cbn [bind]. rewrite B. cbn [bind].
    eexists. split; [reflexivity|lra].
Qed.

Lemma loop_ok S d day en : forall n k acc q, (day + Z.of_nat k <= en)%Z ->
  forecast_loop S (forecast_level d) day en (map Z.of_nat (seq k n)) acc = Ok q ->
  (0 < n)%nat ->
  exists levels ws, dict_get "forecast_flood_levels" d = Some (VList levels) /\
    Forall2 (day_weight S levels) (map (fun k => (day + Z.of_nat k)%Z) (seq k (Z.to_nat (Z.min (Z.of_nat n) (en - day - Z.of_nat k + 1))))) ws /\
    q == acc + sumQ ws.
Proof.
  induction n as [|n IH]; intros k acc q K H P; [lia|].
  cbn [seq map] in H. rewrite loop_step in H. cbv zeta in H.
  assert (D : (if (en <=? day + Z.of_nat k)%Z then en else (day + Z.of_nat k)%Z) = (day + Z.of_nat k)%Z) by (destruct (Z.leb_spec en (day + Z.of_nat k)); lia).
  rewrite D in H. rstep H. apply day_ok in E as (levels & w & L & W & A).
  replace (Z.to_nat (Z.min (Z.of_nat (Datatypes.S n)) (en - day - Z.of_nat k + 1)))
    with (Datatypes.S (Z.to_nat (Z.min (Z.of_nat n) (en - day - Z.of_nat (Datatypes.S k) + 1)))) by lia.
  cbn [seq map]. destruct (Z.eqb_spec (day + Z.of_nat k) en) as [E|E].
  - injection H as <-. exists levels, [w]. split; [exact L|]. replace (Z.to_nat _) with 0%nat by lia. split; [constructor; [exact W|constructor]|]. cbn. lra.
  - destruct n as [|n].
    + cbn [seq map forecast_loop] in H. injection H as <-. exists levels, [w]. split; [exact L|]. replace (Z.to_nat _) with 0%nat by lia.
      split; [constructor; [exact W|constructor]|]. cbn. lra.
    + apply IH in H as (levels' & ws & L' & F & Q); [|lia|lia]. assert (levels' = levels) as -> by congruence.
      exists levels, (w :: ws). split; [exact L|]. split; [constructor; assumption|]. cbn. lra.
Qed.
Lemma loop_back S d day en levels : dict_get "forecast_flood_levels" d = Some (VList levels) -> forall n k acc ws, (day + Z.of_nat k <= en)%Z ->
  Forall2 (day_weight S levels) (map (fun k => (day + Z.of_nat k)%Z) (seq k (Z.to_nat (Z.min (Z.of_nat n) (en - day - Z.of_nat k + 1))))) ws ->
  exists q, forecast_loop S (forecast_level d) day en (map Z.of_nat (seq k n)) acc = Ok q /\ q == acc + sumQ ws.
Proof.
  intros L. induction n as [|n IH]; intros k acc ws K F.
  - replace (Z.to_nat _) with 0%nat in F by lia. inversion F; subst. exists acc. split; [reflexivity|]. cbn. lra.
  - cbn [seq map]. rewrite loop_step. cbv zeta.
    assert (D : (if (en <=? day + Z.of_nat k)%Z then en else (day + Z.of_nat k)%Z) = (day + Z.of_nat k)%Z) by (destruct (Z.leb_spec en (day + Z.of_nat k)); lia).
    rewrite D. replace (Z.to_nat (Z.min (Z.of_nat (Datatypes.S n)) (en - day - Z.of_nat k + 1)))
      with (Datatypes.S (Z.to_nat (Z.min (Z.of_nat n) (en - day - Z.of_nat (Datatypes.S k) + 1)))) in F by lia.
    cbn [seq map] in F. inversion F as [|? w ? ws' W F']; subst. destruct (day_back S d _ acc _ _ L W) as (acc' & -> & A). cbn [bind].
    destruct (Z.eqb_spec (day + Z.of_nat k) en) as [E|E].
    + replace (Z.to_nat _) with 0%nat in F' by lia. inversion F'; subst. eexists. split; [reflexivity|]. cbn. lra.
    + destruct (IH (Datatypes.S k) acc' ws') as (q & -> & Q); [lia|exact F'|]. eexists. split; [reflexivity|]. cbn. lra.
Qed.

Lemma expected_ok S d day ts last q : (1 < ts)%Z -> (day <= last)%Z ->
  forecast_loop S (forecast_level d) day last (days_ahead ts) 0 = Ok q -> expected S d day ts last q.
Proof.
  intros T E H. unfold expected, forecast_days. destruct (Z.ltb_spec day last) as [D|D].
  - apply loop_ok in H as (levels & ws & L & F & Q); [|lia|lia].
    replace (Z.min (Z.of_nat (Z.to_nat ts)) (last - day - Z.of_nat 1 + 1)) with (Z.min ts (last - day)) in F by lia.
    exists levels, ws. split; [exact L|]. split; [exact F|lra].
  - assert (last = day) as -> by lia. unfold days_ahead in H. destruct (Z.to_nat ts) eqn:N; [lia|]. cbn [seq map] in H. rewrite loop_step in H. cbv zeta in H.
    rewrite (proj2 (Z.leb_le day (day + Z.of_nat 1))) in H by lia. rstep H. rewrite Z.eqb_refl in H. injection H as <-.
    apply day_ok in E0 as (levels & w & L & W & A). exists levels, [w]. split; [exact L|]. split; [constructor; [exact W|constructor]|]. cbn. lra.
Qed.
Lemma expected_back S d day ts last s : (1 < ts)%Z -> (day <= last)%Z -> expected S d day ts last s ->
  exists q, forecast_loop S (forecast_level d) day last (days_ahead ts) 0 = Ok q /\ q == s.
Proof.
  intros T E (levels & ws & L & F & Q). unfold forecast_days in F. destruct (Z.ltb_spec day last) as [D|D].
  - destruct (loop_back S d day last levels L (Z.to_nat ts) 1 0 ws) as (q & H & Hq); [lia| |].
    + replace (Z.min (Z.of_nat (Z.to_nat ts)) (last - day - Z.of_nat 1 + 1)) with (Z.min ts (last - day)) by lia. exact F.
    + exists q. split; [exact H|lra].
  - assert (last = day) as -> by lia. inversion F as [|? w ? ws' W F']; subst. inversion F'; subst.
    unfold days_ahead. destruct (Z.to_nat ts) eqn:N; [lia|]. cbn [seq map]. rewrite loop_step. cbv zeta.
    rewrite (proj2 (Z.leb_le day (day + Z.of_nat 1))) by lia. destruct (day_back S d _ 0 _ _ L W) as (acc' & -> & A). cbn [bind]. rewrite Z.eqb_refl.
    eexists. split; [reflexivity|]. cbn in Q. lra.
Qed.

Lemma window_facts S day ts last : window S day = Some (ts, last) -> (1 < ts)%Z /\ (day <= last)%Z.
Proof.
  unfold window. destruct (s_FloodForecaster S), (s_FloodForecasterTimescale S), (s_FloodForecasterEndTime S); try discriminate.
  destruct ((1 <? z) && (day <=? z0))%Z%bool eqn:A; [|discriminate]. intros [= <- <-]. apply andb_prop in A. lia.
Qed.

Lemma aware_ok S a w : awareness_weight S a = Ok w <-> awareness S a w.
Proof.
  unfold awareness_weight, awareness. split.
  - intro H. rstep H. apply of_option_ok in E. rstep H. apply table_ok in H. eauto.
  - intros (v & i & D & I & T). rewrite D. cbn. rewrite I. cbn. now apply table_ok.
Qed.

(** The level now *)
Definition now_step (t : option (list Q)) (d : dict) (dry : Q) (wet : Q -> Q) : res Q :=
  n <- py_num (dict_get_default "flood_level" d (VInt 0)) ;;
  if Qltb 0 n then
    i <- py_as_index (dict_get_default "flood_level" d (VInt 0)) ;;
    w <- flood_table t i ;; Ok (wet w)
  else Ok dry.
Lemma default_level d : dict_get_default "flood_level" d (VInt 0) = flood_level d.
Proof. reflexivity. Qed.
Lemma now_ok t d dry wet r : now_step t d dry wet = Ok r ->
  exists x, numeric (flood_level d) x /\ ((x <= 0 /\ r = dry) \/ (0 < x /\ exists z w, flood_level d = VInt z /\ table_item t z = Some w /\ r = wet w)).
Proof.
  unfold now_step. rewrite default_level. intro H. rstep H. exists v. apply num_ok in E. split; [exact E|].
  destruct (Qltb 0 v) eqn:P; [apply Qltb_true in P; right|apply Qltb_false in P; left; now injection H as <-].
  split; [exact P|]. rstep H. rstep H. injection H as <-. apply table_ok in E1. destruct (flood_level d); try discriminate. injection E0 as ->. eauto.
Qed.
Lemma now_back t d dry wet x : numeric (flood_level d) x ->
  (x <= 0 -> now_step t d dry wet = Ok dry) /\
  (0 < x -> forall z w, flood_level d = VInt z -> table_item t z = Some w -> now_step t d dry wet = Ok (wet w)).
Proof.
  intro N. apply num_ok in N. unfold now_step. rewrite default_level, N. cbn [bind]. split; intro X.
  - apply Qltb_false in X. now rewrite X.
  - apply Qltb_true in X. rewrite X. intros z w -> T. cbn [py_as_index bind]. apply table_ok in T. now rewrite T.
Qed.

(** ** Attractiveness *)

Lemma children_ok S a base r : score_children S a base = Ok r <-> safety S a base r.
Proof.
  unfold score_children, safety, agent_attr. destruct (s_ChildrenAvoidHazards S); [|split; [now intros [= <-]|now intros ->]]. split.
  - intro H. rstep H. apply of_option_ok in E. rstep H. apply num_ok in E0. cbv zeta in H. exists v, v0. split; [exact E|]. split; [exact E0|].
    fold (of_age v0 base) in H. destruct (s_BoysTakeRisk S); [|now injection H as <-].
    rstep H. apply of_option_ok in E1. injection H as <-. exists v1. split; [exact E1|].
    destruct v1 as [z|q|s|l]; cbn [is_male andb]; try (split; [intros [[=] _]|reflexivity]).
    destruct (String.eqb_spec s "male") as [->|N]; cbn [andb]; [|split; [intros [[= ->] _]; contradiction|reflexivity]].
    destruct (Qltb 14 v0) eqn:P; [apply Qltb_true in P|apply Qltb_false in P]; (split; [intros [_ L]|intro L]).
    + reflexivity.
    + exfalso; apply L; auto.
    + exfalso. lra.
    + reflexivity.
  - intros (v & age & D & N & H). rewrite D. cbn [of_option bind]. apply num_ok in N. rewrite N. cbn [bind]. cbv zeta. fold (of_age age base).
    destruct (s_BoysTakeRisk S); [|now rewrite H]. destruct H as (g & G & H1 & H2). rewrite G. cbn [of_option bind]. f_equal.
    destruct (is_male g && Qltb 14 age)%bool eqn:X.
    + symmetry. apply H1. apply andb_prop in X as [X Y]. apply Qltb_true in Y. destruct g; try discriminate. cbn in X. apply String.eqb_eq in X. subst. auto.
    + symmetry. apply H2. intros [-> Y]. apply Qltb_true in Y. rewrite Y in X. discriminate.
Qed.

Lemma home_ok S o e a ep b r : score_home S o e a ep b = Ok r -> exists n, nearness S o e a ep n /\ r == b * n.
Proof.
  unfold score_home, nearness. destruct (s_StayCloseToHome S); [|intros [= <-]; exists 1; split; [reflexivity|lra]].
  intro H. destruct (a_location a) as [i|k|i]; try discriminate. rstep H. unfold loc_of in E. apply of_option_ok in E. rstep H. apply pow_ok in E0.
  rstep H. apply div_ok in E1 as [N ->]. injection H as <-. exists (1 / v0). split; [|reflexivity]. exists i, v, v0. repeat split; auto; apply E0.
Qed.
Lemma home_back S o e a ep b n : nearness S o e a ep n -> exists r, score_home S o e a ep b = Ok r /\ r == b * n.
Proof.
  unfold score_home, nearness. destruct (s_StayCloseToHome S); [|intros ->; eexists; split; [reflexivity|lra]].
  intros (i & here & p & A & L & P & N & Hn). rewrite A. unfold loc_of. rewrite L. cbn [of_option bind]. apply pow_ok in P. rewrite P. cbn [bind].
  assert (D : fdiv 1 p = Ok (1 / p)) by (apply div_ok; auto). rewrite D. cbn [bind]. eexists. split; [reflexivity|]. now rewrite Hn.
Qed.

Lemma flood_now S e a ep t b : score_flood S e a ep t b =
  if s_FloodRulesEnabled S then
    d <- loc_attrs e ep ;;
    base1 <- now_step (s_FloodLocWeights S) d b (fun w => b * w) ;;
    match window S t with
    | Some (ts, en) =>
        aw <- awareness_weight S a ;;
        f <- forecast_loop S (forecast_level d) t en (days_ahead ts) 0 ;;
        f1 <- fdiv f (inject_Z ts) ;;
        Ok (base1 * (f * f1 * aw))
    | None => Ok base1
    end
  else Ok b.
Proof.
  unfold score_flood, now_step. destruct (s_FloodRulesEnabled S); [|reflexivity]. destruct (loc_attrs e ep) as [d|]; cbn [bind]; [|reflexivity]. cbv zeta.
  destruct (py_num _) as [n|]; cbn [bind]; [|reflexivity]. rewrite window_active.
  destruct (if Qltb 0 n then _ else _) as [b1|]; cbn [bind]; [|reflexivity]. destruct (s_FloodForecaster S); reflexivity.
Qed.

Lemma attrs_ok e l d : loc_attrs e l = Ok d <-> attributes_of e l d.
Proof. unfold loc_attrs, dict_of, attributes_of. destruct (nth_error _ _); cbn; split; congruence. Qed.

Lemma injZ_nonzero ts : (1 < ts)%Z -> ~ inject_Z ts == 0.
Proof. intros T E. unfold Qeq in E. cbn in E. lia. Qed.

Lemma flood_ok_ S e a ep t b r : score_flood S e a ep t b = Ok r -> exists f, flooding S e a ep t f /\ r == b * f.
Proof.
  rewrite flood_now. unfold flooding. destruct (s_FloodRulesEnabled S); [|intros [= <-]; exists 1; split; [reflexivity|lra]].
  intro H. rstep H. apply attrs_ok in E. rename v into d. rstep H. rename v into b1. apply now_ok in E0 as (x & N & E0).
  assert (X : exists p, present (s_FloodLocWeights S) d 1 p /\ b1 == b * p).
  { destruct E0 as [[X ->]|(X & z & w & L & T & ->)].
    - exists 1. split; [|lra]. exists x. auto.
    - exists w. split; [|reflexivity]. exists x. eauto 8. }
  destruct X as (p & P & B1). destruct (window S t) as [[ts last]|] eqn:W.
  - destruct (window_facts _ _ _ _ W) as [T D]. rstep H. apply aware_ok in E1. rstep H. apply expected_ok in E2; auto. rstep H. apply div_ok in E3 as [_ ->].
    injection H as <-. exists (p * (v0 * (v0 / inject_Z ts) * v)). split; [|rewrite B1; ring]. exists d, p. split; [exact E|]. split; [exact P|].
    exists v0, v. split; [exact E2|]. split; [exact E1|reflexivity].
  - injection H as <-. exists p. split; [|exact B1]. exists d, p. split; [exact E|]. split; [exact P|reflexivity].
Qed.
Lemma flood_back S e a ep t b f : flooding S e a ep t f -> exists r, score_flood S e a ep t b = Ok r /\ r == b * f.
Proof.
  rewrite flood_now. unfold flooding. destruct (s_FloodRulesEnabled S); [|intros ->; eexists; split; [reflexivity|lra]].
  intros (d & p & A & (x & N & P) & H). apply attrs_ok in A. rewrite A. cbn [bind].
  assert (X : exists b1, now_step (s_FloodLocWeights S) d b (fun w => b * w) = Ok b1 /\ b1 == b * p).
  { destruct (now_back (s_FloodLocWeights S) d b (fun w => b * w) x N) as [N1 N2]. destruct P as [[X ->]|(X & z & L & T)].
    - exists b. split; [auto|lra].
    - exists (b * p). split; [eauto|reflexivity]. }
  destruct X as (b1 & -> & B1). cbn [bind]. destruct (window S t) as [[ts last]|] eqn:W.
  - destruct (window_facts _ _ _ _ W) as [T D]. destruct H as (s & w & Ex & Aw & F). apply aware_ok in Aw. rewrite Aw. cbn [bind].
    apply expected_back in Ex as (q & -> & Q); auto. cbn [bind].
    assert (Dv : fdiv q (inject_Z ts) = Ok (q / inject_Z ts)) by (apply div_ok; split; [now apply injZ_nonzero|reflexivity]). rewrite Dv. cbn [bind].
    eexists. split; [reflexivity|]. rewrite F, B1, Q. ring.
  - eexists. split; [reflexivity|]. now rewrite H.
Qed.

Lemma pop_ok S o ep b r : score_pop S o ep b = Ok r -> l_camp ep = false -> exists c, crowd S o ep c /\ r == b * c.
Proof.
  unfold score_pop, crowd. intros H ->. cbn [negb]. rewrite Bool.andb_true_r. destruct (s_UsePopForLocWeight S).
  - rstep H. apply pow_ok in E. injection H as <-. exists v. split; [exact E|reflexivity].
  - injection H as <-. exists 1. split; [reflexivity|lra].
Qed.
Lemma pop_back S o ep b c : crowd S o ep c -> l_camp ep = false -> exists r, score_pop S o ep b = Ok r /\ r == b * c.
Proof.
  unfold score_pop, crowd. intros H C. rewrite C in H. cbn [negb] in H. rewrite Bool.andb_true_r in H. destruct (s_UsePopForLocWeight S).
  - apply pow_ok in H. rewrite H. cbn. eexists. split; reflexivity.
  - subst. eexists. split; [reflexivity|lra].
Qed.
Lemma type_ok S o ep b r : score_type S o ep b = Ok r -> unmatched S ep /\ exists c, crowd S o ep c /\ r == b * c.
Proof.
  unfold score_type, unmatched. destruct (l_camp ep) eqn:C.
  - destruct (s_MatchCampEthnicity S); [discriminate|]. intros [= <-]. split; [reflexivity|]. exists 1. split; [|lra].
    unfold crowd. now rewrite C, Bool.andb_false_r.
  - destruct (Qltb 0 (l_conflict ep)); [destruct (s_MatchConflictEthnicity S)|destruct (s_MatchTownEthnicity S)]; try discriminate;
      intro H; (split; [reflexivity|now apply pop_ok]).
Qed.
Lemma type_back S o ep b c : unmatched S ep -> crowd S o ep c -> exists r, score_type S o ep b = Ok r /\ r == b * c.
Proof.
  unfold score_type, unmatched. destruct (l_camp ep) eqn:C.
  - intros ->. unfold crowd. rewrite C, Bool.andb_false_r. intros ->. eexists. split; [reflexivity|lra].
  - destruct (Qltb 0 (l_conflict ep)); intros -> H; now apply pop_back.
Qed.

Theorem score_sound : forall S o e a ep day q, getEndPointScore S o e a ep day = Ok q -> attraction S o e a ep day q.
Proof.
  intros S o e a ep day q H. unfold getEndPointScore in H. rstep H. apply children_ok in E. rstep H. apply home_ok in E0 as (n & Hn & E0).
  rstep H. apply flood_ok_ in E1 as (f & Hf & E1). apply type_ok in H as (U & c & Hc & H).
  exists v, n, f, c. repeat (split; [assumption|]). now rewrite H, E1, E0.
Qed.
Theorem score_complete : forall S o e a ep day r, attraction S o e a ep day r -> exists q, getEndPointScore S o e a ep day = Ok q /\ q == r.
Proof.
  intros S o e a ep day r (s & n & f & c & Hs & Hn & Hf & U & Hc & R). unfold getEndPointScore. apply children_ok in Hs. rewrite Hs. cbn [bind].
  destruct (home_back S o e a ep s n Hn) as (b2 & -> & B2). cbn [bind]. destruct (flood_back S e a ep day b2 f Hf) as (b3 & -> & B3). cbn [bind].
  destruct (type_back S o ep b3 c U Hc) as (q & Hq & Q). exists q. split; [exact Hq|]. now rewrite R, Q, B3, B2.
Qed.

Theorem score_homeless : forall S o e a ep day h,
  getEndPointScore S o e (up_a_home_location (fun _ => h) a) ep day = getEndPointScore S o e a ep day.
Proof. intros. reflexivity. Qed.

Theorem score_uncrowded : forall S o e a ep day n, (1 <= l_pop ep)%Z -> (1 <= n)%Z ->
  getEndPointScore S o e a (up_l_pop (fun _ => n) ep) day = getEndPointScore S o e a ep day.
Proof.
  intros S o e a ep day n P N.
  assert (M : forall m, (1 <= m)%Z -> Qminb 1 (inject_Z m) = 1).
  { intros m Hm. unfold Qminb. rewrite (proj2 (Qltb_false (inject_Z m) 1)); [reflexivity|]. unfold Qle; cbn; lia. }
  assert (Q : forall b, score_pop S o (up_l_pop (fun _ => n) ep) b = score_pop S o ep b).
  { intro b. unfold score_pop. cbn [up_l_pop l_pop]. now rewrite !M. }
  unfold getEndPointScore. cbn [up_l_pop l_score1]. destruct (score_children S a (l_score1 ep)) as [b1|]; cbn [bind]; [|reflexivity].
  change (score_home S o e a (up_l_pop (fun _ => n) ep) b1) with (score_home S o e a ep b1). destruct (score_home S o e a ep b1) as [b2|]; cbn [bind]; [|reflexivity].
  change (score_flood S e a (up_l_pop (fun _ => n) ep) day b2) with (score_flood S e a ep day b2). destruct (score_flood S e a ep day b2) as [b3|]; cbn [bind]; [|reflexivity].
  unfold score_type. change (l_camp (up_l_pop (fun _ => n) ep)) with (l_camp ep). change (l_conflict (up_l_pop (fun _ => n) ep)) with (l_conflict ep). now rewrite Q.
Qed.

(** ** Chance to leave *)

Lemma chance_now S o e a l f t : calculateMoveChance S o e a l f t =
  if (l_town l && f)%bool then Ok 1
  else
    ratio <- fdiv (inject_Z (Z.max (l_pop l) (l_capacity l))) (s_MovechancePopBase S) ;;
    p <- fpow o ratio (s_MovechancePopScaleFactor S) ;;
    if s_FloodRulesEnabled S then
      d <- loc_attrs e l ;;
      mc <- now_step (s_FloodMovechances S) d (l_movechance l * p) (fun w => w) ;;
      match window S t with
      | Some (ts, en) =>
          aw <- awareness_weight S a ;;
          fb <- forecast_loop S (forecast_level d) t en (days_ahead ts) 0 ;;
          f1 <- fdiv fb (inject_Z ts) ;;
          Ok (mc * (f1 * aw))
      | None => Ok mc
      end
    else Ok (l_movechance l * p).
Proof.
  unfold calculateMoveChance, now_step. destruct (l_town l && f)%bool; [reflexivity|].
  destruct (fdiv _ _) as [ratio|]; cbn [bind]; [|reflexivity]. destruct (fpow o ratio _) as [p|]; cbn [bind]; [|reflexivity]. cbv zeta.
  destruct (s_FloodRulesEnabled S); [|reflexivity]. destruct (loc_attrs e l) as [d|]; cbn [bind]; [|reflexivity].
  destruct (py_num _) as [n|]; cbn [bind]; [|reflexivity]. rewrite window_active.
  destruct (Qltb 0 n).
  - destruct (py_as_index _) as [i|]; cbn [bind]; [|reflexivity]. destruct (flood_table (s_FloodMovechances S) i); cbn [bind]; [|reflexivity].
    destruct (s_FloodForecaster S); reflexivity.
  - cbn [bind]. destruct (s_FloodForecaster S); reflexivity.
Qed.

Theorem chance_sound : forall S o e a l forced day q, calculateMoveChance S o e a l forced day = Ok q -> leaves_with S o e a l forced day q.
Proof.
  intros S o e a l forced day q. rewrite chance_now. unfold leaves_with. destruct (l_town l && forced)%bool; [now intros [= <-]|].
  intro H. rstep H. apply div_ok in E as [N ->]. rstep H. apply pow_ok in E. exists v. split; [exact N|]. split; [exact E|].
  destruct (s_FloodRulesEnabled S); [|injection H as <-; reflexivity].
  rstep H. apply attrs_ok in E0. rename v0 into d. rstep H. rename v0 into m. apply now_ok in E1 as (x & Nx & E1).
  exists d, m. split; [exact E0|]. split.
  { exists x. split; [exact Nx|]. destruct E1 as [[X ->]|(X & z & w & L & T & ->)]; [auto|eauto 8]. }
  destruct (window S day) as [[ts last]|] eqn:W; [|now injection H as <-].
  destruct (window_facts _ _ _ _ W) as [T D]. rstep H. apply aware_ok in E2. rstep H. apply expected_ok in E3; auto. rstep H. apply div_ok in E4 as [_ ->].
  injection H as <-. exists v1, v0. split; [exact E3|]. split; [exact E2|reflexivity].
Qed.
Theorem chance_complete : forall S o e a l forced day r, leaves_with S o e a l forced day r ->
  exists q, calculateMoveChance S o e a l forced day = Ok q /\ q == r.
Proof.
  intros S o e a l forced day r. rewrite chance_now. unfold leaves_with. destruct (l_town l && forced)%bool; [intro H; exists 1; split; [reflexivity|now rewrite H]|].
  intros (p & N & P & H). assert (Dv : forall x y, ~ y == 0 -> fdiv x y = Ok (x / y)) by (intros; apply div_ok; auto).
  rewrite Dv by exact N. cbn [bind]. apply pow_ok in P. rewrite P. cbn [bind]. destruct (s_FloodRulesEnabled S); [|exists (l_movechance l * p); split; [reflexivity|now rewrite H]].
  destruct H as (d & m & A & (x & Nx & Pr) & H). apply attrs_ok in A. rewrite A. cbn [bind].
  assert (X : now_step (s_FloodMovechances S) d (l_movechance l * p) (fun w => w) = Ok m).
  { destruct (now_back (s_FloodMovechances S) d (l_movechance l * p) (fun w => w) x Nx) as [N1 N2]. destruct Pr as [[X ->]|(X & z & L & T)]; [auto|eauto]. }
  rewrite X. cbn [bind]. destruct (window S day) as [[ts last]|] eqn:W; [|exists m; split; [reflexivity|now rewrite H]].
  destruct (window_facts _ _ _ _ W) as [T D]. destruct H as (s & w & Ex & Aw & F). apply aware_ok in Aw. rewrite Aw. cbn [bind].
  apply expected_back in Ex as (q & -> & Q); auto. cbn [bind]. rewrite Dv by now apply injZ_nonzero. cbn [bind].
  eexists. split; [reflexivity|]. now rewrite F, Q.
Qed.

(** Without a flood in the forecast nobody leaves. *)
Theorem chance_dry : forall S o e a l day q d levels ts last,
  l_town l = false -> s_FloodRulesEnabled S = true -> window S day = Some (ts, last) ->
  attributes_of e l d -> dict_get "forecast_flood_levels" d = Some (VList levels) ->
  (forall x n, In x (forecast_days day ts last) -> item levels x = Some n -> (n <= 0)%Z) ->
  calculateMoveChance S o e a l false day = Ok q -> q == 0.
Proof.
  intros S o e a l day q d levels ts last Tn Fl W A L Dry H. apply chance_sound in H. unfold leaves_with in H. rewrite Tn in H. cbn [andb] in H.
  destruct H as (p & _ & _ & H). rewrite Fl in H. destruct H as (d' & m & A' & _ & H). unfold attributes_of in *. assert (d' = d) as -> by congruence.
  rewrite W in H. destruct H as (s & w & (levels' & ws & L' & F & Es) & _ & ->). assert (levels' = levels) as -> by congruence.
  assert (Z0 : sumQ ws == 0).
  { clear -F Dry. induction F as [|x w xs ws (n & I & H) F IH]; [reflexivity|]. cbn [sumQ].
    rewrite IH by (intros; eapply Dry; eauto; now right). specialize (Dry x n (or_introl eq_refl) I). destruct H as [[_ ->]|[H _]]; [lra|lia]. }
  rewrite Es, Z0. unfold Qdiv. ring.
Qed.

(** ** Both directions at once *)

Theorem score_iff : forall S o e a ep day r,
  (exists q, getEndPointScore S o e a ep day = Ok q /\ q == r) <-> attraction S o e a ep day r.
Proof.
  intros S o e a ep day r. split; [|apply score_complete].
  intros (q & H & Q0). apply score_sound in H as (s & n & f & c & Hs & Hn & Hf & U & Hc & R).
  exists s, n, f, c. rewrite <- Q0, R. repeat split; auto; reflexivity.
Qed.
Theorem chance_iff : forall S o e a l forced day r,
  (exists q, calculateMoveChance S o e a l forced day = Ok q /\ q == r) <-> leaves_with S o e a l forced day r.
Proof.
  intros S o e a l forced day r. split; [|apply chance_complete].
  intros (q & H & Q0). apply chance_sound in H. unfold leaves_with in *. destruct (l_town l && forced)%bool; [now rewrite <- Q0|].
  destruct H as (p & B & P & H). exists p. split; [assumption|]. split; [assumption|].
  destruct (s_FloodRulesEnabled S); [|now rewrite <- Q0].
  destruct H as (d & m & A & Pr & H). exists d, m. split; [assumption|]. split; [assumption|].
  destruct (window S day) as [[ts last]|]; [|now rewrite <- Q0].
  destruct H as (s & w & Ex & Aw & H). exists s, w. rewrite <- Q0. auto.
Qed.
Theorem score_ethnic : forall S o e a ep day q, ~ unmatched S ep -> getEndPointScore S o e a ep day <> Ok q.
Proof. intros S o e a ep day q U H. apply score_sound in H as (s & n & f & c & _ & _ & _ & X & _). contradiction. Qed.
