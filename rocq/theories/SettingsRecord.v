(** * SettingsRecord: the settings record holds what the file says *)

From Verif Require Import Base State Settings SpecSettings SettingsProofs SettingsFacts SettingsMain SettingsMore.
Local Open Scope string_scope.
Local Open Scope list_scope.

Lemma key_Q k st q : key as_Q k st = Some q -> exists w, dict_get k st = Some w /\ same_value w (YFloat q).
Proof.
  unfold key. destruct (dict_get k st) as [v|]; [|discriminate]. intro H. exists v. split; [reflexivity|].
  destruct v; try discriminate; cbn in H; injection H as <-; [right; eauto|now left].
Qed.
Lemma key_Z k st q : key as_Z k st = Some q -> exists w, dict_get k st = Some w /\ same_value w (YInt q).
Proof.
  unfold key. destruct (dict_get k st) as [v|]; [|discriminate]. intro H. exists v. split; [reflexivity|].
  destruct v; try discriminate; cbn in H; injection H as <-; now left.
Qed.
Lemma key_bool k st q : key as_bool k st = Some q -> exists w, dict_get k st = Some w /\ same_value w (YBool q).
Proof.
  unfold key. destruct (dict_get k st) as [v|]; [|discriminate]. intro H. exists v. split; [reflexivity|].
  destruct v; try discriminate; cbn in H; injection H as <-; now left.
Qed.
Lemma key_str k st q : key as_str k st = Some q -> exists w, dict_get k st = Some w /\ same_value w (YStr q).
Proof.
  unfold key. destruct (dict_get k st) as [v|]; [|discriminate]. intro H. exists v. split; [reflexivity|].
  destruct v; try discriminate; cbn in H; injection H as <-; now left.
Qed.

(** What the conversions accept *)
Lemma as_Q_iff q v : as_Q v = Some q <-> number q v.
Proof.
  unfold number. split.
  - destruct v; try discriminate; cbn; intro H; injection H as <-; [right; eauto|now left].
  - intros [-> | (z & -> & ->)]; reflexivity.
Qed.
Lemma as_Z_iff z v : as_Z v = Some z <-> whole z v.
Proof. unfold whole. split; [destruct v; try discriminate; cbn; intro H; now injection H as <-|intros ->; reflexivity]. Qed.
Lemma as_str_iff s v : as_str v = Some s <-> text s v.
Proof. unfold text. split; [destruct v; try discriminate; cbn; intro H; now injection H as <-|intros ->; reflexivity]. Qed.
Lemma as_Qs_iff : forall ys l, as_Qs ys = Some l <-> Forall2 (fun q y => y = YFloat q \/ exists z, y = YInt z /\ q = inject_Z z) l ys.
Proof.
  induction ys as [|y ys IH]; intro l; cbn [as_Qs].
  - split; [intro H; injection H as <-; constructor|intro H; now inversion H].
  - split.
    + destruct (as_Q y) as [q|] eqn:E; [|discriminate]. destruct (as_Qs ys) as [qs|]; [|discriminate]. intro H. injection H as <-.
      constructor; [now apply as_Q_iff|now apply IH].
    + intro H. inversion H as [|q y' qs ys' A B]; subst. apply as_Q_iff in A. rewrite A. apply IH in B. now rewrite B.
Qed.
Lemma as_list_iff l v : as_list v = Some l <-> numbers l v.
Proof.
  unfold numbers. split.
  - destruct v; try discriminate. cbn [as_list]. intro H. apply as_Qs_iff in H. eauto.
  - intros (ys & -> & H). now apply as_Qs_iff.
Qed.

Lemma key_holds {A} (f : yml -> option A) (P : A -> yml -> Prop) k st :
  (forall a v, f v = Some a <-> P a v) -> holds P st k (key f k st).
Proof.
  intros E a. unfold key. destruct (dict_get k st) as [v|].
  - rewrite E. split; [eauto|]. intros (w & H & X). now injection H as <-.
  - split; [discriminate|]. intros (w & H & _). discriminate H.
Qed.
Lemma key_holds_or {A} (f : yml -> option A) (P : A -> yml -> Prop) k st d :
  (forall a v, f v = Some a <-> P a v) -> holds_or P st k d (key_or f k st d).
Proof.
  intros E. unfold holds_or, key_or, key. destruct (dict_get k st) as [v|].
  - destruct (f v) as [a|] eqn:F; [left; exists v; split; [reflexivity|now apply E]|].
    right. split; [reflexivity|]. intros w a H X. injection H as <-. apply E in X. congruence.
  - right. split; [reflexivity|]. intros; discriminate.
Qed.

Theorem record_fields st S : settings_of st = Some S ->
  forall k v, In (k, v) (fields S) -> exists w, dict_get k st = Some w /\ same_value w v.
Proof.
  unfold settings_of. intro H.
  repeat match type of H with obind ?m _ = Some _ => destruct m eqn:?; [cbn [obind] in H|discriminate H] end.
  injection H as <-. intros k v I. unfold fields in I.
  cbn [s_MaxMoveSpeed s_MaxWalkSpeed s_ForeignWeight s_CampWeight s_ConflictWeight s_ConflictMoveChance s_CampMoveChance s_IDPCampMoveChance
       s_DefaultMoveChance s_AwarenessLevel s_CapacityBuffer s_CapacityScaling s_AvoidShortStints s_StartOnFoot s_DistanceSoftening s_WeightSoftening
       s_WeightPower s_DistancePower s_StayCloseToHome s_HomeDistancePower s_UsePopForLocWeight s_PopPowerForLocWeight s_MovechancePopBase
       s_MovechancePopScaleFactor s_PruningThreshold s_ChildrenAvoidHazards s_BoysTakeRisk s_MatchCampEthnicity s_MatchTownEthnicity
       s_MatchConflictEthnicity s_FixedRoutes s_FloodRulesEnabled s_FloodForecaster s_TakeFromPopulation s_InsertDayZero s_EmptyCampsOnDay0
       s_conflict_zone_spawning_only s_camps_are_sinks s_sum_from_camps s_conflict_driven_spawning s_flood_driven_spawning
       s_conflict_spawn_decay_interval s_log_agent s_log_link s_log_camp s_granularity] in I.
  repeat (destruct I as [I|I]; [injection I as <- <-; first [now apply key_Q|now apply key_Z|now apply key_bool|now apply key_str]|]).
  destruct I.
Qed.

Theorem record_optional st S : settings_of st = Some S ->
  holds whole st "move_rules.FloodForecasterTimescale" (s_FloodForecasterTimescale S) /\
  holds whole st "move_rules.FloodForecasterEndTime" (s_FloodForecasterEndTime S) /\
  holds numbers st "move_rules.FloodMovechances" (s_FloodMovechances S) /\
  holds numbers st "move_rules.FloodLocWeights" (s_FloodLocWeights S) /\
  holds numbers st "move_rules.FloodForecasterWeights" (s_FloodForecasterWeights S) /\
  holds numbers st "move_rules.FloodAwarenessWeights" (s_FloodAwarenessWeights S) /\
  holds numbers st "spawn_rules.conflict_spawn_decay" (s_conflict_spawn_decay S) /\
  holds_or text st "spawn_rules.conflict_spawn_mode" "" (s_conflict_spawn_mode S) /\
  holds_or number st "spawn_rules.displaced_per_conflict_day" 0%Q (s_displaced_per_conflict_day S) /\
  holds_or text st "spawn_rules.flood_spawn_mode" "" (s_flood_spawn_mode S) /\
  holds_or numbers st "spawn_rules.displaced_per_flood_day" [] (s_displaced_per_flood_day S).
Proof.
  unfold settings_of. intro H.
  repeat match type of H with obind ?m _ = Some _ => destruct m; [cbn [obind] in H|discriminate H] end.
  injection H as <-. cbn [s_FloodForecasterTimescale s_FloodForecasterEndTime s_FloodMovechances s_FloodLocWeights s_FloodForecasterWeights
    s_FloodAwarenessWeights s_conflict_spawn_decay s_conflict_spawn_mode s_displaced_per_conflict_day s_flood_spawn_mode s_displaced_per_flood_day].
  do 7 (split; [first [apply key_holds; exact as_Z_iff|apply key_holds; exact as_list_iff]|]).
  do 3 (split; [first [apply key_holds_or; exact as_str_iff|apply key_holds_or; exact as_Q_iff]|]).
  apply key_holds_or; exact as_list_iff.
Qed.

(** Together with what reading does *)
Theorem record_used f st n st' S x v : ReadFromYML f st = Ok (n, st') -> settings_of st' = Some S ->
  In x documented -> In (st_key x, v) (fields S) ->
  (dict_get "UseV1Rules" st' = Some (YBool true) -> ~ In (st_key x) (map fst v1_values)) ->
  exists w, configured f x w /\ same_value w v.
Proof.
  intros R E I F V. destruct (read_values f st n st' x R I V) as (w & G & C).
  destruct (record_fields _ _ E _ _ F) as (w' & G' & X). rewrite G in G'. injection G' as <-. eauto.
Qed.

(** The switch camps_are_sinks is read under a misspelt name. *)
Theorem read_sinks f st n st' : ReadFromYML f st = Ok (n, st') ->
  exists w, dict_get "spawn_rules.camps_are_sinks" st' = Some w /\
    configured f (Setting "spawn_rules.camps_are_sinks" ["spawn_rules"; "camps_are_sicks"] KBool (YBool false)) w.
Proof.
  intro H. destruct (read_inv _ _ _ _ H) as (p & _ & P & ->).
  set (x := Setting "spawn_rules.camps_are_sinks" ["spawn_rules"; "camps_are_sicks"] KBool (YBool false)).
  change "spawn_rules.camps_are_sinks" with (st_key x).
  rewrite get_apply, all_lastw, (keys_v1 _ _ _ _ P) by reflexivity. cbn [either].
  destruct (i_spawn _ _ _ P) as (d & S & _ & M & _).
  destruct (row_value f _ d _ _ x S M eq_refl) as [K (w & L & C)]; [cbn; intuition|].
  rewrite (keys_opt _ _ _ _ P), (keys_rules _ _ _ _ P), (keys_move _ _ _ _ P), (keys_spawn3 _ _ _ _ P), (keys_flood _ _ _ _ P),
    (keys_conflict _ _ _ _ P) by reflexivity.
  destruct (keys_resets (st_key x)) as [-> ->]; [reflexivity|]. cbn [either]. rewrite L. exists w. auto.
Qed.

Lemma read_forecaster f st n st' : ReadFromYML f st = Ok (n, st') -> exists b, dict_get "move_rules.FloodForecaster" st' = Some (YBool b).
Proof.
  intro H. destruct (read_inv _ _ _ _ H) as (p & _ & P & E'). destruct (i_move _ _ _ P) as (dm & Sm & _ & R).
  destruct (flood_rules_writes_inv _ _ R) as [[E F]|(dpf & W1 & F & N & _)].
  - exists false. apply (proj2 (proj2 (proj2 (read_switches f st n st' H)))). intro B.
    apply (section_has _ _ _ (fetch_sub _ _ _ _ _ Sm F)) in B. now apply B.
  - destruct (proj2 (read_flood_rules _ _ _ _ H (proj2 (section_has _ _ _ (fetch_sub _ _ _ _ _ Sm F)) N))
      (Setting "move_rules.FloodForecaster" ["move_rules"; "flood_rules"; "flood_forecaster"] KBool (YBool false))) as (w & G & v & _ & C).
    + unfold flood_documented. repeat (first [left; reflexivity|right]).
    + cbn [st_kind st_key] in *. inversion C; subst; eauto.
Qed.

Theorem record_exists f st n st' : ReadFromYML f st = Ok (n, st') ->
  ((exists S, settings_of st' = Some S) <-> exists s, dict_get "log_levels.granularity" st' = Some (YStr s)).
Proof.
  intro R. split.
  - intros [S E]. destruct (record_fields _ _ E "log_levels.granularity" (YStr (s_granularity S))) as (w & G & [-> |(z & _ & X)]).
    + unfold fields. repeat (first [left; reflexivity|right]).
    + eauto.
    + discriminate X.
  - intros [s G].
    assert (V : forall x, In x documented -> exists w, dict_get (st_key x) st' = Some w /\
       ((exists v, reads_as (st_kind x) v w) \/ In (st_key x, w) v1_values)).
    { intros x I.
      destruct (in_dec string_dec (st_key x) (map fst v1_values)) as [Y|N].
      - destruct (dict_get "UseV1Rules" st') as [u|] eqn:U.
        + assert (D : u = YBool true \/ u <> YBool true) by (destruct u as [|[]| | | | |]; first [now left|right; discriminate]).
          destruct D as [-> | D].
          * apply in_map_iff in Y as ([k w] & E & Y). cbn [fst] in E. subst k. exists w. split; [exact (read_v1 _ _ _ _ R U _ _ Y)|now right].
          * destruct (read_values f st n st' x R I) as (w & G' & v & _ & C); [intro E; rewrite E in U; congruence|]. exists w. split; [exact G'|left; eauto].
        + destruct (read_values f st n st' x R I) as (w & G' & v & _ & C); [rewrite U; discriminate|]. exists w. split; [exact G'|left; eauto].
      - destruct (read_values f st n st' x R I) as (w & G' & v & _ & C); [auto|]. exists w. split; [exact G'|left; eauto]. }
    assert (VQ : forall k p d, In (Setting k p KFloat d) documented -> exists q, key as_Q k st' = Some q).
    { intros k p d I. destruct (V _ I) as (w & G' & [(v & C)|C]); cbn [st_key st_kind] in *; unfold key; rewrite G'.
      - inversion C; subst; cbn; eauto.
      - assert (B : forallb (fun x => match st_kind x with KFloat => forallb (fun p => implb (String.eqb (st_key x) (fst p)) (match as_Q (snd p) with Some _ => true | None => false end)) v1_values | _ => true end) documented = true) by (vm_compute; reflexivity).
        rewrite forallb_forall in B. specialize (B _ I). cbn [st_kind st_key] in B. rewrite forallb_forall in B. specialize (B _ C). cbn [fst snd] in B.
        rewrite String.eqb_refl in B. cbn [implb] in B. destruct (as_Q w); [eauto|discriminate]. }
    assert (VB : forall k p d, In (Setting k p KBool d) documented -> exists q, key as_bool k st' = Some q).
    { intros k p d I. destruct (V _ I) as (w & G' & [(v & C)|C]); cbn [st_key st_kind] in *; unfold key; rewrite G'.
      - inversion C; subst; cbn; eauto.
      - assert (B : forallb (fun x => match st_kind x with KBool => forallb (fun p => implb (String.eqb (st_key x) (fst p)) (match as_bool (snd p) with Some _ => true | None => false end)) v1_values | _ => true end) documented = true) by (vm_compute; reflexivity).
        rewrite forallb_forall in B. specialize (B _ I). cbn [st_kind st_key] in B. rewrite forallb_forall in B. specialize (B _ C). cbn [fst snd] in B.
        rewrite String.eqb_refl in B. cbn [implb] in B. destruct (as_bool w); [eauto|discriminate]. }
    assert (VZ : forall k p d, In (Setting k p KInt d) documented -> exists q, key as_Z k st' = Some q).
    { intros k p d I. destruct (V _ I) as (w & G' & [(v & C)|C]); cbn [st_key st_kind] in *; unfold key; rewrite G'.
      - inversion C; subst; cbn; eauto.
      - assert (B : forallb (fun x => match st_kind x with KInt => forallb (fun p => implb (String.eqb (st_key x) (fst p)) (match as_Z (snd p) with Some _ => true | None => false end)) v1_values | _ => true end) documented = true) by (vm_compute; reflexivity).
        rewrite forallb_forall in B. specialize (B _ I). cbn [st_kind st_key] in B. rewrite forallb_forall in B. specialize (B _ C). cbn [fst snd] in B.
        rewrite String.eqb_refl in B. cbn [implb] in B. destruct (as_Z w); [eauto|discriminate]. }
    destruct (read_switches f st n st' R) as ((b1 & S1 & _) & (b2 & S2 & _) & (b3 & S3 & _) & S4).
    assert (F4 : exists q, key as_bool "move_rules.FloodForecaster" st' = Some q)
      by (destruct (read_forecaster _ _ _ _ R) as [b Gb]; exists b; unfold key; rewrite Gb; reflexivity).
    assert (F5 : exists q, key as_bool "spawn_rules.camps_are_sinks" st' = Some q)
      by (destruct (read_sinks _ _ _ _ R) as (w & Gb & v & _ & C); cbn [st_kind] in C; unfold key; rewrite Gb; inversion C; subst; cbn; eauto).
    assert (F1 : key as_bool "spawn_rules.conflict_driven_spawning" st' = Some b1) by (unfold key; rewrite S1; reflexivity).
    assert (F2 : key as_bool "spawn_rules.flood_driven_spawning" st' = Some b2) by (unfold key; rewrite S2; reflexivity).
    assert (F3 : key as_bool "move_rules.FloodRulesEnabled" st' = Some b3) by (unfold key; rewrite S3; reflexivity).
    assert (F6 : key as_str "log_levels.granularity" st' = Some s) by (unfold key; rewrite G; reflexivity).
    destruct F4 as [b4 F4], F5 as [b5 F5].
    unfold settings_of.
    assert (WQ : forall k, existsb (fun x => String.eqb (st_key x) k && match st_kind x with KFloat => true | _ => false end)%bool documented = true ->
      exists q, key as_Q k st' = Some q).
    { intros k B. apply existsb_exists in B as ([k0 p kd d] & I & B). apply andb_true_iff in B as [B1 B2]. cbn [st_key st_kind] in *.
      apply String.eqb_eq in B1. subst k0. destruct kd; try discriminate. exact (VQ _ _ _ I). }
    assert (WB : forall k, existsb (fun x => String.eqb (st_key x) k && match st_kind x with KBool => true | _ => false end)%bool documented = true ->
      exists q, key as_bool k st' = Some q).
    { intros k B. apply existsb_exists in B as ([k0 p kd d] & I & B). apply andb_true_iff in B as [B1 B2]. cbn [st_key st_kind] in *.
      apply String.eqb_eq in B1. subst k0. destruct kd; try discriminate. exact (VB _ _ _ I). }
    assert (WZ : forall k, existsb (fun x => String.eqb (st_key x) k && match st_kind x with KInt => true | _ => false end)%bool documented = true ->
      exists q, key as_Z k st' = Some q).
    { intros k B. apply existsb_exists in B as ([k0 p kd d] & I & B). apply andb_true_iff in B as [B1 B2]. cbn [st_key st_kind] in *.
      apply String.eqb_eq in B1. subst k0. destruct kd; try discriminate. exact (VZ _ _ _ I). }
    clear V VQ VB VZ S1 S2 S3 S4 R G.
    repeat match goal with |- exists _, obind (key ?f ?k st') _ = _ =>
      first [ rewrite F1 | rewrite F2 | rewrite F3 | rewrite F4 | rewrite F5 | rewrite F6
            | let q := fresh "q" in let E := fresh "E" in
              match f with
              | as_Q => destruct (WQ k) as [q E]; [vm_compute; reflexivity|]
              | as_bool => destruct (WB k) as [q E]; [vm_compute; reflexivity|]
              | as_Z => destruct (WZ k) as [q E]; [vm_compute; reflexivity|]
              end; rewrite E; clear E ];
      cbn [obind] end.
    eauto.
Qed.
