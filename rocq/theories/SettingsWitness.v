(** * SettingsWitness: settings files for the examples of C44 *)

From Verif Require Import Base State Scoring Settings SpecSettings Defaults SettingsProofs SettingsFacts SettingsMain SettingsMore.
Local Open Scope string_scope.
Local Open Scope list_scope.

(** A file with values of several types *)
Definition ex_file : yml := YMap [
  ("number_of_steps", YStr "300");
  ("log_levels", YMap [("agent", YInt 1)]);
  ("spawn_rules", YMap [("take_from_population", YInt 1); ("conflict_driven_spawning", YMap [("spawn_mode", YStr "pop_ratio")])]);
  ("move_rules", YMap [("max_move_speed", YInt 200); ("awareness_level", YFloat (25 # 10)); ("start_on_foot", YStr "False");
                       ("flood_rules", YMap [("flood_movechances", YList [YFloat 0; YFloat (1 # 2)])])]) ].

Lemma ex_file_read : exists st, ReadFromYML ex_file [] = Ok (300%Q, st) /\
  map (fun k => dict_get k st)
    ["move_rules.MaxMoveSpeed"; "move_rules.AwarenessLevel"; "move_rules.StartOnFoot"; "move_rules.MaxWalkSpeed";
     "spawn_rules.conflict_spawn_mode"; "spawn_rules.displaced_per_conflict_day"; "move_rules.FloodMovechances";
     "move_rules.FloodRulesEnabled"] =
  [Some (YFloat 200); Some (YInt 2); Some (YBool true); Some (YFloat 35); Some (YStr "pop_ratio"); Some (YFloat (1 # 100));
   Some (YList [YFloat 0; YFloat (1 # 2)]); Some (YBool true)].
Proof. eexists. split; vm_compute; reflexivity. Qed.

(** Version 1 rules *)
Definition v1_file : yml := YMap [("move_rules", YMap [("use_v1_rules", YBool true); ("max_move_speed", YInt 500)])].
Lemma v1_file_read : exists st, ReadFromYML v1_file [] = Ok ((-1)%Q, st) /\ dict_get "UseV1Rules" st = Some (YBool true).
Proof. eexists. split; vm_compute; reflexivity. Qed.

(** Both exclusive switches, the first by default *)
Definition both_file : yml := YMap [("spawn_rules", YMap [("flood_zone_spawning_only", YBool true)])].

Lemma gives2 d1 d2 a b v : dict_get a d1 = Some (YMap d2) -> dict_get b d2 = Some v -> gives (YMap d1) [a; b] v.
Proof. intros A B. econstructor; [exact A|]. econstructor; [exact B|constructor]. Qed.
Lemma missing2 d1 d2 a b : dict_get a d1 = Some (YMap d2) -> dict_get b d2 = None -> missing (YMap d1) [a; b].
Proof.
  intros A B v H. inversion H; subst. match goal with X : dict_get a d1 = Some ?u |- _ => rewrite A in X; injection X as <- end.
  match goal with X : gives (YMap d2) _ _ |- _ => inversion X; subst end. congruence.
Qed.
Lemma missing1 d a p : dict_get a d = None -> missing (YMap d) (a :: p).
Proof. intros A v H. inversion H; subst. congruence. Qed.

Lemma both_excluded : excluded both_file.
Proof.
  left. split.
  - exists (YBool true). split; [right; split; [eapply missing2; reflexivity|reflexivity]|].
    apply (proj1 (convert_reads KBool (YBool true) (YBool true))). reflexivity.
  - exists (YBool true). split; [left; eapply gives2; reflexivity|].
    apply (proj1 (convert_reads KBool (YBool true) (YBool true))). reflexivity.
Qed.

Lemma both_aborts : ReadFromYML both_file [] = Err SystemExit.
Proof. vm_compute. reflexivity. Qed.

(** Flood-driven spawning without take_from_population *)
Definition take_file : yml := YMap [("spawn_rules", YMap [("conflict_zone_spawning_only", YBool false);
  ("flood_zone_spawning_only", YBool true); ("flood_driven_spawning", YMap [])])].
Lemma take_aborts : ReadFromYML take_file [] = Err SystemExit.
Proof. vm_compute. reflexivity. Qed.

(** camps_are_sinks *)
Definition sinks_file : yml := YMap [("spawn_rules", YMap [("camps_are_sinks", YBool true)])].
Lemma sinks_ignored : exists f n st,
  gives f ["spawn_rules"; "camps_are_sinks"] (YBool true) /\ ReadFromYML f [] = Ok (n, st) /\
  dict_get "spawn_rules.camps_are_sinks" st = Some (YBool false).
Proof.
  exists sinks_file. eexists; eexists. split; [eapply gives2; reflexivity|]. split; vm_compute; reflexivity.
Qed.

(** Weights of an earlier file that stay in force *)
Definition weights_file : yml := YMap [("move_rules", YMap [("flood_rules", YMap [("flood_loc_weights", YList [YFloat 1; YFloat (1 # 2)])])])].
Definition plain_file : yml := YMap [("move_rules", YMap [("max_move_speed", YInt 200)])].
Definition flooded_town : location := up_l_flood_zone (fun _ => true) plain_location.

Definition store_of (f : yml) (st : store) : store := match ReadFromYML f st with Ok (_, s) => s | Err _ => [] end.
Definition record_of (st : store) : settings := match settings_of st with Some s => s | None => default_settings end.

Lemma leftover : exists first second n1 st1 n2 alone after S_alone S_after,
  ReadFromYML first [] = Ok (n1, st1) /\ ReadFromYML second [] = Ok (n2, alone) /\ ReadFromYML second st1 = Ok (n2, after) /\
  settings_of alone = Some S_alone /\ settings_of after = Some S_after /\
  locationScore S_alone ex_oracle [("flood_level", VInt 1)] 0 flooded_town = Err KeyError /\
  locationScore S_after ex_oracle [("flood_level", VInt 1)] 0 flooded_town = Ok (1 # 2)%Q.
Proof.
  exists weights_file, plain_file, (-1)%Q, (store_of weights_file []), (-1)%Q, (store_of plain_file []),
    (store_of plain_file (store_of weights_file [])), (record_of (store_of plain_file [])),
    (record_of (store_of plain_file (store_of weights_file []))).
  split; [vm_compute; reflexivity|]. split; [vm_compute; reflexivity|]. split; [vm_compute; reflexivity|].
  split; [vm_compute; reflexivity|]. split; [vm_compute; reflexivity|]. split; vm_compute; reflexivity.
Qed.

(** A well-formed file *)
Lemma plain_well_formed : well_formed plain_file.
Proof.
  assert (G : forall p v, gives plain_file p v ->
    (p = [] /\ v = plain_file) \/ (p = ["move_rules"] /\ v = YMap [("max_move_speed", YInt 200)]) \/
    (p = ["move_rules"; "max_move_speed"] /\ v = YInt 200)).
  { intros p v H. unfold plain_file in H. inversion H as [|d k v' p' w D G]; subst; [auto|]. cbn [dict_get] in D.
    destruct (String.eqb_spec k "move_rules") as [->|]; [|discriminate D]. injection D as <-. right.
    inversion G as [|d k v' p'' w D2 G2]; subst; [auto|]. cbn [dict_get] in D2.
    destruct (String.eqb_spec k "max_move_speed") as [->|]; [|discriminate D2]. injection D2 as <-. right.
    inversion G2; subst. auto. }
  split; [|split; [|split]].
  - intros p I v Hv. destruct (G p v Hv) as [[-> ->]|[[-> ->]|[-> ->]]].
    + right. unfold plain_file. eauto.
    + right. eauto.
    + exfalso. cbn in I. repeat destruct I as [I|I]; try discriminate I. exact I.
  - intros x I v Hv.
    assert (B : forallb (fun x => match st_path x, st_kind x with
      | [], _ => false
      | [k], _ => negb (String.eqb k "move_rules")
      | [k; m], KFloat => true
      | [k; m], _ => negb (String.eqb m "max_move_speed")
      | _, _ => true end) (documented ++ flood_documented) = true) by (vm_compute; reflexivity).
    rewrite forallb_forall in B. specialize (B x I).
    destruct (G (st_path x) v Hv) as [[E ->]|[[E ->]|[E ->]]]; rewrite E in B.
    + discriminate B.
    + discriminate B.
    + destruct (st_kind x); try discriminate B. exists (YFloat (inject_Z 200)). constructor.
  - intros v Hv. destruct (G _ v Hv) as [[E _]|[[E _]|[E _]]]; discriminate E.
  - intros k _ v Hv. destruct (G _ v Hv) as [[E _]|[[E _]|[E _]]]; discriminate E.
Qed.
