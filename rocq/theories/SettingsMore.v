(** * SettingsMore: switches, exclusions, acceptance and independence (C44) *)

From Coq Require Import Qround Lia Lqa.
From Verif Require Import Base State Settings SpecSettings Lemmas CouplingText Defaults SettingsProofs SettingsFacts SettingsMain.
Local Open Scope string_scope.
Local Open Scope list_scope.

Lemma switched_excl f n d : switched f n d true -> switched f n d false -> False.
Proof. intros A B. pose proof (configured_fun _ _ _ _ A B) as E. discriminate E. Qed.

Lemma switched_or f n d b : switched f n d b -> forall c, switched f n d c -> b = c.
Proof. intros A c B. pose proof (configured_fun _ _ _ _ A B) as E. now injection E as <-. Qed.

(** ** Switches *)

Theorem read_switches f st n st' :
  ReadFromYML f st = Ok (n, st') ->
  (exists b, dict_get "spawn_rules.conflict_driven_spawning" st' = Some (YBool b) /\ (b = true <-> conflict_driven f)) /\
  (exists b, dict_get "spawn_rules.flood_driven_spawning" st' = Some (YBool b) /\ (b = true <-> flood_driven f)) /\
  (exists b, dict_get "move_rules.FloodRulesEnabled" st' = Some (YBool b) /\
     (b = true <-> flood_driven f \/ has_section f ["move_rules"; "flood_rules"])) /\
  (~ has_section f ["move_rules"; "flood_rules"] -> dict_get "move_rules.FloodForecaster" st' = Some (YBool false)).
Proof.
  intros H. destruct (read_inv _ _ _ _ H) as (p & _ & P & E').
  pose proof (flag_switch _ _ _ "spawn_rules.flood_zone_spawning_only" "flood_zone_spawning_only" false P ltac:(cbn; intuition)) as FS.
  destruct (i_spawn _ _ _ P) as (d & S & _ & _ & _ & C & FW).
  destruct (i_move _ _ _ P) as (dm & Sm & _ & R).
  assert (FD : flood_driven f \/ (~ flood_driven f /\ p_flood p = [])).
  { destruct (flood_writes_inv _ _ _ _ FW) as [[E [X|F]]|(X & _ & dpsc & mode & w & F & N & _)].
    - right. split; [|exact E]. intros [A _]. rewrite X in FS. eapply switched_excl; eassumption.
    - right. split; [|exact E]. intros [_ B]. apply (section_has _ _ _ (fetch_sub _ _ _ _ _ S F)) in B. now apply B.
    - left. split; [now rewrite X in FS|]. exact (proj2 (section_has _ _ _ (fetch_sub _ _ _ _ _ S F)) N). }
  assert (FR : has_section f ["move_rules"; "flood_rules"] \/ (~ has_section f ["move_rules"; "flood_rules"] /\ p_rules p = [])).
  { destruct (flood_rules_writes_inv _ _ R) as [[E F]|(dpf & W1 & F & N & _)].
    - right. split; [|exact E]. intro B. apply (section_has _ _ _ (fetch_sub _ _ _ _ _ Sm F)) in B. now apply B.
    - left. exact (proj2 (section_has _ _ _ (fetch_sub _ _ _ _ _ Sm F)) N). }
  repeat split.
  - destruct (conflict_writes_inv _ _ _ C) as [[E X]|(X & dpsc & mode & w & F & N & _)].
    + exists false. split.
      * rewrite E', get_apply, all_lastw, E, (keys_v1 _ _ _ _ P), (keys_opt _ _ _ _ P), (keys_rules _ _ _ _ P), (keys_move _ _ _ _ P),
          (keys_spawn3 _ _ _ _ P), (keys_flood _ _ _ _ P) by reflexivity. reflexivity.
      * split; [easy|]. intros [A B]. destruct X as [X|F].
        -- rewrite X in FS. destruct (switched_excl _ _ _ FS A).
        -- apply (section_has _ _ _ (fetch_sub _ _ _ _ _ S F)) in B. now destruct B.
    + exists true. rewrite X in FS. assert (B : conflict_driven f) by (split; [exact FS|exact (proj2 (section_has _ _ _ (fetch_sub _ _ _ _ _ S F)) N)]).
      split; [|tauto]. exact (proj1 (read_conflict_driven _ _ _ _ H (proj1 B) (proj2 B))).
  - destruct FD as [B|[B E]].
    + exists true. split; [|tauto]. exact (proj1 (read_flood_driven _ _ _ _ H (proj1 B) (proj2 B))).
    + exists false. split; [|split; [easy|tauto]].
      rewrite E', get_apply, all_lastw, E, (keys_v1 _ _ _ _ P), (keys_opt _ _ _ _ P), (keys_rules _ _ _ _ P), (keys_move _ _ _ _ P),
          (keys_spawn3 _ _ _ _ P) by reflexivity. reflexivity.
  - destruct FR as [B|[B E]].
    + exists true. split; [|tauto]. exact (proj1 (read_flood_rules _ _ _ _ H B)).
    + destruct FD as [D|[D E2]].
      * exists true. split; [|tauto]. exact (proj1 (proj2 (read_flood_driven _ _ _ _ H (proj1 D) (proj2 D)))).
      * exists false. split; [|split; [easy|tauto]].
        rewrite E', get_apply, all_lastw, E, E2, (keys_v1 _ _ _ _ P), (keys_opt _ _ _ _ P), (keys_move _ _ _ _ P),
          (keys_spawn3 _ _ _ _ P) by reflexivity. reflexivity.
  - intro B. destruct FR as [B'|[_ E]]; [contradiction|].
    rewrite E', get_apply, all_lastw, E, (keys_v1 _ _ _ _ P), (keys_opt _ _ _ _ P), (keys_move _ _ _ _ P),
          (keys_spawn3 _ _ _ _ P), (keys_flood _ _ _ _ P) by reflexivity. reflexivity.
Qed.

(** ** Refused files *)

Theorem read_refused f st n st' : excluded f -> ReadFromYML f st <> Ok (n, st').
Proof.
  intros X H. destruct (read_inv _ _ _ _ H) as (p & _ & P & _).
  destruct X as [[A B]|(B & C & D)].
  - pose proof (switch_flag _ _ _ "spawn_rules.conflict_zone_spawning_only" _ _ _ P ltac:(cbn; intuition) A) as FA.
    pose proof (switch_flag _ _ _ "spawn_rules.flood_zone_spawning_only" _ _ _ P ltac:(cbn; intuition) B) as FB.
    pose proof (i_excl _ _ _ P) as E. rewrite FA, FB in E. discriminate E.
  - pose proof (switch_flag _ _ _ "spawn_rules.TakeFromPopulation" _ _ _ P ltac:(cbn; intuition) D) as FD.
    pose proof (switch_flag _ _ _ "spawn_rules.flood_zone_spawning_only" _ _ _ P ltac:(cbn; intuition) B) as FB.
    destruct (i_spawn _ _ _ P) as (d & S & _ & _ & _ & _ & W). rewrite FB, FD in W.
    destruct (flood_writes_inv _ _ _ _ W) as [[_ [Y|F]]|(_ & Y & _)]; try discriminate Y.
    apply (section_has _ _ _ (fetch_sub _ _ _ _ _ S F)) in C. now apply C.
Qed.

(** ** Accepted files *)

Lemma null_or_map f p d : mapping_or_null f p -> section f p d -> d = YNull \/ exists m, d = YMap m.
Proof. intros M [G|[_ ->]]; auto. Qed.

Lemma fetch_ok d n def : (d = YNull \/ exists m, d = YMap m) -> exists v, fetchss d n def = Ok v.
Proof.
  intros [->|[m ->]]; cbn [fetchss]; [eauto|]. destruct (dict_get n m); eauto.
Qed.

Lemma value_ok f p d n def k :
  mapping_or_null f p -> section f p d -> convertible f (Setting "" (p ++ [n]) k def) -> is_ok (convert k def) = true ->
  exists v w, fetchss d n def = Ok v /\ convert k v = Ok w.
Proof.
  intros M S C D. destruct (fetch_ok d n def (null_or_map _ _ _ M S)) as [v F]. exists v.
  destruct (fetch_section _ _ _ _ _ _ S F) as [G|[_ ->]].
  - destruct (C v G) as [w R]. exists w. split; [exact F|]. now apply convert_reads.
  - destruct (convert k def) as [w|]; [|discriminate D]. eauto.
Qed.

Lemma block_ok f p d xs :
  mapping_or_null f p -> section f p d -> (forall x, In x xs -> convertible f (row p x)) ->
  forallb (fun x => is_ok (convert (ln_conv x) (ln_default x))) xs = true ->
  exists W, mapM (write_of d) xs = Ok W.
Proof.
  intros M S. induction xs as [|x xs IH]; intros C D; [exists []; reflexivity|]. cbn [forallb] in D. apply andb_true_iff in D as [D1 D2].
  destruct IH as [W E]; [intros; apply C; now right|exact D2|].
  destruct (value_ok f p d (ln_name x) (ln_default x) (ln_conv x) M S (C x (or_introl eq_refl)) D1) as (v & w & F & K).
  exists ((ln_dest x, w) :: W). cbn [mapM]. unfold write_of at 1. rewrite F. cbn [bind]. rewrite K. cbn [bind]. rewrite E. reflexivity.
Qed.

Lemma raw_convertible f n p k d : k = KBool \/ k = KRaw -> convertible f (Setting n p k d).
Proof. intros [->| ->] v G; cbn [st_kind]; [exists (YBool (yml_bool v)); apply bool_reads|exists v; constructor]. Qed.

Definition places_back : list nat :=
  ([0; 1; 2; 3; 4; 6; 5; 7; 8; 9; 10; 11; 12; 13; 0; 14; 15; 16; 17] ++ seq 18 34)%nat.

Lemma rows_convertible f x : well_formed f -> In x all_rows -> convertible f x.
Proof.
  intros (_ & C & _) I. apply In_nth_error in I as [i E].
  assert (L : (i < 53)%nat) by (apply nth_error_lt in E; exact E).
  destruct (Nat.eq_dec i 14) as [->|N].
  { cbn in E. injection E as <-. apply raw_convertible. auto. }
  apply C, in_or_app. left.
  assert (B : forallb (fun i => (Nat.eqb i 14 || match nth_error places_back i with Some j => true | None => false end)%bool) (seq 0 53) = true) by reflexivity.
  assert (T : map (fun i => if Nat.eqb i 14 then None else nth_error documented (nth i places_back 0%nat)) (seq 0 53) =
              map (fun i => if Nat.eqb i 14 then None else nth_error all_rows i) (seq 0 53)) by reflexivity.
  assert (T2 : nth_error (map (fun i => if Nat.eqb i 14 then None else nth_error documented (nth i places_back 0%nat)) (seq 0 53)) i =
               nth_error (map (fun i => if Nat.eqb i 14 then None else nth_error all_rows i) (seq 0 53)) i) by (now rewrite T).
  rewrite !nth_error_map in T2.
  assert (Q : nth_error (seq 0 53) i = Some i).
  { rewrite (nth_error_nth' _ 0%nat) by (now rewrite seq_length). now rewrite seq_nth by exact L. }
  rewrite Q in T2. cbn [option_map] in T2. injection T2 as T2. apply Nat.eqb_neq in N. rewrite N, E in T2.
  eapply nth_error_In. exact T2.
Qed.

Lemma flood_rows_convertible f x : well_formed f -> In x (map (row ["move_rules"; "flood_rules"]) flood_lines) -> convertible f x.
Proof.
  intros (_ & C & _) I. apply C, in_or_app. right. cbn in I |- *.
  repeat destruct I as [<-|I]; try easy; repeat (first [left; reflexivity|right]).
Qed.

Lemma in_rows k (l : list (list setting)) x r : nth_error l k = Some r -> In x r -> In x (List.concat l).
Proof. intros E I. apply in_concat. exists r. split; [eapply nth_error_In; exact E|exact I]. Qed.

Theorem read_accepted f st :
  well_formed f ->
  (excluded f /\ ReadFromYML f st = Err SystemExit) \/ (~ excluded f /\ exists n st', ReadFromYML f st = Ok (n, st')).
Proof.
  intro WF. pose proof WF as (Sec & Con & Steps & Disp).
  assert (RC : forall p xs, (exists k, nth_error [map (row []) file_lines; map (row ["log_levels"]) log_lines; map (row ["spawn_rules"]) spawn_lines1;
      map (row ["spawn_rules"]) spawn_lines2; map (row ["spawn_rules"]) spawn_lines3; map (row ["move_rules"]) move_lines;
      map (row ["optimisations"]) optimisation_lines] k = Some (map (row p) xs)) -> forall x, In x xs -> convertible f (row p x)).
  { intros p xs [k E] x I. apply rows_convertible; [exact WF|]. unfold all_rows.
    pose proof (in_rows _ _ _ _ E (in_map (row p) _ _ I)) as J. cbn [List.concat] in J. rewrite !app_nil_r in J. exact J. }
  assert (NX : forall n st', ReadFromYML f st = Ok (n, st') -> ~ excluded f).
  { intros n st' H X. exact (read_refused _ _ _ _ X H). }
  assert (G : (excluded f /\ parts_of f = Err SystemExit) \/ exists n p, parts_of f = Ok (n, p)).
  { unfold parts_of.
    destruct (value_ok f [] f "number_of_steps" (YInt (-1)) KFloat) as (v & w & F & K);
      [apply Sec; cbn; auto|apply section_top|exact Steps|reflexivity|]. rewrite F. cbn [bind convert] in K |- *. rewrite K. cbn [bind].
    destruct (block_ok f [] f file_lines) as [W1 ->]; [apply Sec; cbn; auto|apply section_top|apply RC; exists 0%nat; reflexivity|reflexivity|]. cbn [bind].
    destruct (fetch_ok f "log_levels" YNull) as [dl Fl]; [apply (null_or_map f []); [apply Sec; cbn; auto|apply section_top]|]. rewrite Fl. cbn [bind].
    pose proof (top_section _ _ _ Fl) as Sl.
    destruct (block_ok f ["log_levels"] dl log_lines) as [W2 ->]; [apply Sec; cbn; auto|exact Sl|apply RC; exists 1%nat; reflexivity|reflexivity|]. cbn [bind].
    destruct (fetch_ok f "spawn_rules" YNull) as [ds Fs]; [apply (null_or_map f []); [apply Sec; cbn; auto|apply section_top]|]. rewrite Fs. cbn [bind].
    pose proof (top_section _ _ _ Fs) as Ss.
    assert (Ms : mapping_or_null f ["spawn_rules"]) by (apply Sec; cbn; auto).
    destruct (block_ok f _ ds spawn_lines1 Ms Ss) as [W3 E3]; [apply RC; exists 2%nat; reflexivity|reflexivity|]. rewrite E3. cbn [bind]. cbv zeta.
    assert (SF : forall key name d, In (Line key KBool name (YBool d)) spawn_lines1 -> switched f name d (flag key W3)).
    { intros key name d I. destruct (block_value f _ ds _ _ key KBool name (YBool d) Ss E3 eq_refl I) as (w3 & L & C).
      rewrite (bool_line _ _ _ _ _ _ E3 eq_refl I) in L. injection L as <-. apply C. }
    pose proof (SF "spawn_rules.conflict_zone_spawning_only" "conflict_zone_spawning_only" true ltac:(cbn; intuition)) as SC.
    pose proof (SF "spawn_rules.flood_zone_spawning_only" "flood_zone_spawning_only" false ltac:(cbn; intuition)) as SFl.
    pose proof (SF "spawn_rules.TakeFromPopulation" "take_from_population" false ltac:(cbn; intuition)) as ST.
    destruct (flag "spawn_rules.conflict_zone_spawning_only" W3 && flag "spawn_rules.flood_zone_spawning_only" W3)%bool eqn:EX.
    { apply andb_true_iff in EX as [X1 X2]. rewrite X1 in SC. rewrite X2 in SFl. left. split; [left; auto|reflexivity]. }
    destruct (block_ok f _ ds spawn_lines2 Ms Ss) as [W4 ->]; [apply RC; exists 3%nat; reflexivity|reflexivity|]. cbn [bind].
    assert (E5 : exists W5, conflict_writes ds (flag "spawn_rules.flood_zone_spawning_only" W3) = Ok W5).
    { unfold conflict_writes. destruct (flag "spawn_rules.flood_zone_spawning_only" W3); [eauto|].
      destruct (fetch_ok ds "conflict_driven_spawning" YNull (null_or_map _ _ _ Ms Ss)) as [dc Fc]. rewrite Fc. cbn [bind].
      destruct (yml_is_none dc); [eauto|].
      pose proof (fetch_sub _ _ _ _ _ Ss Fc) as Sc. cbn [app] in Sc.
      assert (Mc : mapping_or_null f ["spawn_rules"; "conflict_driven_spawning"]) by (apply Sec; cbn; auto 10).
      destruct (fetch_ok dc "spawn_mode" (YStr "constant") (null_or_map _ _ _ Mc Sc)) as [mo Fm]. rewrite Fm. cbn [bind].
      destruct (yml_is_str "pop_ratio" mo).
      - destruct (value_ok f _ dc "displaced_per_conflict_day" (YFloat (1 # 100)) KFloat Mc Sc) as (u & w' & Fu & Ku);
          [intros y Gy; exact (Disp KFloat ltac:(cbn; auto) y Gy)|reflexivity|]. rewrite Fu. cbn [bind convert] in Ku |- *. rewrite Ku. cbn [bind]. eauto.
      - destruct (value_ok f _ dc "displaced_per_conflict_day" (YInt 500) KInt Mc Sc) as (u & w' & Fu & Ku);
          [intros y Gy; exact (Disp KInt ltac:(cbn; auto) y Gy)|reflexivity|]. rewrite Fu. cbn [bind convert] in Ku |- *. rewrite Ku. cbn [bind]. eauto. }
    destruct E5 as [W5 ->]. cbn [bind].
    assert (E6 : (excluded f /\ flood_writes ds (flag "spawn_rules.flood_zone_spawning_only" W3) (flag "spawn_rules.TakeFromPopulation" W3) = Err SystemExit) \/
                 exists W6, flood_writes ds (flag "spawn_rules.flood_zone_spawning_only" W3) (flag "spawn_rules.TakeFromPopulation" W3) = Ok W6).
    { unfold flood_writes. destruct (flag "spawn_rules.flood_zone_spawning_only" W3); [|eauto].
      destruct (fetch_ok ds "flood_driven_spawning" YNull (null_or_map _ _ _ Ms Ss)) as [dc Fc]. rewrite Fc. cbn [bind].
      pose proof (fetch_sub _ _ _ _ _ Ss Fc) as Sc. cbn [app] in Sc.
      assert (Mc : mapping_or_null f ["spawn_rules"; "flood_driven_spawning"]) by (apply Sec; cbn; auto 10).
      destruct (yml_is_none dc) eqn:Nn; [eauto|].
      destruct (flag "spawn_rules.TakeFromPopulation" W3); cbn [negb].
      - destruct (fetch_ok dc "spawn_mode" (YStr "pop_ratio") (null_or_map _ _ _ Mc Sc)) as [mo Fm]. rewrite Fm. cbn [bind].
        destruct (fetch_ok dc "displaced_per_flood_day" (flood_default mo) (null_or_map _ _ _ Mc Sc)) as [u Fu]. rewrite Fu. cbn [bind]. eauto.
      - left. split; [|reflexivity]. right. split; [exact SFl|]. split; [|exact ST].
        apply (section_has _ _ _ Sc). intros ->. discriminate Nn. }
    destruct E6 as [[X E6]|[W6 E6]]; rewrite E6; cbn [bind]; [left; auto|].
    destruct (block_ok f _ ds spawn_lines3 Ms Ss) as [W7 ->]; [apply RC; exists 4%nat; reflexivity|reflexivity|]. cbn [bind].
    destruct (fetch_ok f "move_rules" YNull) as [dm Fm]; [apply (null_or_map f []); [apply Sec; cbn; auto|apply section_top]|]. rewrite Fm. cbn [bind].
    pose proof (top_section _ _ _ Fm) as Sm.
    assert (Mm : mapping_or_null f ["move_rules"]) by (apply Sec; cbn; auto).
    destruct (block_ok f _ dm move_lines Mm Sm) as [W8 ->]; [apply RC; exists 5%nat; reflexivity|reflexivity|]. cbn [bind].
    assert (E9 : exists W9, flood_rules_writes dm = Ok W9).
    { unfold flood_rules_writes. destruct (fetch_ok dm "flood_rules" YNull (null_or_map _ _ _ Mm Sm)) as [df Ff]. rewrite Ff. cbn [bind].
      destruct (yml_is_none df); [eauto|].
      destruct (block_ok f ["move_rules"; "flood_rules"] df flood_lines) as [W ->];
        [apply Sec; cbn; auto 10|exact (fetch_sub _ _ _ _ _ Sm Ff)|intros x I; apply flood_rows_convertible; [exact WF|now apply in_map]|reflexivity|].
      cbn [bind]. eauto. }
    destruct E9 as [W9 ->]. cbn [bind].
    destruct (fetch_ok f "optimisations" YNull) as [dn Fo]; [apply (null_or_map f []); [apply Sec; cbn; auto|apply section_top]|]. rewrite Fo. cbn [bind].
    destruct (block_ok f ["optimisations"] dn optimisation_lines) as [W10 ->]; [apply Sec; cbn; auto 10|exact (top_section _ _ _ Fo)|apply RC; exists 6%nat; reflexivity|reflexivity|].
    cbn [bind]. right. eexists; eexists; reflexivity. }
  destruct G as [[X E]|(n & p & E)].
  - left. split; [exact X|]. rewrite read_parts, E. reflexivity.
  - right. assert (R : ReadFromYML f st = Ok (n, apply (all_parts p) st)) by (rewrite read_parts, E; reflexivity).
    split; [exact (NX _ _ R)|]. eauto.
Qed.

(** ** Independence of earlier calls *)

Lemma either_none {A} (a b : option A) : either a b = None <-> a = None /\ b = None.
Proof. destruct a; cbn; intuition congruence. Qed.

(** A key that a successful call does not write *)
Lemma unwritten f n p k : inverted f n p -> lastw k (all_parts p) = None ->
  ~ In k always /\ forall sec, In (k, sec) optional -> ~ sec f.
Proof.
  intros P H. rewrite all_lastw in H. rewrite !either_none in H.
  destruct H as (_ & H10 & H9 & H8 & H7 & H6 & Hr2 & H5 & Hr1 & H4 & H3 & H2 & H1).
  assert (NI : forall W, lastw k W = None -> ~ In k (map fst W)) by (intros W L I; destruct (lastw_in _ _ I) as [v E]; congruence).
  apply NI in H10, H9, H8, H7, H6, Hr2, H5, Hr1, H4, H3, H2, H1.
  rewrite (writes_keys _ _ _ (i_file _ _ _ P)) in H1.
  destruct (i_log _ _ _ P) as (dl & _ & El). rewrite (writes_keys _ _ _ El) in H2.
  destruct (i_spawn _ _ _ P) as (ds & Ss & E3 & E4 & E7 & E5 & E6).
  rewrite (writes_keys _ _ _ E3) in H3. rewrite (writes_keys _ _ _ E4) in H4. rewrite (writes_keys _ _ _ E7) in H7.
  destruct (i_move _ _ _ P) as (dm & Sm & E8 & E9). rewrite (writes_keys _ _ _ E8) in H8.
  destruct (i_opt _ _ _ P) as (dn & _ & E10). rewrite (writes_keys _ _ _ E10) in H10.
  split.
  - intro I. unfold always in I. apply in_app_or in I as [I|I].
    + apply in_map_iff in I as (x & <- & I). apply incl_all in I. unfold all_rows in I. rewrite !in_app_iff in I.
      assert (K : forall pp xs, In x (map (row pp) xs) -> In (st_key x) (map ln_dest xs)).
      { intros pp xs J. apply in_map_iff in J as (y & <- & J). apply in_map_iff. exists y. auto. }
      destruct I as [I|[I|[I|[I|[I|[I|I]]]]]]; apply K in I; auto.
    + cbn in I. destruct I as [<-|[<-|[<-|[<-|[<-|[]]]]]].
      * apply H4. cbn. auto.
      * apply Hr1. cbn. auto.
      * apply Hr1. cbn. auto.
      * apply Hr2. cbn. auto.
      * apply Hr2. cbn. auto.
  - pose proof (flag_switch _ _ _ "spawn_rules.flood_zone_spawning_only" "flood_zone_spawning_only" false P ltac:(cbn; intuition)) as FS.
    intros sec I HS. unfold optional in I. apply in_app_or in I as [I|I].
    + apply in_map_iff in I as (x & E & I). injection E as <- <-. apply filter_In in I as [I _].
      destruct (flood_rules_writes_inv _ _ E9) as [[E F]|(dpf & W1 & F & N & M1 & E)].
      * apply (section_has _ _ _ (fetch_sub _ _ _ _ _ Sm F)) in HS. now apply HS.
      * rewrite E in H9. cbn [map fst In] in H9. rewrite (writes_keys _ _ _ M1) in H9. apply H9. right.
        cbn in I |- *. repeat destruct I as [<-|I]; try easy; cbn; auto 12.
    + assert (CD : forall sec', sec' = (fun f => has_section f ["spawn_rules"; "conflict_driven_spawning"] /\ switched f "flood_zone_spawning_only" false false) -> sec' f -> In k (tl conflict_keys) -> False).
      { intros sec' -> [HA HB] J. destruct (conflict_writes_inv _ _ _ E5) as [[_ [X|F]]|(X & dpsc & mode & w & F & N & _ & _ & E)].
        - rewrite X in FS. eapply switched_excl; eassumption.
        - apply (section_has _ _ _ (fetch_sub _ _ _ _ _ Ss F)) in HA. now apply HA.
        - rewrite E in H5. apply H5. cbn in J |- *. tauto. }
      assert (FD : forall sec', sec' = (fun f => has_section f ["spawn_rules"; "flood_driven_spawning"] /\ switched f "flood_zone_spawning_only" false true) -> sec' f -> In k (tl flood_keys) -> False).
      { intros sec' -> [HA HB] J. destruct (flood_writes_inv _ _ _ _ E6) as [[_ [X|F]]|(X & _ & dpsc & mode & w & F & N & _ & _ & E)].
        - rewrite X in FS. eapply switched_excl; eassumption.
        - apply (section_has _ _ _ (fetch_sub _ _ _ _ _ Ss F)) in HA. now apply HA.
        - rewrite E in H6. apply H6. cbn in J |- *. tauto. }
      cbn [In] in I. destruct I as [I|[I|[I|[I|[]]]]]; injection I as E1 E2; symmetry in E2; subst k.
      * eapply CD; [exact E2|exact HS|cbn; auto].
      * eapply CD; [exact E2|exact HS|cbn; auto].
      * eapply FD; [exact E2|exact HS|cbn; auto].
      * eapply FD; [exact E2|exact HS|cbn; auto].
Qed.

Theorem read_independent f st1 st2 :
  (forall x, ReadFromYML f st1 = Err x -> ReadFromYML f st2 = Err x) /\
  (forall n st1', ReadFromYML f st1 = Ok (n, st1') ->
    exists st2', ReadFromYML f st2 = Ok (n, st2') /\
      (forall k, In k always \/ (exists sec, In (k, sec) optional /\ sec f) -> dict_get k st1' = dict_get k st2') /\
      (forall k, dict_get k st1 = dict_get k st2 -> dict_get k st1' = dict_get k st2')).
Proof.
  rewrite !read_parts. split.
  - intros x. destruct (parts_of f) as [[n p]|y]; cbn [rmap]; [discriminate|]. auto.
  - intros n st1'. destruct (parts_of f) as [[m p]|y] eqn:E; cbn [rmap fst snd]; [|discriminate]. intro H. injection H as <- <-.
    exists (apply (all_parts p) st2). split; [reflexivity|]. split.
    + intros k I. rewrite !get_apply. destruct (lastw k (all_parts p)) eqn:L; [reflexivity|].
      destruct (unwritten _ _ _ _ (parts_inv _ _ _ E) L) as [A B]. destruct I as [I|(sec & I & S)]; [contradiction|].
      exfalso. eapply B; eassumption.
    + intros k G. rewrite !get_apply. now rewrite G.
Qed.

Theorem read_same_settings f st1 st2 n st1' st2' :
  ReadFromYML f st1 = Ok (n, st1') -> ReadFromYML f st2 = Ok (n, st2') ->
  (forall k sec, In (k, sec) optional -> sec f \/ dict_get k st1 = dict_get k st2) ->
  settings_of st1' = settings_of st2'.
Proof.
  intros R1 R2 O. destruct (proj2 (read_independent f st1 st2) _ _ R1) as (s & R & A & B).
  rewrite R2 in R. injection R as <-.
  assert (AL : forall k, mem_str k always = true -> dict_get k st1' = dict_get k st2').
  { intros k M. apply A. left. now apply mem_str_in. }
  assert (OP : forall k, mem_str k (map fst optional) = true -> dict_get k st1' = dict_get k st2').
  { intros k M. apply mem_str_in, in_map_iff in M as ([k' sec] & <- & I). cbn [fst]. destruct (O _ _ I) as [S|G]; [apply A; right; eauto|now apply B]. }
  unfold settings_of, key_or, key.
  repeat match goal with |- context [dict_get ?k st1'] =>
    first [rewrite (AL k) by (vm_compute; reflexivity) | rewrite (OP k) by (vm_compute; reflexivity)] end.
  reflexivity.
Qed.

(** An empty file gives the defaults of the model. *)
Theorem read_empty f st n st' :
  f = YNull \/ f = YMap [] -> (forall k sec, In (k, sec) optional -> dict_get k st = None) ->
  ReadFromYML f st = Ok (n, st') -> settings_of st' = Some default_settings.
Proof.
  intros F O R.
  assert (R0 : exists s0, ReadFromYML f [] = Ok ((-1)%Q, s0) /\ settings_of s0 = Some default_settings).
  { destruct F as [-> | ->]; eexists; (split; [vm_compute; reflexivity|vm_compute; reflexivity]). }
  destruct R0 as (s0 & R0 & E).
  destruct (proj2 (read_independent f [] st) _ _ R0) as (s & R1 & _). rewrite R in R1. injection R1 as Hn Hs. subst s. rewrite Hn in R.
  rewrite <- E. eapply read_same_settings; [exact R|exact R0|]. intros k sec I. right. rewrite (O _ _ I). reflexivity.
Qed.
