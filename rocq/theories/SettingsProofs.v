(** * SettingsProofs: what ReadFromYML does to the dictionaries (C44) *)

From Coq Require Import Qround Lia Lqa.
From Verif Require Import Base State Settings SpecSettings Lemmas CouplingText.
Local Open Scope string_scope.
Local Open Scope list_scope.

(** ** A call of ReadFromYML is a list of assignments that only depends on the file *)

Definition apply (W : list (string * yml)) (st : store) : store :=
  fold_left (fun st kv => dict_set (fst kv) (snd kv) st) W st.

(** The last assignment to a key *)
Fixpoint lastw (k : string) (W : list (string * yml)) : option yml :=
  match W with
  | [] => None
  | (k', v) :: W' => match lastw k W' with
                     | Some w => Some w
                     | None => if String.eqb k k' then Some v else None
                     end
  end.

Lemma get_apply k W : forall st, dict_get k (apply W st) = match lastw k W with Some v => Some v | None => dict_get k st end.
Proof.
  induction W as [|[k' v] W IH]; intro st; [reflexivity|].
  unfold apply in *. cbn [fold_left fst snd lastw]. rewrite IH. destruct (lastw k W); [reflexivity|].
  rewrite get_set. now destruct (String.eqb k k').
Qed.

Lemma apply_app A B st : apply (A ++ B) st = apply B (apply A st).
Proof. unfold apply. apply fold_left_app. Qed.

Lemma lastw_app k A B : lastw k (A ++ B) = match lastw k B with Some v => Some v | None => lastw k A end.
Proof.
  induction A as [|[k' v] A IH]; cbn [app lastw]; [now destruct (lastw k B)|].
  rewrite IH. destruct (lastw k B); [reflexivity|]. reflexivity.
Qed.

Lemma lastw_none k W : ~ In k (map fst W) -> lastw k W = None.
Proof.
  induction W as [|[k' v] W IH]; cbn [map fst In lastw]; intro H; [reflexivity|].
  rewrite IH by intuition. destruct (String.eqb_spec k k'); [subst; exfalso; apply H; now left|reflexivity].
Qed.

Lemma lastw_in k W : In k (map fst W) -> exists v, lastw k W = Some v.
Proof.
  induction W as [|[k' v] W IH]; cbn [map fst In lastw]; [easy|]. intros [->|H].
  - destruct (lastw k W); [eauto|]. rewrite String.eqb_refl. eauto.
  - destruct (IH H) as [w ->]. eauto.
Qed.

Definition write_of (data : yml) (x : line) : res (string * yml) :=
  v <- fetchss data (ln_name x) (ln_default x) ;;
  w <- convert (ln_conv x) v ;;
  Ok (ln_dest x, w).

Lemma assign_write data st x : assign data st x = rmap (fun kv => dict_set (fst kv) (snd kv) st) (write_of data x).
Proof.
  unfold assign, write_of. destruct (fetchss data (ln_name x) (ln_default x)) as [v|]; cbn [bind rmap]; [|reflexivity].
  now destruct (convert (ln_conv x) v).
Qed.

Lemma assign_all_writes data xs : forall st,
  assign_all data xs st = rmap (fun W => apply W st) (mapM (write_of data) xs).
Proof.
  unfold assign_all. induction xs as [|x xs IH]; intro st; cbn [foldM mapM]; [reflexivity|].
  rewrite assign_write. destruct (write_of data x) as [kv|]; cbn [bind rmap]; [|reflexivity].
  rewrite IH. destruct (mapM (write_of data) xs) as [W|]; cbn [bind rmap]; [|reflexivity]. reflexivity.
Qed.

Definition conflict_writes (dps : yml) (flood : bool) : res (list (string * yml)) :=
  if flood then Ok [] else
  dpsc <- fetchss dps "conflict_driven_spawning" YNull ;;
  if yml_is_none dpsc then Ok [] else
  mode <- fetchss dpsc "spawn_mode" (YStr "constant") ;;
  w <- (if yml_is_str "pop_ratio" mode then
          v <- fetchss dpsc "displaced_per_conflict_day" (YFloat (1 # 100)) ;; yml_float v
        else v <- fetchss dpsc "displaced_per_conflict_day" (YInt 500) ;; yml_int v) ;;
  Ok [("spawn_rules.conflict_driven_spawning", YBool true); ("spawn_rules.conflict_spawn_mode", mode);
      ("spawn_rules.displaced_per_conflict_day", w)].

Lemma conflict_section_writes dps flood st :
  conflict_section dps flood st = rmap (fun W => apply W st) (conflict_writes dps flood).
Proof.
  unfold conflict_section, conflict_writes. destruct flood; [reflexivity|].
  destruct (fetchss dps "conflict_driven_spawning" YNull) as [dpsc|]; cbn [bind rmap]; [|reflexivity].
  destruct (yml_is_none dpsc); [reflexivity|]. unfold assign. cbn [ln_name ln_default ln_conv ln_dest convert].
  destruct (fetchss dpsc "spawn_mode" (YStr "constant")) as [mode|]; cbn [bind rmap]; [|reflexivity].
  unfold get_key. rewrite get_set. rewrite String.eqb_refl. cbn [of_option bind].
  destruct (yml_is_str "pop_ratio" mode).
  - destruct (fetchss dpsc "displaced_per_conflict_day" (YFloat (1 # 100))) as [v|]; cbn [bind rmap]; [|reflexivity].
    destruct (yml_float v); reflexivity.
  - destruct (fetchss dpsc "displaced_per_conflict_day" (YInt 500)) as [v|]; cbn [bind rmap]; [|reflexivity].
    destruct (yml_int v); reflexivity.
Qed.

Definition flood_default (mode : yml) : yml :=
  if yml_is_str "pop_ratio" mode
  then YList [YFloat 0; YFloat (1 # 10); YFloat (2 # 10); YFloat (5 # 10); YFloat (9 # 10)]
  else YList [YInt 0; YInt 100; YInt 200; YInt 300; YInt 500].

Definition flood_writes (dps : yml) (flood take : bool) : res (list (string * yml)) :=
  if flood then
    dpsc <- fetchss dps "flood_driven_spawning" YNull ;;
    if yml_is_none dpsc then Ok [] else
    if negb take then Err SystemExit else
    mode <- fetchss dpsc "spawn_mode" (YStr "pop_ratio") ;;
    w <- fetchss dpsc "displaced_per_flood_day" (flood_default mode) ;;
    Ok [("move_rules.FloodRulesEnabled", YBool true); ("spawn_rules.flood_driven_spawning", YBool true);
        ("spawn_rules.flood_spawn_mode", mode); ("spawn_rules.displaced_per_flood_day", w)]
  else Ok [].

Lemma flood_section_writes dps flood take st :
  dict_get "spawn_rules.TakeFromPopulation" st = Some (YBool take) ->
  dict_get "move_rules.FloodForecaster" st = Some (YBool false) ->
  flood_section dps flood st = rmap (fun W => apply W st) (flood_writes dps flood take).
Proof.
  intros T F. unfold flood_section, flood_writes. destruct flood; [|reflexivity].
  destruct (fetchss dps "flood_driven_spawning" YNull) as [dpsc|]; cbn [bind rmap]; [|reflexivity].
  destruct (yml_is_none dpsc); [reflexivity|]. unfold get_key at 1. rewrite get_set. cbn [String.eqb Ascii.eqb Bool.eqb].
  change (String.eqb _ _) with false. cbv iota. rewrite T. cbn [of_option bind].
  destruct take; cbn [yml_is_true negb]; [|reflexivity]. unfold assign. cbn [ln_name ln_default ln_conv ln_dest convert].
  destruct (fetchss dpsc "spawn_mode" (YStr "pop_ratio")) as [mode|]; cbn [bind rmap]; [|reflexivity].
  unfold get_key at 1. rewrite get_set, String.eqb_refl. cbn [of_option bind]. unfold flood_default.
  destruct (yml_is_str "pop_ratio" mode).
  - destruct (fetchss dpsc "displaced_per_flood_day" _) as [v|]; cbn [bind rmap]; [|reflexivity].
    unfold get_key. rewrite !get_set.
    repeat match goal with |- context [String.eqb ?a ?b] => change (String.eqb a b) with false end.
    cbv iota. rewrite F. reflexivity.
  - destruct (fetchss dpsc "displaced_per_flood_day" _) as [v|]; cbn [bind rmap]; [|reflexivity].
    unfold get_key. rewrite !get_set.
    repeat match goal with |- context [String.eqb ?a ?b] => change (String.eqb a b) with false end.
    cbv iota. rewrite F. reflexivity.
Qed.

Definition flood_rules_writes (dpr : yml) : res (list (string * yml)) :=
  dpf <- fetchss dpr "flood_rules" YNull ;;
  if yml_is_none dpf then Ok [] else
  W <- mapM (write_of dpf) flood_lines ;; Ok (("move_rules.FloodRulesEnabled", YBool true) :: W).

Lemma flood_rules_section_writes dpr st :
  flood_rules_section dpr st = rmap (fun W => apply W st) (flood_rules_writes dpr).
Proof.
  unfold flood_rules_section, flood_rules_writes.
  destruct (fetchss dpr "flood_rules" YNull) as [dpf|]; cbn [bind rmap]; [|reflexivity].
  destruct (yml_is_none dpf); [reflexivity|]. rewrite assign_all_writes.
  destruct (mapM (write_of dpf) flood_lines); reflexivity.
Qed.

Definition v1_writes (v1 : bool) : list (string * yml) := if v1 then v1_values else [].

Lemma v1_rules_writes b st : dict_get "UseV1Rules" st = Some (YBool b) -> v1_rules st = Ok (apply (v1_writes b) st).
Proof. intro H. unfold v1_rules, get_key. rewrite H. cbn [of_option bind]. destruct b; reflexivity. Qed.

(** The assignments of a whole call *)
Record parts : Type := Parts {
  p_file : list (string * yml); p_log : list (string * yml); p_spawn1 : list (string * yml);
  p_spawn2 : list (string * yml); p_conflict : list (string * yml); p_flood : list (string * yml);
  p_spawn3 : list (string * yml); p_move : list (string * yml); p_rules : list (string * yml);
  p_opt : list (string * yml); p_v1 : list (string * yml) }.

Definition resets1 : list (string * yml) :=
  [("spawn_rules.conflict_driven_spawning", YBool false); ("spawn_rules.flood_driven_spawning", YBool false)].
Definition resets2 : list (string * yml) :=
  [("move_rules.FloodRulesEnabled", YBool false); ("spawn_rules.flood_driven_spawning", YBool false);
   ("move_rules.FloodForecaster", YBool false); ("move_rules.flood_forecaster_timescale", YInt 0)].

Definition all_parts (p : parts) : list (string * yml) :=
  p_file p ++ p_log p ++ p_spawn1 p ++ p_spawn2 p ++ resets1 ++ p_conflict p ++ resets2 ++ p_flood p ++
  p_spawn3 p ++ p_move p ++ p_rules p ++ p_opt p ++ p_v1 p.

Definition flag (k : string) (W : list (string * yml)) : bool :=
  match lastw k W with Some v => yml_is_true v | None => false end.

Definition parts_of (dp : yml) : res (Q * parts) :=
  v <- fetchss dp "number_of_steps" (YInt (-1)) ;;
  steps <- yml_float v ;;
  W1 <- mapM (write_of dp) file_lines ;;
  dpll <- fetchss dp "log_levels" YNull ;;
  W2 <- mapM (write_of dpll) log_lines ;;
  dps <- fetchss dp "spawn_rules" YNull ;;
  W3 <- mapM (write_of dps) spawn_lines1 ;;
  let flood := flag "spawn_rules.flood_zone_spawning_only" W3 in
  if (flag "spawn_rules.conflict_zone_spawning_only" W3 && flood)%bool then Err SystemExit else
  W4 <- mapM (write_of dps) spawn_lines2 ;;
  W5 <- conflict_writes dps flood ;;
  W6 <- flood_writes dps flood (flag "spawn_rules.TakeFromPopulation" W3) ;;
  W7 <- mapM (write_of dps) spawn_lines3 ;;
  dpr <- fetchss dp "move_rules" YNull ;;
  W8 <- mapM (write_of dpr) move_lines ;;
  W9 <- flood_rules_writes dpr ;;
  dpo <- fetchss dp "optimisations" YNull ;;
  W10 <- mapM (write_of dpo) optimisation_lines ;;
  Ok (match steps with YFloat q => q | _ => 0%Q end,
      Parts W1 W2 W3 W4 W5 W6 W7 W8 W9 W10 (v1_writes (flag "UseV1Rules" W8))).

Lemma writes_keys data xs W : mapM (write_of data) xs = Ok W -> map fst W = map ln_dest xs.
Proof.
  revert W; induction xs as [|x xs IH]; intros W H; cbn [mapM] in H; [now injection H as <-|].
  destruct (write_of data x) as [[k v]|] eqn:E; [|discriminate H]. cbn [bind] in H.
  destruct (mapM (write_of data) xs) as [W'|] eqn:E2; [|discriminate H]. cbn [bind] in H. injection H as <-.
  cbn [map fst]. rewrite (IH _ eq_refl). f_equal. unfold write_of in E.
  destruct (fetchss _ _ _); [|discriminate E]. cbn [bind] in E. destruct (convert _ _); [|discriminate E]. cbn [bind] in E.
  now injection E as <- _.
Qed.

(** The value written for a line, when no later line of the block has the same key *)
Lemma writes_get data xs W x :
  mapM (write_of data) xs = Ok W -> NoDup (map ln_dest xs) -> In x xs ->
  exists v w, fetchss data (ln_name x) (ln_default x) = Ok v /\ convert (ln_conv x) v = Ok w /\
              lastw (ln_dest x) W = Some w.
Proof.
  revert W; induction xs as [|y xs IH]; intros W H N I; [easy|]. cbn [mapM] in H.
  destruct (write_of data y) as [[k v]|] eqn:E; [|discriminate H]. cbn [bind] in H.
  destruct (mapM (write_of data) xs) as [W'|] eqn:E2; [|discriminate H]. cbn [bind] in H. injection H as <-.
  inversion N as [|? ? N1 N2]; subst. cbn [lastw]. destruct I as [->|I].
  - unfold write_of in E. destruct (fetchss _ _ _) as [a|] eqn:Ef; [|discriminate E]. cbn [bind] in E.
    destruct (convert _ _) as [w|] eqn:Ec; [|discriminate E]. cbn [bind] in E. injection E as <- <-.
    exists a, w. repeat split; auto. rewrite lastw_none; [now rewrite String.eqb_refl|].
    now rewrite (writes_keys _ _ _ E2).
  - destruct (IH _ eq_refl N2 I) as (a & w & A & B & C). exists a, w. repeat split; auto. now rewrite C.
Qed.

Fixpoint nodupb (l : list string) : bool :=
  match l with [] => true | a :: l' => (negb (mem_str a l') && nodupb l')%bool end.
Lemma mem_str_in a l : mem_str a l = true <-> In a l.
Proof.
  unfold mem_str. rewrite existsb_exists. split.
  - intros (x & I & E). apply String.eqb_eq in E. now subst.
  - intro I. exists a. split; [exact I|apply String.eqb_refl].
Qed.
Lemma nodupb_ok l : nodupb l = true -> NoDup l.
Proof.
  induction l as [|a l IH]; cbn [nodupb]; [constructor|]. rewrite andb_true_iff, negb_true_iff. intros [A B].
  constructor; [|auto]. intro I. apply mem_str_in in I. congruence.
Qed.

Lemma bool_line data xs W k n d :
  mapM (write_of data) xs = Ok W -> nodupb (map ln_dest xs) = true -> In (Line k KBool n d) xs ->
  lastw k W = Some (YBool (flag k W)).
Proof.
  intros H N I. destruct (writes_get _ _ _ _ H (nodupb_ok _ N) I) as (v & w & F & C & L). cbn in C, L. injection C as <-.
  unfold flag. rewrite L. now destruct (yml_bool v).
Qed.

Lemma lastw_keys_none k W keys : map fst W = keys -> mem_str k keys = false -> lastw k W = None.
Proof. intros <- M. apply lastw_none. intro I. apply mem_str_in in I. congruence. Qed.

Theorem read_parts dp st :
  ReadFromYML dp st = rmap (fun nq => (fst nq, apply (all_parts (snd nq)) st)) (parts_of dp).
Proof.
  unfold ReadFromYML, parts_of.
  destruct (fetchss dp "number_of_steps" (YInt (-1))) as [v|]; cbn [bind rmap]; [|reflexivity].
  destruct (yml_float v) as [steps|]; cbn [bind rmap]; [|reflexivity].
  rewrite assign_all_writes. destruct (mapM (write_of dp) file_lines) as [W1|] eqn:E1; cbn [bind rmap]; [|reflexivity].
  destruct (fetchss dp "log_levels" YNull) as [dpll|]; cbn [bind rmap]; [|reflexivity].
  rewrite assign_all_writes. destruct (mapM (write_of dpll) log_lines) as [W2|] eqn:E2; cbn [bind rmap]; [|reflexivity].
  destruct (fetchss dp "spawn_rules" YNull) as [dps|]; cbn [bind rmap]; [|reflexivity].
  rewrite assign_all_writes. destruct (mapM (write_of dps) spawn_lines1) as [W3|] eqn:E3; cbn [bind rmap]; [|reflexivity].
  pose proof (bool_line _ _ _ "spawn_rules.conflict_zone_spawning_only" _ _ E3 eq_refl ltac:(cbn; intuition)) as B1.
  pose proof (bool_line _ _ _ "spawn_rules.flood_zone_spawning_only" _ _ E3 eq_refl ltac:(cbn; intuition)) as B2.
  pose proof (bool_line _ _ _ "spawn_rules.TakeFromPopulation" _ _ E3 eq_refl ltac:(cbn; intuition)) as B3.
  unfold get_key. rewrite !get_apply, B1, B2. cbn [of_option bind].
  assert (T : forall b, yml_is_true (YBool b) = b) by (now destruct b). rewrite !T.
  destruct (_ && _)%bool; [reflexivity|].
  rewrite assign_all_writes. destruct (mapM (write_of dps) spawn_lines2) as [W4|] eqn:E4; cbn [bind rmap]; [|reflexivity].
  rewrite conflict_section_writes.
  destruct (conflict_writes dps _) as [W5|] eqn:E5; cbn [bind rmap]; [|reflexivity].
  rewrite (flood_section_writes dps _ (flag "spawn_rules.TakeFromPopulation" W3)).
  2:{ rewrite !get_set. repeat match goal with |- context [String.eqb ?a ?b] => change (String.eqb a b) with false end. cbv iota.
      rewrite get_apply.
      assert (N5 : lastw "spawn_rules.TakeFromPopulation" W5 = None).
      { unfold conflict_writes in E5. destruct (flag "spawn_rules.flood_zone_spawning_only" W3); [now injection E5 as <-|].
        destruct (fetchss dps "conflict_driven_spawning" YNull) as [x|]; cbn [bind] in E5; [|discriminate E5].
        destruct (yml_is_none x); [now injection E5 as <-|].
        destruct (fetchss x "spawn_mode" _) as [m|]; cbn [bind] in E5; [|discriminate E5].
        match type of E5 with bind ?c _ = _ => destruct c as [w|]; cbn [bind] in E5; [|discriminate E5] end.
        injection E5 as <-. reflexivity. }
      rewrite N5, !get_set. repeat match goal with |- context [String.eqb ?a ?b] => change (String.eqb a b) with false end. cbv iota.
      rewrite get_apply, (lastw_keys_none "spawn_rules.TakeFromPopulation" _ _ (writes_keys _ _ _ E4) eq_refl), get_apply. now rewrite B3. }
  2:{ rewrite !get_set. repeat match goal with |- context [String.eqb ?a ?b] => let x := eval vm_compute in (String.eqb a b) in change (String.eqb a b) with x end. reflexivity. }
  destruct (flood_writes dps _ _) as [W6|] eqn:E6; cbn [bind rmap]; [|reflexivity].
  rewrite assign_all_writes. destruct (mapM (write_of dps) spawn_lines3) as [W7|] eqn:E7; cbn [bind rmap]; [|reflexivity].
  destruct (fetchss dp "move_rules" YNull) as [dpr|]; cbn [bind rmap]; [|reflexivity].
  rewrite assign_all_writes. destruct (mapM (write_of dpr) move_lines) as [W8|] eqn:E8; cbn [bind rmap]; [|reflexivity].
  rewrite flood_rules_section_writes. destruct (flood_rules_writes dpr) as [W9|] eqn:E9; cbn [bind rmap]; [|reflexivity].
  destruct (fetchss dp "optimisations" YNull) as [dpo|]; cbn [bind rmap]; [|reflexivity].
  rewrite assign_all_writes. destruct (mapM (write_of dpo) optimisation_lines) as [W10|] eqn:E10; cbn [bind rmap]; [|reflexivity].
  rewrite (v1_rules_writes (flag "UseV1Rules" W8)).
  2:{ rewrite get_apply, (lastw_keys_none "UseV1Rules" _ _ (writes_keys _ _ _ E10) eq_refl), get_apply.
      assert (N9 : lastw "UseV1Rules" W9 = None).
      { unfold flood_rules_writes in E9. destruct (fetchss dpr "flood_rules" YNull) as [x|]; cbn [bind] in E9; [|discriminate E9].
        destruct (yml_is_none x); [now injection E9 as <-|].
        destruct (mapM (write_of x) flood_lines) as [W|] eqn:E; cbn [bind] in E9; [|discriminate E9]. injection E9 as <-.
        apply lastw_none. cbn [map fst]. rewrite (writes_keys _ _ _ E). intro I. apply mem_str_in in I. discriminate I. }
      rewrite N9, get_apply.
      now rewrite (bool_line _ _ _ "UseV1Rules" "use_v1_rules" (YBool false) E8 eq_refl ltac:(cbn; intuition)). }
  cbn [bind rmap fst snd]. do 2 f_equal. unfold all_parts. cbn [p_file p_log p_spawn1 p_spawn2 p_conflict p_flood p_spawn3 p_move p_rules p_opt p_v1].
  rewrite !apply_app. reflexivity.
Qed.
