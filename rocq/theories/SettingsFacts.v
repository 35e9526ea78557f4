(** * SettingsFacts: values, sections, exclusions and independence of settings files (C44) *)

From Coq Require Import Qround Lia Lqa.
From Verif Require Import Base State Settings SpecSettings Lemmas CouplingText SettingsProofs.
Local Open Scope string_scope.
Local Open Scope list_scope.

(** ** Paths *)

Lemma gives_fun f p v : gives f p v -> forall w, gives f p w -> v = w.
Proof.
  induction 1 as [v|d k v p w D G IH]; intros u H; inversion H; subst; [reflexivity|].
  match goal with X : dict_get _ d = Some ?a |- _ => rewrite D in X; injection X as <- end. auto.
Qed.

Lemma gives_app f p q v : gives f (p ++ q) v <-> exists d, gives f p d /\ gives d q v.
Proof.
  revert f; induction p as [|k p IH]; intro f; cbn [app].
  - split; [intro H; exists f; split; [constructor|exact H]|]. intros (d & A & B). inversion A; subst. exact B.
  - split.
    + intro H. inversion H; subst. match goal with X : gives _ (p ++ q) _ |- _ => apply IH in X; destruct X as (d' & A & B) end.
      exists d'. split; [econstructor; eassumption|exact B].
    + intros (d & A & B). inversion A; subst. econstructor; [eassumption|]. apply IH. eauto.
Qed.

Lemma gives_or_missing f p : (exists v, gives f p v) \/ missing f p.
Proof.
  revert f; induction p as [|k p IH]; intro f; [left; exists f; constructor|].
  destruct f as [| | | | | |d]; try (right; intros v H; now inversion H).
  destruct (dict_get k d) as [v|] eqn:D.
  - destruct (IH v) as [[w G]|M]; [left; exists w; econstructor; eassumption|].
    right. intros w H. inversion H; subst. match goal with X : dict_get k d = Some ?a |- _ => rewrite D in X; injection X as <- end.
    eapply M; eassumption.
  - right. intros w H. inversion H; subst. congruence.
Qed.

(** The section that the code works with *)
Definition section (f : yml) (p : list string) (d : yml) : Prop := gives f p d \/ (missing f p /\ d = YNull).

Lemma section_top f : section f [] f.
Proof. left. constructor. Qed.

Lemma fetch_section f p d n def v :
  section f p d -> fetchss d n def = Ok v ->
  gives f (p ++ [n]) v \/ (missing f (p ++ [n]) /\ v = def).
Proof.
  intros [G|[M ->]] F.
  - assert (X : gives d [n] v \/ (missing d [n] /\ v = def)).
    { destruct d as [| | | |s|l|m]; cbn [fetchss] in F; try discriminate F.
      - injection F as <-. right. split; [|reflexivity]. intros w H. now inversion H.
      - destruct (str_in n s); [discriminate F|]. injection F as <-. right. split; [|reflexivity]. intros w H. now inversion H.
      - destruct (existsb _ l); [discriminate F|]. injection F as <-. right. split; [|reflexivity]. intros w H. now inversion H.
      - destruct (dict_get n m) as [u|] eqn:D; injection F as <-.
        + left. econstructor; [exact D|constructor].
        + right. split; [|reflexivity]. intros w H. inversion H; subst. congruence. }
    destruct X as [X|[X ->]]; [left; apply gives_app; eauto|right; split; [|reflexivity]].
    intros w H. apply gives_app in H as (d' & A & B). rewrite (gives_fun _ _ _ A _ G) in B. eapply X; eassumption.
  - cbn [fetchss] in F. injection F as <-. right. split; [|reflexivity].
    intros w H. apply gives_app in H as (d' & A & B). eapply M; eassumption.
Qed.

Lemma fetch_sub f p d n v : section f p d -> fetchss d n YNull = Ok v -> section f (p ++ [n]) v.
Proof. intros S F. exact (fetch_section _ _ _ _ _ _ S F). Qed.

(** ** Conversions *)

Lemma trunc_spec q : truncates q (Qtrunc q).
Proof.
  unfold truncates, Qtrunc. destruct q as [n d]. cbn [Qnum Qden]. unfold Qminus, Qopp, Qplus, Qle, Qlt, inject_Z. cbn [Qnum Qden].
  pose proof (Z.quot_rem' n (Zpos d)) as E.
  split; intro H.
  - assert (Hn : (0 <= n)%Z) by lia. pose proof (Z.rem_bound_pos n (Zpos d) Hn ltac:(lia)). lia.
  - assert (Hn : (n <= 0)%Z) by lia. pose proof (Z.rem_bound_pos (- n) (Zpos d) ltac:(lia) ltac:(lia)) as X. rewrite Z.rem_opp_l in X by lia. generalize dependent (Z.rem n (Zpos d)). generalize (Z.quot n (Zpos d)). intros a b E X. cbn [Pos.mul]. nia.
Qed.

Lemma truncates_fun q a b : truncates q a -> truncates q b -> a = b.
Proof.
  intros [A1 A2] [B1 B2]. destruct (Qlt_le_dec q 0) as [L|L].
  - destruct (A2 (Qlt_le_weak _ _ L)) as [A3 A4]. destruct (B2 (Qlt_le_weak _ _ L)) as [B3 B4].
    assert (X : (inject_Z a - 1 < inject_Z b)%Q) by lra. assert (Y : (inject_Z b - 1 < inject_Z a)%Q) by lra.
    unfold Qlt, Qminus, Qplus, Qopp, inject_Z in X, Y. cbn [Qnum Qden] in X, Y. lia.
  - destruct (A1 L) as [A3 A4]. destruct (B1 L) as [B3 B4].
    assert (X : (inject_Z a < inject_Z b + 1)%Q) by lra. assert (Y : (inject_Z b < inject_Z a + 1)%Q) by lra.
    unfold Qlt, Qplus, inject_Z in X, Y. cbn [Qnum Qden] in X, Y. lia.
Qed.

Lemma bool_reads v : reads_as KBool v (YBool (yml_bool v)).
Proof.
  destruct v as [|b|z|q|s|l|d]; cbn [yml_bool].
  - apply bool_false. cbn. auto.
  - destruct b; [apply bool_true; [cbn; intuition congruence|intros; discriminate]|apply bool_false; cbn; auto].
  - destruct (Z.eqb_spec z 0) as [->|N]; cbn [negb]; [apply bool_false; cbn; auto|].
    apply bool_true; [cbn; intuition congruence|intros; discriminate].
  - unfold Qeqb. destruct (Qeq_bool q 0) eqn:E; cbn [negb]; [apply bool_zero; now apply Qeq_bool_iff|].
    apply bool_true; [cbn; intuition congruence|]. intros q' X. injection X as <-. now apply Qeq_bool_neq.
  - destruct (String.eqb_spec s "") as [->|N]; cbn [negb]; [apply bool_false; cbn; auto|].
    apply bool_true; [cbn; intuition congruence|intros; discriminate].
  - destruct l; [apply bool_false; cbn; intuition|apply bool_true; [cbn; intuition congruence|intros; discriminate]].
  - destruct d; [apply bool_false; cbn; intuition|apply bool_true; [cbn; intuition congruence|intros; discriminate]].
Qed.

Lemma convert_reads k v w : convert k v = Ok w <-> reads_as k v w.
Proof.
  split.
  - destruct k; cbn [convert]; intro H.
    + destruct v as [|b|z|q|s|l|d]; cbn [yml_int] in H; try discriminate H.
      * injection H as <-. destruct b; constructor.
      * injection H as <-. constructor.
      * injection H as <-. constructor. apply trunc_spec.
      * destruct (parse_Z s) eqn:E; cbn in H; [|discriminate H]. injection H as <-. now constructor.
    + destruct v as [|b|z|q|s|l|d]; cbn [yml_float] in H; try discriminate H.
      * injection H as <-. destruct b; constructor.
      * injection H as <-. constructor.
      * injection H as <-. constructor.
      * destruct (parse_Q s) eqn:E; cbn in H; [|discriminate H]. injection H as <-. now constructor.
    + injection H as <-. apply bool_reads.
    + injection H as <-. constructor.
  - intro H. destruct H; cbn [convert yml_int yml_float]; try reflexivity.
    + do 2 f_equal. eapply truncates_fun; [apply trunc_spec|eassumption].
    + now rewrite H.
    + now rewrite H.
    + cbn in H. repeat destruct H as [<-|H]; try reflexivity. easy.
    + cbn [yml_bool]. unfold Qeqb. apply Qeq_bool_iff in H. now rewrite H.
    + pose proof (bool_reads v) as B. destruct (yml_bool v) eqn:E; [reflexivity|]. exfalso.
      inversion B; subst; [contradiction|]. eapply H0; [reflexivity|assumption].
Qed.

Lemma configured_fun f x v w : configured f x v -> configured f x w -> v = w.
Proof.
  intros (a & A & RA) (b & B & RB). assert (a = b).
  { destruct A as [A|[MA ->]], B as [B|[MB ->]]; [eapply gives_fun; eassumption|exfalso; eapply MB; eassumption|exfalso; eapply MA; eassumption|reflexivity]. }
  subst. apply convert_reads in RA, RB. congruence.
Qed.

Lemma block_value f p data xs W k c n d :
  section f p data -> mapM (write_of data) xs = Ok W -> nodupb (map ln_dest xs) = true -> In (Line k c n d) xs ->
  exists w, lastw k W = Some w /\ forall name, configured f (Setting name (p ++ [n]) c d) w.
Proof.
  intros S H N I. destruct (writes_get _ _ _ _ H (nodupb_ok _ N) I) as (v & w & F & C & L). cbn [ln_name ln_default ln_conv ln_dest] in *.
  exists w. split; [exact L|]. intro name. exists v. split; [exact (fetch_section _ _ _ _ _ _ S F)|]. now apply convert_reads.
Qed.

(** ** The parts of a successful call *)

Definition conflict_keys : list string :=
  ["spawn_rules.conflict_driven_spawning"; "spawn_rules.conflict_spawn_mode"; "spawn_rules.displaced_per_conflict_day"].
Definition flood_keys : list string :=
  ["move_rules.FloodRulesEnabled"; "spawn_rules.flood_driven_spawning"; "spawn_rules.flood_spawn_mode";
   "spawn_rules.displaced_per_flood_day"].
Definition rules_keys : list string := "move_rules.FloodRulesEnabled" :: map ln_dest flood_lines.

Lemma conflict_writes_inv dps flood W :
  conflict_writes dps flood = Ok W ->
  W = [] /\ (flood = true \/ fetchss dps "conflict_driven_spawning" YNull = Ok YNull) \/
  flood = false /\ exists dpsc mode w, fetchss dps "conflict_driven_spawning" YNull = Ok dpsc /\ dpsc <> YNull /\
    fetchss dpsc "spawn_mode" (YStr "constant") = Ok mode /\
    (mode = YStr "pop_ratio" /\ (exists v, fetchss dpsc "displaced_per_conflict_day" (YFloat (1 # 100)) = Ok v /\ convert KFloat v = Ok w) \/
     mode <> YStr "pop_ratio" /\ (exists v, fetchss dpsc "displaced_per_conflict_day" (YInt 500) = Ok v /\ convert KInt v = Ok w)) /\
    W = [("spawn_rules.conflict_driven_spawning", YBool true); ("spawn_rules.conflict_spawn_mode", mode);
         ("spawn_rules.displaced_per_conflict_day", w)].
Proof.
  unfold conflict_writes. destruct flood; [intro H; injection H as <-; left; split; auto|].
  destruct (fetchss dps "conflict_driven_spawning" YNull) as [dpsc|] eqn:E1; [|discriminate]. cbn [bind]. intro H.
  destruct (yml_is_none dpsc) eqn:E2.
  - injection H as <-. left. split; [reflexivity|]. right. destruct dpsc; try discriminate E2. reflexivity.
  - destruct (fetchss dpsc "spawn_mode" (YStr "constant")) as [mode|] eqn:E3; [|discriminate H]. cbn [bind] in H.
    right. split; [reflexivity|]. exists dpsc, mode.
    assert (N : dpsc <> YNull) by (intros ->; discriminate E2).
    destruct (yml_is_str "pop_ratio" mode) eqn:E4.
    + assert (M : mode = YStr "pop_ratio").
      { destruct mode; try discriminate E4. cbn [yml_is_str] in E4. apply String.eqb_eq in E4. now subst. }
      destruct (fetchss dpsc "displaced_per_conflict_day" (YFloat (1 # 100))) as [v|] eqn:E5; [|discriminate H]. cbn [bind] in H.
      destruct (yml_float v) as [w|] eqn:E6; [|discriminate H]. cbn [bind] in H. injection H as <-. exists w.
      repeat split; auto. left. split; [exact M|]. exists v. auto.
    + assert (M : mode <> YStr "pop_ratio") by (intros ->; discriminate E4).
      destruct (fetchss dpsc "displaced_per_conflict_day" (YInt 500)) as [v|] eqn:E5; [|discriminate H]. cbn [bind] in H.
      destruct (yml_int v) as [w|] eqn:E6; [|discriminate H]. cbn [bind] in H. injection H as <-. exists w.
      repeat split; auto. right. split; [exact M|]. exists v. auto.
Qed.

Lemma flood_writes_inv dps flood take W :
  flood_writes dps flood take = Ok W ->
  W = [] /\ (flood = false \/ fetchss dps "flood_driven_spawning" YNull = Ok YNull) \/
  flood = true /\ take = true /\ exists dpsc mode w, fetchss dps "flood_driven_spawning" YNull = Ok dpsc /\ dpsc <> YNull /\
    fetchss dpsc "spawn_mode" (YStr "pop_ratio") = Ok mode /\
    fetchss dpsc "displaced_per_flood_day" (flood_default mode) = Ok w /\
    W = [("move_rules.FloodRulesEnabled", YBool true); ("spawn_rules.flood_driven_spawning", YBool true);
         ("spawn_rules.flood_spawn_mode", mode); ("spawn_rules.displaced_per_flood_day", w)].
Proof.
  unfold flood_writes. destruct flood; [|intro H; injection H as <-; left; split; auto].
  destruct (fetchss dps "flood_driven_spawning" YNull) as [dpsc|] eqn:E1; [|discriminate]. cbn [bind]. intro H.
  destruct (yml_is_none dpsc) eqn:E2.
  - injection H as <-. left. split; [reflexivity|]. right. destruct dpsc; try discriminate E2. reflexivity.
  - assert (N : dpsc <> YNull) by (intros ->; discriminate E2).
    destruct take; cbn [negb] in H; [|discriminate H].
    destruct (fetchss dpsc "spawn_mode" (YStr "pop_ratio")) as [mode|] eqn:E3; [|discriminate H]. cbn [bind] in H.
    destruct (fetchss dpsc "displaced_per_flood_day" (flood_default mode)) as [w|] eqn:E5; [|discriminate H]. cbn [bind] in H.
    injection H as <-. right. split; [reflexivity|]. split; [reflexivity|]. exists dpsc, mode, w. auto.
Qed.

Lemma flood_rules_writes_inv dpr W :
  flood_rules_writes dpr = Ok W ->
  W = [] /\ fetchss dpr "flood_rules" YNull = Ok YNull \/
  exists dpf W1, fetchss dpr "flood_rules" YNull = Ok dpf /\ dpf <> YNull /\ mapM (write_of dpf) flood_lines = Ok W1 /\
    W = ("move_rules.FloodRulesEnabled", YBool true) :: W1.
Proof.
  unfold flood_rules_writes. destruct (fetchss dpr "flood_rules" YNull) as [dpf|] eqn:E1; [|discriminate]. cbn [bind]. intro H.
  destruct (yml_is_none dpf) eqn:E2.
  - injection H as <-. left. split; [reflexivity|]. destruct dpf; try discriminate E2. reflexivity.
  - assert (N : dpf <> YNull) by (intros ->; discriminate E2).
    destruct (mapM (write_of dpf) flood_lines) as [W1|] eqn:E3; [|discriminate H]. cbn [bind] in H. injection H as <-.
    right. exists dpf, W1. auto.
Qed.

Record inverted (dp : yml) (n : Q) (p : parts) : Prop := Inverted {
  i_steps : exists v, fetchss dp "number_of_steps" (YInt (-1)) = Ok v /\ convert KFloat v = Ok (YFloat n);
  i_file : mapM (write_of dp) file_lines = Ok (p_file p);
  i_log : exists d, section dp ["log_levels"] d /\ mapM (write_of d) log_lines = Ok (p_log p);
  i_spawn : exists d, section dp ["spawn_rules"] d /\ mapM (write_of d) spawn_lines1 = Ok (p_spawn1 p) /\
     mapM (write_of d) spawn_lines2 = Ok (p_spawn2 p) /\ mapM (write_of d) spawn_lines3 = Ok (p_spawn3 p) /\
     conflict_writes d (flag "spawn_rules.flood_zone_spawning_only" (p_spawn1 p)) = Ok (p_conflict p) /\
     flood_writes d (flag "spawn_rules.flood_zone_spawning_only" (p_spawn1 p))
                    (flag "spawn_rules.TakeFromPopulation" (p_spawn1 p)) = Ok (p_flood p);
  i_excl : (flag "spawn_rules.conflict_zone_spawning_only" (p_spawn1 p) &&
            flag "spawn_rules.flood_zone_spawning_only" (p_spawn1 p))%bool = false;
  i_move : exists d, section dp ["move_rules"] d /\ mapM (write_of d) move_lines = Ok (p_move p) /\
     flood_rules_writes d = Ok (p_rules p);
  i_opt : exists d, section dp ["optimisations"] d /\ mapM (write_of d) optimisation_lines = Ok (p_opt p);
  i_v1 : p_v1 p = v1_writes (flag "UseV1Rules" (p_move p)) }.

Lemma top_section dp k d : fetchss dp k YNull = Ok d -> section dp [k] d.
Proof. exact (fetch_sub dp [] dp k d (section_top dp)). Qed.

Lemma parts_inv dp n p : parts_of dp = Ok (n, p) -> inverted dp n p.
Proof.
  unfold parts_of. intro H. rstep H. rstep H. rstep H. rstep H. rstep H. rstep H. rstep H. cbv zeta in H.
  match type of H with (if ?c then _ else _) = _ => destruct c eqn:X; [discriminate H|] end.
  rstep H. rstep H. rstep H. rstep H. rstep H. rstep H. rstep H. rstep H. rstep H. injection H as <- <-.
  constructor; cbn [p_file p_log p_spawn1 p_spawn2 p_conflict p_flood p_spawn3 p_move p_rules p_opt p_v1]; auto.
  - eexists; split; [eassumption|]. cbn [convert]. match goal with Y : yml_float ?u = Ok _ |- _ => rename Y into Y1; rename u into a end.
    rewrite Y1. f_equal. destruct a as [| | | |s| | ]; cbn in Y1; try discriminate Y1; try (injection Y1 as <-; reflexivity).
    destruct (parse_Q s); cbn in Y1; [|discriminate Y1]. now injection Y1 as <-.
  - eexists; split; [eapply top_section; eassumption|assumption].
  - eexists; split; [eapply top_section; eassumption|auto].
  - eexists; split; [eapply top_section; eassumption|auto].
  - eexists; split; [eapply top_section; eassumption|assumption].
Qed.
