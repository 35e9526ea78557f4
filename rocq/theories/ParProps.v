(** * ParProps: adding agents, head counts and scores in parallel programs *)

From Coq Require Import Lia.
From Verif Require Import Base State Moving Crawling Scoring Diagnostics Flee DataTable
  Spawning InputGeography Api Pflee ParApi SpecAgents SpecHistory SpecParallel Lemmas Inv InvMoves InvStruct Frames
  ScoreFrames Travel Profile ReportProofs Skeleton ParProofs ParInv ParSteps.
Local Open Scope list_scope.

(** ** Round robin *)

Lemma turns_count n r t k : (0 <= r < n)%Z ->
  Z.of_nat (List.length (turns n r t k)) = ((t + Z.of_nat k - r) / n - (t - r) / n)%Z.
Proof.
  intro R. revert t. induction k as [|k IH]; intro t.
  - cbn. rewrite Z.add_0_r. lia.
  - rewrite turns_S, app_length, map_length, Nat2Z.inj_add, IH.
    replace (t + Z.of_nat (S k) - r)%Z with (t + 1 + Z.of_nat k - r)%Z by lia.
    assert (D : (Z.of_nat (List.length (if (t + 1) mod n =? r then [0%nat] else [])) = (t + 1 - r) / n - (t - r) / n)%Z); [|lia].
    pose proof (Z.div_mod (t - r) n ltac:(lia)) as A. pose proof (Z.mod_pos_bound (t - r) n ltac:(lia)) as B.
    pose proof (Z.div_mod (t + 1 - r) n ltac:(lia)) as C. pose proof (Z.mod_pos_bound (t + 1 - r) n ltac:(lia)) as D.
    pose proof (Z.div_mod (t + 1) n ltac:(lia)) as E. pose proof (Z.mod_pos_bound (t + 1) n ltac:(lia)) as F.
    destruct ((t + 1) mod n =? r)%Z eqn:H; cbn [List.length].
    + apply Z.eqb_eq in H.
      assert (X : ((t + 1) / n = (t + 1 - r) / n)%Z) by (apply (Z.div_unique _ n _ 0); lia).
      assert (Y : ((t + 1) / n - 1 = (t - r) / n)%Z) by (apply (Z.div_unique _ n _ (n - 1)); lia).
      change (Z.of_nat 1) with 1%Z. lia.
    + apply Z.eqb_neq in H.
      assert (N0 : ((t + 1 - r) mod n <> 0)%Z).
      { intro Z0. apply H. symmetry. apply (Z.mod_unique _ n ((t + 1 - r) / n)); lia. }
      assert (X : ((t + 1 - r) / n = (t - r) / n)%Z) by (apply (Z.div_unique _ n _ ((t + 1 - r) mod n - 1)); lia).
      change (Z.of_nat 0) with 0%Z. lia.
Qed.

Lemma turns_balance n r s t k : (0 <= r < n)%Z -> (0 <= s < n)%Z ->
  (Z.of_nat (List.length (turns n r t k)) - Z.of_nat (List.length (turns n s t k)) <= 1)%Z.
Proof.
  intros R S. rewrite !turns_count by lia.
  (* both counts lie between floor(k/n) and floor(k/n) + 1 *)
  assert (W : forall x, (0 <= x < n -> Z.of_nat k / n <= (t + Z.of_nat k - x) / n - (t - x) / n <= Z.of_nat k / n + 1)%Z).
  { intros x X. pose proof (Z.div_mod (t - x) n ltac:(lia)) as A. pose proof (Z.mod_pos_bound (t - x) n ltac:(lia)) as B.
    pose proof (Z.div_mod (Z.of_nat k) n ltac:(lia)) as C. pose proof (Z.mod_pos_bound (Z.of_nat k) n ltac:(lia)) as D.
    destruct (Z_lt_le_dec ((t - x) mod n + Z.of_nat k mod n) n) as [L|L].
    - assert (E : ((t - x) / n + Z.of_nat k / n = (t + Z.of_nat k - x) / n)%Z)
        by (apply (Z.div_unique _ n _ ((t - x) mod n + Z.of_nat k mod n)); lia). lia.
    - assert (E : ((t - x) / n + Z.of_nat k / n + 1 = (t + Z.of_nat k - x) / n)%Z)
        by (apply (Z.div_unique _ n _ ((t - x) mod n + Z.of_nat k mod n - n)); lia). lia. }
  pose proof (W r R). pose proof (W s S). lia.
Qed.

Lemma sum_hit (n : nat) (z : Z) : forall a, (Z.of_nat a <= z < Z.of_nat a + Z.of_nat n)%Z ->
  sumZ (map (fun r => Z.of_nat (List.length (if (z =? Z.of_nat r)%Z then [0%nat] else []))) (seq a n)) = 1%Z.
Proof.
  assert (O : forall n a, (z < Z.of_nat a)%Z ->
    sumZ (map (fun r => Z.of_nat (List.length (if (z =? Z.of_nat r)%Z then [0%nat] else []))) (seq a n)) = 0%Z).
  { clear. induction n as [|n IH]; intros a H; [reflexivity|]. cbn [seq map sumZ].
    rewrite (IH (S a)) by lia. destruct (Z.eqb_spec z (Z.of_nat a)); [lia|reflexivity]. }
  induction n as [|n IH]; intros a H; [lia|]. cbn [seq map sumZ].
  destruct (Z.eqb_spec z (Z.of_nat a)) as [E|E].
  - rewrite O by lia. reflexivity.
  - rewrite IH by lia. reflexivity.
Qed.

Lemma sumZ_add {A} (f g : A -> Z) l : sumZ (map (fun x => f x + g x)%Z l) = (sumZ (map f l) + sumZ (map g l))%Z.
Proof. induction l; cbn; [reflexivity|]. rewrite IHl. lia. Qed.
Lemma sumZ_ext {A} (f g : A -> Z) l : (forall x, In x l -> f x = g x) -> sumZ (map f l) = sumZ (map g l).
Proof. intro H. f_equal. apply map_ext_in. exact H. Qed.

Lemma turns_sum (n : nat) k : (0 < n)%nat -> forall t,
  sumZ (map (fun r => Z.of_nat (List.length (turns (Z.of_nat n) (Z.of_nat r) t k))) (seq 0 n)) = Z.of_nat k.
Proof.
  intro N. induction k as [|k IH]; intro t.
  - rewrite (sumZ_ext _ (fun _ => 0%Z)) by reflexivity. clear. induction (seq 0 n); cbn; auto.
  - rewrite (sumZ_ext _ (fun r => Z.of_nat (List.length (if ((t + 1) mod Z.of_nat n =? Z.of_nat r)%Z then [0%nat] else []))
       + Z.of_nat (List.length (turns (Z.of_nat n) (Z.of_nat r) (t + 1) k)))%Z).
    + rewrite sumZ_add, IH, sum_hit; [lia|]. pose proof (Z.mod_pos_bound (t + 1) (Z.of_nat n) ltac:(lia)). lia.
    + intros r _. rewrite turns_S, app_length, map_length. lia.
Qed.

(** ** What one call adds *)

Lemma held_nth st r : held st r = match nth_error (map fst st) r with Some e => e_agents e | None => [] end.
Proof. unfold held. rewrite nth_error_map. destruct (nth_error st r) as [[e g]|]; reflexivity. Qed.

Lemma Forall2_nth {A B} (R : A -> B -> Prop) l m i a :
  Forall2 R l m -> nth_error l i = Some a -> exists b, nth_error m i = Some b /\ R a b.
Proof.
  intro H. revert i. induction H; intros [|i] E; try discriminate; cbn in *.
  - injection E as <-. eauto.
  - auto.
Qed.
Lemma local2_nth {A} (f : A -> eco -> res eco) args st st' r e : local2 f args st = Ok st' ->
  nth_error (map fst st) r = Some e ->
  exists a e', nth_error args r = Some a /\ nth_error (map fst st') r = Some e' /\ f a e = Ok e'.
Proof.
  intros H E. apply local2_forall2 in H as [L H]. rewrite nth_error_map in E.
  destruct (nth_error st r) as [[e1 g]|] eqn:Es; [|discriminate]. injection E as ->.
  destruct (nth_error args r) as [a|] eqn:Ea.
  2:{ apply nth_error_None in Ea. assert (nth_error st r <> None) by congruence. apply nth_error_Some in H0. lia. }
  assert (Ec : nth_error (combine args st) r = Some (a, (e, g))).
  { clear - Es Ea. revert args st Ea Es. induction r; intros [|? args] [|? st] Ea Es; try discriminate; cbn in *; [congruence|auto]. }
  destruct (Forall2_nth _ _ _ _ _ H Ec) as ([e' g'] & E1 & E2 & _). cbn in E2.
  exists a, e'. rewrite nth_error_map, E1. auto.
Qed.

(** What the calls that add agents do on each process *)
Lemma add_calls n o S c k st st' : Procs n (map fst st) -> added_by c = Some k -> pstep o S c st = Ok st' ->
  forall r e, nth_error (map fst st) r = Some e ->
  exists e' new, nth_error (map fst st') r = Some e' /\ e_agents e' = e_agents e ++ new /\
    List.length new = List.length (turns (Z.of_nat n) (Z.of_nat r) (e_total_agents e) k) /\
    e_total_agents e' = (e_total_agents e + Z.of_nat k)%Z.
Proof.
  intros P C H r e E. destruct (pr_each _ _ P _ _ E) as (_ & _ & R & Z).
  destruct c; try discriminate C; injection C as <-; cbn [pstep] in H;
    destruct (local2_nth _ _ _ _ _ _ H E) as (a & e' & _ & E' & F); exists e'.
  - apply par_add_spec in F as (_ & _ & K & G). rewrite R, Z in G. eexists. split; [exact E'|]. split; [exact G|].
    split; [unfold turns; cbn; rewrite Z.add_0_r; now destruct (_ =? _)%Z|].
    apply (f_equal e_total_agents) in K. exact K.
  - apply par_own_spec in F as (_ & _ & K & G). rewrite R, Z in G. eexists. split; [exact E'|]. split; [exact G|].
    split; [unfold turns; cbn; rewrite Z.add_0_r; now destruct (_ =? _)%Z|].
    apply (f_equal e_total_agents) in K. exact K.
  - apply par_insert_many_spec in F as (_ & _ & K & G). rewrite R, Z in G. eexists. split; [exact E'|]. split; [exact G|].
    split; [apply repeat_length|]. apply (f_equal e_total_agents) in K. exact K.
Qed.

Lemma add_one_owner n o S c args st st' : (c = PAddAgent args \/ c = PInsertAgent args) -> (0 < n)%nat ->
  Procs n (map fst st) -> pstep o S c st = Ok st' ->
  exists r loc attrs, (r < n)%nat /\ nth_error args r = Some (loc, attrs) /\
    held st' r = held st r ++ [new_agent loc attrs] /\
    (forall s, s <> r -> held st' s = held st s).
Proof.
  intros C N P H.
  assert (F : forall s e, nth_error (map fst st) s = Some e -> exists a e', nth_error args s = Some a /\
     nth_error (map fst st') s = Some e' /\ e_agents e' = e_agents e ++
     (if ((e_total_agents e + 1) mod Z.of_nat n =? Z.of_nat s)%Z then [new_agent (fst a) (snd a)] else [])).
  { intros s e E. destruct (pr_each _ _ P _ _ E) as (_ & _ & R & Z).
    destruct C as [-> | ->]; cbn [pstep] in H;
    destruct (local2_nth _ _ _ _ _ _ H E) as (a & e' & Ea & E' & F); exists a, e'; (split; [exact Ea|]); (split; [exact E'|]).
    - apply par_add_spec in F as (_ & _ & _ & G). now rewrite R, Z in G.
    - apply par_own_spec in F as (_ & _ & _ & G). now rewrite R, Z in G. }
  assert (P' : Procs n (map fst st')) by (eapply pstep_procs; eauto).
  destruct (map fst st) as [|e0 es] eqn:Em; [pose proof (pr_len _ _ P); cbn in *; lia|].
  set (t := e_total_agents e0).
  assert (T : forall s e, nth_error (map fst st) s = Some e -> e_total_agents e = t).
  { intros s e E. rewrite Em in E. unfold t. apply (f_equal e_total_agents (pr_twin _ _ P e e0 (nth_error_In _ _ E) (or_introl eq_refl))). }
  rewrite <- Em in *. clear Em es.
  pose proof (Z.mod_pos_bound (t + 1) (Z.of_nat n) ltac:(lia)) as B.
  pose (r := Z.to_nat ((t + 1) mod Z.of_nat n)).
  assert (Rn : (r < n)%nat) by (unfold r; lia).
  destruct (nth_error (map fst st) r) as [e|] eqn:E.
  2:{ apply nth_error_None in E. rewrite (pr_len _ _ P) in E. lia. }
  destruct (F _ _ E) as ([loc attrs] & e' & Ea & E' & G). exists r, loc, attrs.
  split; [exact Rn|]. split; [exact Ea|]. split.
  - rewrite !held_nth, E, E', G, (T _ _ E). cbn [fst snd].
    destruct (Z.eqb_spec ((t + 1) mod Z.of_nat n) (Z.of_nat r)); [reflexivity|unfold r in *; lia].
  - intros s Hs. rewrite !held_nth. destruct (nth_error (map fst st) s) as [e1|] eqn:E1.
    + destruct (F _ _ E1) as (a & e2 & _ & E2 & G2). rewrite E2, G2, (T _ _ E1).
      destruct (Z.eqb_spec ((t + 1) mod Z.of_nat n) (Z.of_nat s)); [unfold r in *; lia|apply app_nil_r].
    + destruct (nth_error (map fst st') s) as [e2|] eqn:E2; [|reflexivity].
      apply nth_error_None in E1. rewrite (pr_len _ _ P) in E1.
      assert (X : nth_error (map fst st') s <> None) by congruence. apply nth_error_Some in X.
      rewrite (pr_len _ _ P') in X. lia.
Qed.

(** Only calls that add agents, [k] in total *)
Lemma adds_turns n o h : forall k st st', Procs n (map fst st) -> adding h k -> prun o h st = Ok st' ->
  Procs n (map fst st') /\
  forall r e, nth_error (map fst st) r = Some e ->
  exists e' new, nth_error (map fst st') r = Some e' /\ e_agents e' = e_agents e ++ new /\
    List.length new = List.length (turns (Z.of_nat n) (Z.of_nat r) (e_total_agents e) k) /\
    e_total_agents e' = (e_total_agents e + Z.of_nat k)%Z.
Proof.
  induction h as [|[S c] h IH]; intros k st st' P A H.
  - inversion A; subst. injection H as <-. split; [exact P|]. intros r e E. exists e, []. rewrite app_nil_r. repeat split; auto. cbn; lia.
  - inversion A as [|? ? k1 ? m C A']; subst. unfold prun in H. cbn [foldM fst snd] in H.
    apply bind_ok in H as (st1 & H1 & H). pose proof (pstep_procs _ _ _ _ _ _ P H1) as P1.
    destruct (IH _ _ _ P1 A' H) as [P' F]. split; [exact P'|]. intros r e E.
    destruct (add_calls _ _ _ _ _ _ _ P C H1 _ _ E) as (e1 & n1 & E1 & G1 & L1 & T1).
    destruct (F _ _ E1) as (e2 & n2 & E2 & G2 & L2 & T2).
    exists e2, (n1 ++ n2). split; [exact E2|]. split; [rewrite G2, G1; now rewrite app_assoc|]. split.
    + rewrite app_length, L1, L2, T1.
      assert (R : (0 <= Z.of_nat r < Z.of_nat n)%Z).
      { assert (X : nth_error (map fst st) r <> None) by congruence. apply nth_error_Some in X. rewrite (pr_len _ _ P) in X. lia. }
      apply Nat2Z.inj. rewrite Nat2Z.inj_add, !turns_count by exact R.
      replace (e_total_agents e + Z.of_nat (k1 + m) - Z.of_nat r)%Z
        with (e_total_agents e + Z.of_nat k1 + Z.of_nat m - Z.of_nat r)%Z by lia. lia.
    + rewrite T2, T1. lia.
Qed.

Lemma people_seq st : people st = sumZ (map (fun r => Z.of_nat (List.length (held st r))) (seq 0 (List.length st))).
Proof.
  unfold people. induction st as [|[e g] st IH]; [reflexivity|]. cbn [List.length map sumZ fst].
  rewrite IH. cbn [seq map sumZ]. f_equal. rewrite <- seq_shift, map_map. reflexivity.
Qed.

Lemma adds_balanced n o h k st st' : (0 < n)%nat -> Procs n (map fst st) -> adding h k -> prun o h st = Ok st' ->
  exists new, List.length new = n /\
    (forall r l, nth_error new r = Some l -> held st' r = held st r ++ l) /\
    (forall r s l m, nth_error new r = Some l -> nth_error new s = Some m -> (List.length l <= List.length m + 1)%nat) /\
    sumZ (map (fun l => Z.of_nat (List.length l)) new) = Z.of_nat k.
Proof.
  intros N P A H. destruct (adds_turns _ _ _ _ _ _ P A H) as [P' F].
  pose proof (pr_len _ _ P) as Ln. rewrite map_length in Ln.
  exists (map (fun r => skipn (List.length (held st r)) (held st' r)) (seq 0 n)).
  assert (G : exists t, forall r, (r < n)%nat ->
     held st' r = held st r ++ skipn (List.length (held st r)) (held st' r) /\
     List.length (skipn (List.length (held st r)) (held st' r)) = List.length (turns (Z.of_nat n) (Z.of_nat r) t k)).
  { destruct st as [|[e0 g0] st]; [cbn in Ln; lia|]. exists (e_total_agents e0). intros r R.
    destruct (nth_error (map fst ((e0, g0) :: st)) r) as [e|] eqn:E.
    2:{ apply nth_error_None in E. rewrite map_length in E. lia. }
    destruct (F _ _ E) as (e' & l & E' & Gr & L & _).
    assert (T : e_total_agents e = e_total_agents e0)
      by apply (f_equal e_total_agents (pr_twin _ _ P e e0 (nth_error_In _ _ E) (or_introl eq_refl))).
    rewrite !held_nth, E, E', Gr. rewrite skipn_app, skipn_all, Nat.sub_diag. cbn [app skipn].
    split; [reflexivity|]. now rewrite L, T. }
  destruct G as [t G].
  assert (Hn : forall r l, nth_error (map (fun r => skipn (List.length (held st r)) (held st' r)) (seq 0 n)) r = Some l ->
     (r < n)%nat /\ l = skipn (List.length (held st r)) (held st' r)).
  { intros r l E. assert (R : (r < n)%nat).
    { assert (X : nth_error (map (fun r => skipn (List.length (held st r)) (held st' r)) (seq 0 n)) r <> None) by congruence.
      apply nth_error_Some in X. now rewrite map_length, seq_length in X. }
    split; [exact R|]. rewrite nth_error_map, (nth_error_nth' _ 0%nat), seq_nth in E by (rewrite ?seq_length; exact R).
    cbn in E. congruence. }
  split; [now rewrite map_length, seq_length|]. split; [|split].
  - intros r l E. apply Hn in E as [R ->]. apply (G r R).
  - intros r s l m E1 E2. apply Hn in E1 as [R ->], E2 as [S ->].
    rewrite (proj2 (G r R)), (proj2 (G s S)). pose proof (turns_balance (Z.of_nat n) (Z.of_nat r) (Z.of_nat s) t k). lia.
  - rewrite map_map, <- (turns_sum n k N t). apply sumZ_ext. intros r Hr. apply in_seq in Hr. now rewrite (proj2 (G r ltac:(lia))).
Qed.
