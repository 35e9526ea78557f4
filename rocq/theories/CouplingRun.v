(** * CouplingRun: proofs about one exchange between coupled simulations *)

From Coq Require Import Lia.
From Verif Require Import Base State Moving Crawling Scoring Diagnostics Flee DataTable
  Spawning InputGeography Api Pflee ParApi SpecAgents SpecHistory SpecParallel Lemmas Inv InvMoves InvStruct Frames ScoreFrames Travel Profile ReportProofs Skeleton ParProofs ParInv ParSteps ParProps ParCounts ParTotals ParSync ParFinal
  Coupling SpecCoupling CouplingText CouplingMean.
Local Open Scope string_scope.
Local Open Scope list_scope.

(** ** Declared couplings *)

Lemma mem_str_false n l : mem_str n l = false <-> ~ In n l.
Proof. rewrite <- mem_str_in. destruct (mem_str n l); split; congruence. Qed.

Lemma last_index_spec n names : forall i acc, match last_index n names i acc with
  | Some j => acc = Some j \/ (i <= j)%nat /\ nth_error names (j - i) = Some n
  | None => acc = None /\ ~ In n names
  end.
Proof.
  induction names as [|m names IH]; intros i acc; cbn [last_index]; [destruct acc; auto|].
  specialize (IH (Datatypes.S i) (if String.eqb m n then Some i else acc)).
  destruct (last_index n names (Datatypes.S i) _) as [j|].
  - destruct IH as [IH|[A B]].
    + destruct (String.eqb_spec m n) as [->|]; [injection IH as <-; right; split; [lia|now rewrite Nat.sub_diag]|auto].
    + right. split; [lia|]. replace (j - i)%nat with (Datatypes.S (j - Datatypes.S i)) by lia. exact B.
  - destruct IH as [A B]. destruct (String.eqb_spec m n); [discriminate|]. split; [exact A|]. intros [C|C]; contradiction.
Qed.
Lemma convert_named e i l : nth_error (e_locations e) i = Some l -> exists m, nth_error (e_locations e) (convert_name e (l_name l)) = Some m /\ lname m = lname l.
Proof.
  intro H. unfold convert_name. pose proof (last_index_spec (sval (l_name l)) (map lname (e_locations e)) 0 None) as L.
  destruct (last_index _ _ 0 None) as [j|].
  - destruct L as [L|[_ L]]; [discriminate|]. rewrite Nat.sub_0_r, nth_error_map in L.
    destruct (nth_error (e_locations e) j) as [m|]; [|discriminate]. injection L as L. exists m. auto.
  - destruct L as [_ L]. exfalso. apply L. apply in_map_iff. exists l. split; [reflexivity|]. eapply nth_error_In; eauto.
Qed.

Record wf (ns : list string) (cp : coupling) : Prop := {
  wf_names : List.length (cp_names cp) = List.length (cp_ids cp);
  wf_dirs : List.length (cp_directions cp) = List.length (cp_ids cp);
  wf_ints : List.length (cp_intervals cp) = List.length (cp_ids cp);
  wf_locs : List.length (cp_locations cp) = List.length (cp_ids cp);
  wf_named : forall k i, nth_error (cp_ids cp) k = Some i -> exists n, nth_error ns i = Some n /\ nth_error (cp_locations cp) k = Some n;
  wf_nodup : NoDup (cp_locations cp) }.

Lemma nodup_snoc {A} (l : list A) x : NoDup l -> ~ In x l -> NoDup (l ++ [x]).
Proof.
  intros N I. induction N as [|y l Y N IH]; cbn [app]; [constructor; [intros []|constructor]|].
  constructor; [|apply IH; intro; apply I; now right]. intro H. apply in_app_iff in H as [H|[->|[]]]; [contradiction|]. apply I. now left.
Qed.
Lemma declared_wf e cp : declared e cp -> wf (map lname (e_locations e)) cp.
Proof.
  induction 1 as [|i name dir int cp cp' D IH H].
  - constructor; try reflexivity; [intros [|k] i; discriminate|constructor].
  - unfold add_coupled in H. rstep H. unfold loc_of in E. destruct (mem_str (lname v) (cp_locations cp)) eqn:M; injection H as <-; [exact IH|].
    destruct IH as [A B C L N U]. constructor; cbn [cp_names cp_ids cp_directions cp_intervals cp_locations]; rewrite ?app_length; cbn; try lia.
    + intros k j K. destruct (Nat.lt_ge_cases k (List.length (cp_ids cp))) as [Lt|Ge].
      * rewrite nth_error_app1 in K by exact Lt. destruct (N k j K) as (n & N1 & N2). exists n. split; [exact N1|]. rewrite nth_error_app1 by lia. exact N2.
      * rewrite nth_error_app2 in K by exact Ge. destruct (k - List.length (cp_ids cp))%nat as [|q] eqn:Q; [|destruct q; discriminate K].
        injection K as <-. apply of_option_ok in E. destruct (convert_named e i v E) as (m & M1 & M2). exists (lname v). split.
        -- rewrite nth_error_map, M1. cbn. now rewrite M2.
        -- rewrite nth_error_app2 by lia. now rewrite L, Q.
    + apply nodup_snoc; [exact U|]. now apply mem_str_false.
Qed.

(** With different names the location that was given is the one that is coupled. *)
Lemma wf_ids ns cp k k' i : wf ns cp -> nth_error (cp_ids cp) k = Some i -> nth_error (cp_ids cp) k' = Some i -> k = k'.
Proof.
  intros W A B. destruct (wf_named _ _ W _ _ A) as (n & N1 & N2), (wf_named _ _ W _ _ B) as (m & M1 & M2).
  assert (n = m) by congruence. subst m. apply (proj1 (NoDup_nth_error _) (wf_nodup _ _ W)); [|congruence].
  apply nth_error_Some. congruence.
Qed.

(** ** Who is where after each of the calls *)

Definition cleared (names : list string) (e : eco) (a : agent) : bool :=
  match pos_name e (a_location a) with Ok n => mem_str n names | Err _ => false end.

Lemma sk_names a b : sk a = sk b -> map lname (e_locations a) = map lname (e_locations b).
Proof.
  intro H. apply (f_equal e_locations) in H. cbn [sk e_locations] in H.
  assert (X : forall l, lname (lk l) = lname l) by reflexivity.
  apply (f_equal (map lname)) in H. rewrite !map_map in H. exact H.
Qed.
Lemma clear_agents names e e' : par_clear_local names e = Ok e' ->
  e_agents e' = filter (fun a => negb (cleared names e a)) (e_agents e) /\
  forall a, In a (e_agents e) -> exists n, pos_name e (a_location a) = Ok n.
Proof.
  unfold par_clear_local; intro H. rstep H. destruct v as [e1 kept]. injection H as <-. cbn [e_agents up_e_agents].
  assert (W : forall l x kept x1 kept1, (forall p, pos_name x p = pos_name e p) ->
    foldM (fun st a => let '(e1, kept) := st in n <- pos_name e1 (a_location a) ;;
             if mem_str n names then e2 <- dec_on_rank (a_location a) e1 ;; Ok (e2, kept)
             else Ok (e1, kept ++ [a])) l (x, kept) = Ok (x1, kept1) ->
    kept1 = kept ++ filter (fun a => negb (cleared names e a)) l /\ forall a, In a l -> exists n, pos_name e (a_location a) = Ok n).
  { clear. induction l as [|a l IH]; intros x kept x1 kept1 P H.
    - injection H as <- <-. rewrite app_nil_r. split; [reflexivity|intros a []].
    - cbn [foldM] in H. rstep H. cbv beta iota in E. rstep E. rewrite P in E0. cbn [filter]. unfold cleared at 1. rewrite E0.
      destruct (mem_str v0 names); cbn [negb].
      + rstep E. injection E as <-. apply IH in H as [H1 H2].
        * split; [exact H1|]. intros b [<-|B]; [eauto|auto].
        * intro p. rewrite <- P. destruct (a_location a); cbn [dec_on_rank] in E1; [| |discriminate]; injection E1 as <-.
          -- destruct p; cbn [pos_name]; [|unfold link_of|reflexivity].
             ++ unfold loc_of, up_loc. cbn [e_locations up_e_locations]. rewrite nth_upd. destruct (Nat.eqb _ _); [|reflexivity].
                destruct (nth_error (e_locations x) _); reflexivity.
             ++ unfold up_loc. cbn [e_links up_e_locations]. destruct (of_option _ (nth_error (e_links x) _)) as [kk|]; [|reflexivity]. cbn [bind].
                unfold link_name, loc_of. cbn [e_locations up_e_locations]. rewrite !nth_upd.
                repeat (match goal with |- context [Nat.eqb ?u ?v] => destruct (Nat.eqb u v) end); destruct (nth_error (e_locations x) (k_startpoint kk)), (nth_error (e_locations x) (k_endpoint kk)); reflexivity.
          -- destruct p; cbn [pos_name]; [reflexivity|unfold link_of|reflexivity]. unfold up_link. cbn [e_links up_e_links]. rewrite nth_upd.
             destruct (Nat.eqb _ _); [|reflexivity]. destruct (nth_error (e_links x) _); reflexivity.
      + injection E as <-. apply IH in H as [H1 H2]; [|exact P]. split; [now rewrite H1, <- app_assoc|]. intros b [<-|B]; [eauto|auto]. }
  exact (W _ _ _ _ _ (fun p => eq_refl) E).
Qed.

Lemma how_many_filter f g l : how_many f (filter g l) = how_many (fun a => f a && g a)%bool l.
Proof.
  unfold how_many. f_equal. induction l as [|a l IH]; [reflexivity|]. cbn [filter]. destruct (g a) eqn:G; cbn [filter].
  - rewrite andb_true_r. destruct (f a); cbn; congruence.
  - rewrite andb_false_r. exact IH.
Qed.
Lemma how_many_ext f g l : (forall a, In a l -> f a = g a) -> how_many f l = how_many g l.
Proof. intro H. unfold how_many. do 2 f_equal. now apply filter_ext_in. Qed.
Lemma how_many_none f l : (forall a, In a l -> f a = false) -> how_many f l = 0%Z.
Proof.
  intro H. rewrite (how_many_ext _ (fun _ => false)) by exact H. unfold how_many. induction l as [|a l IH]; [reflexivity|].
  cbn. apply IH. intros b B. apply H. now right.
Qed.

Lemma people_rel (f : agent -> bool) (st st' : list (eco * rng)) (R : eco -> eco -> Prop) (c : Z) :
  Forall2 R (map fst st) (map fst st') -> (forall e e', In e (map fst st) -> R e e' -> how_many f (e_agents e') = (c * how_many f (e_agents e))%Z) ->
  sumZ (map (fun p : eco * rng => how_many f (e_agents (fst p))) st') = (c * sumZ (map (fun p : eco * rng => how_many f (e_agents (fst p))) st))%Z.
Proof.
  intros F H. rewrite <- !(map_map fst (fun e => how_many f (e_agents e))). revert F H.
  generalize (map fst st) as l, (map fst st') as m. induction 1 as [|e e' l m RE F IH]; intro H; [cbn; lia|].
  cbn [map sumZ].
  rewrite (H e e' (or_introl eq_refl) RE), IH; [lia|]. intros x x' I. apply H. now right.
Qed.

Definition Ready (n : nat) (st : list (eco * rng)) : Prop := Procs n (map fst st) /\ Alive (map fst st).
(** All processes have locations of these names. *)
Definition Names (ns : list string) (st : list (eco * rng)) : Prop :=
  forall e, In e (map fst st) -> map lname (e_locations e) = ns.
(** All head counts are those of the whole run. *)
Definition Seen (st : list (eco * rng)) : Prop :=
  forall e i l, In e (map fst st) -> nth_error (e_locations e) i = Some l -> l_numAgents l = people_in st i.

Lemma total_held f st : sumZ (map (fun p : eco * rng => how_many f (e_agents (fst p))) st) =
  sumZ (map (fun r => how_many f (held st r)) (seq 0 (List.length st))).
Proof.
  assert (X : forall l pre, sumZ (map (fun p : eco * rng => how_many f (e_agents (fst p))) l) =
    sumZ (map (fun r => how_many f (held (pre ++ l) r)) (seq (List.length pre) (List.length l)))); [|exact (X st [])].
  induction l as [|[e g] l IH]; intro pre; [reflexivity|]. cbn [map sumZ List.length seq fst]. f_equal.
  - unfold held. rewrite nth_error_app2, Nat.sub_diag by lia. reflexivity.
  - rewrite (IH (pre ++ [(e, g)])), app_length, <- app_assoc. cbn [List.length app]. now rewrite Nat.add_1_r.
Qed.

Lemma update_ready n o S lat st st' : Ready n st -> pstep o S (PUpdateNumAgents lat false) st = Ok st' ->
  Ready n st' /\ Seen st' /\ map e_agents (map fst st') = map e_agents (map fst st) /\
  (forall ns, Names ns st -> Names ns st').
Proof.
  intros [P A] H. assert (R : Ready n st') by (split; [eapply pstep_procs; eauto|eapply alive_pstep; eauto]).
  assert (E : map e_agents (map fst st') = map e_agents (map fst st)).
  { cbn [pstep] in H. destruct (update_step _ _ _ _ _ P H) as (e0 & _ & -> & _). rewrite map_map. apply map_ext. reflexivity. }
  cbn [pstep] in H. pose proof (update_counts _ _ _ _ _ P A H) as [_ C].
  assert (N : forall r e', nth_error (map fst st') r = Some e' -> exists e, nth_error (map fst st) r = Some e).
  { intros r e' X. destruct (nth_error (map fst st) r) eqn:Y; [eauto|]. apply nth_error_None in Y.
    assert (L : nth_error (map fst st') r <> None) by congruence. apply nth_error_Some in L.
    rewrite (pr_len _ _ P) in Y. rewrite (pr_len _ _ (proj1 R)) in L. lia. }
  split; [exact R|]. split; [|split; [exact E|]].
  - intros e i l I L. apply In_nth_error in I as [r I]. destruct (N r e I) as [e0 I0].
    destruct (C r e0 e I0 I) as (C1 & _). rewrite (C1 i l L), !people_in_lists. now rewrite E.
  - intros ns M e I. apply In_nth_error in I as [r I]. destruct (N r e I) as [e0 I0].
    destruct (C r e0 e I0 I) as (_ & _ & _ & B). rewrite <- (M e0) by (eapply nth_error_In; eauto).
    apply (f_equal (fun x => map lname (e_locations x))) in B. cbn [but_counts e_locations] in B. rewrite !map_map in B. exact B.
Qed.

Lemma same_people st st' : map e_agents (map fst st') = map e_agents (map fst st) ->
  (forall i, people_in st' i = people_in st i) /\ (forall k, people_on st' k = people_on st k).
Proof. intro E. split; intros; rewrite ?people_in_lists, ?people_on_lists, ?E; reflexivity. Qed.

Lemma link_names e k n : link_name e k = Ok n -> ~ not_road n.
Proof. unfold link_name. intros H N. rstep H. rstep H. injection H as <-. exact (N _ eq_refl). Qed.

Lemma clear_people n o S lat names ns st st' : Ready n st -> Names ns st -> Forall not_road names ->
  pstep o S (PClearLocations lat names) st = Ok st' ->
  Ready n st' /\ Names ns st' /\ Seen st' /\
  (forall i m, nth_error ns i = Some m -> In m names -> people_in st' i = 0%Z) /\
  (forall i, (forall m, nth_error ns i = Some m -> ~ In m names) -> people_in st' i = people_in st i) /\
  (forall k, people_on st' k = people_on st k).
Proof.
  intros [P A] M R H. pose proof H as H0. cbn [pstep] in H0. apply collective_clear in H0 as (es & H1 & H2).
  pose proof (clear_procs _ _ _ _ P H1) as P1. pose proof H1 as F. apply mapM_Forall2 in F.
  assert (L : List.length es = List.length (map snd st)) by (apply Forall2_len in F; rewrite map_length in *; congruence).
  set (st1 := combine es (map snd st)) in *. assert (Ef : map fst st1 = es) by (apply combine_fst, L).
  assert (R1 : Ready n st1).
  { split; rewrite Ef; [exact P1|]. eapply alive_rel; [exact A|exact F|]. intros e e' _ E a Ha. left. exact (clear_subset names e e' E a Ha). }
  assert (M1 : Names ns st1).
  { intros e' I. rewrite Ef in I. apply In_nth_error in I as [r I]. destruct (Forall2_nth_inv _ _ _ _ _ F I) as (e & Ie & E).
    rewrite <- (M e) by (eapply nth_error_In; eauto). apply par_clear_spec in E as [_ [E _]]; [exact (sk_names _ _ E)|]. apply (pr_each _ _ P _ _ Ie). }
  destruct (update_ready n o S lat st1 st' R1 H2) as (Rd & Sn & Ea & Nm). specialize (Nm ns M1).
  destruct (same_people _ _ Ea) as (Pi & Po).
  assert (G : forall f c, (forall e a, In e (map fst st) -> In a (e_agents e) -> (exists m, pos_name e (a_location a) = Ok m) ->
      f a = true -> (if cleared names e a then 0 else 1)%Z = c) ->
    sumZ (map (fun p : eco * rng => how_many f (e_agents (fst p))) st1) = (c * sumZ (map (fun p : eco * rng => how_many f (e_agents (fst p))) st))%Z).
  { intros f c K. apply (people_rel f st st1 (fun e e' => par_clear_local names e = Ok e')); [rewrite Ef; exact F|].
    intros e e' I E. apply clear_agents in E as [E1 E2]. rewrite E1, how_many_filter.
    assert (Y : forall l, incl l (e_agents e) -> how_many (fun a => f a && negb (cleared names e a))%bool l = (c * how_many f l)%Z).
    { induction l as [|a l IH]; intro Hi; [cbn; lia|]. rewrite !how_many_cons, IH by (intros x X; apply Hi; now right).
      destruct (f a) eqn:Fa; cbn [andb]; [|lia]. assert (Ia : In a (e_agents e)) by (apply Hi; now left).
      specialize (K e a I Ia (E2 a Ia) Fa). destruct (cleared names e a); cbn [negb]; lia. }
    apply Y, incl_refl. }
  split; [exact Rd|]. split; [exact Nm|]. split; [exact Sn|]. split; [|split].
  - intros i m Hm Im. rewrite Pi. unfold people_in. rewrite (G (in_location i) 0%Z); [lia|].
    intros e a I Ia (q & Q) Fi. unfold in_location in Fi. unfold cleared. destruct (a_location a) as [j| |]; try discriminate Fi.
    apply Nat.eqb_eq in Fi as ->. rewrite Q. cbn [pos_name] in Q. rstep Q. injection Q as <-. unfold loc_of in E. apply of_option_ok in E.
    rewrite <- (M e I), nth_error_map, E in Hm. injection Hm as <-. apply mem_str_in in Im. now rewrite Im.
  - intros i Hi. rewrite Pi. unfold people_in. rewrite (G (in_location i) 1%Z); [lia|].
    intros e a I Ia (q & Q) Fi. unfold in_location in Fi. unfold cleared. destruct (a_location a) as [j| |]; try discriminate Fi.
    apply Nat.eqb_eq in Fi as ->. rewrite Q. cbn [pos_name] in Q. rstep Q. injection Q as <-. unfold loc_of in E. apply of_option_ok in E.
    destruct (mem_str (lname v) names) eqn:Mm; [|reflexivity]. apply mem_str_in in Mm. elim (Hi (lname v)); [|exact Mm].
    rewrite <- (M e I), nth_error_map, E. reflexivity.
  - intro k. rewrite Po. unfold people_on. rewrite (G (on_link k) 1%Z); [lia|].
    intros e a I Ia (q & Q) Fi. unfold on_link in Fi. unfold cleared. destruct (a_location a) as [|j|]; try discriminate Fi.
    rewrite Q. cbn [pos_name] in Q. rstep Q. destruct (mem_str q names) eqn:Mm; [|reflexivity]. apply mem_str_in in Mm.
    elim (link_names _ _ _ Q). rewrite Forall_forall in R. now apply R.
Qed.

Lemma repeat_count f (a : agent) k : how_many f (repeat a k) = (if f a then Z.of_nat k else 0)%Z.
Proof.
  induction k as [|k IH]; [cbn; now destruct (f a)|]. cbn [repeat]. rewrite how_many_cons, IH. destruct (f a); lia.
Qed.
Lemma how_many_app f l m : how_many f (l ++ m) = (how_many f l + how_many f m)%Z.
Proof. unfold how_many. rewrite filter_app, app_length. lia. Qed.

Lemma insert_people n o S i z ns st st' : (0 < n)%nat -> Ready n st -> Names ns st ->
  pstep o S (PInsertAgents (repeat i n) z) st = Ok st' ->
  Ready n st' /\ Names ns st' /\
  (forall j, people_in st' j = (people_in st j + if Nat.eqb i j then Z.max 0 z else 0)%Z) /\
  (forall k, people_on st' k = people_on st k).
Proof.
  intros N [P A] M H. assert (R : Ready n st') by (split; [eapply pstep_procs; eauto|eapply alive_pstep; eauto]).
  pose proof (pr_len _ _ P) as L. pose proof (pr_len _ _ (proj1 R)) as L'. rewrite map_length in L, L'.
  assert (exists t, forall e, In e (map fst st) -> e_total_agents e = t) as [t T].
  { destruct st as [|[e0 g0] st0]; [exists 0%Z; intros e []|]. exists (e_total_agents e0). intros e I.
    pose proof (pr_twin _ _ P e e0 I (or_introl eq_refl)) as W. exact (f_equal e_total_agents W). }
  cbn [pstep] in H.
  assert (W : forall r e, nth_error (map fst st) r = Some e -> exists e', nth_error (map fst st') r = Some e' /\
    map lname (e_locations e') = map lname (e_locations e) /\
    e_agents e' = e_agents e ++ repeat (new_agent i []) (List.length (turns (Z.of_nat n) (Z.of_nat r) t (Z.to_nat z)))).
  { intros r e E. destruct (pr_each _ _ P _ _ E) as (_ & _ & Er & Es).
    destruct (local2_nth _ _ _ _ _ _ H E) as (a & e' & Ea & E' & Fe). exists e'. split; [exact E'|].
    assert (a = i) by (eapply repeat_spec, nth_error_In; exact Ea). subst a.
    apply par_insert_many_spec in Fe as (_ & _ & K & G). split.
    - apply (f_equal (fun x => map lname (e_locations x))) in K. cbn [plus_total up_e_total_agents sk e_locations] in K. rewrite !map_map in K. exact K.
    - rewrite G, Er, Es, (T e) by (eapply nth_error_In; eauto). reflexivity. }
  assert (G : forall f, sumZ (map (fun p : eco * rng => how_many f (e_agents (fst p))) st') =
    (sumZ (map (fun p : eco * rng => how_many f (e_agents (fst p))) st) + if f (new_agent i []) then Z.max 0 z else 0)%Z).
  { intro f. rewrite !total_held, L, L'. rewrite (sumZ_ext _ (fun r => how_many f (held st r) +
      (if f (new_agent i []) then Z.of_nat (List.length (turns (Z.of_nat n) (Z.of_nat r) t (Z.to_nat z))) else 0))%Z).
    - rewrite sumZ_add. f_equal. destruct (f (new_agent i [])); [rewrite turns_sum by exact N; lia|apply sumZ_zero].
    - intros r I. apply in_seq in I. rewrite !held_nth. destruct (nth_error (map fst st) r) as [e|] eqn:E.
      2:{ apply nth_error_None in E. rewrite map_length in E. lia. }
      destruct (W r e E) as (e' & -> & _ & ->). rewrite how_many_app, repeat_count. reflexivity. }
  split; [exact R|]. split; [|split].
  - intros e' I. apply In_nth_error in I as [r I]. destruct (nth_error (map fst st) r) as [e|] eqn:E.
    2:{ apply nth_error_None in E. rewrite map_length in E. assert (X : nth_error (map fst st') r <> None) by congruence. apply nth_error_Some in X. rewrite map_length in X. lia. }
    destruct (W r e E) as (e1 & E1 & Nn & _). rewrite I in E1. injection E1 as <-. rewrite Nn. apply M. eapply nth_error_In; eauto.
  - intro j. unfold people_in. rewrite G. reflexivity.
  - intro k. unfold people_on. rewrite G. cbn. lia.
Qed.

(** ** One exchange *)

Definition row_calls (n : nat) (lat : latency) (d : list (string * Z)) (row : nat * (string * string)) : res (list pop) :=
  let '(i, (name, direction)) := row in
  if str_in "in" direction then
    z <- of_option KeyError (dict_get name d) ;;
    Ok [PInsertAgents (repeat i n) z; PUpdateNumAgents lat false]
  else Ok [PUpdateNumAgents lat false].

Lemma row_people n o S lat d ns i name dir cs st st' : (0 < n)%nat -> Ready n st -> Names ns st ->
  row_calls n lat d (i, (name, dir)) = Ok cs -> prun o (map (fun c => (S, c)) cs) st = Ok st' ->
  Ready n st' /\ Names ns st' /\ Seen st' /\
  (forall j, i <> j -> people_in st' j = people_in st j) /\ (forall k, people_on st' k = people_on st k) /\
  (says "in" dir -> exists z, dict_get name d = Some z /\ people_in st' i = (people_in st i + Z.max 0 z)%Z) /\
  (~ says "in" dir -> people_in st' i = people_in st i).
Proof.
  intros N R M C H. unfold row_calls in C. destruct (str_in "in" dir) eqn:I.
  - rstep C. injection C as <-. apply of_option_ok in E. unfold prun in H. cbn [map foldM fst snd] in H. rstep H. rename v0 into st1. rstep H. injection H as <-.
    destruct (insert_people n o S i v ns st st1 N R M E0) as (R1 & M1 & P1 & Q1).
    destruct (update_ready n o S lat st1 v0 R1 E1) as (R2 & S2 & A2 & N2). destruct (same_people _ _ A2) as (Pi & Po).
    split; [exact R2|]. split; [exact (N2 ns M1)|]. split; [exact S2|]. split; [|split; [|split]].
    + intros j J. rewrite Pi, P1. apply Nat.eqb_neq in J. rewrite J. lia.
    + intro k. now rewrite Po, Q1.
    + intros _. exists v. split; [exact E|]. rewrite Pi, P1, Nat.eqb_refl. reflexivity.
    + intro X. elim X. apply says_in; [discriminate|exact I].
  - injection C as <-. unfold prun in H. cbn [map foldM fst snd] in H. rstep H. injection H as <-.
    destruct (update_ready n o S lat st v R E) as (R2 & S2 & A2 & N2). destruct (same_people _ _ A2) as (Pi & Po).
    split; [exact R2|]. split; [exact (N2 ns M)|]. split; [exact S2|]. split; [auto|]. split; [auto|]. split; [|auto].
    intro X. apply says_in in X; [congruence|discriminate].
Qed.

Lemma rows_people n o S lat d ns rows : (0 < n)%nat -> NoDup (map fst rows) -> forall css st st', Ready n st -> Names ns st -> Seen st ->
  mapM (row_calls n lat d) rows = Ok css -> prun o (map (fun c => (S, c)) (List.concat css)) st = Ok st' ->
  Ready n st' /\ Names ns st' /\ Seen st' /\
  (forall i name dir, In (i, (name, dir)) rows -> says "in" dir -> exists z, dict_get name d = Some z /\ people_in st' i = (people_in st i + Z.max 0 z)%Z) /\
  (forall i name dir, In (i, (name, dir)) rows -> ~ says "in" dir -> people_in st' i = people_in st i) /\
  (forall i, ~ In i (map fst rows) -> people_in st' i = people_in st i) /\ (forall k, people_on st' k = people_on st k).
Proof.
  intro N. induction rows as [|[i [name dir]] rows IH]; intros U css st st' R M Sn C H; cbn [mapM] in C.
  - injection C as <-. injection H as <-. split; [exact R|]. split; [exact M|]. split; [exact Sn|]. split; [intros ? ? ? []|]. split; [intros ? ? ? []|]. auto.
  - rstep C. rstep C. injection C as <-. cbn [List.concat] in H. rewrite map_app in H. unfold prun in H. rewrite foldM_app in H. rstep H. rename v1 into st1.
    cbn [map fst] in U. inversion U as [|? ? U1 U2]; subst.
    destruct (row_people n o S lat d ns i name dir v st st1 N R M E E1) as (R1 & M1 & S1 & P1 & Q1 & A1 & B1).
    destruct (IH U2 v0 st1 st' R1 M1 S1 eq_refl H) as (R2 & M2 & S2 & A2 & B2 & C2 & Q2).
    assert (Ne : forall j nm dr, In (j, (nm, dr)) rows -> i <> j).
    { intros j nm dr J ->. apply U1. apply in_map_iff. exists (j, (nm, dr)). auto. }
    split; [exact R2|]. split; [exact M2|]. split; [exact S2|]. split; [|split; [|split]].
    + intros j nm dr [X|J] K.
      * injection X as <- <- <-. destruct (A1 K) as (z & Z1 & Z2). exists z. split; [exact Z1|]. rewrite <- Z2. apply C2. exact U1.
      * destruct (A2 j nm dr J K) as (z & Z1 & Z2). exists z. split; [exact Z1|]. rewrite Z2, P1; [reflexivity|eauto].
    + intros j nm dr [X|J] K.
      * injection X as <- <- <-. rewrite (C2 i U1). now apply B1.
      * rewrite (B2 j nm dr J K). apply P1. eauto.
    + intros j J. cbn [map fst In] in J. rewrite C2 by tauto. apply P1. intros ->. tauto.
    + intro k. now rewrite Q2, Q1.
Qed.

Lemma rows_ids ns cp : wf ns cp -> map fst (cp_rows cp) = cp_ids cp.
Proof.
  intro W. unfold cp_rows. assert (X : forall (A B : Type) (l : list A) (m : list B), List.length m = List.length l -> map fst (combine l m) = l).
  { clear. induction l as [|a l IH]; intros [|b m] H; try discriminate; [reflexivity|]. cbn. now rewrite IH by (injection H as H; exact H). }
  apply X. rewrite combine_length, (wf_names _ _ W), (wf_dirs _ _ W). apply Nat.min_id.
Qed.
Lemma nodup_ids ns cp : wf ns cp -> NoDup (cp_ids cp).
Proof.
  intro W. apply NoDup_nth_error. intros k k' K E. destruct (nth_error (cp_ids cp) k) as [i|] eqn:A.
  - eapply wf_ids; eauto.
  - apply nth_error_None in A. lia.
Qed.

Lemma now_at time cp : at_interval time cp <-> couples_now time cp = Ok true.
Proof.
  unfold at_interval, couples_now. split.
  - intros (i & -> & N & D). cbn [of_option bind]. destruct (Z.eqb_spec i 0); [contradiction|]. apply Z.mod_divide in D; [|exact N]. now rewrite D.
  - destruct (nth_error (cp_intervals cp) 0) as [i|]; [|discriminate]. cbn [of_option bind]. destruct (Z.eqb_spec i 0) as [|N]; [discriminate|].
    intro H. injection H as H. apply Z.eqb_eq in H. exists i. split; [reflexivity|]. split; [exact N|]. now apply Z.mod_divide.
Qed.
Lemma now_not time cp : between_intervals time cp -> couples_now time cp = Ok false.
Proof.
  intros (i & E & N & D). unfold couples_now. rewrite E. cbn [of_option bind]. destruct (Z.eqb_spec i 0); [contradiction|].
  destruct (Z.eqb_spec (time mod i) 0) as [X|]; [|reflexivity]. elim D. now apply Z.mod_divide.
Qed.

Lemma exchange o n S lat time texts cp st st' e1 e0 d : (0 < n)%nat -> preachable o n st ->
  declared e1 cp -> In e0 (map fst st) -> map (fun l => sval (l_name l)) (e_locations e0) = map (fun l => sval (l_name l)) (e_locations e1) ->
  NoDup (map (fun l => sval (l_name l)) (e_locations e1)) ->
  (forall l, In l (e_locations e1) -> not_road (sval (l_name l))) ->
  at_interval time cp -> read_input cp texts = Ok d ->
  couple o S lat time texts cp st = Ok st' ->
  (forall i name dir, coupled cp i name dir -> says "in" dir ->
     exists z, dict_get name d = Some z /\ people_in st' i = Z.max 0 z) /\
  (forall i name dir, coupled cp i name dir -> ~ says "in" dir -> people_in st' i = 0%Z) /\
  (forall i, (forall name dir, ~ coupled cp i name dir) -> people_in st' i = people_in st i) /\
  (forall k, people_on st' k = people_on st k) /\
  (forall e i l, In e (map fst st') -> nth_error (e_locations e) i = Some l -> l_numAgents l = people_in st' i).
Proof.
  intros N R D I0 En Ud NR T Rd H. apply now_at in T. change (fun l => sval (l_name l)) with lname in *.
  set (ns := map lname (e_locations e1)) in *. pose proof (declared_wf e1 cp D : wf ns cp) as W.
  assert (Ry : Ready n st) by (split; [eapply preachable_procs; eauto|eapply preachable_alive; eauto]).
  assert (M : Names ns st).
  { intros e I. rewrite <- En. apply sk_names. apply (pr_twin _ _ (proj1 Ry)); assumption. }
  assert (L : List.length st = n) by (rewrite <- (pr_len _ _ (proj1 Ry)); now rewrite map_length).
  unfold couple in H. rewrite T, Rd in H. cbn [bind] in H. rewrite L in H. rstep H. unfold couple_calls in E. rstep E. injection E as <-.
  rename v0 into css. change (mapM (row_calls n lat d) (cp_rows cp) = Ok css) in E0.
  unfold prun in H. cbn [map foldM fst snd] in H. rstep H. rename v into st1.
  assert (Ln : forall m, In m (cp_locations cp) <-> exists k i, nth_error (cp_ids cp) k = Some i /\ nth_error (cp_locations cp) k = Some m).
  { intro m. split; [|intros (k & i & _ & X); eapply nth_error_In; eauto]. intro X. apply In_nth_error in X as [k X].
    destruct (nth_error (cp_ids cp) k) as [i|] eqn:Y; [eauto|]. apply nth_error_None in Y. rewrite <- (wf_locs _ _ W) in Y.
    apply nth_error_None in Y. congruence. }
  assert (F : Forall not_road (cp_locations cp)).
  { apply Forall_forall. intros m X. apply Ln in X as (k & i & X & Y). destruct (wf_named _ _ W k i X) as (m' & M1 & M2).
    assert (m' = m) by congruence. subst m'. unfold ns in M1. rewrite nth_error_map in M1.
    destruct (nth_error (e_locations e1) i) as [l|] eqn:El; [|discriminate]. injection M1 as <-. apply NR. eapply nth_error_In; eauto. }
  destruct (clear_people n o S lat (cp_locations cp) ns st st1 Ry M F E) as (R1 & M1 & S1 & Z1 & K1 & Q1).
  assert (U : NoDup (map fst (cp_rows cp))) by (rewrite (rows_ids ns cp W); eapply nodup_ids; eauto).
  destruct (rows_people n o S lat d ns (cp_rows cp) N U css st1 st' R1 M1 S1 E0 H) as (R2 & M2 & S2 & A2 & B2 & C2 & Q2).
  assert (Zero : forall i name dir, coupled cp i name dir -> people_in st1 i = 0%Z).
  { intros i name dir (k & X & _). destruct (wf_named _ _ W k i X) as (m & N1 & N2). eapply Z1; [exact N1|]. eapply nth_error_In; eauto. }
  split; [|split; [|split; [|split]]].
  - intros i name dir C X. destruct (A2 i name dir (proj1 (coupled_rows _ _ _ _) C) X) as (z & Y1 & Y2). exists z. split; [exact Y1|].
    rewrite Y2, (Zero i name dir C). lia.
  - intros i name dir C X. rewrite (B2 i name dir (proj1 (coupled_rows _ _ _ _) C) X). eapply Zero; eauto.
  - intros i X. rewrite C2.
    + apply K1. intros m Hm Im. apply Ln in Im as (k & j & J1 & J2). destruct (wf_named _ _ W k j J1) as (m' & N1 & N2).
      assert (m' = m) by congruence. subst m'.
      assert (j = i). { apply (proj1 (NoDup_nth_error _) Ud); [apply nth_error_Some; congruence|congruence]. } subst j.
      assert (exists name, nth_error (cp_names cp) k = Some name) as [name Kn].
      { destruct (nth_error (cp_names cp) k) eqn:Y; [eauto|]. apply nth_error_None in Y. rewrite (wf_names _ _ W) in Y. apply nth_error_None in Y. congruence. }
      assert (exists dir, nth_error (cp_directions cp) k = Some dir) as [dir Kd].
      { destruct (nth_error (cp_directions cp) k) eqn:Y; [eauto|]. apply nth_error_None in Y. rewrite (wf_dirs _ _ W) in Y. apply nth_error_None in Y. congruence. }
      apply (X name dir). exists k. auto.
    + intro J. apply in_map_iff in J as ([j [name dir]] & <- & J). apply (X name dir). now apply coupled_rows.
  - intro k. now rewrite Q2, Q1.
  - exact S2.
Qed.

Lemma no_exchange o S lat time texts cp st : between_intervals time cp -> couple o S lat time texts cp st = Ok st.
Proof. intro T. apply now_not in T. unfold couple. now rewrite T. Qed.

(** ** What one simulation sends, the other one gets *)

Lemma hand_over o n S lat time cpA eA text cp st st' e1 e0 :
  (forall nm z, sends eA cpA nm z -> plain nm /\ (0 <= z)%Z) -> certain eA cpA -> output_csv eA cpA = Ok text ->
  (0 < n)%nat -> preachable o n st ->
  declared e1 cp -> In e0 (map fst st) -> map (fun l => sval (l_name l)) (e_locations e0) = map (fun l => sval (l_name l)) (e_locations e1) ->
  NoDup (map (fun l => sval (l_name l)) (e_locations e1)) ->
  (forall l, In l (e_locations e1) -> not_road (sval (l_name l))) ->
  at_interval time cp -> couple o S lat time [text] cp st = Ok st' ->
  forall i name dir, coupled cp i name dir -> says "in" dir -> sends eA cpA name (people_in st' i).
Proof.
  intros P C Ht N R D I0 En Ud NR T H i name dir Cp X.
  destruct (round_trip eA cpA cp text (fun m z Y => proj1 (P m z Y)) C Ht) as (d & Ed & G).
  destruct (one_instance cp text d Ed) as (d' & Er & Gd).
  destruct (exchange o n S lat time [text] cp st st' e1 e0 d' N R D I0 En Ud NR T Er H) as (A & _).
  destruct (A i name dir Cp X) as (z & Z1 & Z2). rewrite Gd in Z1. apply G in Z1 as [_ Z1]. rewrite Z2, Z.max_r; [exact Z1|]. eapply P; eauto.
Qed.

(** ** Without MPI *)

Lemma clear_serial_fails names e e' : clear_locations names e = Ok e' ->
  forall a, In a (e_agents e) -> exists n, In n names /\ pos_name e (a_location a) = Ok n.
Proof.
  unfold clear_locations. intro H. rstep H. injection H as <-. rename v into e1.
  assert (W : forall l x x1, (forall p, pos_name x p = pos_name e p) ->
    foldM (fun e1 a => n <- pos_name e1 (a_location a) ;; if mem_str n names then dec_at (a_location a) e1 else Err TypeError) l x = Ok x1 ->
    forall a, In a l -> exists n, In n names /\ pos_name e (a_location a) = Ok n).
  { clear. induction l as [|a l IH]; intros x x1 P H b B; [destruct B|]. cbn [foldM] in H. rstep H. rstep E. rewrite P in E0.
    destruct (mem_str v0 names) eqn:M; [|discriminate E]. destruct B as [<-|B].
    - exists v0. split; [now apply mem_str_in|exact E0].
    - apply (IH v x1); [|exact H|exact B]. intro p. rewrite <- P. destruct (a_location a); cbn [dec_at] in E.
      + rstep E. injection E as <-. destruct p; cbn [pos_name]; [|unfold link_of|reflexivity].
        * unfold loc_of, up_loc. cbn [e_locations up_e_locations]. rewrite nth_upd. destruct (Nat.eqb _ _); [|reflexivity].
          destruct (nth_error (e_locations x) _); [unfold loc_add; destruct (e_par x)|]; reflexivity.
        * unfold up_loc. cbn [e_links up_e_locations]. destruct (of_option _ (nth_error (e_links x) _)) as [kk|]; [|reflexivity]. cbn [bind].
          unfold link_name, loc_of. cbn [e_locations up_e_locations]. rewrite !nth_upd.
          repeat (match goal with |- context [Nat.eqb ?u ?v] => destruct (Nat.eqb u v) end); destruct (nth_error (e_locations x) (k_startpoint kk)), (nth_error (e_locations x) (k_endpoint kk)); unfold loc_add; destruct (e_par x); reflexivity.
      + rstep E. injection E as <-. destruct p; cbn [pos_name]; [reflexivity|unfold link_of|reflexivity]. unfold up_link. cbn [e_links up_e_links]. rewrite nth_upd.
        destruct (Nat.eqb _ _); [|reflexivity]. destruct (nth_error (e_links x) _); [unfold link_dec; destruct (e_par x)|]; reflexivity.
      + discriminate E. }
  exact (W _ _ _ (fun p => eq_refl) E).
Qed.

Lemma couple_serial_places time texts cp e e' : at_interval time cp -> couple_serial time texts cp e = Ok e' ->
  forall a, In a (e_agents e) -> exists n, In n (cp_locations cp) /\ pos_name e (a_location a) = Ok n.
Proof.
  intros T H. apply now_at in T. unfold couple_serial in H. rewrite T in H. cbn [bind] in H. rstep H. rstep H. eapply clear_serial_fails; eauto.
Qed.

Lemma mean_average zs : mean zs = average zs.
Proof. unfold mean, average. now replace (sumZ zs) with (fold_right Z.add 0%Z zs) by (induction zs; cbn; congruence). Qed.

Lemma input_between cp texts d : read_input cp texts = Ok d ->
  exists ds, Forall2 (fun t x => extract_text cp t = Ok x) texts ds /\
    (forall n z, dict_get n d = Some z -> given n ds <> [] /\ (Qabs.Qabs (inject_Z z - average (given n ds)) <= 1 # 2)%Q /\
       forall a b, (forall y, In y (given n ds) -> (a <= y <= b)%Z) -> (a <= z <= b)%Z) /\
    (forall n, dict_get n d = None -> given n ds = []).
Proof.
  intro H. destruct (read_input_means cp texts d H) as (ds & F & G). exists ds. split; [exact F|]. split.
  - intros n z Z. rewrite G in Z. destruct (given n ds) as [|y ys] eqn:E; [discriminate Z|]. injection Z as <-.
    split; [discriminate|]. split; [rewrite mean_average; apply round_even_spec|]. intros a b B. apply round_mono_bounds, mean_bounds; [discriminate|exact B].
  - intros n Z. rewrite G in Z. destruct (given n ds); [reflexivity|discriminate Z].
Qed.
