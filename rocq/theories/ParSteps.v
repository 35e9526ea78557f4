(** * ParSteps: the invariant of parallel programs holds after every call *)

From Coq Require Import Lia.
From Verif Require Import Base State Moving Crawling Scoring Diagnostics Flee DataTable
  Spawning InputGeography Api Pflee ParApi SpecAgents Lemmas Inv InvMoves InvStruct Frames
  ScoreFrames Travel Profile ReportProofs Skeleton ParProofs ParInv.
Local Open Scope list_scope.

(** ** Adding agents *)

Definition plus_total (z : Z) (e : eco) : eco := up_e_total_agents (fun t => t + z)%Z e.
Lemma plus_total_0 e : plus_total 0 e = e.
Proof. destruct e. unfold plus_total, up_e_total_agents. cbn. f_equal. lia. Qed.
Lemma plus_total_plus a b e : plus_total b (plus_total a e) = plus_total (a + b) e.
Proof. destruct e. unfold plus_total, up_e_total_agents. cbn. f_equal. lia. Qed.
Lemma same_total f e : Same e (up_e_total_agents f e).
Proof. split; try reflexivity. split; reflexivity. Qed.

Lemma fx_append i a e e' : append_agent i a e = Ok e' -> Fx e e'.
Proof.
  unfold append_agent; intro H. rstep H. injection H as <-. eapply fx_trans; [apply fx_agents|].
  apply fx_up_loc. intro l. unfold loc_add. destruct (e_par e); reflexivity.
Qed.
Lemma par_own_spec i a e e' : par_own i a e = Ok e' ->
  (Inv e -> Inv e') /\ Meta e e' /\ sk e' = plus_total 1 (sk e) /\
  e_agents e' = e_agents e ++
    (if ((e_total_agents e + 1) mod e_mpi_size e =? e_rank e)%Z then [new_agent i a] else []).
Proof.
  unfold par_own; intro H. rstep H. cbv zeta in H.
  destruct (e_mpi_size (up_e_total_agents _ e) =? 0)%Z; [discriminate|].
  change (e_total_agents (up_e_total_agents (fun z => z + 1)%Z e)) with (e_total_agents e + 1)%Z in H.
  change (e_mpi_size (up_e_total_agents (fun z => z + 1)%Z e)) with (e_mpi_size e) in H.
  change (e_rank (up_e_total_agents (fun z => z + 1)%Z e)) with (e_rank e) in H.
  destruct ((e_total_agents e + 1) mod e_mpi_size e =? e_rank e)%Z.
  - pose proof (fx_append _ _ _ _ H) as F. split; [|split; [|split]].
    + intro I. eapply inv_append_agent; [|exact H]. eapply inv_same; [apply same_total|exact I].
    + eapply meta_trans; [|exact (meta_fx _ _ F)]. repeat split.
    + exact (proj1 F).
    + unfold append_agent in H. rstep H. injection H as <-. reflexivity.
  - injection H as <-. split; [|split; [|split]].
    + intro I. eapply inv_same; [apply same_total|exact I].
    + repeat split.
    + reflexivity.
    + now rewrite app_nil_r.
Qed.

Lemma par_add_spec S i a e e' : par_add_agent S i a e = Ok e' ->
  (Inv e -> Inv e') /\ Meta e e' /\ sk e' = plus_total 1 (sk e) /\
  e_agents e' = e_agents e ++
    (if ((e_total_agents e + 1) mod e_mpi_size e =? e_rank e)%Z then [new_agent i a] else []).
Proof.
  unfold par_add_agent; intro H. rstep H. rstep H.
  assert (P : (Inv e -> Inv v0) /\ Fx e v0 /\ e_agents v0 = e_agents e).
  { destruct (s_TakeFromPopulation S); [|injection E0 as <-; auto].
    destruct (1 <? l_pop v)%Z; [|discriminate]. injection E0 as <-. split; [|split].
    - apply inv_same, same_up_loc; intro; [|unfold lhead; destruct (e_par e)]; reflexivity.
    - apply fx_up_loc. reflexivity.
    - reflexivity. }
  destruct P as (P1 & P2 & P3). apply par_own_spec in H as (H1 & H2 & H3 & H4).
  pose proof (meta_fx _ _ P2) as M. destruct P2 as [P2 P2r].
  split; [auto|]. split; [eapply meta_trans; [exact M|exact H2]|]. split; [rewrite H3, P2; reflexivity|].
  rewrite H4, P3, (proj1 (proj2 M)), (proj2 (proj2 M)).
  now rewrite (f_equal e_total_agents P2 : e_total_agents v0 = e_total_agents e).
Qed.

(** The new agents of process [r] when [k] agents are added after [t] agents *)
Definition turns (n r t : Z) (k : nat) : list nat :=
  filter (fun j => (t + Z.of_nat j + 1) mod n =? r)%Z (seq 0 k).

Lemma filter_map_seq (f : nat -> bool) a k : filter f (seq (S a) k) = map S (filter (fun j => f (S j)) (seq a k)).
Proof.
  rewrite <- seq_shift. induction (seq a k) as [|x l IH]; [reflexivity|]. cbn [map filter].
  destruct (f (S x)); cbn [map]; now rewrite IH.
Qed.
Lemma turns_S n r t k : turns n r t (S k) =
  (if (t + 1) mod n =? r then [0%nat] else [])%Z ++ map S (turns n r (t + 1) k).
Proof.
  unfold turns. cbn [seq filter]. rewrite Z.add_0_r. rewrite filter_map_seq.
  replace (map S (filter (fun j => (t + Z.of_nat (S j) + 1) mod n =? r)%Z (seq 0 k)))
     with (map S (filter (fun j => (t + 1 + Z.of_nat j + 1) mod n =? r)%Z (seq 0 k))).
  - destruct ((t + 1) mod n =? r)%Z; reflexivity.
  - f_equal. apply filter_ext. intro j. f_equal. f_equal. lia.
Qed.

Lemma par_insert_many_spec i e e' : forall number,
  par_insert_agents i number e = Ok e' ->
  (Inv e -> Inv e') /\ Meta e e' /\ sk e' = plus_total (Z.of_nat (Z.to_nat number)) (sk e) /\
  e_agents e' = e_agents e ++
    repeat (new_agent i []) (List.length (turns (e_mpi_size e) (e_rank e) (e_total_agents e) (Z.to_nat number))).
Proof.
  intros number. unfold par_insert_agents. generalize (Z.to_nat number) as k. intro k.
  assert (W : forall k b e e', foldM (fun e1 (_ : nat) => par_insert_agent i [] e1) (seq b k) e = Ok e' ->
    (Inv e -> Inv e') /\ Meta e e' /\ sk e' = plus_total (Z.of_nat k) (sk e) /\
    e_agents e' = e_agents e ++
      repeat (new_agent i []) (List.length (turns (e_mpi_size e) (e_rank e) (e_total_agents e) k))); [|apply W].
  clear. induction k as [|k IH]; intros b e e' H.
  - injection H as <-. split; [auto|]. split; [auto|]. split; [cbn; now rewrite plus_total_0|].
    cbn. now rewrite app_nil_r.
  - cbn [seq foldM] in H. rstep H. apply par_own_spec in E as (A1 & A2 & A3 & A4).
    apply IH in H as (B1 & B2 & B3 & B4). split; [auto|]. split; [eapply meta_trans; eauto|]. split.
    + rewrite B3, A3, plus_total_plus. f_equal. lia.
    + rewrite B4, A4, <- app_assoc. f_equal. rewrite turns_S, app_length, map_length.
      rewrite (proj1 (proj2 A2)), (proj2 (proj2 A2)).
      rewrite (f_equal e_total_agents A3 : e_total_agents v = (e_total_agents e + 1)%Z).
      destruct ((e_total_agents e + 1) mod e_mpi_size e =? e_rank e)%Z; reflexivity.
Qed.

Lemma local2_forall2 {A} (f : A -> eco -> res eco) args st st' : local2 f args st = Ok st' ->
  List.length args = List.length st /\
  Forall2 (fun p p' => f (fst p) (fst (snd p)) = Ok (fst p') /\ snd p' = snd (snd p)) (combine args st) st'.
Proof.
  unfold local2. destruct (Nat.eqb (List.length args) (List.length st)) eqn:E; [|discriminate].
  intro H. split; [now apply Nat.eqb_eq|]. apply mapM_Forall2 in H.
  induction H as [|[a [e g]] p' l l' H _ IH]; constructor; [|exact IH].
  cbn [fst snd] in *. rstep H. injection H as <-. split; reflexivity.
Qed.
Lemma local2_rel {A} (f : A -> eco -> res eco) args st st' : local2 f args st = Ok st' ->
  Forall2 (fun e e' => exists a, f a e = Ok e') (map fst st) (map fst st').
Proof.
  intro H. apply local2_forall2 in H as [L H]. revert args st' L H.
  induction st as [|[e g] st IH]; intros [|a args] st' L H; try discriminate.
  - inversion H; constructor.
  - cbn [combine] in H. inversion H as [|? p' ? l' [H1 _] H2]; subst. constructor; [exists a; exact H1|].
    eapply IH; [|exact H2]. cbn in L. congruence.
Qed.

Lemma procs_plus {A} n (f : A -> eco -> res eco) args st st' z :
  (forall a e e', f a e = Ok e' -> (Inv e -> Inv e') /\ Meta e e' /\ sk e' = plus_total z (sk e)) ->
  Procs n (map fst st) -> local2 f args st = Ok st' -> Procs n (map fst st').
Proof.
  intros F P H. apply local2_rel in H. eapply procs_step; [exact P|exact H| |].
  - intros e e' _ I _ (a & E). destruct (F _ _ _ E) as (F1 & F2 & _). auto.
  - intros a a' b b' _ _ T (x & E) (y & G). destruct (F _ _ _ E) as (_ & _ & F1). destruct (F _ _ _ G) as (_ & _ & F2).
    unfold Twin. rewrite F1, F2. now rewrite T.
Qed.

(** ** Clearing locations *)

Lemma countZ_drop {A} (f : A -> bool) xs (a : A) ys :
  countZ f (xs ++ a :: ys) = (countZ f (xs ++ ys) + (if f a then 1 else 0))%Z.
Proof. rewrite !countZ_app, countZ_cons. destruct (f a); lia. Qed.

Lemma inv_drop_agent e xs a ys e1 : Inv e -> e_par e = true -> e_agents e = xs ++ a :: ys ->
  dec_on_rank (a_location a) e = Ok e1 -> Inv (up_e_agents (fun _ => xs ++ ys) e1) /\ Fx e e1.
Proof.
  intros [I1 I2 I3 I4 I5 I6] A E H.
  assert (In1 : forall b, In b (xs ++ ys) -> In b (e_agents e)).
  { intros b Hb. rewrite E. apply in_app_or in Hb as [Hb|Hb]; apply in_or_app; [now left|now right; right]. }
  destruct (a_location a) as [i|k|i] eqn:La; cbn [dec_on_rank] in H; [| |discriminate]; injection H as <-.
  - split; [|apply fx_up_loc; reflexivity].
    assert (SS : SameStruct e (up_e_agents (fun _ => xs ++ ys) (up_loc i (up_l_numAgentsOnRank (fun z => z - 1)%Z) e))).
    { split; try reflexivity. cbn. apply map_upd. reflexivity. }
    split.
    + eapply struct_same; eauto.
    + cbn. intros b Hb. specialize (I2 b (In1 b Hb)). unfold agent_ok in *; cbn. now rewrite upd_length.
    + cbn. intros j l ki b Hj Hki Hb. rewrite nth_upd in Hj. destruct (Nat.eqb_spec i j) as [<-|]; [|eauto].
      destruct (nth_error (e_locations e) i) as [v|] eqn:Ev; [|discriminate]. injection Hj as <-. eauto.
    + intros j z Hz. unfold lheads in Hz; cbn in Hz. rewrite A in Hz.
      rewrite (map_upd2 _ _ _ (fun z => z - 1)%Z) in Hz by reflexivity.
      rewrite nth_upd in Hz. cbn.
      assert (C : forall j, countZ (stays j) (e_agents e) = (countZ (stays j) (xs ++ ys) + (if Nat.eqb i j then 1 else 0))%Z).
      { intro q. rewrite E, countZ_drop. unfold stays at 2, in_location, left_from. rewrite La.
        rewrite orb_false_r. reflexivity. }
      specialize (C j). unfold lheads in I4. rewrite A in I4. destruct (Nat.eqb i j).
      * destruct (nth_error (map (lhead true) (e_locations e)) j) eqn:En; [|discriminate].
        injection Hz as <-. rewrite (I4 j z0 En). lia.
      * rewrite (I4 j z Hz). lia.
    + intros k z Hz. cbn. rewrite (I5 k z Hz), E, countZ_drop. unfold on_link at 2. rewrite La. lia.
    + exact I6.
  - split; [|apply fx_up_link; reflexivity].
    assert (SS : SameStruct e (up_e_agents (fun _ => xs ++ ys) (up_link k (up_k_numAgentsOnRank (fun z => z - 1)%Z) e))).
    { split; try reflexivity. cbn. apply map_upd. reflexivity. }
    split.
    + eapply struct_same; eauto.
    + cbn. intros b Hb. specialize (I2 b (In1 b Hb)). unfold agent_ok in *; cbn. now rewrite upd_length.
    + cbn. intros j l ki b Hj Hki Hb. eauto.
    + intros j z Hz. cbn. rewrite (I4 j z Hz), E, countZ_drop. unfold stays at 2, in_location, left_from. rewrite La. cbn. lia.
    + intros j z Hz. unfold kheads in Hz; cbn in Hz. rewrite A in Hz.
      rewrite (map_upd2 _ _ _ (fun z => z - 1)%Z) in Hz by reflexivity.
      rewrite nth_upd in Hz. cbn.
      assert (C : forall j, countZ (on_link j) (e_agents e) = (countZ (on_link j) (xs ++ ys) + (if Nat.eqb k j then 1 else 0))%Z).
      { intro q. rewrite E, countZ_drop. unfold on_link at 2. rewrite La. reflexivity. }
      specialize (C j). unfold kheads in I5. rewrite A in I5. destruct (Nat.eqb k j).
      * destruct (nth_error (map (khead true) (e_links e)) j) eqn:En; [|discriminate].
        injection Hz as <-. rewrite (I5 j z0 En). lia.
      * rewrite (I5 j z Hz). lia.
    + cbn. rewrite A in *. intros q Hq. apply In_nth_error in Hq as [j Hj]. rewrite nth_upd in Hj.
      destruct (Nat.eqb k j).
      * destruct (nth_error (e_links e) j) eqn:En; [|discriminate]. injection Hj as <-. apply nth_error_In in En.
        specialize (I6 _ En). unfold khead in *. cbn. lia.
      * apply I6. eapply nth_error_In; eauto.
Qed.

Lemma par_clear_spec names e e' : e_par e = true -> par_clear_local names e = Ok e' ->
  (Inv e -> Inv e') /\ Fx e e'.
Proof.
  intros A H. unfold par_clear_local in H. rstep H. destruct v as [e1 kept]. injection H as <-.
  assert (W : forall l e kept e1 kept1, e_par e = true ->
    foldM (fun st a => let '(e1, kept) := st in n <- pos_name e1 (a_location a) ;;
             if mem_str n names then e2 <- dec_on_rank (a_location a) e1 ;; Ok (e2, kept)
             else Ok (e1, kept ++ [a])) l (e, kept) = Ok (e1, kept1) ->
    (Inv (up_e_agents (fun _ => kept ++ l) e) -> Inv (up_e_agents (fun _ => kept1) e1)) /\ Fx e e1).
  { clear. induction l as [|a l IH]; intros e kept e1 kept1 A H.
    - injection H as <- <-. rewrite app_nil_r. auto.
    - cbn [foldM] in H. rstep H. cbv beta iota in E. rstep E. destruct (mem_str v0 names).
      + rstep E. injection E as <-. rename v1 into e2.
        assert (D : Fx e e2) by (destruct (a_location a); cbn [dec_on_rank] in E1; [| |discriminate]; injection E1 as <-;
          [apply fx_up_loc|apply fx_up_link]; reflexivity).
        apply IH in H as [H1 H2]; [|rewrite (proj1 (meta_fx _ _ D)); exact A].
        split; [|eapply fx_trans; eauto]. intro I. apply H1.
        assert (D2 : dec_on_rank (a_location a) (up_e_agents (fun _ => kept ++ a :: l) e) = Ok (up_e_agents (fun _ => kept ++ a :: l) e2)).
        { destruct (a_location a); cbn [dec_on_rank] in *; [| |discriminate]; injection E1 as <-; reflexivity. }
        apply (inv_drop_agent _ kept a l) in D2 as [D2 _]; [exact D2|exact I|exact A|reflexivity].
      + injection E as <-. apply IH in H as [H1 H2]; [|exact A]. split; [|exact H2].
        intro I. apply H1. now rewrite <- app_assoc. }
  apply W in E as [E1 E2]; [|exact A]. split; [|eapply fx_trans; [exact E2|apply fx_agents]].
  intro I. apply E1. destruct e; exact I.
Qed.

(** ** Inherited calls *)

Lemma meta_remove s t tw co e e' b : remove_link s t tw co e = Ok (e', b) -> Meta e e'.
Proof.
  assert (W : forall s t co e e' b, remove_link_1way s t co e = Ok (e', b) -> Meta e e').
  { clear. intros s t co e e' b H. unfold remove_link_1way in H. rstep H. rstep H. destruct v0 as [[e1 n1] r1].
    injection H as <- <-. eapply meta_trans; [|repeat split].
    eapply (foldM_rel (fun a b => Meta (fst (fst a)) (fst (fst b)))) in E0; eauto using meta_trans.
    intros [[a1 a2] a3] k [[b1 b2] b3] _ Hs. cbn [fst]. unfold remove_step in Hs. do 2 rstep Hs.
    destruct (negb _); [injection Hs as <- <- <-; auto|]. destruct co; injection Hs as <- <- <-; auto. repeat split. }
  unfold remove_link; destruct tw; apply W.
Qed.
Lemma meta_reopen s t tw e e' b : reopen_link s t tw e = Ok (e', b) -> Meta e e'.
Proof.
  assert (W : forall s t e e' b, reopen_link_1way s t e = Ok (e', b) -> Meta e e').
  { clear. intros s t e e' b H. unfold reopen_link_1way in H. rstep H. rstep H. destruct v0 as [[e1 n1] r1].
    injection H as <- <-. eapply meta_trans; [|repeat split].
    eapply (foldM_rel (fun a b => Meta (fst (fst a)) (fst (fst b)))) in E0; eauto using meta_trans.
    intros [[a1 a2] a3] k [[b1 b2] b3] _ Hs. cbn [fst]. unfold reopen_step in Hs. do 2 rstep Hs.
    destruct (negb _); injection Hs as <- <- <-; auto. repeat split. }
  unfold reopen_link; destruct tw; apply W.
Qed.
Lemma meta_location fuel n m d e e' b : change_location_1way fuel n m d e = Ok (e', b) -> Meta e e'.
Proof. apply (change_location_rel Meta); eauto using meta_trans, meta_reopen. intros s t x x' y H. eapply meta_remove. exact H. Qed.
Lemma meta_border fuel s d tw m e e' : change_border fuel s d tw m e = Ok e' -> Meta e e'.
Proof. apply (change_border_rel Meta); eauto using meta_trans, meta_reopen. intros a b x x' y H. eapply meta_remove. exact H. Qed.
Lemma meta_rmap (f : eco -> res (eco * bool)) e e' :
  (forall e' b, f e = Ok (e', b) -> Meta e e') -> rmap fst (f e) = Ok e' -> Meta e e'.
Proof. intros H E. apply rmap_ok in E as ([x b] & E & ->). eapply H. exact E. Qed.
Lemma meta_enact fuel S t tw e e' : enact_border_closures fuel S t tw e = Ok e' -> Meta e e'.
Proof.
  unfold enact_border_closures; intro H. eapply (foldM_rel Meta) in H; eauto using meta_trans.
  intros u c u' _ F. unfold enact_one in F. rstep F. eapply meta_trans with v.
  - destruct (t =? c_start c)%Z; [|injection E as <-; auto]. unfold enact_close in E.
    repeat match type of E with (if ?x then _ else _) = _ => destruct x end.
    + eapply meta_border; eauto.
    + eapply meta_rmap; [|exact E]. intros; eapply meta_location; eauto.
    + eapply meta_rmap; [|exact E]. intros e1 b1 Hc. eapply meta_remove; exact Hc.
    + eapply meta_fx, fx_close_camp; eauto.
    + eapply meta_fx, fx_close_camp; eauto.
    + eapply meta_fx, fx_forced; eauto.
    + injection E as <-; auto.
  - destruct (t =? c_end c)%Z; [|injection F as <-; auto]. unfold enact_open in F.
    repeat match type of F with (if ?x then _ else _) = _ => destruct x end.
    + eapply meta_border; eauto.
    + eapply meta_rmap; [|exact F]. intros; eapply meta_location; eauto.
    + eapply meta_rmap; [|exact F]. intros e1 b1 Hc. eapply meta_reopen; exact Hc.
    + eapply meta_fx, fx_open_camp; eauto.
    + eapply meta_fx, fx_open_camp; eauto.
    + eapply meta_fx, fx_forced; eauto.
    + injection F as <-; auto.
Qed.
Lemma meta_link_up n1 n2 d f at_ e e' : link_up n1 n2 d f at_ e = Ok e' -> Meta e e'.
Proof.
  unfold link_up; intro H. cbv zeta in H. destruct (last_index n1 _ 0 None); [|discriminate].
  destruct (last_index n2 _ 0 None); [|discriminate]. do 2 rstep H.
  destruct at_; injection H as <-; repeat split.
Qed.
Lemma meta_add_location S o n r x y lt mc cap pop f c at_ e g e' g' :
  add_location S o n r x y lt mc cap pop f c at_ e g = Ok (e', g') -> Meta e e'.
Proof.
  intro H. unfold add_location in H.
  set (ea := match at_ with None => (e, 0%nat) | Some d => (up_e_dicts (fun ds => ds ++ [d]) e, List.length (e_dicts e)) end) in H.
  assert (T : Fx e (fst ea)) by (unfold ea; destruct at_; cbn [fst]; auto).
  destruct ea as [ea da]; cbn [fst] in T. rstep H. rstep H. cbv zeta in H. rstep H. destruct v1 as [e1 g1]. rstep H.
  injection H as <- <-. eapply meta_trans; [exact (meta_fx _ _ T)|].
  apply sc_updateLocationScore in E1 as [E1 _]. apply fx_sc, meta_fx in E1.
  apply fx_refresh, meta_fx in E2.
  eapply meta_trans; [|exact E2]. eapply (meta_trans _ e1); [|repeat split]. exact E1.
Qed.

Lemma procs_inherited n o S c st st' : inherited c = true ->
  Procs n (map fst st) -> local (step o S c) st = Ok st' -> Procs n (map fst st').
Proof.
  intros Hc P H. apply local_forall2 in H. eapply procs_step; [exact P|exact H| |].
  - intros e e' _ I A (g & g' & E). split; [eapply step_inv; eauto|].
    destruct c; try discriminate Hc; cbn [step] in E.
    all: try (injection E as <- <-; repeat split; fail).
    all: rstep E; injection E as <- <-.
    + eapply meta_link_up; eauto.
    + eapply meta_fx, fx_set_attr; eauto.
    + eapply meta_rmap; [|exact E0]. intros; eapply meta_remove; eauto.
    + eapply meta_rmap; [|exact E0]. intros; eapply meta_reopen; eauto.
    + eapply meta_rmap; [|exact E0]. intros; eapply meta_location; eauto.
    + eapply meta_rmap; [|exact E0]. intros; eapply meta_location; eauto.
    + eapply meta_border; eauto.
    + eapply meta_border; eauto.
    + eapply meta_fx, fx_close_camp; eauto.
    + eapply meta_fx, fx_open_camp; eauto.
    + eapply meta_fx, fx_change_type; eauto.
    + eapply meta_fx, fx_forced; eauto.
    + eapply meta_enact; eauto.
    + eapply meta_fx, fx_refresh; eauto.
    + eapply meta_fx, fx_add_conflict; eauto.
    + eapply meta_fx, fx_remove_conflict; eauto.
    + eapply meta_fx, fx_set_intensity; eauto.
    + eapply meta_fx, fx_update_attributes; eauto.
    + eapply meta_fx, fx_add_new_conflict_zones; eauto.
  - intros a a' b b' _ _ T (g & g' & E) (h & h' & F).
    destruct c; try discriminate Hc; cbn [step] in E, F.
    all: try (injection E as <- <-; injection F as <- <-;
              match goal with |- Twin (up_e_closures ?f _) _ => 
                change (up_e_closures f (sk a) = up_e_closures f (sk b)); now rewrite T end).
    all: rstep E; injection E as <- <-; rstep F; injection F as <- <-.
    + eapply twin_link_up; eauto.
    + eapply twin_fx; [exact T|eapply fx_set_attr; eauto|eapply fx_set_attr; eauto].
    + eapply twin_rmap; [|exact E0|exact E]. intros; eapply twin_remove; eauto.
    + eapply twin_rmap; [|exact E0|exact E]. intros; eapply twin_reopen; eauto.
    + eapply twin_rmap; [|exact E0|exact E]. intros; eapply twin_location; eauto.
    + eapply twin_rmap; [|exact E0|exact E]. intros; eapply twin_location; eauto.
    + eapply twin_border; eauto.
    + eapply twin_border; eauto.
    + eapply twin_fx; [exact T|eapply fx_close_camp; eauto|eapply fx_close_camp; eauto].
    + eapply twin_fx; [exact T|eapply fx_open_camp; eauto|eapply fx_open_camp; eauto].
    + eapply twin_fx; [exact T|eapply fx_change_type; eauto|eapply fx_change_type; eauto].
    + eapply twin_fx; [exact T|eapply fx_forced; eauto|eapply fx_forced; eauto].
    + eapply twin_enact; eauto.
    + eapply twin_fx; [exact T|eapply fx_refresh; eauto|eapply fx_refresh; eauto].
    + eapply twin_fx; [exact T|eapply fx_add_conflict; eauto|eapply fx_add_conflict; eauto].
    + eapply twin_fx; [exact T|eapply fx_remove_conflict; eauto|eapply fx_remove_conflict; eauto].
    + eapply twin_fx; [exact T|eapply fx_set_intensity; eauto|eapply fx_set_intensity; eauto].
    + eapply twin_fx; [exact T|eapply fx_update_attributes; eauto|eapply fx_update_attributes; eauto].
    + eapply twin_fx; [exact T|eapply fx_add_new_conflict_zones; eauto|eapply fx_add_new_conflict_zones; eauto].
Qed.

(** ** All calls *)

Theorem pstep_procs n o S c st st' : Procs n (map fst st) -> pstep o S c st = Ok st' -> Procs n (map fst st').
Proof.
  intros P H. destruct c; cbn [pstep] in H.
  - destruct (inherited c) eqn:Hc; [|discriminate]. eapply procs_inherited; eauto.
  - apply local_forall2 in H. eapply procs_step; [exact P|exact H| |].
    + intros e e' _ I A (g & g' & E). unfold par_add_location in E. split; [eapply inv_add_location; eauto|].
      eapply meta_add_location; eauto.
    + intros a a' b b' _ _ T (g & g' & E) (h & h' & F). eapply twin_add_location; eauto.
  - eapply procs_plus; [|exact P|exact H]. intros a e e' E. apply par_add_spec in E as (A & B & C & _). eauto.
  - eapply procs_plus; [|exact P|exact H]. intros a e e' E. apply par_own_spec in E as (A & B & C & _). eauto.
  - eapply procs_plus; [|exact P|exact H]. intros a e e' E. apply par_insert_many_spec in E as (A & B & C & _). eauto.
  - eapply procs_collective; [|exact P|exact H]. intros es es' Q E. unfold par_clear_locations in E. rstep E.
    eapply procs_update; [|exact E]. apply mapM_Forall2 in E0.
    eapply (procs_step n es v (fun e e' => In e es /\ par_clear_local names e = Ok e')); [exact Q| | |].
    + assert (W : forall l m, incl l es -> Forall2 (fun e e' => par_clear_local names e = Ok e') l m ->
        Forall2 (fun e e' => In e es /\ par_clear_local names e = Ok e') l m).
      { clear. intros l m Hi. induction 1; constructor; [split; [apply Hi; now left|assumption]|].
        apply IHForall2. intros x' Hx; apply Hi; now right. }
      apply W; [apply incl_refl|exact E0].
    + intros e e' _ I A [_ C]. apply par_clear_spec in C as [C1 C2]; [|exact A]. split; [auto|now apply meta_fx].
    + intros a a' b b' _ _ T [Ia Ca] [Ib Cb].
      assert (Pa : forall e, In e es -> e_par e = true).
      { intros e He. apply In_nth_error in He as [r He]. apply (pr_each _ _ Q _ _ He). }
      eapply twin_fx; [exact T|eapply par_clear_spec; eauto|eapply par_clear_spec; eauto].
  - eapply procs_collective; [|exact P|exact H]. intros; eapply procs_update; eauto.
  - eapply procs_evolve; eauto.
Qed.

Lemma procs_start gs : Procs (List.length gs) (map fst (pstart gs)).
Proof.
  set (n := List.length gs).
  assert (M : map fst (pstart gs) = map (fun r => empty_par (Z.of_nat r) (Z.of_nat n)) (seq 0 n)).
  { unfold pstart. fold n. assert (L : List.length (map (fun r => empty_par (Z.of_nat r) (Z.of_nat n)) (seq 0 n)) = List.length gs)
      by (rewrite map_length, seq_length; reflexivity).
    revert L. generalize (map (fun r => empty_par (Z.of_nat r) (Z.of_nat n)) (seq 0 n)) as es. clear.
    intro es. revert gs. induction es as [|e es IH]; intros [|g gs] L; cbn in *; try discriminate; [reflexivity|].
    f_equal. apply IH. congruence. }
  rewrite M. split.
  - now rewrite map_length, seq_length.
  - intros r e He. rewrite nth_error_map in He. destruct (nth_error (seq 0 n) r) as [r'|] eqn:Er; [|discriminate].
    injection He as <-.
    assert (r' = r) as ->.
    { pose proof (nth_error_lt _ _ _ Er) as L. rewrite seq_length in L.
      apply (nth_error_nth _ _ 0%nat) in Er. rewrite seq_nth in Er by lia. lia. }
    split; [|repeat split].
    split; cbn; try easy.
    + split; cbn; try easy; try lia; intros [|]; discriminate.
    + intros [|]; discriminate.
    + intros [|]; discriminate.
  - intros a b Ha Hb. apply in_map_iff in Ha as (x & <- & _). apply in_map_iff in Hb as (y & <- & _). reflexivity.
Qed.

Theorem prun_procs n o h : forall st st', Procs n (map fst st) -> prun o h st = Ok st' -> Procs n (map fst st').
Proof.
  unfold prun. intros st st' P H. eapply (foldM_inv (fun s => Procs n (map fst s))) in H; [exact H| |exact P].
  intros s c s' _ Ps Hs. eapply pstep_procs; eauto.
Qed.
Theorem preachable_procs o n st : preachable o n st -> Procs n (map fst st).
Proof. intros (h & gs & <- & H). eapply prun_procs; [apply procs_start|exact H]. Qed.
