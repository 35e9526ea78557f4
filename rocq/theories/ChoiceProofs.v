(** * ChoiceProofs: getCapMultiplier, normalizeWeights, chooseFromWeights, pruneRoutes *)

From Coq Require Import Lia Lqa.
From Verif Require Import Base State Moving Lemmas SpecChoice Defaults.
Local Open Scope Q_scope.

(** ** getCapMultiplier *)

Definition cap_of (S : settings) (l : location) : Q := inject_Z (l_capacity l) * s_CapacityScaling S.

Lemma cap_between (occ cap n : Q) : 1 <= cap -> occ * cap < n -> n < cap ->
  0 < cap * (1 - occ) /\
  let r := (n - occ * cap) / (cap * (1 - occ)) in 0 < r /\ r < 1 /\
  1 - r == (cap - n) / (cap - occ * cap).
Proof.
  intros H1 H2 H3. assert (D : 0 < cap * (1 - occ)) by lra. split; [exact D|]. cbv zeta.
  repeat split.
  - apply Qlt_shift_div_l; lra.
  - apply Qlt_shift_div_r; lra.
  - assert (~ 1 - occ == 0) by (intro X; rewrite X in D; lra). field. repeat split; lra.
Qed.

Lemma cap_total S l : exists w, getCapMultiplier S l = Ok w /\ 0 <= w <= 1 /\
  (cap_of S l < 1 -> w == 1) /\
  (inject_Z (l_numAgents l) <= s_CapacityBuffer S * cap_of S l -> w == 1) /\
  (s_CapacityBuffer S < 1 -> 1 <= cap_of S l -> cap_of S l <= inject_Z (l_numAgents l) -> w == 0) /\
  (1 <= cap_of S l -> s_CapacityBuffer S * cap_of S l < inject_Z (l_numAgents l) ->
   inject_Z (l_numAgents l) < cap_of S l ->
   w == (cap_of S l - inject_Z (l_numAgents l)) / (cap_of S l - s_CapacityBuffer S * cap_of S l)).
Proof.
  unfold getCapMultiplier, fdiv. fold (cap_of S l).
  set (cap := cap_of S l). set (n := inject_Z (l_numAgents l)). set (occ := s_CapacityBuffer S).
  destruct (Qltb cap 1) eqn:E1; qb.
  { exists 1; repeat split; intros; try lra. }
  destruct (Qleb n (occ * cap)) eqn:E2; qb.
  { exists 1; repeat split; intros; try lra.
    assert (occ * cap < 1 * cap) by (apply Qmult_lt_compat_r; lra). lra. }
  destruct (Qleb (1 * cap) n) eqn:E3; qb.
  { exists 0; repeat split; intros; try lra. }
  destruct (cap_between occ cap n) as (D & A & B & C); try lra.
  destruct (Qeqb (cap * (1 - occ)) 0) eqn:E4; qb; [lra|]. cbn [bind].
  destruct (Qleb 0 _) eqn:E5; qb; [|lra]. destruct (Qleb _ 1) eqn:E6; qb; [|lra].
  cbn [negb]. eexists; split; [reflexivity|]. repeat split; intros; try lra.
Qed.

Lemma cap_monotone S l n m w v : (l_numAgents l = n)%Z -> (n <= m)%Z ->
  getCapMultiplier S l = Ok w -> getCapMultiplier S (up_l_numAgents (fun _ => m) l) = Ok v ->
  v <= w.
Proof.
  intros <- H Hw Hv. destruct (cap_total S l) as (w0 & E & R & _). rewrite Hw in E; injection E as <-.
  destruct (cap_total S (up_l_numAgents (fun _ => m) l)) as (v0 & E & R' & _). rewrite Hv in E; injection E as <-.
  unfold getCapMultiplier, fdiv in *. cbn in Hv. rewrite Zle_Qle in H.
  set (cap := inject_Z (l_capacity l) * s_CapacityScaling S) in *.
  set (a := inject_Z (l_numAgents l)) in *. set (b := inject_Z m) in *.
  set (occ := s_CapacityBuffer S) in *.
  destruct (Qltb cap 1) eqn:E1; [injection Hw as <-; lra|].
  destruct (Qleb a (occ * cap)) eqn:E2; [injection Hw as <-; lra|].
  destruct (Qleb (1 * cap) b) eqn:E3.
  - destruct (Qleb b (occ * cap)) eqn:E4; qb; [lra|]. injection Hv as <-. lra.
  - destruct (Qleb b (occ * cap)) eqn:E4; qb; [lra|].
    destruct (Qleb (1 * cap) a) eqn:E5; qb; [lra|].
    rstep Hw. rstep Hv. destruct (Qeqb (cap * (1 - occ)) 0) eqn:E6; [discriminate|].
    injection E as <-. injection E0 as <-.
    do 2 (rstep Hw; [discriminate|]). do 2 (rstep Hv; [discriminate|]).
    injection Hw as <-. injection Hv as <-.
    destruct (cap_between occ cap a) as (D & _); try lra.
    assert ((a - occ * cap) / (cap * (1 - occ)) <= (b - occ * cap) / (cap * (1 - occ))).
    { apply Qle_shift_div_l; [lra|]. unfold Qdiv. rewrite <- Qmult_assoc, (Qmult_comm (/ _)).
      rewrite Qmult_inv_r; lra. }
    lra.
Qed.

(** ** Sums of mapped lists *)

Lemma sumQ_firstn_map_div n ws t : ~ t == 0 ->
  sumQ (firstn n (map (fun x => x / t) ws)) == sumQ (firstn n ws) / t.
Proof. intro H. rewrite firstn_map. now apply sumQ_map_div. Qed.

Lemma sumQ_map_add1 ws t : ~ t == 0 ->
  sumQ (map (fun x => (x + 1) / t) ws) == (sumQ ws + inject_Z (Z.of_nat (List.length ws))) / t.
Proof.
  intro H. induction ws as [|w ws IH].
  - cbn. field. auto.
  - cbn [map sumQ List.length]. rewrite IH, Nat2Z.inj_succ. unfold Z.succ. rewrite inject_Z_plus.
    change (inject_Z 1) with 1. field. auto.
Qed.

Lemma sumQ_zero ws : Forall (fun w => 0 <= w) ws -> sumQ ws <= 0 -> Forall (fun w => w == 0) ws.
Proof.
  induction 1 as [|w ws H F IH]; intro S; constructor; cbn in S; pose proof (sumQ_nonneg ws F);
    [lra|]. apply IH; lra.
Qed.

Lemma len_pos {A} (l : list A) : l <> [] -> 0 < inject_Z (Z.of_nat (List.length l)).
Proof.
  intro H. change 0 with (inject_Z 0). rewrite <- Zlt_Qlt. destruct l; [congruence|]. cbn. lia.
Qed.

(** ** normalizeWeights *)

Lemma normalize_length ws : List.length (normalizeWeights ws) = List.length ws.
Proof. unfold normalizeWeights; destruct (Qltb _ _); apply map_length. Qed.

Lemma normalize_sum ws : ws <> [] -> Forall (fun w => 0 <= w) ws -> sumQ (normalizeWeights ws) == 1.
Proof.
  intros N F. unfold normalizeWeights. pose proof (sumQ_nonneg ws F).
  destruct (Qltb 0 (sumQ ws)) eqn:E; qb.
  - rewrite sumQ_map_div by lra. field; lra.
  - pose proof (len_pos ws N). rewrite sumQ_map_add1 by lra.
    assert (Z : sumQ ws == 0) by lra. rewrite Z. field. lra.
Qed.

Lemma normalize_nonneg ws : Forall (fun w => 0 <= w) ws -> Forall (fun w => 0 <= w) (normalizeWeights ws).
Proof.
  intros F. unfold normalizeWeights. destruct (Qltb 0 (sumQ ws)) eqn:E; qb; apply Forall_map.
  - eapply Forall_impl; [|exact F]. cbv beta. intros w H. apply Qle_shift_div_l; lra.
  - destruct ws as [|w0 ws0]; [constructor|]. pose proof (len_pos (w0 :: ws0) ltac:(discriminate)) as L.
    eapply Forall_impl; [|exact F]. cbv beta. intros w H. apply Qle_shift_div_l; [exact L|lra].
Qed.

Lemma normalize_ratio ws i j wi wj vi vj : 0 < sumQ ws ->
  nth_error ws i = Some wi -> nth_error ws j = Some wj ->
  nth_error (normalizeWeights ws) i = Some vi -> nth_error (normalizeWeights ws) j = Some vj ->
  vi * wj == vj * wi.
Proof.
  unfold normalizeWeights. intros P Hi Hj Vi Vj. apply Qltb_true in P as E. rewrite E in *.
  rewrite nth_error_map, Hi in Vi. rewrite nth_error_map, Hj in Vj.
  injection Vi as <-. injection Vj as <-. field. lra.
Qed.

Lemma normalize_zero ws : Forall (fun w => 0 <= w) ws -> sumQ ws == 0 ->
  Forall (fun v => v == 1 / inject_Z (Z.of_nat (List.length ws))) (normalizeWeights ws).
Proof.
  intros F Z. destruct ws as [|w0 ws0]; [constructor|]. set (ws := w0 :: ws0) in *.
  pose proof (len_pos ws ltac:(discriminate)) as L.
  assert (Z' : sumQ ws <= 0) by lra. apply sumQ_zero in Z'; [|exact F].
  unfold normalizeWeights. destruct (Qltb 0 (sumQ ws)) eqn:E; qb; [lra|].
  apply Forall_map. eapply Forall_impl; [|exact Z']. cbv beta. intros w H. rewrite H. field. lra.
Qed.

(** ** random.choices *)

Lemma accumulate_length acc ws : List.length (accumulate acc ws) = List.length ws.
Proof. revert acc; induction ws; intros; cbn; auto. Qed.

Lemma accumulate_last acc ws d : ws <> [] -> List.last (accumulate acc ws) d == acc + sumQ ws.
Proof.
  revert acc; induction ws as [|w ws IH]; intros acc N; [congruence|].
  cbn [accumulate]. destruct ws as [|w' ws'].
  - cbn. ring.
  - change (List.last ((acc + w) :: accumulate (acc + w) (w' :: ws')) d)
      with (List.last (accumulate (acc + w) (w' :: ws')) d).
    rewrite IH by discriminate. cbn. ring.
Qed.

(** Index chosen by bisection of the running sums *)
Lemma bisect_share acc ws x : Forall (fun w => 0 <= w) ws -> ws <> [] ->
  acc <= x -> x < acc + sumQ ws ->
  let i := bisect_right (removelast (accumulate acc ws)) x in
  (i < List.length ws)%nat /\ acc + sumQ (firstn i ws) <= x /\ x < acc + sumQ (firstn (S i) ws).
Proof.
  intros F; revert acc; induction F as [|w ws Hw F IH]; intros acc N L U; [congruence|].
  destruct ws as [|w' ws'].
  - cbn in *. repeat split; [lia|lra|lra].
  - change (removelast (accumulate acc (w :: w' :: ws')))
      with ((acc + w) :: removelast (accumulate (acc + w) (w' :: ws'))).
    cbn [bisect_right]. destruct (Qltb x (acc + w)) eqn:E; qb.
    + cbn. repeat split; [lia|lra|lra].
    + destruct (IH (acc + w)) as (A & B & C); [discriminate|exact E|cbn in U |- *; lra|].
      cbv zeta. set (i := bisect_right (removelast (accumulate (acc + w) (w' :: ws'))) x) in *.
      split; [cbn [List.length] in *; lia|].
      change (firstn (S i) (w :: w' :: ws')) with (w :: firstn i (w' :: ws')).
      change (firstn (S (S i)) (w :: w' :: ws')) with (w :: firstn (S i) (w' :: ws')).
      cbn [sumQ]. split; lra.
Qed.

Lemma choices_share {A} (opts : list A) ws g : Forall (fun w => 0 <= w) ws ->
  List.length opts = List.length ws -> 0 < sumQ ws ->
  0 <= next_draw g -> next_draw g < 1 ->
  exists i r, random_choices opts ws g = Ok (r, snd (rng_u g)) /\ nth_error opts i = Some r /\
    share ws i (next_draw g).
Proof.
  intros F L P U0 U1. assert (N : ws <> []) by (intros ->; cbn in P; lra).
  unfold random_choices. rewrite L, Nat.eqb_refl. cbn [negb].
  pose proof (accumulate_last 0 ws 0 N) as EL. rewrite Qplus_0_l in EL.
  destruct (Qleb _ 0) eqn:E; qb; [lra|]. destruct (rng_u g) as [u g'] eqn:Eg.
  assert (u = next_draw g) as -> by (unfold rng_u in Eg; injection Eg as <- _; reflexivity).
  set (u := next_draw g) in *. set (tot := List.last (accumulate 0 ws) 0) in *.
  assert (X : u * tot < 0 + sumQ ws).
  { rewrite EL. rewrite <- (Qmult_1_l (sumQ ws)) at 2. rewrite Qplus_0_l. apply Qmult_lt_compat_r; lra. }
  assert (X0 : 0 <= u * tot) by (rewrite EL; apply Qmult_le_0_compat; lra).
  destruct (bisect_share 0 ws (u * tot) F N X0 X) as (I & B & C).
  set (i := bisect_right _ _) in *. rewrite <- L in I.
  destruct (nth_error_ex opts i I) as [r Hr]. rewrite Hr. cbn.
  exists i, r. split; [reflexivity|]. split; [assumption|]. unfold share, before.
  rewrite !EL in *. split; lra.
Qed.

Lemma choose_empty {A} (routes : list A) g : chooseFromWeights [] routes g = Ok (None, g).
Proof. reflexivity. Qed.

Lemma firstn_S_sum i (ws : list Q) w : nth_error ws i = Some w ->
  sumQ (firstn (S i) ws) == sumQ (firstn i ws) + w.
Proof.
  revert i; induction ws as [|a ws IH]; intros [|i] H; try discriminate.
  - injection H as ->. cbn. ring.
  - change (firstn (S (S i)) (a :: ws)) with (a :: firstn (S i) ws).
    change (firstn (S i) (a :: ws)) with (a :: firstn i ws). cbn [sumQ].
    rewrite (IH i H). ring.
Qed.

Lemma share_normalize ws i u : Forall (fun w => 0 <= w) ws -> 0 < sumQ ws ->
  share (normalizeWeights ws) i u <-> share ws i u.
Proof.
  intros F P. unfold share, before, normalizeWeights. apply Qltb_true in P as E. rewrite E.
  assert (NZ : ~ sumQ ws == 0) by lra.
  rewrite !sumQ_firstn_map_div, sumQ_map_div by assumption.
  set (t := sumQ ws) in *. set (a := sumQ (firstn i ws)). set (b := sumQ (firstn (S i) ws)).
  assert (T : u * (t / t) == (u * t) / t) by (field; lra). rewrite T.
  assert (I : 0 < / t) by (apply Qinv_lt_0_compat; exact P).
  unfold Qdiv. split; intros [H1 H2].
  - split; [apply (Qmult_le_r _ _ (/ t)); assumption | apply (Qmult_lt_r _ _ (/ t)); assumption].
  - split; [apply (Qmult_le_r _ _ (/ t)) | apply (Qmult_lt_r _ _ (/ t))]; assumption.
Qed.

Lemma choose_share {A} (routes : list A) ws g : Forall (fun w => 0 <= w) ws ->
  List.length routes = List.length ws -> ws <> [] ->
  0 <= next_draw g -> next_draw g < 1 ->
  exists i r, chooseFromWeights ws routes g = Ok (Some r, snd (rng_u g)) /\
    nth_error routes i = Some r /\ (0 < sumQ ws -> share ws i (next_draw g)).
Proof.
  intros F L N U0 U1.
  destruct (choices_share routes (normalizeWeights ws) g) as (i & r & E & R & Sh); auto.
  - now apply normalize_nonneg.
  - now rewrite normalize_length.
  - rewrite normalize_sum by assumption. lra.
  - exists i, r. split; [|split; [exact R|]].
    + unfold chooseFromWeights. destruct ws; [congruence|]. rewrite E. reflexivity.
    + intro P. now apply share_normalize.
Qed.

Lemma share_positive ws i u : share ws i u -> exists w, nth_error ws i = Some w /\ 0 < w.
Proof.
  intros [H1 H2]. destruct (nth_error ws i) as [w|] eqn:E.
  - exists w; split; [reflexivity|]. unfold before in *. rewrite (firstn_S_sum i ws w E) in H2. lra.
  - exfalso. apply nth_error_None in E. unfold before in *.
    rewrite firstn_all2 in H1 by assumption. rewrite firstn_all2 in H2 by lia. lra.
Qed.

Lemma sum_exists_pos ws : (exists w, In w ws /\ 0 < w) -> Forall (fun w => 0 <= w) ws -> 0 < sumQ ws.
Proof.
  intros (w & I & P) F. induction F as [|a ws Ha F IH]; [easy|]. cbn.
  pose proof (sumQ_nonneg ws F). destruct I as [->|I]; [lra|]. specialize (IH I). lra.
Qed.

Lemma choose_positive {A} (routes : list A) ws g : Forall (fun w => 0 <= w) ws ->
  List.length routes = List.length ws -> ws <> [] ->
  0 <= next_draw g -> next_draw g < 1 ->
  exists i r, chooseFromWeights ws routes g = Ok (Some r, snd (rng_u g)) /\
    nth_error routes i = Some r /\
    ((exists w, In w ws /\ 0 < w) -> exists w, nth_error ws i = Some w /\ 0 < w) /\
    (0 < sumQ ws -> share ws i (next_draw g)).
Proof.
  intros F L N U0 U1. destruct (choose_share routes ws g F L N U0 U1) as (i & r & E & R & Sh).
  exists i, r. repeat split; auto. intro X. eapply share_positive, Sh. now apply sum_exists_pos.
  all: apply Sh; assumption.
Qed.

(** Shares do not overlap *)
Lemma before_mono ws i j : Forall (fun w => 0 <= w) ws -> (i <= j)%nat -> before i ws <= before j ws.
Proof.
  unfold before; intros F; revert i j; induction F as [|a ws Ha F IH]; intros i j H.
  - rewrite !firstn_nil. lra.
  - destruct i as [|i], j as [|j]; cbn; try lra; try lia.
    + assert (X : 0 <= sumQ (firstn j ws)); [|lra].
      specialize (IH 0%nat j ltac:(lia)). cbn in IH. exact IH.
    + assert (H' : (i <= j)%nat) by lia. specialize (IH i j H'). lra.
Qed.
Lemma share_unique ws i j u : Forall (fun w => 0 <= w) ws -> share ws i u -> share ws j u -> i = j.
Proof.
  intros F [A1 A2] [B1 B2]. destruct (Nat.lt_trichotomy i j) as [H|[H|H]]; auto; exfalso.
  - pose proof (before_mono ws (S i) j F ltac:(lia)). lra.
  - pose proof (before_mono ws (S j) i F ltac:(lia)). lra.
Qed.

Lemma choose_possible {A} (routes : list A) ws i w r : Forall (fun w => 0 <= w) ws ->
  List.length routes = List.length ws ->
  nth_error ws i = Some w -> 0 < w -> nth_error routes i = Some r ->
  exists u, 0 <= u /\ u < 1 /\ forall g, next_draw g == u ->
    chooseFromWeights ws routes g = Ok (Some r, snd (rng_u g)).
Proof.
  intros F L Hw P Hr.
  assert (T : 0 < sumQ ws) by (apply sum_exists_pos; eauto using nth_error_In).
  assert (B0 : 0 <= before i ws).
  { pose proof (before_mono ws 0 i F ltac:(lia)) as H. unfold before at 1 in H. exact H. }
  assert (B1 : before (S i) ws <= sumQ ws).
  { pose proof (before_mono ws (S i) (Nat.max (S i) (List.length ws)) F ltac:(lia)) as H.
    unfold before at 2 in H. rewrite firstn_all2 in H by lia. exact H. }
  assert (B2 : before (S i) ws == before i ws + w) by now apply firstn_S_sum.
  exists (before i ws / sumQ ws). split; [apply Qle_shift_div_l; lra|].
  split; [apply Qlt_shift_div_r; lra|]. intros g Hg.
  assert (Sh : share ws i (next_draw g)).
  { unfold share. rewrite Hg. assert (E : before i ws / sumQ ws * sumQ ws == before i ws) by (field; lra).
    rewrite E. lra. }
  destruct (choose_share routes ws g F L) as (j & r' & E & R & S').
  - intros ->. destruct i; discriminate.
  - rewrite Hg. apply Qle_shift_div_l; lra.
  - rewrite Hg. apply Qlt_shift_div_r; lra.
  - assert (i = j) as <- by (eapply share_unique; eauto). assert (r = r') as <- by congruence.
    exact E.
Qed.

(** ** pruneRoutes *)

Lemma py_remove_at {A} (eqb : A -> A -> bool) (v : A) l1 l2 :
  (forall a, In a l1 -> eqb a v = false) -> eqb v v = true ->
  py_remove eqb v (l1 ++ v :: l2) = Ok (l1 ++ l2).
Proof.
  intros H R; induction l1 as [|a l1 IH]; cbn; [now rewrite R|].
  rewrite H by (now left). rewrite IH by (intros; apply H; now right). reflexivity.
Qed.

Lemma route_eqb_eq r1 r2 : route_eqb r1 r2 = true <-> r1 = r2.
Proof.
  revert r2; induction r1 as [|a r1 IH]; intros [|b r2]; cbn; split; intro H; try discriminate; auto.
  - apply andb_true_iff in H as [H1 H2]. apply String.eqb_eq in H1 as ->. f_equal. now apply IH.
  - injection H as -> ->. rewrite String.eqb_refl. cbn. now apply IH.
Qed.

Lemma prune_loop_spec thr done todo drs trs fuel :
  List.length todo = List.length trs -> List.length done = List.length drs ->
  Forall (fun w => thr <= w) done -> NoDup (drs ++ trs) -> (List.length todo <= fuel)%nat ->
  prune_loop fuel thr (List.length done) (done ++ todo) (drs ++ trs) =
  let keep := filter (fun p => Qle_bool thr (fst p)) (combine todo trs) in
  Ok (done ++ map fst keep, drs ++ map snd keep).
Proof.
  revert done todo drs trs; induction fuel as [|fuel IH]; intros done todo drs trs L1 L2 F N Hf.
  - destruct todo; [|cbn in Hf; lia]. destruct trs; [|discriminate].
    cbn [prune_loop]. rewrite app_nil_r. rewrite (proj2 (nth_error_None done _)) by lia.
    cbn. now rewrite !app_nil_r.
  - destruct todo as [|w todo], trs as [|r trs]; try discriminate.
    + cbn [prune_loop]. rewrite app_nil_r. rewrite (proj2 (nth_error_None done _)) by lia.
      cbn. now rewrite !app_nil_r.
    + cbn [prune_loop]. rewrite nth_error_app2, Nat.sub_diag by lia. cbn [nth_error].
      cbn [combine filter fst]. destruct (Qltb w thr) eqn:E.
      * assert (E' : Qle_bool thr w = false) by (qb; apply Qleb_false; assumption). rewrite E'.
        rewrite py_remove_at; cycle 1.
        { intros a Ha. eapply Forall_forall in F; [|exact Ha]. apply Qeqb_false. qb. lra. }
        { apply Qeqb_true. reflexivity. }
        cbn [bind]. rewrite L2, nth_error_app2, Nat.sub_diag by lia. cbn [nth_error of_option bind].
        rewrite py_remove_at; cycle 1.
        { intros a Ha. destruct (route_eqb a r) eqn:Er; [|reflexivity].
          apply route_eqb_eq in Er as ->. apply NoDup_remove_2 in N. exfalso; apply N.
          apply in_or_app; now left. }
        { now apply route_eqb_eq. }
        cbn [bind]. rewrite <- L2. cbn in L1, Hf. apply IH; auto; try lia.
        now apply NoDup_remove_1 in N.
      * assert (E' : Qle_bool thr w = true) by (qb; apply Qleb_true; assumption). rewrite E'.
        specialize (IH (done ++ [w]) todo (drs ++ [r]) trs).
        rewrite !app_length in IH. cbn [List.length] in *. rewrite Nat.add_1_r in IH.
        rewrite <- !app_assoc in IH. cbn [app] in IH. rewrite IH; auto; try lia.
        -- apply Forall_app; split; [assumption|]. constructor; [now apply Qltb_false|constructor].
Qed.

Lemma maxQ_is_max m l : In (maxQ m l) (m :: l) /\ (forall w, In w (m :: l) -> w <= maxQ m l).
Proof.
  revert m; induction l as [|a l IH]; intro m; cbn [maxQ].
  - split; [now left|]. intros w [->|[]]. lra.
  - destruct (IH (if Qltb m a then a else m)) as [I M]. destruct (Qltb m a) eqn:E; qb.
    + split; [right; exact I|]. intros w [->|Hw]; [|now apply M].
      pose proof (M a ltac:(now left)). lra.
    + split; [destruct I as [I|I]; [left; exact I | right; right; exact I]|].
      intros w [->|[->|Hw]]; [apply M; now left | | apply M; now right].
      pose proof (M m ltac:(now left)). lra.
Qed.

Lemma filter_ext_in' {A} (f g : A -> bool) l : (forall a, In a l -> f a = g a) -> filter f l = filter g l.
Proof.
  intro H; induction l as [|a l IH]; cbn; [reflexivity|]. rewrite H by now left.
  rewrite IH by (intros; apply H; now right). reflexivity.
Qed.

Lemma Qle_bool_compat x y z : x == y -> Qle_bool x z = Qle_bool y z.
Proof. intro H. apply eq_iff_eq_true. rewrite !Qle_bool_iff. rewrite H. reflexivity. Qed.

Lemma prune_spec S ws rs m : NoDup rs -> List.length ws = List.length rs ->
  (1001 # 1000) <= s_PruningThreshold S -> is_max m ws ->
  let keep := filter (fun p => Qle_bool (m / s_PruningThreshold S) (fst p)) (combine ws rs) in
  pruneRoutes S ws rs = Ok (map fst keep, map snd keep).
Proof.
  intros N L T [I M]. unfold pruneRoutes. destruct (Qltb _ _) eqn:E; qb; [lra|].
  destruct ws as [|w ws]; [easy|]. unfold fdiv.
  destruct (Qeqb (s_PruningThreshold S) 0) eqn:E2; qb; [lra|]. cbn [bind].
  destruct (maxQ_is_max w ws) as [I' M'].
  assert (Em : maxQ w ws == m).
  { pose proof (M _ I'). pose proof (M' _ I). lra. }
  pose proof (prune_loop_spec (maxQ w ws / s_PruningThreshold S) [] (w :: ws) [] rs
    (List.length (w :: ws)) L eq_refl ltac:(constructor) N (le_n _)) as P.
  cbn [List.length app] in P. cbv zeta in P |- *. cbn [List.length]. rewrite P. do 2 f_equal; f_equal;
  (apply filter_ext_in'; intros p _; apply Qle_bool_compat; rewrite Em; reflexivity).
Qed.

Lemma prune_keeps_best S ws rs m r i : NoDup rs -> List.length ws = List.length rs ->
  (1001 # 1000) <= s_PruningThreshold S -> is_max m ws -> 0 <= m ->
  nth_error ws i = Some m -> nth_error rs i = Some r ->
  forall ws' rs', pruneRoutes S ws rs = Ok (ws', rs') ->
  exists j, nth_error ws' j = Some m /\ nth_error rs' j = Some r.
Proof.
  intros N L T Mx P Hw Hr ws' rs' H. rewrite (prune_spec S ws rs m N L T Mx) in H. cbv zeta in H.
  injection H as <- <-.
  assert (In (m, r) (filter (fun p => Qle_bool (m / s_PruningThreshold S) (fst p)) (combine ws rs))) as Hin.
  { apply filter_In. split.
    - clear -Hw Hr. revert rs i Hw Hr; induction ws; intros [|x rs] [|i] Hw Hr; try discriminate; cbn in *.
      + left; congruence.
      + right; eauto.
    - cbn [fst]. apply Qle_bool_iff. apply Qle_shift_div_r; [lra|].
      assert (X : m * 1 <= m * s_PruningThreshold S).
      { rewrite !(Qmult_comm m). apply Qmult_le_compat_r; lra. }
      lra. }
  apply In_nth_error in Hin as [j Hj]. exists j.
  split; [change m with (fst (m, r)) | change r with (snd (m, r))]; now apply map_nth_error.
Qed.

Lemma prune_off S ws rs : s_PruningThreshold S < (1001 # 1000) -> pruneRoutes S ws rs = Ok (ws, rs).
Proof. intro H. unfold pruneRoutes. apply Qltb_true in H. now rewrite H. Qed.

(** ** Size of a share, examples and counterexamples *)

Lemma share_interval ws i w u : Forall (fun w => 0 <= w) ws -> 0 < sumQ ws ->
  nth_error ws i = Some w ->
  (share ws i u <-> before i ws / sumQ ws <= u /\ u < before i ws / sumQ ws + w / sumQ ws).
Proof.
  intros F P H. unfold share. assert (B : before (Datatypes.S i) ws == before i ws + w) by now apply firstn_S_sum.
  rewrite B. set (b := before i ws). set (t := sumQ ws) in *.
  assert (I : 0 < / t) by now apply Qinv_lt_0_compat.
  assert (E1 : u * t * / t == u) by (field; lra).
  assert (E2 : (b + w) * / t == b / t + w / t) by (field; lra).
  rewrite <- (Qmult_le_r b (u * t) (/ t)) by assumption.
  rewrite <- (Qmult_lt_r (u * t) (b + w) (/ t)) by assumption.
  rewrite E1, E2. reflexivity.
Qed.

Lemma cap_full_buffer : exists S l,
  s_CapacityBuffer S = 1 /\ (l_numAgents l = l_capacity l)%Z /\ (0 < l_capacity l)%Z /\
  s_CapacityScaling S = 1 /\ getCapMultiplier S l = Ok 1.
Proof.
  exists (up_s_CapacityBuffer (fun _ => 1) default_settings),
    (up_l_numAgents (fun _ => 10%Z) (up_l_capacity (fun _ => 10%Z) plain_location)).
  repeat split.
Qed.

Lemma cap_example : exists l, l_numAgents l = 95%Z /\ l_capacity l = 100%Z /\
  s_CapacityBuffer default_settings < 1 /\
  match getCapMultiplier default_settings l with Ok w => w == 1 # 2 | Err _ => False end.
Proof.
  exists (up_l_numAgents (fun _ => 95%Z) (up_l_capacity (fun _ => 100%Z) plain_location)).
  repeat split.
Qed.

Lemma prune_duplicates : exists S,
  s_PruningThreshold S = 2 /\
  pruneRoutes S [10; 8; 1] [["A"]; ["B"]; ["A"]]%string = Ok ([10; 8], [["B"]; ["A"]]%string).
Proof. exists (up_s_PruningThreshold (fun _ => 2) default_settings). split; reflexivity. Qed.

Lemma prune_empty : exists S, (1001 # 1000) <= s_PruningThreshold S /\
  pruneRoutes S [] [] = Err ValueError.
Proof. exists (up_s_PruningThreshold (fun _ => 2) default_settings). split; [discriminate|reflexivity]. Qed.

Lemma prune_example : NoDup [["A"]; ["B"]; ["C"]; ["C"; "D"]]%string /\ is_max 10 [1; 10; 6; 4] /\
  pruneRoutes (up_s_PruningThreshold (fun _ => 2) default_settings) [1; 10; 6; 4]
    [["A"]; ["B"]; ["C"]; ["C"; "D"]]%string = Ok ([10; 6], [["B"]; ["C"]]%string).
Proof.
  split; [|split].
  - repeat constructor; cbn; intuition discriminate.
  - split; [cbn; tauto|]. intros w H. cbn in H.
    destruct H as [<-|[<-|[<-|[<-|[]]]]]; discriminate.
  - reflexivity.
Qed.
