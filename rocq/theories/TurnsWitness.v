(** * TurnsWitness: two coupled simulations that run at their own speed *)

From Coq Require Import Lia.
From Verif Require Import Base State Moving Crawling Scoring Diagnostics Flee DataTable
  Spawning InputGeography Api Pflee ParApi SpecAgents SpecHistory SpecParallel Defaults ExampleRun Lemmas
  ParallelWitness Coupling SpecCoupling CouplingWitness SpecExchange ExchangeWitness CouplingFiles SpecTurns.
Local Open Scope string_scope.
Local Open Scope list_scope.
Local Open Scope nat_scope.

(** Two programs that read each other's file *)
Definition value {A} (default : A) (r : res A) : A := match r with Ok a => a | Err _ => default end.
Lemma value_ok {A} (default : A) r : is_ok r = true -> r = Ok (value default r).
Proof. destruct r; [reflexivity|discriminate]. Qed.

Definition pick {X} (m0 m1 : X) (i : nat) : X := match i with 0 => m0 | _ => m1 end.
Fixpoint both {X} (m0 m1 : member X) (x0 x1 : X) (t i : nat) : X :=
  match t with
  | 0 => pick x0 x1 i
  | S u =>
      let w j := value x0 (m_work (pick m0 m1 j) u (both m0 m1 x0 x1 u j)) in
      let s j := value "" (m_text (pick m0 m1 j) u (w j)) in
      value x0 (m_take (pick m0 m1 i) u [s (1 - i)] (w i))
  end.
Definition both_ok {X} (m0 m1 : member X) (x0 x1 : X) (u i : nat) : bool :=
  let w j := value x0 (m_work (pick m0 m1 j) u (both m0 m1 x0 x1 u j)) in
  let s j := value "" (m_text (pick m0 m1 j) u (w j)) in
  (is_ok (m_work (pick m0 m1 i) u (both m0 m1 x0 x1 u i)) && m_now (pick m0 m1 i) u && is_ok (m_text (pick m0 m1 i) u (w i)) &&
   is_ok (m_take (pick m0 m1 i) u [s (1 - i)] (w i)))%bool.
Lemma two_sides {X} T (m0 m1 : member X) x0 x1 :
  m_num m0 = 1 -> m_num m1 = 1 -> m_in m0 = m_out m1 -> m_in m1 = m_out m0 -> m_index m0 = 0 -> m_index m1 = 0 ->
  (forall t i, t < T -> i < 2 -> both_ok m0 m1 x0 x1 t i = true) -> side_by_side T [m0; m1] (both m0 m1 x0 x1).
Proof.
  intros N0 N1 I0 I1 J0 J1 H t i m Lt E.
  assert (Li : i < 2) by (change 2 with (List.length [m0; m1]); apply nth_error_Some; congruence).
  assert (m = pick m0 m1 i) as -> by (destruct i as [|[|i]]; [cbn in E; now injection E|cbn in E; now injection E|lia]).
  pose proof (H t i Lt Li) as K. pose proof (H t (1 - i) Lt ltac:(lia)) as K'. unfold both_ok in K, K'. cbn zeta in K, K'.
  repeat (apply Bool.andb_true_iff in K as [K ?]). repeat (apply Bool.andb_true_iff in K' as [K' ?]).
  exists (value x0 (m_work (pick m0 m1 i) t (both m0 m1 x0 x1 t i))). split; [now apply value_ok|].
  rewrite H2. split; [eexists; apply (value_ok ""); assumption|].
  exists [value "" (m_text (pick m0 m1 (1 - i)) t (value x0 (m_work (pick m0 m1 (1 - i)) t (both m0 m1 x0 x1 t (1 - i)))))].
  split; [destruct i; cbn; congruence|]. split; [cbn [both]; now apply value_ok|].
  intros [|[|k]] s Hk; cbn in Hk; try discriminate Hk. injection Hk as <-.
  exists (1 - i), (pick m0 m1 (1 - i)). split; [destruct i as [|[|i]]; [reflexivity|reflexivity|lia]|].
  split; [destruct i as [|[|i]]; [symmetry; exact I0|symmetry; exact I1|lia]|]. split; [destruct i as [|[|i]]; [exact J1|exact J0|lia]|].
  eexists. split; [apply (value_ok x0); assumption|]. now apply value_ok.
Qed.
Lemma two_partners {X} (m0 m1 : member X) : m_num m0 = 1 -> m_num m1 = 1 -> m_in m0 = m_out m1 -> m_in m1 = m_out m0 ->
  m_index m0 = 0 -> m_index m1 = 0 -> m_out m0 <> m_out m1 -> (forall t, m_now m0 t = m_now m1 t) -> partners [m0; m1].
Proof.
  intros N0 N1 I0 I1 J0 J1 D W. split.
  - intros [|[|i]] [|[|j]] m m' A B; cbn in A, B; try (destruct i; discriminate A); try (destruct j; discriminate B);
      injection A as <-; injection B as <-; intros O _; try reflexivity; exfalso; congruence.
  - intros [|[|i]] m k A K; cbn in A; try (destruct i; discriminate A); injection A as <-.
    + exists 1, m1. split; [reflexivity|]. split; [congruence|]. split; [lia|]. auto.
    + exists 0, m0. split; [reflexivity|]. split; [congruence|]. split; [lia|]. auto.
Qed.

(** Deciding [careful] *)
Definition open_b {X} (ph : phase X) : bool := match ph with Opened _ _ _ => true | _ => false end.
Definition reads_b {X} (ms : list (member X)) (phs : list (phase X)) (who : nat) : bool :=
  match nth_error ms who, nth_error phs who with
  | Some m, Some (Reading _ _ texts) => List.length texts <? m_num m
  | _, _ => false
  end.
Fixpoint careful_b {X} (T : nat) (ms : list (member X)) (schedule : list nat) (sys : list (phase X) * folder) : bool :=
  match schedule with
  | [] => true
  | w :: rest => ((negb (reads_b ms (fst sys) w) || negb (existsb open_b (fst sys))) && careful_b T ms rest (turn T ms sys w))%bool
  end.
Lemma careful_ok {X} T (ms : list (member X)) schedule : forall sys, careful_b T ms schedule sys = true -> careful T ms schedule sys.
Proof.
  induction schedule as [|w rest IH]; intros sys H before who after E phs d Ex R ph I (t & x & s & ->).
  - destruct before; discriminate E.
  - cbn [careful_b] in H. apply Bool.andb_true_iff in H as [H1 H2]. destruct before as [|b before].
    + injection E as <- <-. cbn in Ex. subst sys. cbn [fst] in H1. destruct R as (m & p & M & Pw & t' & x' & texts & -> & Few).
      unfold reads_b in H1. rewrite M, Pw in H1. apply Nat.ltb_lt in Few. rewrite Few in H1. cbn in H1.
      apply Bool.negb_true_iff in H1. assert (Y : existsb open_b phs = true) by (apply existsb_exists; eexists; split; [exact I|reflexivity]).
      rewrite Y in H1. discriminate H1.
    + injection E as <- ->. exact (IH _ H2 before who after eq_refl phs d Ex R _ I (ex_intro _ t (ex_intro _ x (ex_intro _ s eq_refl)))).
Qed.

(** The simulations of C77, each on two processes; on day 1 two more people arrive in each *)
Definition a_day (t : nat) (st : list (eco * rng)) : res (list (eco * rng)) :=
  match t with
  | 0 => Ok st
  | _ => prun ex_oracle [(par_S, PInsertAgents [0; 0] 2); (par_S, PUpdateNumAgents HighLatency true)] st
  end.
Definition macro : member (list (eco * rng)) := flee_member "macro" 0 "micro" 1 ex_oracle par_S HighLatency sender_cp a_day.
Definition micro : member (list (eco * rng)) := flee_member "micro" 0 "macro" 1 ex_oracle par_S HighLatency other_cp a_day.
Definition pair_of : list (member (list (eco * rng))) := [macro; micro].
Definition sender_st := par_end two_one.
Definition other_st := par_end (other_prog false).
Definition pair_st : nat -> nat -> list (eco * rng) := both macro micro sender_st other_st.

Definition counts (st : list (eco * rng)) : list (list Z) := map (fun x => map l_numAgents (e_locations (fst x))) st.
Definition shown (ph : phase (list (eco * rng))) : option (list (list Z)) := match ph with Finished st => Some (counts st) | _ => None end.
Definition from (T : nat) (ms : list (member (list (eco * rng)))) (st : list (list (eco * rng))) (d : folder) (schedule : list nat) :=
  execute T ms schedule (at_start st, d).

Lemma pair_partners : partners pair_of.
Proof. apply two_partners; try reflexivity. discriminate. Qed.
Lemma pair_side : side_by_side 2 pair_of pair_st.
Proof.
  apply two_sides; try reflexivity. intros [|[|t]] [|[|i]] Lt Li; try lia; vm_compute; reflexivity.
Qed.

(** A schedule in rounds *)
Definition rounds : list (list nat) := repeat [0; 0; 1; 1] (enough 2 pair_of).
Lemma rounds_ok : Forall (a_round pair_of) rounds.
Proof. apply Forall_forall. intros r H. apply repeat_spec in H as ->. intros i Li. cbn in *. lia. Qed.
Definition pair_start : list (list (eco * rng)) := map (pair_st 0) (seq 0 (List.length pair_of)).
Lemma rounds_careful : careful_b 2 pair_of ([1; 1; 1] ++ List.concat rounds) (at_start pair_start, no_files) = true.
Proof. vm_compute. reflexivity. Qed.
Lemma rounds_end : map shown (fst (from 2 pair_of pair_start no_files ([1; 1; 1] ++ List.concat rounds))) =
  [Some [[4; 0; 0]; [4; 0; 0]]; Some [[3; 0; 0]; [3; 0; 0]]]%Z.
Proof. vm_compute. reflexivity. Qed.

(** The second program reads while the first one has its file open. *)
Definition too_early : list nat := [1; 1; 0; 1; 1; 1].
Lemma too_early_fails : nth_error (fst (from 2 pair_of pair_start no_files too_early)) 1 = Some (Failed KeyError).
Proof. vm_compute. reflexivity. Qed.

(** Two instances of the second program *)
Definition more_st := par_end [add_A; PInsertAgents [2; 2] 8; PUpdateNumAgents HighLatency true].
Definition three_of : list (member (list (eco * rng))) :=
  [flee_member "macro" 0 "micro" 2 ex_oracle par_S HighLatency sender_cp a_day;
   flee_member "micro" 0 "macro" 1 ex_oracle par_S HighLatency other_cp a_day;
   flee_member "micro" 1 "macro" 1 ex_oracle par_S HighLatency other_cp a_day].
Definition three_start := [sender_st; other_st; more_st].
Lemma three_partners : partners three_of.
Proof.
  split.
  - intros [|[|[|i]]] [|[|[|j]]] m m' A B; cbn in A, B; try (destruct i; discriminate A); try (destruct j; discriminate B);
      injection A as <-; injection B as <-; cbn; intros O J; try reflexivity; discriminate.
  - intros [|[|[|i]]] m k A K; cbn in A; try (destruct i; discriminate A); injection A as <-; cbn in K.
    + destruct k as [|[|k]]; [exists 1|exists 2|lia]; eexists; (split; [reflexivity|]); repeat split.
    + assert (k = 0) as -> by lia. exists 0. eexists. split; [reflexivity|]. repeat split.
    + assert (k = 0) as -> by lia. exists 0. eexists. split; [reflexivity|]. repeat split.
Qed.
Definition in_time : list nat := [1; 1; 2; 2; 0; 0] ++ List.concat (repeat [0; 1; 2] 5).
Definition too_soon : list nat := [1; 2; 2; 0; 0; 0; 0; 0; 0; 0; 1] ++ List.concat (repeat [1; 2] 5).
Lemma in_time_careful : careful_b 1 three_of in_time (at_start three_start, no_files) = true.
Proof. vm_compute. reflexivity. Qed.
Lemma three_ends :
  map shown (fst (from 1 three_of three_start no_files in_time)) =
    [Some [[1; 0; 6]; [1; 0; 6]]; Some [[2; 1; 0]; [2; 1; 0]]; Some [[2; 1; 0]; [2; 1; 0]]]%Z /\
  map shown (fst (from 1 three_of three_start no_files too_soon)) =
    [Some [[1; 0; 8]; [1; 0; 8]]; Some [[2; 1; 0]; [2; 1; 0]]; Some [[2; 1; 0]; [2; 1; 0]]]%Z.
Proof. split; vm_compute; reflexivity. Qed.

(** A file of an earlier run is in the folder. *)
Definition old_files : folder := fun f => if String.eqb f (filename "macro" 0 0) then Some ("east,9" ++ lf ++ "west,9" ++ lf)%string else None.
Definition second_first : list nat := [1; 1; 1; 1; 1; 1] ++ List.concat (repeat [0; 1] 12).
Lemma second_careful : careful_b 1 pair_of second_first (at_start pair_start, old_files) = true /\
  careful_b 1 pair_of second_first (at_start pair_start, no_files) = true.
Proof. split; vm_compute; reflexivity. Qed.
Lemma old_ends :
  map shown (fst (from 1 pair_of pair_start old_files second_first)) = [Some [[1; 0; 4]; [1; 0; 4]]; Some [[9; 9; 0]; [9; 9; 0]]]%Z /\
  map shown (fst (from 1 pair_of pair_start no_files second_first)) = [Some [[1; 0; 4]; [1; 0; 4]]; Some [[2; 1; 0]; [2; 1; 0]]]%Z.
Proof. split; vm_compute; reflexivity. Qed.

Lemma shown_all phs cs : map shown phs = map Some cs -> exists ys, phs = map Finished ys /\ map counts ys = cs.
Proof.
  revert cs. induction phs as [|p phs IH]; intros [|c cs] H; try discriminate H; [exists []; auto|]. cbn in H.
  pose proof (f_equal (fun l => match l with a :: _ => a | [] => None end) H) as H1. pose proof (f_equal (fun l => match l with _ :: r => r | [] => [] end) H) as H2.
  cbn beta iota in H1, H2. destruct (IH cs H2) as (ys & -> & <-). destruct p; try discriminate H1. exists (x :: ys). cbn in H1. injection H1 as <-. auto.
Qed.
Lemma differ_end a b a' b' : map shown a = map Some a' -> map shown b = map Some b' -> a' <> b' ->
  exists ys ys', a = map Finished ys /\ b = map Finished ys' /\ ys <> ys'.
Proof.
  intros A B N. apply shown_all in A as (ys & -> & A). apply shown_all in B as (ys' & -> & B). exists ys, ys'. repeat split. intros ->. apply N. congruence.
Qed.

Local Opaque execute careful_b.
Lemma silent : exists T (ms : list (member (list (eco * rng)))) xs schedule schedule' ys ys', partners ms /\
  careful T ms schedule (at_start xs, no_files) /\
  fst (execute T ms schedule (at_start xs, no_files)) = map Finished ys /\
  fst (execute T ms schedule' (at_start xs, no_files)) = map Finished ys' /\ ys <> ys'.
Proof.
  exists 1, three_of, three_start, in_time, too_soon.
  destruct (differ_end _ _ [[[1; 0; 6]; [1; 0; 6]]; [[2; 1; 0]; [2; 1; 0]]; [[2; 1; 0]; [2; 1; 0]]]%Z
    [[[1; 0; 8]; [1; 0; 8]]; [[2; 1; 0]; [2; 1; 0]]; [[2; 1; 0]; [2; 1; 0]]]%Z (proj1 three_ends) (proj2 three_ends)) as (ys & ys' & A & B & N); [discriminate|].
  exists ys, ys'. split; [exact three_partners|]. split; [exact (careful_ok _ _ _ _ in_time_careful)|]. split; [exact A|]. split; [exact B|exact N].
Qed.
Lemma stale : exists T (ms : list (member (list (eco * rng)))) xs old schedule ys ys', partners ms /\
  careful T ms schedule (at_start xs, old) /\ careful T ms schedule (at_start xs, no_files) /\
  fst (execute T ms schedule (at_start xs, old)) = map Finished ys /\
  fst (execute T ms schedule (at_start xs, no_files)) = map Finished ys' /\ ys <> ys'.
Proof.
  exists 1, pair_of, pair_start, old_files, second_first.
  destruct (differ_end _ _ [[[1; 0; 4]; [1; 0; 4]]; [[9; 9; 0]; [9; 9; 0]]]%Z [[[1; 0; 4]; [1; 0; 4]]; [[2; 1; 0]; [2; 1; 0]]]%Z
    (proj1 old_ends) (proj2 old_ends)) as (ys & ys' & A & B & N); [discriminate|].
  exists ys, ys'. split; [exact pair_partners|]. split; [exact (careful_ok _ _ _ _ (proj1 second_careful))|].
  split; [exact (careful_ok _ _ _ _ (proj2 second_careful))|]. split; [exact A|]. split; [exact B|exact N].
Qed.

(** The second program couples every second day. *)
Definition slow_cp : coupling := Cpl (cp_ids other_cp) (cp_locations other_cp) (cp_names other_cp) (cp_directions other_cp) [2; 2; 2]%Z.
Definition slow : member (list (eco * rng)) := flee_member "micro" 0 "macro" 1 ex_oracle par_S HighLatency slow_cp a_day.
Lemma slow_case : nth_error [macro; slow] 0 = Some macro /\ 0 < m_num macro /\ m_now macro 1 = true /\ 1 < 3 /\
  forall j m', nth_error [macro; slow] j = Some m' -> m_out m' = m_in macro -> m_index m' = 0 -> m_now m' 1 = false.
Proof.
  split; [reflexivity|]. split; [apply Nat.lt_0_1|]. split; [vm_compute; reflexivity|]. split; [lia|].
  assert (Z : m_now slow 1 = false) by (vm_compute; reflexivity). intros [|[|j]] m' H O _.
  - exfalso. assert (E : m_out macro = "micro") by (transitivity (m_out m'); [|exact O]; injection H as E; exact (f_equal m_out E)). discriminate E.
  - assert (E : m' = slow) by (injection H as E; symmetry; exact E). rewrite E. exact Z.
  - destruct j; discriminate H.
Qed.
