(** * ExchangeWitness: two simulations that exchange people, for C77 *)

From Verif Require Import Base State Moving Crawling Scoring Diagnostics Flee DataTable
  Spawning InputGeography Api Pflee ParApi SpecAgents SpecHistory SpecParallel Defaults ExampleRun ExampleTravel Lemmas
  ParallelWitness ClosureWitness Coupling SpecCoupling CouplingText CouplingRun CouplingWitness SpecExchange ExchangeProofs GhostProofs.
From Coq Require Import Lia.
Local Open Scope Q_scope.
Local Open Scope string_scope.
Local Open Scope list_scope.
Local Opaque prun run.

(** The first simulation sends A and B and receives A and C; the second one is the other
    side.  It has people in A, and with [late] also in B, where it only receives. *)
Definition cp1 (e : eco) : res coupling :=
  c1 <- add_coupled 0 "east" "inout" 1 e no_coupling ;;
  c2 <- add_coupled 1 "west" "in" 1 e c1 ;;
  add_coupled 2 "south" "out" 1 e c2.
Lemma cp1_declared e : is_ok (cp1 e) = true -> declared e (cp_end (cp1 e)).
Proof.
  unfold cp1. destruct (add_coupled 0 "east" "inout" 1 e no_coupling) as [c1|] eqn:E1; [|discriminate]. cbn [bind].
  destruct (add_coupled 1 "west" "in" 1 e c1) as [c2|] eqn:E2; [|discriminate]. cbn [bind].
  destruct (add_coupled 2 "south" "out" 1 e c2) as [c3|] eqn:E3; [|discriminate]. intros _. cbn [cp_end].
  eapply declared_more; [|exact E3]. eapply declared_more; [|exact E2]. eapply declared_more; [|exact E1]. constructor.
Qed.
Definition other_prog (late : bool) : list pop :=
  [add_A; PInsertAgents [2; 2]%nat 4] ++ (if late then [PInsertAgents [1; 1]%nat 3] else []) ++ [PUpdateNumAgents HighLatency true].
Definition other (late : bool) : eco := first_eco (par_end (other_prog late)).
Definition other_cp : coupling := cp_end (cp1 (other false)).
Lemma sender_list : sender_cp = Cpl [0; 1; 2]%nat ["A"; "B"; "C"] ["east"; "west"; "south"] ["inout"; "out"; "in"] [1; 1; 1]%Z.
Proof. vm_compute. reflexivity. Qed.
Lemma other_list : other_cp = Cpl [0; 1; 2]%nat ["A"; "B"; "C"] ["east"; "west"; "south"] ["inout"; "in"; "out"] [1; 1; 1]%Z.
Proof. vm_compute. reflexivity. Qed.

Lemma three ids locs names dirs ints : ids = [0; 1; 2]%nat -> forall i n d, coupled (Cpl ids locs names dirs ints) i n d ->
  exists k, (k < 3)%nat /\ i = k /\ nth_error names k = Some n /\ nth_error dirs k = Some d.
Proof.
  intros -> i n d (k & A & B & C). cbn [cp_ids cp_names cp_directions] in *. exists k.
  destruct k as [|[|[|k]]]; cbn in A; try (injection A as <-; repeat split; auto with arith; fail). destruct k; discriminate.
Qed.

Ltac nots := vm_compute; intros H; repeat (destruct H as [H|H]; [discriminate H|]); exact H.
Lemma plains : plain "east" /\ plain "west" /\ plain "south".
Proof. repeat split; try discriminate; nots. Qed.
Lemma cp_plain dirs ints locs : forall i n d, coupled (Cpl [0; 1; 2]%nat locs ["east"; "west"; "south"] dirs ints) i n d ->
  plain n /\ (n = "east" /\ i = 0%nat \/ n = "west" /\ i = 1%nat \/ n = "south" /\ i = 2%nat).
Proof.
  intros i n d C. destruct (three _ _ _ _ _ eq_refl _ _ _ C) as (k & Lt & -> & Nk & _).
  destruct plains as (P & Q0 & R). destruct k as [|[|[|k]]]; cbn in Nk; try (injection Nk as <-; split; [assumption|]; auto; fail). exfalso. inversion Lt as [|? X]; inversion X as [|? Y]; inversion Y as [|? Z0]; inversion Z0.
Qed.

Lemma names_ok (p : list pop) : map (fun l => sval (l_name l)) (e_locations (first_eco (par_end p))) = ["A"; "B"; "C"] ->
  NoDup (map (fun l => sval (l_name l)) (e_locations (first_eco (par_end p)))) /\
  (forall l, In l (e_locations (first_eco (par_end p))) -> not_road (sval (l_name l))).
Proof.
  intro E. split; [rewrite E; repeat constructor; cbn; intuition discriminate|]. intros l I t.
  apply (in_map (fun l => sval (l_name l))) in I. rewrite E in I. destruct I as [<-|[<-|[<-|[]]]]; discriminate.
Qed.

Lemma takes (p : list pop) e1 cp dirs : is_ok (par_run p) = true ->
  cp = Cpl [0; 1; 2]%nat ["A"; "B"; "C"] ["east"; "west"; "south"] dirs [1; 1; 1]%Z -> declared e1 cp ->
  (exists e0, In e0 (map fst (par_end p)) /\ map (fun l => sval (l_name l)) (e_locations e0) = ["A"; "B"; "C"]) ->
  map (fun l => sval (l_name l)) (e_locations e1) = ["A"; "B"; "C"] ->
  map (fun x => map l_numAgents (e_locations (fst x))) (par_end p) = repeat (map (people_in (par_end p)) [0; 1; 2]%nat) 2 ->
  takes_part ex_oracle 2 cp (par_end p).
Proof.
  intros Ok Ecp D (e0 & I0 & E0) E1 C. constructor.
  - auto with arith.
  - now apply par_reachable.
  - exists e1, e0. split; [exact D|]. split; [exact I0|]. split; [exact (eq_trans E0 (eq_sym E1))|]. rewrite E1. split; [repeat constructor; cbn; intuition discriminate|].
    intros l I t. apply (in_map (fun l => sval (l_name l))) in I. rewrite E1 in I. destruct I as [<-|[<-|[<-|[]]]]; discriminate.
  - intros i n d K. subst cp. exact (proj1 (cp_plain _ _ _ _ _ _ K)).
  - intros i j n d d' K K'. subst cp. destruct (cp_plain _ _ _ _ _ _ K) as [_ X], (cp_plain _ _ _ _ _ _ K') as [_ Y].
    destruct X as [[-> ->]|[[-> ->]|[-> ->]]], Y as [[A ->]|[[A ->]|[A ->]]]; try discriminate A; reflexivity.
  - intros e i l I L. apply in_map_iff in I as (x & <- & I). apply (in_map (fun x => map l_numAgents (e_locations (fst x)))) in I.
    rewrite C in I. apply repeat_spec in I. assert (nth_error (map l_numAgents (e_locations (fst x))) i = Some (l_numAgents l)) as N by (rewrite nth_error_map, L; reflexivity).
    rewrite I in N. clear -N. set (f := people_in (par_end p)) in *. clearbody f. destruct i as [|[|[|i]]]; cbn in N; try (injection N as <-; reflexivity). destruct i; discriminate.
Qed.

Lemma sender_takes : takes_part ex_oracle 2 sender_cp (par_end two_one).
Proof.
  apply (takes two_one sender sender_cp ["inout"; "out"; "in"]); [vm_compute; reflexivity|exact sender_list| | |vm_compute; reflexivity|vm_compute; reflexivity].
  - apply cp0_declared. vm_compute. reflexivity.
  - exists sender. split; [vm_compute; now left|vm_compute; reflexivity].
Qed.
Lemma other_takes late : takes_part ex_oracle 2 other_cp (par_end (other_prog late)).
Proof.
  apply (takes (other_prog late) (other false) other_cp ["inout"; "in"; "out"]); [destruct late; vm_compute; reflexivity|exact other_list| | |vm_compute; reflexivity|destruct late; vm_compute; reflexivity].
  - apply cp1_declared. vm_compute. reflexivity.
  - exists (other late). split; [destruct late; vm_compute; now left|destruct late; vm_compute; reflexivity].
Qed.
Lemma leads dirs dirs' : forall (f : bool -> nat -> bool),
  (forall k d, nth_error dirs k = Some d -> str_in "out" d = f true k) -> (forall k d, nth_error dirs' k = Some d -> str_in "in" d = f true k) ->
  List.length dirs = 3%nat -> List.length dirs' = 3%nat ->
  leads_to (Cpl [0; 1; 2]%nat ["A"; "B"; "C"] ["east"; "west"; "south"] dirs [1; 1; 1]%Z) (Cpl [0; 1; 2]%nat ["A"; "B"; "C"] ["east"; "west"; "south"] dirs' [1; 1; 1]%Z).
Proof.
  intros f O I L L' n. split.
  - intros (i & d & (k & A & B & C) & S). cbn [cp_ids cp_names cp_directions] in *.
    destruct (nth_error dirs' k) as [d'|] eqn:E; [|apply nth_error_None in E; assert (k < List.length dirs)%nat by (apply nth_error_Some; congruence); lia].
    exists i, d'. split; [exists k; auto|]. apply says_in in S; [|discriminate]. apply says_in; [discriminate|]. now rewrite (I _ _ E), <- (O _ _ C).
  - intros (i & d & (k & A & B & C) & S). cbn [cp_ids cp_names cp_directions] in *.
    destruct (nth_error dirs k) as [d'|] eqn:E; [|apply nth_error_None in E; assert (k < List.length dirs')%nat by (apply nth_error_Some; congruence); lia].
    exists i, d'. split; [exists k; auto|]. apply says_in in S; [|discriminate]. apply says_in; [discriminate|]. now rewrite (O _ _ E), <- (I _ _ C).
Qed.
Ltac three_rows := intros [|[|[|k]]] d H; cbn in H; try (injection H as <-; vm_compute; reflexivity); destruct k; discriminate H.
Lemma sender_leads : leads_to sender_cp other_cp.
Proof.
  rewrite sender_list, other_list. apply (leads _ _ (fun _ k => match k with 0%nat => true | 1%nat => true | _ => false end)); try reflexivity; three_rows.
Qed.
Lemma other_leads : leads_to other_cp sender_cp.
Proof.
  rewrite sender_list, other_list. apply (leads _ _ (fun _ k => match k with 0%nat => true | 1%nat => false | _ => true end)); try reflexivity; three_rows.
Qed.

Definition texts_of (st : list (eco * rng)) (cp : coupling) : res string := output_csv (first_eco st) cp.
Definition the_text (r : res string) : string := match r with Ok t => t | Err _ => "" end.
Definition sender_text : string := the_text (output_csv sender sender_cp).
Definition other_text (late : bool) : string := the_text (output_csv (other late) other_cp).
Definition state_of (r : res (list (eco * rng))) : list (eco * rng) := match r with Ok st => st | Err _ => [] end.
Definition sender_after (late : bool) : list (eco * rng) :=
  state_of (couple ex_oracle par_S HighLatency 0 [other_text late] sender_cp (par_end two_one)).
Definition other_after (late : bool) : list (eco * rng) :=
  state_of (couple ex_oracle par_S HighLatency 0 [sender_text] other_cp (par_end (other_prog late))).
Lemma state_ok r : is_ok r = true -> r = Ok (state_of r).
Proof. destruct r; [reflexivity|discriminate]. Qed.
Lemma text_ok r : is_ok r = true -> r = Ok (the_text r).
Proof. destruct r; [reflexivity|discriminate]. Qed.
Lemma sender_couples late : couple ex_oracle par_S HighLatency 0 [other_text late] sender_cp (par_end two_one) = Ok (sender_after late).
Proof. apply state_ok. destruct late; vm_compute; reflexivity. Qed.
Lemma other_couples late : couple ex_oracle par_S HighLatency 0 [sender_text] other_cp (par_end (other_prog late)) = Ok (other_after late).
Proof. apply state_ok. destruct late; vm_compute; reflexivity. Qed.
Lemma sender_writes : output_csv sender sender_cp = Ok sender_text.
Proof. apply text_ok. vm_compute. reflexivity. Qed.
Lemma other_writes late : output_csv (other late) other_cp = Ok (other_text late).
Proof. apply text_ok. destruct late; vm_compute; reflexivity. Qed.
Lemma sender_in : In sender (map fst (par_end two_one)).
Proof. vm_compute. now left. Qed.
Lemma other_in late : In (other late) (map fst (par_end (other_prog late))).
Proof. destruct late; vm_compute; now left. Qed.
Lemma sender_at : at_interval 0 sender_cp.
Proof. apply now_at. reflexivity. Qed.
Lemma other_at : at_interval 0 other_cp.
Proof. apply now_at. reflexivity. Qed.

Lemma exchange_conserved oA nA cpA stA eA textA stA' SA latA oB nB cpB stB eB textB stB' SB latB time :
  takes_part oA nA cpA stA -> takes_part oB nB cpB stB -> leads_to cpA cpB -> leads_to cpB cpA ->
  at_interval time cpA -> at_interval time cpB ->
  In eA (map fst stA) -> output_csv eA cpA = Ok textA -> In eB (map fst stB) -> output_csv eB cpB = Ok textB ->
  couple oA SA latA time [textB] cpA stA = Ok stA' -> couple oB SB latB time [textA] cpB stB = Ok stB' ->
  (forall i name dir, coupled cpA i name dir -> ~ says "out" dir -> people_in stA i = 0%Z) ->
  (forall i name dir, coupled cpB i name dir -> ~ says "out" dir -> people_in stB i = 0%Z) ->
  (people stA' + people stB' = people stA + people stB)%Z.
Proof.
  intros TA TB L L' A A' IA OA IB OB CA CB NA NB.
  pose proof (exchange_total _ _ _ _ _ _ _ _ _ _ _ _ _ _ _ _ _ _ _ TA TB L L' A A' IA OA IB OB CA CB) as T.
  assert (X : forall o n cp st, takes_part o n cp st -> (forall i name dir, coupled cp i name dir -> ~ says "out" dir -> people_in st i = 0%Z) -> stranded st cp = 0%Z).
  { clear. intros o n cp st TP N. unfold stranded.
    assert (Len : List.length (cp_names cp) = List.length (cp_ids cp)).
    { destruct (tp_declared _ _ _ _ TP) as (e1 & _ & D & _). exact (wf_names _ _ (declared_wf _ _ D)). }
    assert (X : forall row, In row (combine (cp_ids cp) (cp_directions cp)) -> str_in "out" (snd row) = false -> people_in st (fst row) = 0%Z).
    { intros [i d] I F. apply In_nth_error in I as (k & I).
      assert (nth_error (cp_ids cp) k = Some i /\ nth_error (cp_directions cp) k = Some d) as [A B].
      { clear -I. revert k I. generalize (cp_directions cp). induction (cp_ids cp) as [|x xs IH]; intros [|y ys] [|k] I; try discriminate; cbn in *; [injection I as <- <-; auto|now apply IH]. }
      destruct (nth_error (cp_names cp) k) as [nm|] eqn:E; [|apply nth_error_None in E; assert (k < List.length (cp_ids cp))%nat by (apply nth_error_Some; congruence); lia].
      apply (N i nm d); [exists k; auto|]. intro S. apply says_in in S; [|discriminate]. cbn [snd] in F. congruence. }
    induction (combine (cp_ids cp) (cp_directions cp)) as [|row rows IH]; [reflexivity|]. cbn [filter].
    destruct (str_in "out" (snd row)) eqn:E; cbn [negb]; [apply IH; intros r I; apply X; now right|].
    cbn [map sumZ]. rewrite (X row (or_introl eq_refl) E), IH; [reflexivity|]. intros r I. apply X. now right. }
  rewrite (X _ _ _ _ TA NA), (X _ _ _ _ TB NB) in T. lia.
Qed.

Lemma rows_zero (f : nat -> Z) dirs locs ints i n d : coupled (Cpl [0; 1; 2]%nat locs ["east"; "west"; "south"] dirs ints) i n d ->
  (forall k d', nth_error dirs k = Some d' -> str_in "out" d' = false -> f k = 0%Z) -> ~ says "out" d -> f i = 0%Z.
Proof.
  intros C Hf N. destruct (three _ _ _ _ _ eq_refl _ _ _ C) as (k & _ & -> & _ & Dk). apply (Hf k d Dk).
  destruct (str_in "out" d) eqn:E; [|reflexivity]. elim N. apply says_in; [discriminate|exact E].
Qed.
Lemma nobody_stranded :
  (forall i name dir, coupled sender_cp i name dir -> ~ says "out" dir -> people_in (par_end two_one) i = 0%Z) /\
  (forall i name dir, coupled other_cp i name dir -> ~ says "out" dir -> people_in (par_end (other_prog false)) i = 0%Z) /\
  map (people_in (par_end two_one)) [0; 1; 2]%nat = [2; 1; 0]%Z /\
  map (people_in (par_end (other_prog false))) [0; 1; 2]%nat = [1; 0; 4]%Z.
Proof.
  split; [|split; [|split; vm_compute; reflexivity]].
  - intros i n d C N. rewrite sender_list in C. apply (rows_zero (people_in (par_end two_one)) _ _ _ _ _ _ C); [|exact N].
    intros [|[|[|k]]] d' E F; cbn in E; try (injection E as <-; try discriminate F; vm_compute; reflexivity). destruct k; discriminate E.
  - intros i n d C N. rewrite other_list in C. apply (rows_zero (people_in (par_end (other_prog false))) _ _ _ _ _ _ C); [|exact N].
    intros [|[|[|k]]] d' E F; cbn in E; try (injection E as <-; try discriminate F; vm_compute; reflexivity). destruct k; discriminate E.
Qed.

Lemma people_lost : exists oA nA cpA stA eA textA stA' SA latA oB nB cpB stB eB textB stB' SB latB time,
  takes_part oA nA cpA stA /\ takes_part oB nB cpB stB /\ leads_to cpA cpB /\ leads_to cpB cpA /\
  at_interval time cpA /\ at_interval time cpB /\
  In eA (map fst stA) /\ output_csv eA cpA = Ok textA /\ In eB (map fst stB) /\ output_csv eB cpB = Ok textB /\
  couple oA SA latA time [textB] cpA stA = Ok stA' /\ couple oB SB latB time [textA] cpB stB = Ok stB' /\
  (people stA + people stB = 11 /\ people stA' + people stB' = 8)%Z.
Proof.
  exists ex_oracle, 2%nat, sender_cp, (par_end two_one), sender, sender_text, (sender_after true), par_S, HighLatency,
    ex_oracle, 2%nat, other_cp, (par_end (other_prog true)), (other true), (other_text true), (other_after true), par_S, HighLatency, 0%Z.
  split; [exact sender_takes|]. split; [apply other_takes|]. split; [exact sender_leads|]. split; [exact other_leads|].
  split; [exact sender_at|]. split; [exact other_at|]. split; [exact sender_in|]. split; [exact sender_writes|].
  split; [apply other_in|]. split; [apply other_writes|]. split; [apply sender_couples|]. split; [apply other_couples|].
  split; vm_compute; reflexivity.
Qed.

Lemma never_fails names e cp : declared e cp ->
  (exists cp', add_ghosts names e cp = Ok cp') /\ (exists cp', add_micro_conflicts names e cp = Ok cp').
Proof. intro D. split; now apply named_ok. Qed.
