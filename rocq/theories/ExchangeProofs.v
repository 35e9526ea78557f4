(** * ExchangeProofs: lemmas for C77 *)

From Coq Require Import Permutation Lia.
From Verif Require Import Base State Moving Crawling Scoring Diagnostics Flee DataTable
  Spawning InputGeography Api Pflee ParApi SpecAgents SpecParallel Lemmas Inv ReportProofs Skeleton ParProofs ParInv ParSteps ParProps ParCounts ParTotals
  Coupling SpecCoupling CouplingText CouplingMean CouplingRun SpecExchange.
Local Open Scope string_scope.
Local Open Scope list_scope.
Local Opaque prun.

(** ** Counting everybody by place *)

Lemma ready_bound n st : Ready n st -> exists b, forall nl nk, (b <= nl)%nat -> (b <= nk)%nat ->
  people st = (sumZ (map (people_in st) (seq 0 nl)) + sumZ (map (people_on st) (seq 0 nk)))%Z.
Proof.
  intros [P A]. exists (fold_right (fun p b => (List.length (e_locations (fst p)) + List.length (e_links (fst p)) + b)%nat) 0%nat st).
    intros nl nk Hl Hk. unfold people, people_in, people_on. 
    rewrite (sum_swap (fun (p : eco * rng) i => how_many (in_location i) (e_agents (fst p))) st (seq 0 nl)),
            (sum_swap (fun (p : eco * rng) k => how_many (on_link k) (e_agents (fst p))) st (seq 0 nk)), <- sumZ_add. apply sumZ_ext. intros [e g] He. cbn [fst].
    symmetry. apply sum_places. intros a Ha.
    assert (Ie : In e (map fst st)) by (apply in_map_iff; exists (e, g); auto).
    assert (B : (List.length (e_locations e) + List.length (e_links e) <=
      fold_right (fun p b => (List.length (e_locations (fst p)) + List.length (e_links (fst p)) + b)%nat) 0%nat st)%nat).
    { clear - He. induction st as [|q st IH]; [destruct He|]. cbn [fold_right]. destruct He as [->|He]; cbn [fst]; [lia|]. specialize (IH He). lia. }
    apply In_nth_error in Ie as X. destruct X as [r Hr]. destruct (pr_each _ _ P _ _ Hr) as (I & _).
    pose proof (i_agents _ I a Ha) as [_ X]. pose proof (A e a Ie Ha) as D. unfold deactivated in D.
    destruct (a_location a) as [i|k|i]; [| |discriminate].
    + assert (i < List.length (e_locations e))%nat by apply X. lia.
    + assert (k < List.length (e_links e))%nat by apply X. lia.
Qed.

Lemma sum_support (f : nat -> Z) (ids : list nat) N : NoDup ids -> (forall i, In i ids -> (i < N)%nat) ->
  (forall i, ~ In i ids -> f i = 0%Z) -> sumZ (map f (seq 0 N)) = sumZ (map f ids).
Proof.
  intros U B F.
  assert (E : forall l, sumZ (map f l) = sumZ (map f (filter (fun i => existsb (Nat.eqb i) ids) l))).
  { induction l as [|i l IH]; [reflexivity|]. cbn [filter map sumZ]. destruct (existsb (Nat.eqb i) ids) eqn:X; cbn [map sumZ]; rewrite IH; [reflexivity|].
    rewrite F; [lia|]. intro Y. apply Bool.not_true_iff_false in X. apply X. apply existsb_exists. exists i. split; [exact Y|apply Nat.eqb_refl]. }
  rewrite E. apply sumZ_perm, Permutation_map. apply NoDup_Permutation; [apply NoDup_filter, seq_NoDup|exact U|].
  intro i. rewrite filter_In, in_seq, existsb_exists. split.
  - intros (_ & j & J & X). apply Nat.eqb_eq in X. now subst.
  - intro I. split; [specialize (B i I); lia|]. exists i. split; [exact I|apply Nat.eqb_refl].
Qed.

Lemma sum_filter {A} (f : A -> Z) (p : A -> bool) l :
  sumZ (map f l) = (sumZ (map f (filter p l)) + sumZ (map f (filter (fun x => negb (p x)) l)))%Z.
Proof. induction l as [|a l IH]; [reflexivity|]. cbn [filter map sumZ]. destruct (p a); cbn [negb map sumZ]; rewrite IH; lia. Qed.

(** ** The rows of a coupling *)

Definition row_name (r : nat * (string * string)) : string := fst (snd r).
Definition row_dir (r : nat * (string * string)) : string := snd (snd r).

Lemma differ_rows ns cp : wf ns cp -> (forall i j name d d', coupled cp i name d -> coupled cp j name d' -> i = j) ->
  NoDup (map row_name (cp_rows cp)).
Proof.
  intros W D. pose proof (nodup_ids _ _ W) as U. rewrite <- (rows_ids ns cp W) in U.
  assert (X : forall r r', In r (cp_rows cp) -> In r' (cp_rows cp) -> row_name r = row_name r' -> fst r = fst r').
  { intros [i [a d]] [j [b d']] Hr Hr' E. cbn in *. subst b. apply coupled_rows in Hr, Hr'. eauto. }
  revert U X. generalize (cp_rows cp) as l. induction l as [|r l IH]; intros U X; [constructor|]. cbn [map] in *.
  inversion U as [|? ? U1 U2]; subst. constructor.
  - intro I. apply in_map_iff in I as (r' & E & I). apply U1. rewrite <- (X r' r); [now apply in_map|now right|now left|exact E].
  - apply IH; [exact U2|]. intros r1 r2 I1 I2. apply X; now right.
Qed.

Lemma nodup_map_filter {A B} (f : A -> B) (p : A -> bool) l : NoDup (map f l) -> NoDup (map f (filter p l)).
Proof.
  induction l as [|a l IH]; intro N; [constructor|]. cbn [map filter] in *. inversion N as [|? ? N1 N2]; subst.
  destruct (p a); [|now apply IH]. cbn [map]. constructor; [|now apply IH]. intro I. apply N1.
  apply in_map_iff in I as (x & E & I). apply filter_In in I as [I _]. apply in_map_iff. eauto.
Qed.

(** Two lists of rows with the same names and the same values for each name *)
Lemma sum_by_name {A B} (f : A -> Z) (na : A -> string) (g : B -> Z) (nb : B -> string) la lb :
  NoDup (map na la) -> NoDup (map nb lb) -> (forall n, In n (map na la) <-> In n (map nb lb)) ->
  (forall a b, In a la -> In b lb -> na a = nb b -> f a = g b) -> sumZ (map f la) = sumZ (map g lb).
Proof.
  revert lb. induction la as [|a la IH]; intros lb Ua Ub E V.
  - destruct lb as [|b lb]; [reflexivity|]. exfalso. apply (proj2 (E (nb b))). now left.
  - inversion Ua as [|? ? U1 U2]; subst. assert (I : In (na a) (map nb lb)) by (apply E; now left).
    apply in_map_iff in I as (b & Eb & I). apply in_split in I as (l1 & l2 & ->).
    rewrite map_app in *. cbn [map] in *. rewrite sumZ_app. cbn [sumZ]. rewrite (V a b); [|now left|apply in_elt|congruence].
    rewrite (IH (l1 ++ l2)).
    + rewrite map_app, sumZ_app. lia.
    + exact U2.
    + rewrite map_app. eapply NoDup_remove_1; eauto.
    + intro n. apply NoDup_remove in Ub as [_ Ub]. rewrite map_app. specialize (E n). rewrite in_app_iff in *. cbn [In] in E. split.
      * intro X. assert (Y : In n (map nb l1) \/ nb b = n \/ In n (map nb l2)) by (apply E; now right).
        destruct Y as [Y|[<-|Y]]; [now left| |now right]. exfalso. apply U1. now rewrite <- Eb.
      * intro X. assert (Y : na a = n \/ In n (map na la)) by (apply E; destruct X; auto). destruct Y as [<-|Y]; [|exact Y].
        exfalso. apply Ub. rewrite Eb. exact X.
    + intros a' b' Ia Ib. apply V; [now right|]. apply in_app_iff in Ib. apply in_app_iff. destruct Ib; [now left|right; now right].
Qed.

Lemma part_wf o n cp st : takes_part o n cp st -> exists ns, wf ns cp.
Proof. intros [_ _ (e1 & e0 & D & _) _ _ _]. exists (map lname (e_locations e1)). apply declared_wf. exact D. Qed.

Lemma part_ready o n cp st : takes_part o n cp st -> Ready n st.
Proof. intros [_ R _ _ _ _]. split; [eapply preachable_procs; eauto|eapply preachable_alive; eauto]. Qed.

Lemma people_in_pos st i : (0 <= people_in st i)%Z.
Proof. unfold people_in. induction st as [|p st IH]; cbn [map sumZ]; [lia|]. unfold how_many at 1. lia. Qed.

(** ** One side of an exchange *)
Definition sum_rows (st : list (eco * rng)) (p : nat * (string * string) -> bool) (cp : coupling) : Z :=
  sumZ (map (fun r => people_in st (fst r)) (filter p (cp_rows cp))).
Definition goes_in (r : nat * (string * string)) : bool := str_in "in" (row_dir r).
Definition goes_out (r : nat * (string * string)) : bool := str_in "out" (row_dir r).

Lemma couple_reachable o n S lat time texts cp st st' : preachable o n st -> couple o S lat time texts cp st = Ok st' -> preachable o n st'.
Proof.
  intros (h & gs & Ln & R) H. unfold couple in H. rstep H. destruct v; [|injection H as <-; exists h, gs; auto].
  rstep H. rstep H. exists (h ++ map (fun c => (S, c)) v0), gs. split; [exact Ln|].
  Local Transparent prun. unfold prun in *. rewrite foldM_app, R. exact H.
Qed.
Local Opaque prun.

Lemma certain_sends o n cp st e : takes_part o n cp st -> In e (map fst st) -> certain e cp /\ (forall nm z, sends e cp nm z -> plain nm /\ (0 <= z)%Z).
Proof.
  intros T I. split.
  - intros m y z (i & d & l & C & _ & L & <-) (j & d' & l' & C' & _ & L' & <-).
    assert (i = j) by (eapply tp_differ; eauto). subst j. congruence.
  - intros nm z (i & d & l & C & _ & L & <-). split; [eapply tp_names; eauto|]. rewrite (tp_counts _ _ _ _ T e i l I L). apply people_in_pos.
Qed.

Lemma one_side o n S lat time texts cp st st' d : takes_part o n cp st -> at_interval time cp ->
  read_input cp texts = Ok d -> couple o S lat time texts cp st = Ok st' ->
  (people st' = people st - sumZ (map (fun r => people_in st (fst r)) (cp_rows cp)) + sum_rows st' goes_in cp)%Z.
Proof.
  intros T A Rd H. destruct (part_wf _ _ _ _ T) as [ns W]. pose proof (part_ready _ _ _ _ T) as Ry.
  pose proof (tp_run _ _ _ _ T) as R. pose proof (couple_reachable _ _ _ _ _ _ _ _ _ R H) as R'.
  destruct (tp_declared _ _ _ _ T) as (e1 & e0 & D & I0 & En & Ud & NR).
  destruct (exchange o n S lat time texts cp st st' e1 e0 d (tp_some _ _ _ _ T) R D I0 En Ud NR A Rd H) as (Xin & Xout & Xrest & Xroad & _).
  assert (Ry' : Ready n st') by (split; [eapply preachable_procs; eauto|eapply preachable_alive; eauto]).
  destruct (ready_bound _ _ Ry) as [b B], (ready_bound _ _ Ry') as [b' B'].
  set (top := fold_right (fun i m => (Datatypes.S i + m)%nat) 0%nat (cp_ids cp)).
  assert (Top : forall i, In i (cp_ids cp) -> (i < top)%nat).
  { unfold top. generalize (cp_ids cp). induction l as [|j l IH]; intros i I; [destruct I|]. cbn [fold_right].
    destruct I as [->|I]; [lia|]. specialize (IH i I). lia. }
  set (N := (b + b' + top)%nat). rewrite (B N N) by (unfold N; lia). rewrite (B' N N) by (unfold N; lia).
  rewrite (sumZ_ext (people_on st') (people_on st)) by (intros; apply Xroad).
  assert (U : NoDup (cp_ids cp)) by (eapply nodup_ids; eauto).
  assert (E : sumZ (map (fun i => people_in st' i - people_in st i)%Z (seq 0 N)) = sumZ (map (fun i => people_in st' i - people_in st i)%Z (cp_ids cp))).
  { apply sum_support; [exact U|intros i I; specialize (Top i I); unfold N; lia|]. intros i I. rewrite Xrest; [lia|].
    intros name dir (k & K & _). apply I. eapply nth_error_In; eauto. }
  assert (Sub : forall (f g : nat -> Z) l, sumZ (map (fun i => f i - g i)%Z l) = (sumZ (map f l) - sumZ (map g l))%Z).
  { intros f g l. induction l as [|i l IH]; cbn [map sumZ]; [reflexivity|]. rewrite IH. lia. }
  rewrite !Sub in E. rewrite <- (rows_ids ns cp W) in E. rewrite !map_map in E.
  rewrite (sum_filter (fun r => people_in st' (fst r)) goes_in) in E.
  assert (Zero : sumZ (map (fun r => people_in st' (fst r)) (filter (fun x => negb (goes_in x)) (cp_rows cp))) = 0%Z).
  { rewrite (sumZ_ext _ (fun _ => 0%Z)); [apply sumZ_zero|]. intros [i [nm dir]] Hr. apply filter_In in Hr as [Hr Hn]. cbn [fst].
    apply coupled_rows in Hr. apply (Xout i nm dir Hr). intro Y. apply says_in in Y; [|discriminate]. unfold goes_in, row_dir in Hn. cbn [snd] in Hn.
    rewrite Y in Hn. discriminate. }
  rewrite Zero in E. unfold sum_rows. lia.
Qed.

Lemma taken_sent oA nA cpA stA eA textA oB nB S lat time cpB stB stB' :
  takes_part oA nA cpA stA -> takes_part oB nB cpB stB -> In eA (map fst stA) -> output_csv eA cpA = Ok textA ->
  at_interval time cpB -> couple oB S lat time [textA] cpB stB = Ok stB' -> leads_to cpA cpB ->
  (exists d, read_input cpB [textA] = Ok d) /\ sum_rows stB' goes_in cpB = sum_rows stA goes_out cpA.
Proof.
  intros TA TB I Ht A H L. destruct (certain_sends _ _ _ _ _ TA I) as [C P].
  destruct (tp_declared _ _ _ _ TB) as (e1 & e0 & D & I0 & En & Ud & NR).
  assert (Ho := hand_over oB nB S lat time cpA eA textA cpB stB stB' e1 e0 P C Ht (tp_some _ _ _ _ TB) (tp_run _ _ _ _ TB) D I0 En Ud NR A H).
  split.
  - destruct (round_trip eA cpA cpB textA (fun m z Y => proj1 (P m z Y)) C Ht) as (d & Ed & _).
    destruct (one_instance cpB textA d Ed) as (d' & Er & _). eauto.
  - unfold sum_rows. destruct (part_wf _ _ _ _ TA) as [nsA WA], (part_wf _ _ _ _ TB) as [nsB WB].
    apply (sum_by_name _ row_name _ row_name).
    + apply nodup_map_filter, (differ_rows nsB); [exact WB|exact (tp_differ _ _ _ _ TB)].
    + apply nodup_map_filter, (differ_rows nsA); [exact WA|exact (tp_differ _ _ _ _ TA)].
    + assert (Q : forall w cp n, w <> EmptyString -> (In n (map row_name (filter (fun r => str_in w (row_dir r)) (cp_rows cp))) <-> exists i dir, coupled cp i n dir /\ says w dir)).
      { intros w cp n Wn. rewrite in_map_iff. split.
        - intros ([i [m dir]] & E & F). apply filter_In in F as [F1 F2]. cbn in E, F2. subst m. exists i, dir. split; [now apply coupled_rows|now apply says_in].
        - intros (i & dir & Cp & Sy). exists (i, (n, dir)). split; [reflexivity|]. apply filter_In. split; [now apply coupled_rows|]. cbn. now apply says_in. }
      intro n. rewrite (Q "in" cpB n), (Q "out" cpA n) by discriminate. symmetry. apply L.
    + intros [i [nm dir]] [j [nm' dir']] Hi Hj E. cbn in E. subst nm'. cbn [fst]. apply filter_In in Hi as [Hi Si]. apply filter_In in Hj as [Hj Sj].
      apply coupled_rows in Hi, Hj. cbn in Si. apply says_in in Si; [|discriminate].
      destruct (Ho i nm dir Hi Si) as (k & d' & l & Ck & _ & Lk & <-). assert (k = j) by (eapply (tp_differ _ _ _ _ TA); eauto). subst k.
      apply (tp_counts _ _ _ _ TA eA j l I Lk).
Qed.

Lemma stranded_rows ns st cp : wf ns cp -> sum_rows st (fun r => negb (goes_out r)) cp = stranded st cp.
Proof.
  intros [A B _ _ _ _]. unfold sum_rows, stranded, cp_rows, goes_out, row_dir. revert A B.
  generalize (cp_ids cp) (cp_names cp) (cp_directions cp). induction l as [|i l IH]; intros [|n ns'] [|d ds] A B; try discriminate; [reflexivity|].
  cbn in A, B. injection A as A. injection B as B. specialize (IH ns' ds A B). cbn [combine filter snd]. destruct (str_in "out" d); cbn [negb map sumZ fst]; now rewrite IH.
Qed.

Lemma exchange_total oA nA cpA stA eA textA stA' SA latA oB nB cpB stB eB textB stB' SB latB time :
  takes_part oA nA cpA stA -> takes_part oB nB cpB stB -> leads_to cpA cpB -> leads_to cpB cpA ->
  at_interval time cpA -> at_interval time cpB ->
  In eA (map fst stA) -> output_csv eA cpA = Ok textA -> In eB (map fst stB) -> output_csv eB cpB = Ok textB ->
  couple oA SA latA time [textB] cpA stA = Ok stA' -> couple oB SB latB time [textA] cpB stB = Ok stB' ->
  (people stA' + people stB' + stranded stA cpA + stranded stB cpB = people stA + people stB)%Z.
Proof.
  intros TA TB LA LB AA AB IA OA IB OB HA HB.
  destruct (taken_sent _ _ _ _ _ _ _ _ _ _ _ _ _ _ TA TB IA OA AB HB LA) as ([dB RB] & EB).
  destruct (taken_sent _ _ _ _ _ _ _ _ _ _ _ _ _ _ TB TA IB OB AA HA LB) as ([dA RA] & EA).
  rewrite (one_side _ _ _ _ _ _ _ _ _ _ TA AA RA HA), (one_side _ _ _ _ _ _ _ _ _ _ TB AB RB HB), EA, EB.
  destruct (part_wf _ _ _ _ TA) as [nsA WA], (part_wf _ _ _ _ TB) as [nsB WB].
  rewrite <- (stranded_rows nsA stA cpA WA), <- (stranded_rows nsB stB cpB WB). unfold sum_rows.
  rewrite (sum_filter (fun r => people_in stA (fst r)) goes_out (cp_rows cpA)), (sum_filter (fun r => people_in stB (fst r)) goes_out (cp_rows cpB)). lia.
Qed.
