(** * GhostProofs: which locations addGhostLocations and addMicroConflictLocations couple *)

From Coq Require Import Lia.
From Verif Require Import Base State Moving Crawling Scoring Diagnostics Flee DataTable
  Spawning InputGeography Api Pflee ParApi SpecAgents SpecParallel Lemmas Coupling SpecCoupling CouplingText CouplingRun SpecExchange.
Local Open Scope string_scope.
Local Open Scope list_scope.

Lemma convert_same e i l : NoDup (map lname (e_locations e)) -> nth_error (e_locations e) i = Some l -> convert_name e (l_name l) = i.
Proof.
  intros U H. destruct (convert_named e i l H) as (m & M & E).
  apply (proj1 (NoDup_nth_error _) U).
  - rewrite map_length. apply nth_error_Some. congruence.
  - rewrite !nth_error_map, M, H. cbn. now rewrite E.
Qed.

Lemma coupled_snoc ids locs names dirs ints i n d loc int j m dj :
  List.length names = List.length ids -> List.length dirs = List.length ids ->
  (coupled (Cpl (ids ++ [i]) (locs ++ [loc]) (names ++ [n]) (dirs ++ [d]) (ints ++ [int])) j m dj <->
   coupled (Cpl ids locs names dirs ints) j m dj \/ (j = i /\ m = n /\ dj = d)).
Proof.
  intros Ln Ld. unfold coupled. cbn [cp_ids cp_names cp_directions]. split.
  - intros (k & A & B & C). destruct (Nat.lt_ge_cases k (List.length ids)) as [Lt|Ge].
    + left. exists k. rewrite nth_error_app1 in A, B, C by lia. auto.
    + right. rewrite nth_error_app2 in A, B, C by lia. rewrite Ln in B. rewrite Ld in C.
      destruct (k - List.length ids)%nat as [|q]; [|destruct q; discriminate]. cbn in *. repeat split; congruence.
  - intros [(k & A & B & C)|(-> & -> & ->)].
    + exists k. assert (k < List.length ids)%nat by (apply nth_error_Some; congruence). rewrite !nth_error_app1 by lia. auto.
    + exists (List.length ids). rewrite !nth_error_app2 by lia. rewrite Ln, Ld, Nat.sub_diag. auto.
Qed.

Lemma add_step e i l nm dir int cp cp' : NoDup (map lname (e_locations e)) -> declared e cp -> nth_error (e_locations e) i = Some l ->
  add_coupled i nm dir int e cp = Ok cp' ->
  declared e cp' /\ (forall x, In x (cp_locations cp') <-> In x (cp_locations cp) \/ x = lname l) /\
  (forall j m d, coupled cp' j m d <-> coupled cp j m d \/ (j = i /\ m = nm /\ d = dir /\ ~ In (lname l) (cp_locations cp))).
Proof.
  intros U D L H. split; [eapply declared_more; eauto|]. destruct (declared_wf _ _ D) as [Wn Wd _ _ _ _]. unfold add_coupled, loc_of in H.
  rewrite L in H. cbn [of_option bind] in H. destruct (mem_str (lname l) (cp_locations cp)) eqn:M; injection H as <-.
  - apply mem_str_in in M. split; [intro x; split; [auto|intros [X| ->]; assumption]|]. intros j m d. intuition.
  - apply mem_str_false in M. split.
    + intro x. cbn [cp_locations]. rewrite in_app_iff. cbn [In]. intuition.
    + intros j m d. rewrite (convert_same e i l U L). destruct cp as [ids locs names dirs ints]. cbn [cp_ids cp_locations cp_names cp_directions cp_intervals] in *.
      rewrite coupled_snoc by assumption. intuition.
Qed.

Section Named.
Variables (only_isolated : bool) (dir : string) (e : eco).
Hypothesis U : NoDup (map lname (e_locations e)).
Let which (l : location) : Prop := only_isolated = true -> l_links l = [].

Lemma same_index j k l l' : nth_error (e_locations e) j = Some l -> nth_error (e_locations e) k = Some l' -> lname l = lname l' -> j = k.
Proof.
  intros A B E. apply (proj1 (NoDup_nth_error _) U).
  - rewrite map_length. apply nth_error_Some. congruence.
  - rewrite !nth_error_map, A, B. cbn. now rewrite E.
Qed.

Lemma inner n : forall is cp cp', declared e cp ->
  foldM (fun cp2 i => l <- loc_of e i ;;
        if String.eqb (lname l) n then
          if (only_isolated && negb (match l_links l with [] => true | _ => false end))%bool then Ok cp2
          else add_coupled i (lname l) dir 1 e cp2
        else Ok cp2) is cp = Ok cp' ->
  declared e cp' /\
  (forall x, In x (cp_locations cp') <-> In x (cp_locations cp) \/ (x = n /\ exists j l, In j is /\ nth_error (e_locations e) j = Some l /\ lname l = n /\ which l)) /\
  (forall j m d, coupled cp' j m d <-> coupled cp j m d \/
     (In j is /\ m = n /\ d = dir /\ ~ In n (cp_locations cp) /\ exists l, nth_error (e_locations e) j = Some l /\ lname l = n /\ which l)).
Proof.
  induction is as [|i is IH]; intros cp cp' D H; cbn [foldM] in H.
  - injection H as <-. split; [exact D|]. split.
    + intro x. split; [auto|]. intros [X|(_ & ? & ? & [] & _)]. exact X.
    + intros j m d. split; [auto|]. intros [X|([] & _)]. exact X.
  - rstep H. rstep E. unfold loc_of in E0. apply of_option_ok in E0. rename v0 into l, v into cp1.
    assert (St : declared e cp1 /\ (forall x, In x (cp_locations cp1) <-> In x (cp_locations cp) \/ (x = n /\ lname l = n /\ which l)) /\
      (forall j m d, coupled cp1 j m d <-> coupled cp j m d \/ (j = i /\ m = n /\ d = dir /\ lname l = n /\ which l /\ ~ In n (cp_locations cp)))).
    { destruct (String.eqb_spec (lname l) n) as [En|Nn].
      2: { injection E as <-. split; [exact D|]. split; [intro x; intuition|]. intros j m d. intuition. }
      destruct (only_isolated && negb (match l_links l with [] => true | _ => false end))%bool eqn:B.
      - injection E as <-. split; [exact D|]. apply andb_prop in B as [B1 B2].
        assert (Wh : ~ which l). { intro X. rewrite (X B1) in B2. discriminate. }
        split; [intro x; intuition|]. intros j m d. intuition.
      - assert (Wh : which l). { intro X. rewrite X in B. cbn in B. destruct (l_links l); [reflexivity|discriminate]. }
        destruct (add_step e i l (lname l) dir 1 cp cp1 U D E0 E) as (D1 & L1 & C1). split; [exact D1|]. split.
        + intro x. rewrite L1, En. intuition.
        + intros j m d. rewrite C1, En. intuition. }
    destruct St as (D1 & L1 & C1). destruct (IH _ _ D1 H) as (D2 & L2 & C2). split; [exact D2|]. split.
    + intro x. rewrite L2, L1. split.
      * intros [[X|(-> & Y & W)]|(-> & j & l' & J & K)]; [now left| |].
        -- right. split; [reflexivity|]. exists i, l. split; [now left|]. auto.
        -- right. split; [reflexivity|]. exists j, l'. split; [now right|exact K].
      * intros [X|(-> & j & l' & [<-|J] & K)]; [auto| |].
        -- rewrite E0 in K. destruct K as (X & K1 & K2). injection X as <-. left. right. auto.
        -- right. split; [reflexivity|]. exists j, l'. auto.
    + intros j m d. rewrite C2, C1, L1. split.
      * intros [[X|(-> & -> & -> & En & W & F)]|(J & -> & -> & F & l' & K1 & K2 & K3)]; [now left| |].
        -- right. split; [now left|]. repeat split; auto. exists l. auto.
        -- right. split; [now right|]. repeat split; auto. eauto.
      * intros [X|([<-|J] & -> & -> & F & l' & K1 & K2 & K3)]; [auto| |].
        -- rewrite E0 in K1. injection K1 as <-. left. right. repeat split; auto.
        -- destruct (String.eqb_spec (lname l) n) as [En|Nn].
           ++ assert (j = i) by (eapply same_index; eauto; congruence). subst j. rewrite E0 in K1. injection K1 as <-. left. right. repeat split; auto.
           ++ right. split; [exact J|]. repeat split; auto; [|eauto]. intros [X|(_ & X & _)]; contradiction.
Qed.

Lemma named_adds names : forall cp cp', declared e cp -> add_named only_isolated dir names e cp = Ok cp' ->
  declared e cp' /\ adds_locations which dir names e cp cp'.
Proof.
  assert (X : forall names cp cp', declared e cp -> add_named only_isolated dir names e cp = Ok cp' ->
    declared e cp' /\
    (forall x, In x (cp_locations cp') <-> In x (cp_locations cp) \/ (In x names /\ exists j l, nth_error (e_locations e) j = Some l /\ lname l = x /\ which l)) /\
    adds_locations which dir names e cp cp').
  { clear names. unfold add_named. induction names as [|n names IH]; intros cp cp' D H; cbn [foldM] in H.
    - injection H as <-. split; [exact D|]. split; [intro x; cbn; intuition|]. intros i m d. cbn. intuition.
    - rstep H. destruct (inner n _ _ _ D E) as (D1 & L1 & C1). destruct (IH _ _ D1 H) as (D2 & L2 & C2). split; [exact D2|].
      assert (Sq : forall j l, nth_error (e_locations e) j = Some l -> In j (seq 0 (List.length (e_locations e)))).
      { intros j l Hj. apply in_seq. assert (j < List.length (e_locations e))%nat by (apply nth_error_Some; congruence). lia. }
      split.
      + intro x. rewrite L2, L1. cbn [In]. split.
        * intros [[X|(-> & j & l & _ & K)]|(J & K)]; eauto 8.
        * intros [X|([<-|J] & j & l & K1 & K2)]; [auto| |right; eauto]. left. right. split; [reflexivity|]. exists j, l. split; eauto.
      + intros i m d. rewrite (C2 i m d), C1, L1. cbn [In]. split.
        * intros [[X|(J & -> & -> & F & l & K)]|(-> & J & F & l & K)]; [now left| |].
          -- right. split; [reflexivity|]. split; [now left|]. split; [exact F|]. exists l. exact K.
          -- right. split; [reflexivity|]. split; [now right|]. split; [intro X; apply F; now left|]. exists l. exact K.
        * intros [X|(-> & [<-|J] & F & l & K1 & K2 & K3)]; [auto| |].
          -- left. right. split; [eapply Sq; eauto|]. repeat split; auto. exists l. auto.
          -- destruct (String.eqb_spec m n) as [->|Nm].
             ++ left. right. split; [eapply Sq; eauto|]. repeat split; auto. exists l. auto.
             ++ right. split; [reflexivity|]. split; [exact J|]. split; [|exists l; auto]. intros [X|(-> & _)]; [contradiction|now apply Nm]. }
  intros cp cp' D H. destruct (X names cp cp' D H) as (A & _ & B). auto.
Qed.
End Named.

Lemma ghosts_added names e cp cp' : NoDup (map (fun l => sval (l_name l)) (e_locations e)) -> declared e cp ->
  add_ghosts names e cp = Ok cp' -> declared e cp' /\ adds_locations (fun l => l_links l = []) "out" names e cp cp'.
Proof.
  intros U D H. destruct (named_adds true "out" e U names cp cp' D H) as [A B]. split; [exact A|].
  intros i m d. rewrite (B i m d). split; (intros [X|(P & Q0 & R & l & K1 & K2 & K3)]; [now left|right]);
    (split; [exact P|]; split; [exact Q0|]; split; [exact R|]; exists l; split; [exact K1|]; split; [exact K2|]); [now apply K3|intro; exact K3].
Qed.
Lemma conflicts_added names e cp cp' : NoDup (map (fun l => sval (l_name l)) (e_locations e)) -> declared e cp ->
  add_micro_conflicts names e cp = Ok cp' -> declared e cp' /\ adds_locations (fun _ => True) "in" names e cp cp'.
Proof.
  intros U D H. destruct (named_adds false "in" e U names cp cp' D H) as [A B]. split; [exact A|].
  intros i m d. rewrite (B i m d). split; (intros [X|(P & Q0 & R & l & K1 & K2 & K3)]; [now left|right]);
    (split; [exact P|]; split; [exact Q0|]; split; [exact R|]; exists l; split; [exact K1|]; split; [exact K2|]); [exact I|discriminate].
Qed.
Lemma named_ok b dir names e cp : declared e cp -> exists cp', add_named b dir names e cp = Ok cp'.
Proof.
  intros _. unfold add_named. revert cp. induction names as [|n names IH]; intro cp; cbn [foldM]; [eauto|].
  assert (X : forall is cp, (forall i, In i is -> (i < List.length (e_locations e))%nat) -> exists cp', foldM (fun cp2 i => l <- loc_of e i ;;
        if String.eqb (lname l) n then
          if (b && negb (match l_links l with [] => true | _ => false end))%bool then Ok cp2
          else add_coupled i (lname l) dir 1 e cp2
        else Ok cp2) is cp = Ok cp').
  { induction is as [|i is IHi]; intros c B; cbn [foldM]; [eauto|]. unfold add_coupled, loc_of. destruct (nth_error (e_locations e) i) as [l|] eqn:E.
    2: { apply nth_error_None in E. specialize (B i (or_introl eq_refl)). lia. }
    cbn [of_option bind]. destruct (String.eqb (lname l) n); [|cbn [bind]; apply IHi; intros j J; apply B; now right].
    destruct (b && _)%bool; [cbn [bind]; apply IHi; intros j J; apply B; now right|].
    destruct (mem_str _ _); cbn [bind]; apply IHi; intros j J; apply B; now right. }
  destruct (X (seq 0 (List.length (e_locations e))) cp) as [c1 E]; [intros i Hi; apply in_seq in Hi; lia|]. rewrite E. cbn [bind]. apply IH.
Qed.
