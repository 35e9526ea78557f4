(** * InvStruct: building and closing the network preserves the invariant; histories *)

From Coq Require Import Lia.
From Verif Require Import Base State Moving Crawling Scoring Diagnostics Flee DataTable
  Spawning InputGeography Api SpecAgents Lemmas Inv InvMoves.

(** ** New locations *)

Definition eapp (l : location) (w : Q) (e : eco) : eco :=
  up_e_locationNames (fun ns => ns ++ [l_name l])
    (up_e_spawn_weights (fun ws => ws ++ [w])
      (up_e_locations (fun ls => ls ++ [l]) e)).

Lemma nth_app_eq {A} (l : list A) x : nth_error (l ++ [x]) (List.length l) = Some x.
Proof. now rewrite nth_error_app2, Nat.sub_diag by lia. Qed.

Lemma countZ_none {A} (f : A -> bool) l : (forall a, In a l -> f a = false) -> countZ f l = 0%Z.
Proof.
  induction l as [|a l IH]; intro H; [reflexivity|].
  rewrite countZ_cons, H by now left. rewrite IH; [reflexivity|]. intros; apply H; now right.
Qed.

Lemma inv_eapp l w e : Inv e -> l_links l = [] -> l_closed_links l = [] ->
  l_numAgents l = 0%Z -> l_numAgentsOnRank l = 0%Z ->
  (l_attributes l < List.length (e_dicts e))%nat -> Inv (eapp l w e).
Proof.
  intros [I1 I2 I3 I4 I5 I6] L1 L2 N1 N2 D. destruct I1 as [S1 S2 S3 S4 S5].
  assert (N : forall a, In a (e_agents e) -> stays (List.length (e_locations e)) a = false).
  { intros a Ha. specialize (I2 a Ha). unfold agent_ok in I2. unfold stays, in_location, left_from.
    destruct (a_location a) as [i|i|i]; auto; destruct I2 as (_ & I2 & _);
      cbn; try rewrite orb_false_r; apply Nat.eqb_neq; lia. }
  split.
  - split.
    + cbn. rewrite S1, map_app. reflexivity.
    + cbn. rewrite !app_length, S2. reflexivity.
    + exact S3.
    + intros i l' Hi. cbn in Hi. apply nth_error_app_last in Hi as [Hi|[-> ->]].
      * exact (S4 i l' Hi).
      * unfold loc_ok. rewrite L1, L2. split; [assumption|].
        repeat split; try constructor; intros ? [].
    + intros ki k Hk. specialize (S5 ki k Hk). unfold link_ok in *; cbn.
      rewrite app_length; cbn. intuition lia.
  - intros a Ha. specialize (I2 a Ha). unfold agent_ok in *; cbn. rewrite app_length; cbn.
    destruct (a_location a); intuition lia.
  - cbn. intros i l' ki a Hi Hki Ha. apply nth_error_app_last in Hi as [Hi|[-> ->]]; [eauto|].
    rewrite L2 in Hki; destruct Hki.
  - intros i z Hz. unfold lheads in Hz; cbn in Hz. rewrite map_app in Hz; cbn in Hz.
    apply nth_error_app_last in Hz as [Hz|[-> ->]]; [exact (I4 i z Hz)|].
    rewrite map_length. cbn. rewrite countZ_none by assumption.
    unfold lhead; destruct (e_par e); assumption.
  - exact I5.
  - exact I6.
Qed.

Lemma parse_location_type_new S d lt l l' : parse_location_type S d lt l = Ok l' ->
  lstruct l' = lstruct l /\ l_numAgents l' = l_numAgents l /\
  l_numAgentsOnRank l' = l_numAgentsOnRank l.
Proof.
  unfold parse_location_type; intro H. destruct lt; [|now rinv H].
  repeat (rstep H); try discriminate; rinv H; repeat split; reflexivity.
Qed.

Lemma new_location_new S d n r x y lt mc cap pop f c a l :
  new_location S d n r x y lt mc cap pop f c a = Ok l ->
  lstruct l = (n, [], [], a) /\ l_numAgents l = 0%Z /\ l_numAgentsOnRank l = 0%Z.
Proof.
  unfold new_location; intro H; rstep H. rinv H. apply parse_location_type_new in E as (E1 & E2 & E3).
  unfold auto_camp. destruct (_ && _ && _)%bool; (split; [exact E1|split; assumption]).
Qed.

Lemma same_eapp_tail n w e e' : Same e e' ->
  Same (up_e_locationNames (fun ns => ns ++ [n]) (up_e_spawn_weights (fun ws => ws ++ [w]) e))
       (up_e_locationNames (fun ns => ns ++ [n]) (up_e_spawn_weights (fun ws => ws ++ [w]) e')).
Proof.
  intros [[P N L K D W] H1 H2 H3 H4]; split; try assumption. split; cbn; try assumption.
  - congruence.
  - rewrite !app_length; congruence.
Qed.

(** [addLocation] appends one location; apart from that it stays in the frame. *)
Lemma add_location_spec S o n r x y lt mc cap pop f c at_ e g e' g' :
  add_location S o n r x y lt mc cap pop f c at_ e g = Ok (e', g') ->
  exists e0 l, Same e e0 /\ Same (eapp l 0 e0) e' /\
    e_locations e0 = e_locations e /\ e_links e0 = e_links e /\ e_agents e0 = e_agents e /\
    e_time e0 = e_time e /\
    lstruct l = (n, [], [], match at_ with None => 0%nat | Some _ => List.length (e_dicts e) end) /\
    l_numAgents l = 0%Z /\ l_numAgentsOnRank l = 0%Z /\
    (l_attributes l < List.length (e_dicts e0))%nat.
Proof.
  unfold add_location; intro H.
  set (e0 := match at_ with None => e | Some d => up_e_dicts (fun ds => ds ++ [d]) e end).
  set (did := match at_ with None => 0%nat | Some _ => List.length (e_dicts e) end) in *.
  assert (P : match at_ with
              | None => (e, 0%nat)
              | Some d => (up_e_dicts (fun ds => ds ++ [d]) e, List.length (e_dicts e))
              end = (e0, did)) by (unfold e0, did; destruct at_; reflexivity).
  rewrite P in H; clear P. cbv beta iota in H.
  rstep H. unfold dict_of in E. apply of_option_ok, nth_error_lt in E.
  rstep H. cbv zeta in H. rstep H. destruct v1 as [e1 g1]. rstep H. rinv H.
  apply new_location_new in E0 as (E0 & N1 & N2).
  exists e0, v0. split; [|split].
  - unfold e0; destruct at_; auto. apply sl_same, still_dicts. rewrite app_length; lia.
  - eapply same_trans; [|eapply sl_same, still_refresh; eauto].
    assert (Hn : n = l_name v0) by (unfold lstruct in E0; congruence). rewrite Hn.
    unfold eapp. apply same_eapp_tail. eapply sl_same, still_updateLocationScore; eauto.
  - assert (A : l_attributes v0 = did) by (unfold lstruct in E0; congruence).
    rewrite A. repeat split; try assumption; unfold e0; destruct at_; reflexivity.
Qed.

Lemma inv_add_location S o n r x y lt mc cap pop f c at_ e g e' g' :
  Inv e -> add_location S o n r x y lt mc cap pop f c at_ e g = Ok (e', g') -> Inv e'.
Proof.
  intros I H. apply add_location_spec in H
    as (e0 & l & S0 & S1 & _ & _ & _ & _ & L & N1 & N2 & D).
  eapply inv_same; [exact S1|]. unfold lstruct in L. injection L as L1 L2 L3 L4.
  apply inv_eapp; auto. eapply inv_same; eauto.
Qed.

(** ** New links *)

Definition kapp (x : nat) (k : link) (e : eco) : eco :=
  up_loc x (up_l_links (fun ks => ks ++ [List.length (e_links e)])) (up_e_links (fun h => h ++ [k]) e).

Lemma NoDup_app_last {A} (l : list A) x : NoDup l -> ~ In x l -> NoDup (l ++ [x]).
Proof.
  intros H1 H2. apply NoDup_rev in H1. rewrite <- (rev_involutive (l ++ [x])).
  apply NoDup_rev. rewrite rev_app_distr. cbn. constructor; [|assumption].
  now rewrite <- in_rev.
Qed.

Lemma inv_kapp x k e : Inv e -> (x < List.length (e_locations e))%nat ->
  k_startpoint k = x -> (k_endpoint k < List.length (e_locations e))%nat ->
  (k_attributes k < List.length (e_dicts e))%nat -> k_closed k = false ->
  k_numAgents k = 0%Z -> k_numAgentsOnRank k = 0%Z -> k_cumNumAgents k = 0%Z ->
  Inv (kapp x k e).
Proof.
  intros [I1 I2 I3 I4 I5 I6] X K1 K2 K3 K4 K5 K6 K7. destruct I1 as [S1 S2 S3 S4 S5].
  assert (HN : forall i l, nth_error (e_locations e) i = Some l ->
             ~ In (List.length (e_links e)) (l_links l)).
  { intros i l Hi Hin. destruct (S4 i l Hi) as (_ & _ & _ & A & _).
    destruct (A _ Hin) as (k0 & H0 & _). apply nth_error_lt in H0. lia. }
  assert (HL : forall i l ki, nth_error (e_locations e) i = Some l ->
             In ki (l_links l) \/ In ki (l_closed_links l) ->
             nth_error (e_links e ++ [k]) ki = nth_error (e_links e) ki).
  { intros i l ki Hi Hin. destruct (S4 i l Hi) as (_ & _ & _ & A & B).
    apply nth_error_app1. destruct Hin as [Hin|Hin];
      [destruct (A _ Hin) as (k0 & H0 & _) | destruct (B _ Hin) as (k0 & H0 & _)];
      now apply nth_error_lt in H0. }
  split.
  - split; cbn.
    + rewrite S1. symmetry. now apply map_upd.
    + now rewrite upd_length.
    + assumption.
    + intros i l Hi. rewrite nth_upd in Hi.
      assert (HO : forall l0, nth_error (e_locations e) i = Some l0 -> loc_ok (kapp x k e) i l0).
      { intros l0 Hi0. destruct (S4 i l0 Hi0) as (A1 & A2 & A3 & A4 & A5).
        split; [exact A1|]. do 2 (split; [assumption|]). cbn.
        split; intros ki Hin; rewrite (HL i l0) by (auto); auto. }
      destruct (Nat.eqb_spec x i) as [E|]; [|auto].
      destruct (nth_error (e_locations e) i) as [l0|] eqn:Hi0; [|discriminate].
      injection Hi as <-. destruct (HO l0 eq_refl) as (A1 & A2 & A3 & A4 & A5).
      split; [exact A1|]. cbn. split; [|split; [assumption|split; [|exact A5]]].
      * apply NoDup_app_last; [assumption|]. now apply (HN i).
      * intros ki Hin. apply in_app_or in Hin as [Hin|[<-|[]]]; [now apply A4|].
        exists k. split; [apply nth_app_eq|subst; auto].
    + intros ki k0 Hk. apply nth_error_app_last in Hk as [Hk|[-> ->]].
      * specialize (S5 ki k0 Hk). unfold link_ok in *; cbn. now rewrite upd_length.
      * unfold link_ok; cbn. rewrite upd_length, K1. auto.
  - cbn. intros a Ha. specialize (I2 a Ha). unfold agent_ok in *; cbn.
    rewrite upd_length, app_length; cbn. destruct (a_location a); intuition lia.
  - cbn. intros i l ki a Hi Hki Ha. rewrite nth_upd in Hi.
    destruct (Nat.eqb_spec x i) as [E|]; [|eauto].
    destruct (nth_error (e_locations e) i) as [l0|] eqn:Hi0; [|discriminate].
    injection Hi as <-. cbn in Hki. eauto.
  - cbn. intros i z Hz. unfold lheads in Hz; cbn in Hz.
    rewrite (map_upd _ _ _ _) in Hz by reflexivity. exact (I4 i z Hz).
  - cbn. intros i z Hz. unfold kheads in Hz; cbn in Hz. rewrite map_app in Hz; cbn in Hz.
    apply nth_error_app_last in Hz as [Hz|[-> ->]]; [exact (I5 i z Hz)|].
    rewrite map_length, countZ_none.
    + unfold khead; destruct (e_par e); assumption.
    + intros a Ha. specialize (I2 a Ha). unfold agent_ok in I2. unfold on_link.
      destruct (a_location a); auto. apply Nat.eqb_neq. lia.
  - cbn. intros k0 Hk. apply in_app_or in Hk as [Hk|[<-|[]]]; [now apply I6|].
    unfold khead; destruct (e_par e); lia.
Qed.

(** [linkUp] as two insertions *)
Lemma link_up_spec n1 n2 d f at_ e e' : link_up n1 n2 d f at_ e = Ok e' ->
  exists i1 i2 e0 did,
    last_index n1 (map sval (e_locationNames e)) 0 None = Some i1 /\
    last_index n2 (map sval (e_locationNames e)) 0 None = Some i2 /\
    (i1 < List.length (e_locations e))%nat /\ (i2 < List.length (e_locations e))%nat /\
    ((at_ = None /\ e0 = e /\ did = 1%nat) \/
     (exists a, at_ = Some a /\ e0 = up_e_dicts (fun ds => ds ++ [a]) e /\
                did = List.length (e_dicts e))) /\
    e' = kapp i2 (Link i2 i1 false d 0 0 0 false did [])
           (kapp i1 (Link i1 i2 false d 0 0 0 f did []) e0).
Proof.
  unfold link_up, loc_of; intro H. rstep H; [|discriminate]. rstep H; [|discriminate].
  rstep H. apply of_option_ok, nth_error_lt in E. rstep H. apply of_option_ok, nth_error_lt in E0.
  rename n into i1, n0 into i2. exists i1, i2.
  destruct at_ as [a|]; rinv H.
  - exists (up_e_dicts (fun ds => ds ++ [a]) e), (List.length (e_dicts e)).
    do 4 (split; [auto|]). split; [right; eauto|].
    unfold kapp; cbn. rewrite app_length, Nat.add_1_r. reflexivity.
  - exists e, 1%nat. do 4 (split; [auto|]). split; [left; auto|].
    unfold kapp; cbn. rewrite app_length, Nat.add_1_r. reflexivity.
Qed.

Lemma inv_link_up n1 n2 d f at_ e e' : Inv e -> link_up n1 n2 d f at_ e = Ok e' -> Inv e'.
Proof.
  intros I H. apply link_up_spec in H as (i1 & i2 & e0 & did & _ & _ & L1 & L2 & C & ->).
  assert (P : Inv e0 /\ e_locations e0 = e_locations e /\ (did < List.length (e_dicts e0))%nat).
  { destruct C as [(-> & -> & ->)|(a & -> & -> & ->)].
    - split; [assumption|]. split; [reflexivity|]. apply st_dicts, i_struct, I.
    - split; [eapply inv_same; [apply sl_same, still_dicts|exact I]|]; cbn; rewrite ?app_length; cbn.
      + lia.
      + split; [reflexivity|lia]. }
  destruct P as (I0 & HL & HD).
  apply inv_kapp; cbn; rewrite ?upd_length, ?HL; auto.
  apply inv_kapp; cbn; rewrite ?HL; auto.
Qed.

(** ** Closing and reopening links *)

Definition set_links (x : nat) (L : list nat) (e : eco) : eco := up_loc x (up_l_links (fun _ => L)) e.
Definition set_store (x : nat) (L : list nat) (e : eco) : eco :=
  up_loc x (up_l_closed_links (fun _ => L)) e.

Lemma set_links_same x l e : nth_error (e_locations e) x = Some l -> set_links x (l_links l) e = e.
Proof.
  intro H. unfold set_links, up_loc, up_e_locations. destruct e; cbn in *. f_equal.
  rewrite <- (upd_id x e_locations) at 2. apply upd_ext. intros a Ha.
  assert (a = l) as -> by congruence. now destruct l.
Qed.
Lemma set_store_same x l e : nth_error (e_locations e) x = Some l ->
  set_store x (l_closed_links l) e = e.
Proof.
  intro H. unfold set_store, up_loc, up_e_locations. destruct e; cbn in *. f_equal.
  rewrite <- (upd_id x e_locations) at 2. apply upd_ext. intros a Ha.
  assert (a = l) as -> by congruence. now destruct l.
Qed.

Lemma set_links_set x L1 L2 e : set_links x L2 (set_links x L1 e) = set_links x L2 e.
Proof. unfold set_links, up_loc, up_e_locations. destruct e; cbn. f_equal. now rewrite upd_upd. Qed.
Lemma set_store_set x L1 L2 e : set_store x L2 (set_store x L1 e) = set_store x L2 e.
Proof. unfold set_store, up_loc, up_e_locations. destruct e; cbn. f_equal. now rewrite upd_upd. Qed.

Lemma NoDup_remove_in {A} (a b : list A) x y : NoDup (a ++ x :: b) -> In y (a ++ b) -> y <> x.
Proof. intros H Hy ->. now apply NoDup_remove_2 in H. Qed.

(** Dropping an open link *)
Lemma inv_drop x a ki b e l : Inv e -> nth_error (e_locations e) x = Some l ->
  l_links l = a ++ ki :: b -> Inv (set_links x (a ++ b) e).
Proof.
  intros [I1 I2 I3 I4 I5 I6] Hx Hl. destruct I1 as [S1 S2 S3 S4 S5].
  split.
  - split; cbn.
    + rewrite S1. symmetry; now apply map_upd.
    + now rewrite upd_length.
    + assumption.
    + intros i l' Hi. rewrite nth_upd in Hi. destruct (Nat.eqb_spec x i) as [<-|]; [|exact (S4 i l' Hi)].
      rewrite Hx in Hi. injection Hi as <-. destruct (S4 x l Hx) as (A1 & A2 & A3 & A4 & A5).
      rewrite Hl in *. split; [exact A1|]. cbn.
      split; [eapply NoDup_remove_1; eauto|]. split; [assumption|]. split; [|assumption].
      intros kj Hin. apply A4. apply in_app_or in Hin. apply in_or_app. cbn. tauto.
    + intros kj k Hk. specialize (S5 kj k Hk). unfold link_ok in *; cbn. now rewrite upd_length.
  - cbn. intros c Hc. specialize (I2 c Hc). unfold agent_ok in *; cbn. now rewrite upd_length.
  - cbn. intros i l' kj c Hi Hk Hc. rewrite nth_upd in Hi.
    destruct (Nat.eqb_spec x i) as [<-|]; [|eauto].
    rewrite Hx in Hi. injection Hi as <-. cbn in Hk. eauto.
  - cbn. intros i z Hz. unfold lheads in Hz; cbn in Hz.
    rewrite (map_upd _ _ _ _) in Hz by reflexivity. exact (I4 i z Hz).
  - exact I5.
  - exact I6.
Qed.

Definition closed_copy (k : link) : link :=
  up_k_numAgentsOnRank (fun _ => 0%Z) (up_k_numAgents (fun _ => 0%Z) (up_k_closed (fun _ => true) k)).

(** Closing an open link: the old object is marked closed, a copy without agents goes
    to the store of closed links. *)
Definition shut (x ki : nat) (k : link) (e : eco) : eco :=
  up_loc x (up_l_closed_links (fun c => c ++ [List.length (e_links e)]))
    (up_e_links (fun h => h ++ [closed_copy k]) (up_link ki (up_k_closed (fun _ => true)) e)).

Lemma khead_up_closed par b k : khead par (up_k_closed (fun _ => b) k) = khead par k.
Proof. destruct par; reflexivity. Qed.

Lemma inv_shut x a ki b k e l : Inv e -> nth_error (e_locations e) x = Some l ->
  l_links l = a ++ ki :: b -> nth_error (e_links e) ki = Some k ->
  Inv (set_links x (a ++ b) (shut x ki k e)).
Proof.
  intros [I1 I2 I3 I4 I5 I6] Hx Hl Hk. destruct I1 as [S1 S2 S3 S4 S5].
  destruct (S4 x l Hx) as (A1 & A2 & A3 & A4 & A5). rewrite Hl in A2, A4.
  assert (Ki : k_startpoint k = x /\ k_closed k = false).
  { destruct (A4 ki) as (k0 & H0 & H1 & H2); [apply in_or_app; right; now left|]. split; congruence. }
  destruct Ki as [Ks Kc].
  pose proof (nth_error_lt _ _ _ Hk) as Lk.
  set (n := List.length (e_links e)) in *.
  assert (HK : forall i k', nth_error (upd ki (up_k_closed (fun _ => true)) (e_links e) ++ [closed_copy k]) i
              = Some k' ->
            (i = n /\ k' = closed_copy k) \/ (i = ki /\ k' = up_k_closed (fun _ => true) k) \/
            (i <> ki /\ nth_error (e_links e) i = Some k')).
  { intros i k' H. apply nth_error_app_last in H as [H|[-> ->]].
    - right. rewrite nth_upd in H. destruct (Nat.eqb_spec ki i) as [<-|]; [|auto].
      rewrite Hk in H. injection H as <-. auto.
    - left. rewrite upd_length. auto. }
  assert (HO : forall j k0, nth_error (e_links e) j = Some k0 -> j <> ki ->
            nth_error (upd ki (up_k_closed (fun _ => true)) (e_links e) ++ [closed_copy k]) j = Some k0).
  { intros j k0 H Hj. rewrite nth_error_app1.
    - rewrite nth_upd. destruct (Nat.eqb_spec ki j); [congruence|assumption].
    - rewrite upd_length. now apply nth_error_lt in H. }
  split.
  - split; cbn.
    + rewrite S1. symmetry. rewrite upd_upd. now apply map_upd.
    + now rewrite !upd_length.
    + assumption.
    + intros i l' Hi. rewrite upd_upd, nth_upd in Hi. destruct (Nat.eqb_spec x i) as [<-|Ni].
      * rewrite Hx in Hi. injection Hi as <-. split; [exact A1|]. cbn.
        split; [eapply NoDup_remove_1; eauto|]. split; [|split].
        -- apply NoDup_app_last; [assumption|]. intro Hin.
           destruct (A5 _ Hin) as (k0 & H0 & _). apply nth_error_lt in H0. unfold n in H0. lia.
        -- intros kj Hin. pose proof (NoDup_remove_in _ _ _ _ A2 Hin) as Nj.
           destruct (A4 kj) as (k0 & H0 & H1 & H2);
             [apply in_app_or in Hin; apply in_or_app; cbn; tauto|].
           exists k0; auto.
        -- intros kj Hin. apply in_app_or in Hin as [Hin|[<-|[]]].
           ++ destruct (A5 kj Hin) as (k0 & H0 & H1 & H2). exists k0; split; [|auto].
              apply HO; [assumption|]. intros ->. congruence.
           ++ exists (closed_copy k). split; [|cbn; auto].
              rewrite nth_error_app2 by (rewrite upd_length; auto).
              rewrite upd_length, Nat.sub_diag. reflexivity.
      * destruct (S4 i l' Hi) as (B1 & B2 & B3 & B4 & B5).
        split; [exact B1|]. do 2 (split; [assumption|]). cbn.
        split; intros kj Hin; [destruct (B4 kj Hin) as (k0 & H0 & H1 & H2)
                              |destruct (B5 kj Hin) as (k0 & H0 & H1 & H2)];
          exists k0; (split; [apply HO; [assumption|intros ->; congruence]|auto]).
    + intros kj k' H. unfold link_ok; cbn. rewrite !upd_length.
      pose proof (S5 ki k Hk) as Ok.
      apply HK in H as [[_ ->]|[[_ ->]|[_ H]]]; [exact Ok|exact Ok|exact (S5 _ _ H)].
  - cbn. intros c Hc. specialize (I2 c Hc). unfold agent_ok in *; cbn.
    rewrite !upd_length, app_length, upd_length; cbn. destruct (a_location c); intuition lia.
  - cbn. intros i l' kj c Hi Hin Hc. rewrite upd_upd, nth_upd in Hi.
    destruct (Nat.eqb_spec x i) as [<-|]; [|eauto].
    rewrite Hx in Hi. injection Hi as <-. cbn in Hin. apply in_app_or in Hin as [Hin|[<-|[]]]; [eauto|].
    intro F. specialize (I2 c Hc). unfold agent_ok in I2. rewrite F in I2.
    destruct I2 as (_ & I2 & _). unfold n in I2. lia.
  - cbn. intros i z Hz. unfold lheads in Hz; cbn in Hz.
    rewrite upd_upd, (map_upd _ _ _ _) in Hz by reflexivity. exact (I4 i z Hz).
  - cbn. intros i z Hz. unfold kheads in Hz; cbn in Hz. rewrite map_app in Hz; cbn in Hz.
    rewrite (map_upd _ _ _ _) in Hz by (intro; apply khead_up_closed).
    apply nth_error_app_last in Hz as [Hz|[-> ->]]; [exact (I5 i z Hz)|].
    rewrite map_length, countZ_none.
    + unfold khead; destruct (e_par e); reflexivity.
    + intros c Hc. specialize (I2 c Hc). unfold agent_ok in I2. unfold on_link.
      destruct (a_location c); auto. apply Nat.eqb_neq. lia.
  - cbn. intros k' Hin. apply In_nth_error in Hin as [i Hi]. apply HK in Hi as [[_ ->]|[[_ ->]|[_ H]]].
    + pose proof (nth_error_In _ _ Hk) as Hin. specialize (I6 _ Hin).
      assert (0 <= khead (e_par e) k)%Z.
      { assert (Hz : nth_error (kheads e) ki = Some (khead (e_par e) k))
          by (unfold kheads; now apply map_nth_error).
        rewrite (I5 _ _ Hz). apply countZ_nonneg. }
      unfold khead in *; destruct (e_par e); cbn; lia.
    + rewrite khead_up_closed. cbn. apply I6. eapply nth_error_In; eauto.
    + apply I6. eapply nth_error_In; eauto.
Qed.

Definition unshut (x ki : nat) (e : eco) : eco :=
  up_link ki (up_k_closed (fun _ => false)) (up_loc x (up_l_links (fun ks => ks ++ [ki])) e).

Lemma inv_unshut x a ki b e l : Inv e -> nth_error (e_locations e) x = Some l ->
  l_closed_links l = a ++ ki :: b -> Inv (set_store x (a ++ b) (unshut x ki e)).
Proof.
  intros [I1 I2 I3 I4 I5 I6] Hx Hl. destruct I1 as [S1 S2 S3 S4 S5].
  destruct (S4 x l Hx) as (A1 & A2 & A3 & A4 & A5). rewrite Hl in A3, A5.
  destruct (A5 ki) as (k & Hk & Ks & Kc); [apply in_or_app; right; now left|].
  assert (HO : forall j k0, nth_error (e_links e) j = Some k0 -> j <> ki ->
            nth_error (upd ki (up_k_closed (fun _ => false)) (e_links e)) j = Some k0).
  { intros j k0 H Hj. rewrite nth_upd. destruct (Nat.eqb_spec ki j); [congruence|assumption]. }
  assert (HK : forall i k', nth_error (upd ki (up_k_closed (fun _ => false)) (e_links e)) i = Some k' ->
            k' = up_k_closed (fun _ => false) k \/ nth_error (e_links e) i = Some k').
  { intros i k' H. rewrite nth_upd in H. destruct (Nat.eqb_spec ki i) as [<-|]; [|auto].
    rewrite Hk in H. injection H as <-. auto. }
  split.
  - split; cbn.
    + rewrite S1. symmetry. rewrite upd_upd. now apply map_upd.
    + now rewrite !upd_length.
    + assumption.
    + intros i l' Hi. rewrite upd_upd, nth_upd in Hi. destruct (Nat.eqb_spec x i) as [<-|Ni].
      * rewrite Hx in Hi. injection Hi as <-. split; [exact A1|]. cbn.
        split; [|split; [eapply NoDup_remove_1; eauto|split]].
        -- apply NoDup_app_last; [assumption|]. intro Hin.
           destruct (A4 _ Hin) as (k0 & H0 & _ & H2). congruence.
        -- intros kj Hin. apply in_app_or in Hin as [Hin|[<-|[]]].
           ++ destruct (A4 kj Hin) as (k0 & H0 & H1 & H2). exists k0; split; [|auto].
              apply HO; [assumption|]. intros ->. congruence.
           ++ exists (up_k_closed (fun _ => false) k).
              rewrite nth_upd, Nat.eqb_refl, Hk. auto.
        -- intros kj Hin. pose proof (NoDup_remove_in _ _ _ _ A3 Hin) as Nj.
           destruct (A5 kj) as (k0 & H0 & H1 & H2);
             [apply in_app_or in Hin; apply in_or_app; cbn; tauto|].
           exists k0; auto.
      * destruct (S4 i l' Hi) as (B1 & B2 & B3 & B4 & B5).
        split; [exact B1|]. do 2 (split; [assumption|]). cbn.
        split; intros kj Hin; [destruct (B4 kj Hin) as (k0 & H0 & H1 & H2)
                              |destruct (B5 kj Hin) as (k0 & H0 & H1 & H2)];
          exists k0; (split; [apply HO; [assumption|intros ->; congruence]|auto]).
    + intros kj k' H. unfold link_ok; cbn. rewrite !upd_length.
      pose proof (S5 ki k Hk) as Ok. apply HK in H as [->|H]; [exact Ok|exact (S5 _ _ H)].
  - cbn. intros c Hc. specialize (I2 c Hc). unfold agent_ok in *; cbn. now rewrite !upd_length.
  - cbn. intros i l' kj c Hi Hin Hc. rewrite upd_upd, nth_upd in Hi.
    destruct (Nat.eqb_spec x i) as [<-|]; [|eauto].
    rewrite Hx in Hi. injection Hi as <-. cbn in Hin. eapply I3; eauto. rewrite Hl.
    apply in_app_or in Hin. apply in_or_app. cbn. tauto.
  - cbn. intros i z Hz. unfold lheads in Hz; cbn in Hz.
    rewrite upd_upd, (map_upd _ _ _ _) in Hz by reflexivity. exact (I4 i z Hz).
  - cbn. intros i z Hz. unfold kheads in Hz; cbn in Hz.
    rewrite (map_upd _ _ _ _) in Hz by (intro; apply khead_up_closed). exact (I5 i z Hz).
  - cbn. intros k' Hin. apply In_nth_error in Hin as [i Hi]. apply HK in Hi as [->|H].
    + rewrite khead_up_closed. cbn. apply I6. eapply nth_error_In; eauto.
    + apply I6. eapply nth_error_In; eauto.
Qed.

Lemma nth_set_links x L e l : nth_error (e_locations e) x = Some l ->
  nth_error (e_locations (set_links x L e)) x = Some (up_l_links (fun _ => L) l).
Proof. intro H. cbn. rewrite nth_upd, Nat.eqb_refl, H. reflexivity. Qed.
Lemma nth_set_store x L e l : nth_error (e_locations e) x = Some l ->
  nth_error (e_locations (set_store x L e)) x = Some (up_l_closed_links (fun _ => L) l).
Proof. intro H. cbn. rewrite nth_upd, Nat.eqb_refl, H. reflexivity. Qed.

Lemma locs_locs f h e : up_e_locations f (up_e_locations h e) = up_e_locations (fun x => f (h x)) e.
Proof. reflexivity. Qed.
Lemma links_locs f h e : up_e_links f (up_e_locations h e) = up_e_locations h (up_e_links f e).
Proof. reflexivity. Qed.
Lemma locs_ext f h e : f (e_locations e) = h (e_locations e) -> up_e_locations f e = up_e_locations h e.
Proof. intro H. unfold up_e_locations. now rewrite H. Qed.

Lemma shut_set_links x ki k L L' e :
  set_links x L (shut x ki k (set_links x L' e)) = set_links x L (shut x ki k e).
Proof.
  unfold set_links, shut, up_loc, up_link. rewrite !links_locs, !locs_locs. apply locs_ext. now rewrite !upd_upd.
Qed.
Lemma unshut_set_store x ki L L' e :
  set_store x L (unshut x ki (set_store x L' e)) = set_store x L (unshut x ki e).
Proof.
  unfold set_store, unshut, up_loc, up_link. rewrite !links_locs, !locs_locs. apply locs_ext. now rewrite !upd_upd.
Qed.

(** ** remove_link and reopen_link *)

Lemma remove_fold_inv x ep co r : forall e new rem e' new' rem' l,
  nth_error (e_locations e) x = Some l ->
  Inv (set_links x (new ++ r) e) ->
  foldM (remove_step x ep co) r (e, new, rem) = Ok (e', new', rem') ->
  (exists l', nth_error (e_locations e') x = Some l') /\ Inv (set_links x new' e').
Proof.
  induction r as [|ki r IH]; intros e new rem e' new' rem' l Hx I H; cbn [foldM] in H.
  - rinv H. rewrite app_nil_r in I. eauto.
  - rstep H. unfold remove_step in E. rstep E. rename v0 into k. unfold link_of in E0.
    apply of_option_ok in E0. rstep E. rstep E; [|rstep E]; rinv E.
    + eapply IH; [exact Hx| |exact H]. now rewrite <- app_assoc.
    + eapply IH; [| |exact H].
      * cbn. rewrite nth_upd, Nat.eqb_refl, Hx. reflexivity.
      * fold (closed_copy k).
        change (Inv (set_links x (new' ++ r) (shut x ki k e))) || idtac.
        match goal with |- Inv (set_links x (?n ++ r) _) =>
          change (Inv (set_links x (n ++ r) (shut x ki k e)));
          rewrite <- (shut_set_links x ki k (n ++ r) (n ++ ki :: r)) end.
        eapply inv_shut; [exact I|apply nth_set_links; exact Hx|reflexivity|exact E0].
    + eapply IH; [exact Hx| |exact H].
      match goal with |- Inv (set_links x (?n ++ r) _) =>
        rewrite <- (set_links_set x (n ++ ki :: r)) end.
      eapply inv_drop; [exact I|apply nth_set_links; exact Hx|reflexivity].
Qed.

Lemma inv_remove_1way s t co e e' b : Inv e -> remove_link_1way s t co e = Ok (e', b) -> Inv e'.
Proof.
  unfold remove_link_1way, loc_of; intros I H. rstep H. apply of_option_ok in E.
  rstep H. destruct v0 as [[e1 new] rem]. rinv H.
  eapply remove_fold_inv in E0 as [_ E0]; [exact E0|exact E|].
  cbn [app]. now rewrite set_links_same.
Qed.

Lemma reopen_fold_inv x ep r : forall e new rem e' new' rem' l,
  nth_error (e_locations e) x = Some l ->
  Inv (set_store x (new ++ r) e) ->
  foldM (reopen_step x ep) r (e, new, rem) = Ok (e', new', rem') ->
  Inv (set_store x new' e').
Proof.
  induction r as [|ki r IH]; intros e new rem e' new' rem' l Hx I H; cbn [foldM] in H.
  - rinv H. rewrite app_nil_r in I. eauto.
  - rstep H. unfold reopen_step in E. rstep E. rename v0 into k. unfold link_of in E0.
    apply of_option_ok in E0. rstep E. rstep E; rinv E.
    + eapply IH; [exact Hx| |exact H]. now rewrite <- app_assoc.
    + eapply IH; [| |exact H].
      * cbn. rewrite nth_upd, Nat.eqb_refl, Hx. reflexivity.
      * match goal with |- Inv (set_store x (?n ++ r) _) =>
          change (Inv (set_store x (n ++ r) (unshut x ki e)));
          rewrite <- (unshut_set_store x ki (n ++ r) (n ++ ki :: r)) end.
        eapply inv_unshut; [exact I|apply nth_set_store; exact Hx|reflexivity].
Qed.

Lemma inv_reopen_1way s t e e' b : Inv e -> reopen_link_1way s t e = Ok (e', b) -> Inv e'.
Proof.
  unfold reopen_link_1way, loc_of; intros I H. rstep H. apply of_option_ok in E.
  rstep H. destruct v0 as [[e1 new] rem]. rinv H.
  eapply reopen_fold_inv in E0; [exact E0|exact E|].
  cbn [app]. now rewrite set_store_same.
Qed.

Lemma inv_remove_link s t tw co e e' b : Inv e -> remove_link s t tw co e = Ok (e', b) -> Inv e'.
Proof. unfold remove_link; destruct tw; apply inv_remove_1way. Qed.
Lemma inv_reopen_link s t tw e e' b : Inv e -> reopen_link s t tw e = Ok (e', b) -> Inv e'.
Proof. unfold reopen_link; destruct tw; apply inv_reopen_1way. Qed.
Lemma inv_close_link s t tw e e' b : Inv e -> close_link s t tw e = Ok (e', b) -> Inv e'.
Proof. apply inv_remove_link. Qed.

(** ** The loops: anything preserved by closing and reopening one link is preserved *)

Section Loops.
  Context (R : eco -> eco -> Prop).
  Hypothesis Rrefl : forall e, R e e.
  Hypothesis Rtrans : forall a b c, R a b -> R b c -> R a c.
  Hypothesis Rclose : forall s t e e' b, close_link s t false e = Ok (e', b) -> R e e'.
  Hypothesis Rreopen : forall s t e e' b, reopen_link s t false e = Ok (e', b) -> R e e'.

  Lemma location_loop_rel fuel m d i ni : forall ls j e e',
    change_location_loop fuel m d i ni ls j e = Ok e' -> R e e'.
  Proof.
    induction fuel as [|fuel IH]; intros ls j e e' H; cbn [change_location_loop] in H;
      (destruct (nth_error ls j); [|rinv H; auto]); [discriminate|].
    do 2 rstep H. cbv zeta in H. destruct m.
    - rstep H.
      assert (R1 : R e v1).
      { destruct d; [rstep E1; destruct v2; rinv E1; eauto|rinv E1; auto|
                     rstep E1; destruct v2; rinv E1; eauto]. }
      eapply Rtrans; [exact R1|].
      destruct d; [eapply IH; eauto|..];
        (rstep H; destruct v2; eapply Rtrans; [eapply Rclose; eassumption|];
         rstep H; [rstep H|]; eapply IH; eauto).
    - rstep H.
      assert (R1 : R e v1).
      { destruct d; [rstep E1; destruct v2; rinv E1; eauto|rinv E1; auto|
                     rstep E1; destruct v2; rinv E1; eauto]. }
      eapply Rtrans; [exact R1|].
      destruct d; [eapply IH; eauto|..];
        (rstep H; destruct v2; eapply Rtrans; [eapply Rreopen; eassumption|];
         rstep H; [rstep H|]; eapply IH; eauto).
  Qed.

  Lemma change_location_rel fuel n m d e e' b :
    change_location_1way fuel n m d e = Ok (e', b) -> R e e'.
  Proof.
    unfold change_location_1way; intro H.
    eapply (foldM_rel (fun s s' => R (fst s) (fst s'))) in H; eauto.
    intros [e1 c1] i [e2 c2] _ Hs. cbn [fst]. rstep Hs. rstep Hs; [|rinv Hs; auto].
    do 2 rstep Hs. rinv Hs. eapply location_loop_rel; eauto.
  Qed.

  Lemma border_loop_rel fuel dest m i ni : forall ls j e e',
    change_border_loop fuel dest m i ni ls j e = Ok e' -> R e e'.
  Proof.
    induction fuel as [|fuel IH]; intros ls j e e' H; cbn [change_border_loop] in H;
      (destruct (nth_error ls j); [|rinv H; auto]); [discriminate|].
    do 2 rstep H. rstep H; [|eapply IH; eauto].
    rstep H. destruct v1 as [e1 hit]. eapply Rtrans with e1; [destruct m; eauto|].
    rstep H; [rstep H|]; eapply IH; eauto.
  Qed.

  Lemma change_border_1way_rel fuel s d m e e' : change_border_1way fuel s d m e = Ok e' -> R e e'.
  Proof.
    unfold change_border_1way; intro H. eapply (foldM_rel R) in H; eauto.
    intros e1 i e2 _ Hs. rstep Hs. rstep Hs; [|rinv Hs; auto]. rstep Hs.
    eapply border_loop_rel; eauto.
  Qed.

  Lemma change_border_rel fuel s d tw m e e' : change_border fuel s d tw m e = Ok e' -> R e e'.
  Proof.
    unfold change_border; intro H. rstep H. destruct tw; [|rinv H]; eauto using change_border_1way_rel.
  Qed.

  Hypothesis Rstill : forall e e', Still e e' -> R e e'.

  Lemma Rclose2 s t tw e e' b : close_link s t tw e = Ok (e', b) -> R e e'.
  Proof. destruct tw; [|apply Rclose]. intro H. eapply (Rclose t s). exact H. Qed.
  Lemma Rreopen2 s t tw e e' b : reopen_link s t tw e = Ok (e', b) -> R e e'.
  Proof. destruct tw; [|apply Rreopen]. intro H. eapply (Rreopen t s). exact H. Qed.

  Lemma enact_close_rel fuel S tw c e e' : enact_close fuel S tw c e = Ok e' -> R e e'.
  Proof.
    unfold enact_close; intro H.
    rstep H; [eapply change_border_rel; exact H|].
    rstep H; [rstep H; destruct v; subst; eapply change_location_rel; exact E|].
    rstep H; [rstep H; destruct v; subst; eapply Rclose2; exact E|].
    rstep H; [apply Rstill; eapply still_close_camp; eauto|].
    rstep H; [apply Rstill; eapply still_close_camp; eauto|].
    rstep H; [apply Rstill; eapply still_set_forced; eauto|]. rinv H; auto.
  Qed.

  Lemma enact_open_rel fuel S tw c e e' : enact_open fuel S tw c e = Ok e' -> R e e'.
  Proof.
    unfold enact_open; intro H.
    rstep H; [eapply change_border_rel; exact H|].
    rstep H; [rstep H; destruct v; subst; eapply change_location_rel; exact E|].
    rstep H; [rstep H; destruct v; subst; eapply Rreopen2; exact E|].
    rstep H; [apply Rstill; eapply still_open_camp; eauto|].
    rstep H; [apply Rstill; eapply still_open_camp; eauto|].
    rstep H; [apply Rstill; eapply still_set_forced; eauto|]. rinv H; auto.
  Qed.

  Lemma enact_rel fuel S t tw e e' : enact_border_closures fuel S t tw e = Ok e' -> R e e'.
  Proof.
    unfold enact_border_closures; intro H. eapply (foldM_rel R) in H; eauto.
    intros e1 c e2 _ Hs. unfold enact_one in Hs. rstep Hs. eapply Rtrans with v.
    - rinv E; auto. eapply enact_close_rel; eauto.
    - rinv Hs; auto. eapply enact_open_rel; eauto.
  Qed.
End Loops.

Definition InvTo (e e' : eco) : Prop := Inv e -> Inv e'.
Lemma invto_trans a b c : InvTo a b -> InvTo b c -> InvTo a c.
Proof. unfold InvTo; auto. Qed.
Lemma invto_same e e' : Still e e' -> InvTo e e'.
Proof. intros H I; eapply inv_same; [eapply sl_same; exact H|exact I]. Qed.
Lemma invto_close s t e e' b : close_link s t false e = Ok (e', b) -> InvTo e e'.
Proof. intros H I; eapply inv_close_link; eauto. Qed.
Lemma invto_reopen s t e e' b : reopen_link s t false e = Ok (e', b) -> InvTo e e'.
Proof. intros H I; eapply inv_reopen_link; eauto. Qed.

(** ** StoreInputGeographyInEcosystem *)

Section Store.
  Context (R : eco -> eco -> Prop).
  Hypothesis Rrefl : forall e, R e e.
  Hypothesis Rtrans : forall a b c, R a b -> R b c -> R a c.
  Hypothesis Rstill : forall e e', Still e e' -> R e e'.
  Hypothesis Radd : forall S o n r x y lt mc cap pop f c a e g e' g',
    add_location S o n r x y lt mc cap pop f c a e g = Ok (e', g') -> R e e'.
  Hypothesis Rlink : forall n1 n2 d f a e e', link_up n1 n2 d f a e = Ok e' -> R e e'.

  Lemma store_input_rel S o f ig ch e g e' g' ig' :
    store_input S o f ig ch e g = Ok (e', g', ig') -> R e e'.
  Proof.
    unfold store_input; intro H. do 2 rstep H. cbv zeta in H. rstep H. destruct v1 as [e1 g1].
    do 4 rstep H. rinv H.
    apply (Rtrans _ v1); [|apply Rstill, still_closures].
    eapply Rtrans with e1.
    - eapply (foldM_rel (fun s s' => R (fst s) (fst s'))) in E1; eauto.
      intros [e2 g2] l [e3 g3] _ Hs. cbn [fst]. unfold store_location in Hs.
      do 10 rstep Hs. cbv zeta in Hs. rstep Hs.
      do 2 rstep Hs. cbv zeta in Hs. rstep Hs.
      repeat match goal with x : eco * rng |- _ => destruct x end.
      rstep Hs. rinv Hs. eapply Rtrans; [eapply Radd; eassumption|].
      apply Rstill, still_up_loc; lsimpl.
    - eapply (foldM_rel R) in E2; eauto.
      intros e2 lk e3 _ Hs. unfold store_link in Hs. rstep Hs. cbv zeta in Hs.
      assert (U : forall (forced swap : bool) a e e',
        (n1 <- cellv lk 0 ;; n2 <- cellv lk 1 ;; c2 <- cellv lk 2 ;;
         dist <- of_option ValueError (parse_Q c2) ;;
         if swap then link_up n2 n1 dist forced (Some a) e
         else link_up n1 n2 dist forced (Some a) e) = Ok e' -> R e e').
      { intros fo sw a ea eb Hu. do 4 rstep Hu. rinv Hu; eauto. }
      rstep Hs; [|eapply (U false false); exact Hs]. rstep Hs.
      rstep Hs.
      match goal with E : (if _ then _ else Ok e2) = Ok ?w |- _ => eapply Rtrans with w;
        [rstep E; [eapply (U true false); exact E|rinv E; auto]|] end.
      rstep Hs; [eapply (U true true); exact Hs|eapply (U false false); exact Hs].
  Qed.
End Store.

(** ** One call; histories *)

Theorem step_inv o S c e g e' g' : Inv e -> step o S c e g = Ok (e', g') -> Inv e'.
Proof.
  intros I H. destruct c; cbn [step] in H;
    try (rstep H; rinv H);
    try match goal with E : rmap fst _ = Ok _ |- _ =>
          let P := fresh in apply rmap_ok in E as ([? ?] & P & ->); cbn [fst] end.
  - eapply inv_add_location; eauto.
  - eapply inv_link_up; eauto.
  - eapply inv_same; [eapply sl_same, still_set_attr; eauto|assumption].
  - eapply inv_add_agent; eauto.
  - eapply inv_append_agent; eauto.
  - eapply inv_insert_agents; eauto.
  - eapply inv_clear; eauto.
  - eapply inv_evolve; eauto.
  - eapply inv_remove_link; eauto.
  - eapply inv_reopen_link; eauto.
  - eapply (change_location_rel InvTo); eauto using invto_trans, invto_close, invto_reopen.
    red; auto.
  - eapply (change_location_rel InvTo); eauto using invto_trans, invto_close, invto_reopen.
    red; auto.
  - eapply (change_border_rel InvTo); eauto using invto_trans, invto_close, invto_reopen.
    red; auto.
  - eapply (change_border_rel InvTo); eauto using invto_trans, invto_close, invto_reopen.
    red; auto.
  - eapply inv_same; [eapply sl_same, still_close_camp; eauto|assumption].
  - eapply inv_same; [eapply sl_same, still_open_camp; eauto|assumption].
  - eapply inv_same; [eapply sl_same, still_change_location_type; eauto|assumption].
  - eapply inv_same; [eapply sl_same, still_set_forced; eauto|assumption].
  - rinv H. eapply inv_same; [apply sl_same, still_closures|assumption].
  - eapply (enact_rel InvTo); eauto using invto_trans, invto_close, invto_reopen, invto_same.
  - eapply inv_same; [eapply sl_same, still_refresh; eauto|assumption].
  - eapply inv_same; [eapply sl_same, still_add_conflict; eauto|assumption].
  - eapply inv_same; [eapply sl_same, still_remove_conflict; eauto|assumption].
  - eapply inv_same; [eapply sl_same, still_set_intensity; eauto|assumption].
  - eapply inv_initial; eauto.
  - eapply inv_spawn_daily; eauto.
  - eapply inv_read_agents; eauto.
  - revert I. change (InvTo e e').
    eapply (store_input_rel InvTo); [..|eassumption].
    + red; auto.
    + exact invto_trans.
    + exact invto_same.
    + intros; red; intros; eapply inv_add_location; eauto.
    + intros; red; intros; eapply inv_link_up; eauto.
  - eapply inv_same; [eapply sl_same, still_update_attributes; eauto|assumption].
  - eapply inv_same; [eapply sl_same, still_add_new_conflict_zones; eauto|assumption].
Qed.

Lemma inv_empty : Inv empty_eco.
Proof.
  split; cbn; try easy.
  - split; cbn; try easy; try lia; intros [|]; discriminate.
  - intros [|]; discriminate.
  - intros [|]; discriminate.
Qed.

Theorem run_inv o h e g e' g' : Inv e -> run o h e g = Ok (e', g') -> Inv e'.
Proof.
  unfold run; intros I H. eapply (foldM_inv (fun s => Inv (fst s))) in H; auto.
  intros [e1 g1] c [e2 g2] _ I1 H1. cbn [fst snd] in *. eapply step_inv; eauto.
Qed.

Theorem reachable_inv o e g : reachable o e g -> Inv e.
Proof. intros (h & g0 & H). eapply run_inv; [apply inv_empty|exact H]. Qed.
