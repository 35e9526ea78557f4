(** * RouteProofs: the route search is sound, complete and terminates *)

From Coq Require Import Lia Lqa.
From Verif Require Import Base State Moving Lemmas SpecChoice SpecRoutes ChoiceProofs Defaults ExampleRun.
Local Open Scope Q_scope.

(** The weight in terms of the functions of the code. [code_weight S o e a time i d w]: [w] is the weight of ending in location [i] after
    [d] kilometres: (softening + score) / (softening + d)^power, times the capacity
    multiplier, to a power. *)
Definition code_weight (S : settings) (o : oracle) (e : eco) (a : agent) (time : Z)
    (i : nat) (d w : Q) : Prop :=
  exists l score x p c,
    nth_error (e_locations e) i = Some l /\
    getEndPointScore S o e a l time = Ok score /\
    x == s_DistanceSoftening S + d /\ fpow o x (s_DistancePower S) = Ok p /\ ~ p == 0 /\
    getCapMultiplier S l = Ok c /\
    fpow o ((s_WeightSoftening S + score) / p * c) (s_WeightPower S) = Ok w.

(** ** The capacity multiplier *)

Lemma room_ok S l c : getCapMultiplier S l = Ok c -> room S l c.
Proof.
  unfold getCapMultiplier, room, fdiv. cbv zeta. set (cap := inject_Z (l_capacity l) * s_CapacityScaling S).
  set (n := inject_Z (l_numAgents l)). set (occ := s_CapacityBuffer S).
  destruct (Qltb cap 1) eqn:E1; [intro H; injection H as <-; reflexivity|].
  destruct (Qleb n (occ * cap)) eqn:E2; [intro H; injection H as <-; reflexivity|].
  assert (E0 : Qleb (1 * cap) n = Qleb cap n).
  { destruct (Qleb cap n) eqn:E; qb; [apply Qleb_true|apply Qleb_false]; lra. }
  rewrite E0. destruct (Qleb cap n) eqn:E3; [intro H; injection H as <-; reflexivity|]. qb.
  destruct (cap_between occ cap n) as (D & A & B & C); try lra.
  destruct (Qeqb (cap * (1 - occ)) 0) eqn:E4; qb; [lra|]. cbn [bind].
  destruct (Qleb 0 _) eqn:E5; qb; [|discriminate]. destruct (Qleb _ 1) eqn:E6; qb; [|discriminate].
  cbn [negb]. intro H. injection H as <-. exact C.
Qed.
Lemma room_back S l c : room S l c -> exists c', getCapMultiplier S l = Ok c' /\ c' == c.
Proof.
  intro R. destruct (cap_total S l) as (w & H & _). exists w. split; [assumption|]. apply room_ok in H. unfold room in *. now rewrite H, R.
Qed.

(** ** Collecting results in a loop *)

Lemma foldM_ext {A S} (f g : S -> A -> res S) l s : (forall s a, In a l -> f s a = g s a) ->
  foldM f l s = foldM g l s.
Proof.
  revert s; induction l as [|a l IH]; intros s H; cbn; [reflexivity|].
  rewrite H by now left. destruct (g s a); cbn; [|reflexivity]. apply IH. intros; apply H; now right.
Qed.

Lemma foldM_collect {A B} (f : A -> res (list B)) l acc out :
  foldM (fun acc a => sub <- f a ;; Ok (acc ++ sub)) l acc = Ok out ->
  (forall a, In a l -> exists sub, f a = Ok sub) /\
  (forall x, In x out <-> In x acc \/ exists a sub, In a l /\ f a = Ok sub /\ In x sub).
Proof.
  revert acc; induction l as [|a l IH]; intros acc H; cbn in H.
  - injection H as <-. split; [easy|]. intro x; split; [auto|]. intros [?|(a & s & [] & _)]; assumption.
  - destruct (f a) as [s|] eqn:Ef; cbn in H; [|discriminate].
    apply IH in H as [T X]. split.
    + intros b [<-|Hb]; eauto.
    + intro x. rewrite X, in_app_iff. split.
      * intros [[Hx|Hx]|(b & sb & Hb & E & Hx)]; [auto|right; exists a, s; auto with datatypes|].
        right; exists b, sb; auto with datatypes.
      * intros [Hx|(b & sb & [<-|Hb] & E & Hx)]; [auto| |right; exists b, sb; auto].
        rewrite Ef in E; injection E as <-. auto.
Qed.

(** The body of the loop of calculateLinkWeight as a function of the link *)
Definition explore (fuel : nat) S o e a (origin : list string) prior step time
    (ep : location) (k : link) (li : nat) : res (list (Q * list string)) :=
  lel <- link_of e li ;;
  lep <- endpoint_of e lel ;;
  if mem_str (lname lep) origin then Ok []
  else calculateLinkWeight fuel S o e a li (prior + k_distance k) (origin ++ [lname ep]) step time.

Lemma clw_unfold fuel S o e a ki prior origin step time :
  calculateLinkWeight (Datatypes.S fuel) S o e a ki prior origin step time =
  (k <- link_of e ki ;;
   ep <- endpoint_of e k ;;
   '(own, step1) <-
     (if l_marker ep then Ok ([], (step - 1)%Z)
      else w <- linkWeight S o e a k ep prior time ;; Ok ([(w, origin ++ [lname ep])], step)) ;;
   if (step1 <? s_AwarenessLevel S)%Z then
     foldM (fun acc li => sub <- explore fuel S o e a origin prior (step1 + 1)%Z time ep k li ;;
                          Ok (acc ++ sub)) (l_links ep) own
   else Ok own).
Proof.
  cbn [calculateLinkWeight]. destruct (link_of e ki) as [k|]; cbn [bind]; [|reflexivity].
  destruct (endpoint_of e k) as [ep|]; cbn [bind]; [|reflexivity].
  match goal with |- bind ?m _ = bind ?m _ => destruct m as [[own step1]|]; cbn [bind]; [|reflexivity] end.
  destruct (step1 <? _)%Z; [|reflexivity]. apply foldM_ext. intros s li _.
  unfold explore. destruct (link_of e li) as [lel|]; cbn [bind]; [|reflexivity].
  destruct (endpoint_of e lel) as [lep|]; cbn [bind]; [|reflexivity].
  destruct (mem_str _ _); cbn [bind]; [now rewrite app_nil_r|reflexivity].
Qed.

Lemma mem_str_In s l : mem_str s l = true <-> In s l.
Proof.
  unfold mem_str. rewrite existsb_exists. split.
  - intros (x & Hx & E). apply String.eqb_eq in E as ->. assumption.
  - intro H. exists s. split; [assumption|apply String.eqb_refl].
Qed.
Lemma mem_str_notIn s l : mem_str s l = false <-> ~ In s l.
Proof. rewrite <- mem_str_In. destruct (mem_str s l); intuition congruence. Qed.

(** ** Paths that begin with a given link *)

Inductive lpath (e : eco) : nat -> list nat -> Q -> Prop :=
| lpath_one ki k : nth_error (e_links e) ki = Some k -> lpath e ki [k_endpoint k] (k_distance k)
| lpath_more ki k kj stops d : nth_error (e_links e) ki = Some k ->
    (exists l, nth_error (e_locations e) (k_endpoint k) = Some l /\ In kj (l_links l)) ->
    lpath e kj stops d -> lpath e ki (k_endpoint k :: stops) (k_distance k + d).

Lemma lpath_path e i l ki stops d : nth_error (e_locations e) i = Some l -> In ki (l_links l) ->
  lpath e ki stops d -> path e i stops d.
Proof.
  intros H I P; revert i l H I; induction P as [ki k Hk | ki k kj stops d Hk (l' & Hl' & Ij) P IH];
    intros i l H I.
  - apply path_one with ki. exists l; auto.
  - apply path_more with ki; [exists l; auto|]. eapply IH; eauto.
Qed.

Lemma path_lpath e i stops d : path e i stops d ->
  exists l ki, nth_error (e_locations e) i = Some l /\ In ki (l_links l) /\ lpath e ki stops d.
Proof.
  induction 1 as [i ki k (l & Hl & I & Hk) | i ki k stops d (l & Hl & I & Hk) P IH].
  - exists l, ki. repeat split; auto. now apply lpath_one.
  - destruct IH as (l' & kj & Hl' & Ij & P'). exists l, ki. repeat split; auto.
    eapply lpath_more; eauto.
Qed.

Lemma lpath_nonempty e ki stops d : lpath e ki stops d -> stops <> [].
Proof. now destruct 1. Qed.

Lemma lpath_head e ki stops d k : lpath e ki stops d -> nth_error (e_links e) ki = Some k ->
  exists rest, stops = k_endpoint k :: rest.
Proof. destruct 1 as [? k' H|? k' ? ? ? H]; intro H'; assert (k = k') as -> by congruence; eauto. Qed.

Lemma link_of_ok e ki k : link_of e ki = Ok k <-> nth_error (e_links e) ki = Some k.
Proof. unfold link_of. destruct (nth_error _ _); cbn; split; congruence. Qed.
Lemma loc_of_ok e i l : loc_of e i = Ok l <-> nth_error (e_locations e) i = Some l.
Proof. unfold loc_of. destruct (nth_error _ _); cbn; split; congruence. Qed.

Lemma name_at_eq e i l : nth_error (e_locations e) i = Some l -> name_at e i = lname l.
Proof. unfold name_at. intros ->. reflexivity. Qed.
Lemma marker_at_eq e i l : nth_error (e_locations e) i = Some l -> is_marker e i = l_marker l.
Proof. unfold is_marker. intros ->. reflexivity. Qed.

Lemma real_stops_cons e i stops :
  (real_stops e (i :: stops) = (if is_marker e i then 0 else 1) + real_stops e stops)%Z.
Proof. unfold real_stops. cbn [filter]. destruct (is_marker e i); cbn [negb List.length]; lia. Qed.
Lemma real_stops_nonneg e stops : (0 <= real_stops e stops)%Z.
Proof. unfold real_stops; lia. Qed.
Lemma real_stops_app e s1 s2 : (real_stops e (s1 ++ s2) = real_stops e s1 + real_stops e s2)%Z.
Proof. unfold real_stops. rewrite filter_app, app_length. lia. Qed.

(** Weight of the last stop in terms of the code's arguments *)
Lemma linkWeight_spec S o e a k ep prior time w : nth_error (e_locations e) (k_endpoint k) = Some ep ->
  linkWeight S o e a k ep prior time = Ok w ->
  code_weight S o e a time (k_endpoint k) (prior + k_distance k) w.
Proof.
  intros Hep H. unfold linkWeight in H. rstep H. rstep H. rstep H. rstep H.
  unfold fdiv in E1. destruct (Qeqb v0 0) eqn:Ez; [discriminate|]. injection E1 as <-.
  exists ep, v, (s_DistanceSoftening S + k_distance k + prior), v0, v2.
  repeat split; auto; [ring|now apply Qeqb_false].
Qed.

Lemma code_weight_compat S o e a time i d d' w : d == d' ->
  code_weight S o e a time i d w -> code_weight S o e a time i d' w.
Proof.
  intros E (l & sc & x & p & c & H). exists l, sc, x, p, c.
  destruct H as (H1 & H2 & H3 & H4). rewrite E in H3. auto.
Qed.

(** ** Soundness *)

Lemma clw_sound S o e a time fuel : forall ki prior origin step out w r,
  calculateLinkWeight fuel S o e a ki prior origin step time = Ok out -> In (w, r) out ->
  exists stops d, lpath e ki stops d /\ r = origin ++ stop_names e stops /\
    is_marker e (last_stop stops) = false /\
    (List.length stops = 1%nat \/ (step - 1 + real_stops e (removelast stops) < s_AwarenessLevel S)%Z) /\
    code_weight S o e a time (last_stop stops) (prior + d) w /\
    (no_self_links e -> NoDup origin ->
     (forall k, nth_error (e_links e) ki = Some k -> ~ In (name_at e (k_endpoint k)) origin) ->
     NoDup r).
Proof.
  induction fuel as [|fuel IH]; intros ki prior origin step out w r H I; [discriminate|].
  rewrite clw_unfold in H. rstep H. apply link_of_ok in E as Hk. rename v into k.
  rstep H. unfold endpoint_of in E0. apply loc_of_ok in E0 as Hep. rename v into ep.
  rstep H. destruct v as [own step1].
  assert (Own : In (w, r) own -> exists stops d, lpath e ki stops d /\ r = origin ++ stop_names e stops /\
    is_marker e (last_stop stops) = false /\
    (List.length stops = 1%nat \/ (step - 1 + real_stops e (removelast stops) < s_AwarenessLevel S)%Z) /\
    code_weight S o e a time (last_stop stops) (prior + d) w /\
    (no_self_links e -> NoDup origin ->
     (forall k, nth_error (e_links e) ki = Some k -> ~ In (name_at e (k_endpoint k)) origin) ->
     NoDup r)).
  { intro Ho. destruct (l_marker ep) eqn:Em.
    - injection E1 as <- <-. destruct Ho.
    - rstep E1. injection E1 as <- <-. destruct Ho as [Ho|[]]. injection Ho as -> <-.
      exists [k_endpoint k], (k_distance k). split; [now apply lpath_one|].
      split; [cbn; now rewrite (name_at_eq _ _ _ Hep)|].
      split; [cbn; now rewrite (marker_at_eq _ _ _ Hep)|]. split; [now left|].
      split; [cbn; now apply linkWeight_spec with ep|].
      intros _ N Hn. specialize (Hn k Hk). rewrite (name_at_eq _ _ _ Hep) in Hn.
      rewrite <- (rev_involutive (origin ++ [lname ep])). apply NoDup_rev. rewrite rev_app_distr. cbn.
      constructor; [now rewrite <- in_rev|now apply NoDup_rev]. }
  assert (Hs : (step1 = step - 1 + (if is_marker e (k_endpoint k) then 0 else 1))%Z).
  { rewrite (marker_at_eq _ _ _ Hep). destruct (l_marker ep); [injection E1 as _ <-; lia|].
    rstep E1. injection E1 as _ <-. lia. }
  destruct (step1 <? s_AwarenessLevel S)%Z eqn:Es; [|injection H as <-; now apply Own].
  apply foldM_collect in H as [_ X]. apply X in I as [I|(li & sub & Hli & Hsub & I)]; [now apply Own|].
  clear Own X. unfold explore in Hsub.
  rstep Hsub. apply link_of_ok in E2 as Hlel. rename v into lel.
  rstep Hsub. unfold endpoint_of in E3. apply loc_of_ok in E3 as Hlep. rename v into lep.
  destruct (mem_str (lname lep) origin) eqn:Emem; [injection Hsub as <-; destruct I|].
  apply mem_str_notIn in Emem.
  destruct (IH _ _ _ _ _ _ _ Hsub I) as (stops & d & P & Er & Em & Hlen & Hw & Hnd).
  exists (k_endpoint k :: stops), (k_distance k + d).
  assert (NE : stops <> []) by (eapply lpath_nonempty; eauto).
  assert (EL : last_stop (k_endpoint k :: stops) = last_stop stops)
    by (unfold last_stop; destruct stops; [congruence|reflexivity]).
  assert (ER : removelast (k_endpoint k :: stops) = k_endpoint k :: removelast stops)
    by (destruct stops; [congruence|reflexivity]).
  split; [eapply lpath_more; eauto|].
  split; [cbn; rewrite Er, <- app_assoc; cbn; now rewrite (name_at_eq _ _ _ Hep)|].
  rewrite EL. split; [exact Em|]. split.
  { right. rewrite ER, real_stops_cons. apply Z.ltb_lt in Es.
    destruct Hlen as [Hlen|Hlen]; [|lia].
    destruct stops as [|s0 [|]]; try discriminate. cbn. unfold real_stops; cbn. lia. }
  split.
  { eapply code_weight_compat; [|exact Hw]. ring. }
  intros NS N Hn. apply Hnd; auto.
  - rewrite <- (rev_involutive (origin ++ [lname ep])). apply NoDup_rev. rewrite rev_app_distr. cbn.
    constructor; [|now apply NoDup_rev]. rewrite <- in_rev, <- (name_at_eq _ _ _ Hep). now apply Hn.
  - intros k' Hk'. assert (k' = lel) as -> by congruence. rewrite (name_at_eq _ _ _ Hlep), in_app_iff.
    intros [X|[X|[]]]; [now apply Emem|]. apply (NS (k_endpoint k) li lel).
    + exists ep; auto.
    + rewrite (name_at_eq _ _ _ Hlep), (name_at_eq _ _ _ Hep). congruence.
Qed.

Lemma routes_sound S o e a i l time wr w r : nth_error (e_locations e) i = Some l ->
  allRoutes S o e a l time = Ok wr -> In (w, r) wr ->
  exists stops d, path e i stops d /\ r = name_at e i :: stop_names e stops /\
    is_marker e (last_stop stops) = false /\
    ((0 < s_AwarenessLevel S)%Z -> (real_stops e stops <= s_AwarenessLevel S)%Z) /\
    code_weight S o e a time (last_stop stops) d w /\
    (no_self_links e -> NoDup (name_at e i :: stop_names e stops)).
Proof.
  intros Hl H I. unfold allRoutes in H. apply foldM_collect in H as [_ X].
  apply X in I as [[]|(ki & sub & Hki & Hsub & I)].
  destruct (clw_sound _ _ _ _ _ _ _ _ _ _ _ _ _ Hsub I) as (stops & d & P & Er & Em & Hlen & Hw & Hnd).
  assert (NE : stops <> []) by (eapply lpath_nonempty; eauto).
  exists stops, d. split; [eapply lpath_path; eauto|]. rewrite (name_at_eq _ _ _ Hl).
  split; [exact Er|]. split; [exact Em|]. split.
  { intro A. rewrite (app_removelast_last 0%nat NE) at 1. fold (last_stop stops).
    rewrite real_stops_app, real_stops_cons, Em. unfold real_stops at 2; cbn.
    destruct Hlen as [Hlen|Hlen]; [|lia]. destruct stops as [|s0 [|]]; try discriminate. cbn. unfold real_stops; cbn. lia. }
  split; [eapply code_weight_compat; [|exact Hw]; ring|].
  intro NS. rewrite Er in Hnd. apply Hnd; auto.
  - repeat constructor. easy.
  - intros k Hk [F|[]]. apply (NS i ki k); [exists l; auto|]. now rewrite (name_at_eq _ _ _ Hl).
Qed.

(** ** Completeness *)

Lemma clw_complete S o e a time ki stops d : lpath e ki stops d ->
  forall fuel prior origin step out,
  calculateLinkWeight fuel S o e a ki prior origin step time = Ok out ->
  is_marker e (last_stop stops) = false ->
  NoDup (origin ++ stop_names e stops) ->
  (List.length stops = 1%nat \/ (step - 1 + real_stops e (removelast stops) < s_AwarenessLevel S)%Z) ->
  exists w, In (w, origin ++ stop_names e stops) out /\
    code_weight S o e a time (last_stop stops) (prior + d) w.
Proof.
  induction 1 as [ki k Hk | ki k kj stops d Hk (l & Hl & Ij) P IH];
    intros fuel prior origin step out H Hm N Hlen;
    (destruct fuel as [|fuel]; [discriminate|]); rewrite clw_unfold in H.
  - apply link_of_ok in Hk as Hk'. rewrite Hk' in H. cbn [bind] in H.
    rstep H. unfold endpoint_of in E. apply loc_of_ok in E as Hep. rename v into ep.
    cbn in Hm. rewrite (marker_at_eq _ _ _ Hep) in Hm. rewrite Hm in H. rstep H. rstep E0.
    destruct v as [own step1]. injection E0 as <- <-.
    assert (O : In (v0, origin ++ [lname ep]) out).
    { destruct (step <? _)%Z; [|injection H as <-; now left].
      apply foldM_collect in H as [_ X]. apply X. left; now left. }
    exists v0. cbn. rewrite (name_at_eq _ _ _ Hep). split; [exact O|].
    now apply linkWeight_spec with ep.
  - apply link_of_ok in Hk as Hk'. rewrite Hk' in H. cbn [bind] in H.
    apply loc_of_ok in Hl as Hl'. unfold endpoint_of at 1 in H. rewrite Hl' in H. cbn [bind] in H.
    rstep H. destruct v as [own step1].
    assert (Hs : (step1 = step - 1 + (if is_marker e (k_endpoint k) then 0 else 1))%Z).
    { rewrite (marker_at_eq _ _ _ Hl). destruct (l_marker l); [injection E as _ <-; lia|].
      rstep E. injection E as _ <-. lia. }
    assert (NE : stops <> []) by (eapply lpath_nonempty; eauto).
    assert (EL : last_stop (k_endpoint k :: stops) = last_stop stops)
      by (unfold last_stop; destruct stops; [congruence|reflexivity]).
    assert (ER : removelast (k_endpoint k :: stops) = k_endpoint k :: removelast stops)
      by (destruct stops; [congruence|reflexivity]).
    assert (Hlt : (step1 < s_AwarenessLevel S)%Z /\
      (step1 + real_stops e (removelast stops) < s_AwarenessLevel S)%Z).
    { destruct Hlen as [Hlen|Hlen]; [destruct stops; [congruence|discriminate]|].
      rewrite ER, real_stops_cons in Hlen. pose proof (real_stops_nonneg e (removelast stops)). lia. }
    destruct Hlt as [Hlt1 Hlt2]. apply Z.ltb_lt in Hlt1 as Hlt1'. rewrite Hlt1' in H.
    apply foldM_collect in H as [T X]. destruct (T kj Ij) as [sub Hsub]. pose proof Hsub as Hsub'.
    unfold explore in Hsub. rstep Hsub. apply link_of_ok in E0 as Hlel. rename v into lel.
    rstep Hsub. unfold endpoint_of in E1. apply loc_of_ok in E1 as Hlep. rename v into lep.
    destruct (lpath_head e kj stops d lel P Hlel) as [rest ->].
    cbn [stop_names map] in N. rewrite (name_at_eq _ _ _ Hl), (name_at_eq _ _ _ Hlep) in N.
    assert (Hnm : mem_str (lname lep) origin = false).
    { apply mem_str_notIn. intro F. apply (NoDup_remove_2 (origin ++ [lname l]) (map (name_at e) rest) (lname lep)).
      - rewrite <- app_assoc. cbn. exact N.
      - apply in_or_app; left; apply in_or_app; now left. }
    rewrite Hnm in Hsub.
    destruct (IH _ _ _ _ _ Hsub) as (w & Iw & Hw).
    + now rewrite <- EL.
    + rewrite <- app_assoc. cbn. rewrite (name_at_eq _ _ _ Hlep). exact N.
    + right. lia.
    + exists w. split.
      * apply X. right. exists kj, sub. repeat split; auto.
        cbn [stop_names map] in Iw |- *. rewrite (name_at_eq _ _ _ Hl). rewrite <- app_assoc in Iw. exact Iw.
      * rewrite EL. eapply code_weight_compat; [|exact Hw]. ring.
Qed.

Lemma routes_complete S o e a i l time wr stops d : nth_error (e_locations e) i = Some l ->
  allRoutes S o e a l time = Ok wr ->
  path e i stops d -> is_marker e (last_stop stops) = false ->
  NoDup (name_at e i :: stop_names e stops) ->
  (real_stops e stops <= s_AwarenessLevel S)%Z ->
  exists w, In (w, name_at e i :: stop_names e stops) wr /\
    code_weight S o e a time (last_stop stops) d w.
Proof.
  intros Hl H P Hm N Hr. apply path_lpath in P as (l' & ki & Hl' & Iki & P).
  assert (l' = l) as -> by congruence. unfold allRoutes in H. apply foldM_collect in H as [T X].
  destruct (T ki Iki) as [sub Hsub].
  assert (NE : stops <> []) by (eapply lpath_nonempty; eauto).
  destruct (clw_complete _ _ _ _ _ _ _ _ P _ _ _ _ _ Hsub Hm) as (w & Iw & Hw).
  - rewrite (name_at_eq _ _ _ Hl) in N. exact N.
  - right. rewrite (app_removelast_last 0%nat NE) in Hr at 1. fold (last_stop stops) in Hr.
    rewrite real_stops_app, real_stops_cons, Hm in Hr. unfold real_stops in Hr at 2. cbn in Hr. lia.
  - exists w. split.
    + apply X. right. exists ki, sub. repeat split; auto. rewrite (name_at_eq _ _ _ Hl). exact Iw.
    + eapply code_weight_compat; [|exact Hw]. ring.
Qed.

(** ** Termination *)

Definition NF {A} (m : res A) : Prop := m <> Err OutOfFuel.

Lemma nf_ok {A} (a : A) : NF (Ok a). Proof. discriminate. Qed.
Lemma nf_bind {A B} (m : res A) (k : A -> res B) : NF m -> (forall a, m = Ok a -> NF (k a)) -> NF (bind m k).
Proof. unfold NF. destruct m; cbn; auto. intros H _. congruence. Qed.
Lemma nf_opt {A} x (o : option A) : x <> OutOfFuel -> NF (of_option x o).
Proof. unfold NF. destruct o; cbn; congruence. Qed.
Lemma nf_foldM {A S} (f : S -> A -> res S) l s : (forall s a, In a l -> NF (f s a)) -> NF (foldM f l s).
Proof.
  revert s; induction l as [|a l IH]; intros s H; cbn; [apply nf_ok|].
  apply nf_bind; [apply H; now left|]. intros s' _. apply IH. intros; apply H; now right.
Qed.
Lemma nf_mapM {A B} (f : A -> res B) l : (forall a, In a l -> NF (f a)) -> NF (mapM f l).
Proof.
  induction l as [|a l IH]; intros H; cbn; [apply nf_ok|].
  apply nf_bind; [apply H; now left|]. intros s' _.
  apply nf_bind; [apply IH; intros; apply H; now right|]. intros; apply nf_ok.
Qed.
Lemma nf_fdiv x y : NF (fdiv x y).
Proof. unfold fdiv. destruct (Qeqb _ _); discriminate. Qed.
Lemma nf_fpow o x y : NF (fpow o x y).
Proof. unfold fpow. destruct (_ && _)%bool; [discriminate|]. destruct (_ && _)%bool; discriminate. Qed.
Lemma nf_py_index {A} (l : list A) z : NF (py_index l z).
Proof.
  unfold py_index. cbv zeta. set (b := if (z <? 0)%Z then _ else _). destruct (b <? 0)%Z; [discriminate|].
  now apply nf_opt.
Qed.
Lemma nf_num v : NF (py_num v). Proof. destruct v; discriminate. Qed.
Lemma nf_as_index v : NF (py_as_index v). Proof. destruct v; discriminate. Qed.
Lemma nf_getitem v i : NF (py_getitem v i). Proof. destruct v; try discriminate. apply nf_py_index. Qed.
Lemma nf_int v : NF (py_int v). Proof. destruct v; try discriminate. now apply nf_opt. Qed.
Lemma nf_flood_table t i : NF (flood_table t i). Proof. destruct t; [apply nf_py_index|discriminate]. Qed.

Create HintDb nf.
#[export] Hint Resolve nf_ok nf_fdiv nf_fpow nf_py_index nf_num nf_as_index nf_getitem nf_int nf_flood_table : nf.

Ltac nf := repeat first
  [ now eauto with nf | discriminate
  | apply nf_opt; discriminate
  | apply nf_bind; [|intros ? _]
  | match goal with
    | |- NF (if ?b then _ else _) => destruct b
    | |- NF (let (_, _) := ?x in _) => destruct x
    | |- NF (match ?x with _ => _ end) => destruct x
    end ].

Lemma nf_forecast S lv t en xs acc : (forall d, NF (lv d)) -> NF (forecast_loop S lv t en xs acc).
Proof.
  intro Hl. revert acc; induction xs as [|x xs IH]; intro acc; cbn [forecast_loop]; [nf|].
  cbv zeta. apply nf_bind; [apply Hl|]. intros lvl _. apply nf_bind; [nf|]. intros n _.
  apply nf_bind; [nf|]. intros acc' _. match goal with |- NF (if ?b then _ else _) => destruct b end; [nf|apply IH].
Qed.
Lemma nf_forecast_level d day : NF (forecast_level d day).
Proof. unfold forecast_level. nf. Qed.

Lemma nf_score S o e a ep t : NF (getEndPointScore S o e a ep t).
Proof.
  unfold getEndPointScore, score_children, score_home, score_flood, score_type, score_pop,
    agent_attr, loc_of, loc_attrs, dict_of, awareness_weight.
  repeat first [apply nf_forecast; apply nf_forecast_level | progress nf].
Qed.
Lemma nf_cap S l : NF (getCapMultiplier S l).
Proof. unfold getCapMultiplier. nf. Qed.
Lemma nf_linkWeight S o e a k ep p t : NF (linkWeight S o e a k ep p t).
Proof.
  unfold linkWeight. apply nf_bind; [apply nf_score|intros ? _]. apply nf_bind; [nf|intros ? _].
  apply nf_bind; [nf|intros ? _]. apply nf_bind; [apply nf_cap|intros ? _]. nf.
Qed.
Lemma nf_link_of e k : NF (link_of e k). Proof. now apply nf_opt. Qed.
Lemma nf_loc_of e k : NF (loc_of e k). Proof. now apply nf_opt. Qed.
#[export] Hint Resolve nf_link_of nf_loc_of nf_score nf_cap nf_linkWeight : nf.

Lemma filter_length {A} (f : A -> bool) l : (List.length (filter f l) <= List.length l)%nat.
Proof. induction l as [|a l IH]; cbn; [lia|]. destruct (f a); cbn; lia. Qed.

(** Locations whose name is not in [origin] *)
Definition fresh (e : eco) (origin : list string) : nat :=
  List.length (filter (fun l => negb (mem_str (lname l) origin)) (e_locations e)).
Definition measure (e : eco) (origin : list string) (ep : location) : nat :=
  (2 * fresh e origin + (if mem_str (lname ep) origin then 1 else 0))%nat.

Lemma fresh_app_old e origin n : mem_str n origin = true -> fresh e (origin ++ [n]) = fresh e origin.
Proof.
  intro H. unfold fresh. f_equal. apply filter_ext. intro l. f_equal.
  apply eq_iff_eq_true. rewrite !mem_str_In, in_app_iff. apply mem_str_In in H. cbn. intuition congruence.
Qed.
Lemma filter_lt {A} (f g : A -> bool) l x : (forall a, g a = true -> f a = true) ->
  In x l -> f x = true -> g x = false -> (List.length (filter g l) < List.length (filter f l))%nat.
Proof.
  intros FG I Fx Gx.
  assert (LE : forall l, (List.length (filter g l) <= List.length (filter f l))%nat).
  { induction l0 as [|a l0 IH]; cbn; [lia|]. destruct (g a) eqn:Eg; [rewrite (FG a Eg); cbn; lia|].
    destruct (f a); cbn; lia. }
  induction l as [|a l IH]; [destruct I|]. cbn. destruct I as [->|I].
  - rewrite Fx, Gx. cbn. specialize (LE l). lia.
  - specialize (IH I). destruct (g a) eqn:Eg; [rewrite (FG a Eg); cbn; lia|]. destruct (f a); cbn; lia.
Qed.
Lemma fresh_app_new e origin i l : nth_error (e_locations e) i = Some l ->
  mem_str (lname l) origin = false -> (fresh e (origin ++ [lname l]) < fresh e origin)%nat.
Proof.
  intros Hl H. unfold fresh. apply filter_lt with l.
  - intros x Hx. apply negb_true_iff in Hx. apply negb_true_iff. apply mem_str_notIn in Hx.
    apply mem_str_notIn. intro F. apply Hx. apply in_or_app; now left.
  - eapply nth_error_In; eauto.
  - now rewrite H.
  - apply negb_false_iff, mem_str_In, in_or_app. right; now left.
Qed.

Lemma measure_decreases e origin i ep lep : nth_error (e_locations e) i = Some ep ->
  mem_str (lname lep) origin = false ->
  (measure e (origin ++ [lname ep]) lep < measure e origin ep)%nat.
Proof.
  intros Hep Hl. unfold measure. destruct (mem_str (lname ep) origin) eqn:E.
  - rewrite fresh_app_old by assumption.
    assert (X : mem_str (lname lep) (origin ++ [lname ep]) = false).
    { apply mem_str_notIn. rewrite in_app_iff. apply mem_str_notIn in Hl. apply mem_str_In in E.
      intros [F|[F|[]]]; [auto|]. rewrite F in E. auto. }
    rewrite X. lia.
  - pose proof (fresh_app_new e origin i ep Hep E). destruct (mem_str _ (_ ++ _)); lia.
Qed.

Lemma clw_terminates S o e a time fuel : forall ki prior origin step,
  (forall k ep, nth_error (e_links e) ki = Some k -> nth_error (e_locations e) (k_endpoint k) = Some ep ->
     (measure e origin ep < fuel)%nat) -> (0 < fuel)%nat ->
  NF (calculateLinkWeight fuel S o e a ki prior origin step time).
Proof.
  induction fuel as [|fuel IH]; intros ki prior origin step M Pos; [lia|].
  rewrite clw_unfold. apply nf_bind; [nf|]. intros k Hk. apply link_of_ok in Hk.
  apply nf_bind; [unfold endpoint_of; nf|]. intros ep Hep. unfold endpoint_of in Hep. apply loc_of_ok in Hep.
  apply nf_bind; [nf|]. intros [own step1] _. destruct (step1 <? _)%Z; [|nf].
  apply nf_foldM. intros s li _. apply nf_bind; [|intros; nf]. unfold explore.
  apply nf_bind; [nf|]. intros lel Hlel. apply link_of_ok in Hlel.
  apply nf_bind; [unfold endpoint_of; nf|]. intros lep Hlep. unfold endpoint_of in Hlep. apply loc_of_ok in Hlep.
  destruct (mem_str (lname lep) origin) eqn:E; [nf|]. specialize (M k ep Hk Hep).
  pose proof (measure_decreases e origin _ ep lep Hep E) as D.
  apply IH; [|lia]. intros k' ep' Hk' Hep'. assert (k' = lel) as -> by congruence.
  assert (ep' = lep) as -> by congruence. lia.
Qed.

Lemma routes_terminate S o e a l time : NF (allRoutes S o e a l time).
Proof.
  unfold allRoutes. apply nf_foldM. intros s ki _. apply nf_bind; [|intros; nf].
  apply clw_terminates; [|unfold route_fuel; lia]. intros k ep _ _. unfold measure, route_fuel.
  assert (fresh e [lname l] <= List.length (e_locations e))%nat by apply filter_length.
  destruct (mem_str _ _); lia.
Qed.

(** More fuel does not change the result. *)
Lemma clw_more S o e a time fuel : forall fuel' ki prior origin step, (fuel <= fuel')%nat ->
  NF (calculateLinkWeight fuel S o e a ki prior origin step time) ->
  calculateLinkWeight fuel' S o e a ki prior origin step time =
  calculateLinkWeight fuel S o e a ki prior origin step time.
Proof.
  induction fuel as [|fuel IH]; intros fuel' ki prior origin step L H; [now destruct H|].
  destruct fuel' as [|fuel']; [lia|]. rewrite !clw_unfold in *.
  destruct (link_of e ki) as [k|]; cbn [bind] in *; [|reflexivity].
  destruct (endpoint_of e k) as [ep|]; cbn [bind] in *; [|reflexivity].
  match goal with |- bind ?m _ = bind ?m _ => destruct m as [[own step1]|]; cbn [bind] in *; [|reflexivity] end.
  destruct (step1 <? _)%Z; [|reflexivity].
  revert own H. induction (l_links ep) as [|li ls IHl]; intros own H; cbn [foldM] in *; [reflexivity|].
  assert (X : explore fuel' S o e a origin prior (step1 + 1)%Z time ep k li =
              explore fuel S o e a origin prior (step1 + 1)%Z time ep k li).
  { unfold explore in *. destruct (link_of e li) as [lel|]; cbn [bind] in *; [|reflexivity].
    destruct (endpoint_of e lel) as [lep|]; cbn [bind] in *; [|reflexivity].
    destruct (mem_str _ _); [reflexivity|]. apply IH; [lia|]. intro F. apply H. now rewrite F. }
  rewrite X. destruct (explore fuel S o e a origin prior (step1 + 1)%Z time ep k li); cbn [bind] in *; [|reflexivity].
  now apply IHl.
Qed.

(** ** The selected route *)

Lemma Qle_dec' x y : {x <= y} + {~ x <= y}.
Proof. destruct (Qlt_le_dec y x); [right; lra|left; assumption]. Qed.

Lemma py_remove_incl {A} (eqb : A -> A -> bool) v l l' : py_remove eqb v l = Ok l' -> incl l' l.
Proof.
  revert l'; induction l as [|a l IH]; intros l' H x Hx; cbn in H; [discriminate|].
  destruct (eqb a v); [injection H as <-; now right|]. rstep H. injection H as <-.
  destruct Hx as [->|Hx]; [now left|right; eapply IH; eauto].
Qed.
Lemma prune_loop_incl fuel thr : forall i ws rs ws' rs', prune_loop fuel thr i ws rs = Ok (ws', rs') ->
  incl rs' rs.
Proof.
  induction fuel as [|fuel IH]; intros i ws rs ws' rs' H; cbn in H.
  - destruct (nth_error ws i); [discriminate|]. injection H as _ <-. apply incl_refl.
  - destruct (nth_error ws i) as [w|]; [|injection H as _ <-; apply incl_refl].
    destruct (Qltb w thr); [|eapply IH; eauto].
    rstep H. rstep H. rstep H. eapply incl_tran; [eapply IH; eauto|]. eapply py_remove_incl; eauto.
Qed.
Lemma prune_incl S ws rs ws' rs' : pruneRoutes S ws rs = Ok (ws', rs') -> incl rs' rs.
Proof.
  unfold pruneRoutes. destruct (Qltb _ _); intro H; [injection H as _ <-; apply incl_refl|].
  destruct ws; [discriminate|]. rstep H. eapply prune_loop_incl; eauto.
Qed.

Lemma choose_In {A} ws (rs : list A) g r g' : chooseFromWeights ws rs g = Ok (Some r, g') -> In r rs.
Proof.
  unfold chooseFromWeights, random_choices. destruct ws; [discriminate|]. intro H. rstep H.
  destruct v as [r' g1]. injection H as <- <-. rstep E; [discriminate|]. rstep E; [discriminate|].
  destruct (rng_u g). rstep E. injection E as <- _. apply of_option_ok in E0. eapply nth_error_In; eauto.
Qed.

Lemma select_sound S o e a i l time g r g' : nth_error (e_locations e) i = Some l ->
  (0 < s_AwarenessLevel S)%Z -> s_FixedRoutes S = false ->
  selectRoute S o e a l time g = Ok (Some r, g') ->
  exists stops d w, path e i stops d /\ r = map RName (stop_names e stops) /\
    is_marker e (last_stop stops) = false /\
    (real_stops e stops <= s_AwarenessLevel S)%Z /\
    code_weight S o e a time (last_stop stops) d w /\
    (no_self_links e -> NoDup (name_at e i :: stop_names e stops)) /\
    (s_PruningThreshold S < (1001 # 1000) -> 0 <= next_draw g -> next_draw g < 1 ->
     forall wr, allRoutes S o e a l time = Ok wr -> Forall (fun p => 0 <= fst p) wr ->
     (exists p, In p wr /\ 0 < fst p) -> 0 < w).
Proof.
  intros Hl A F H. unfold selectRoute in H. destruct (Z.eqb_spec (s_AwarenessLevel S) 0) as [?|_]; [lia|].
  rewrite F in H. rstep H. rstep E. destruct v as [ws rs]. rstep H. destruct v as [[rt|] g1]; [|discriminate].
  destruct rt as [|r0 rt]; [discriminate|]. injection H as <- <-. rename v0 into wr.
  assert (X : exists w, In (w, name_at e i :: r0 :: rt) wr /\
    (s_PruningThreshold S < (1001 # 1000) -> 0 <= next_draw g -> next_draw g < 1 ->
     Forall (fun p => 0 <= fst p) wr -> (exists p, In p wr /\ 0 < fst p) -> 0 < w)).
  { assert (HD : forall w n, In (w, n) wr -> n = name_at e i :: tl n).
    { intros w n Hn. destruct (routes_sound _ _ _ _ _ _ _ _ _ _ Hl E0 Hn) as (st & d & _ & -> & _). reflexivity. }
    destruct (Qltb (s_PruningThreshold S) (1001 # 1000)) eqn:Et.
    - unfold pruneRoutes in E. rewrite Et in E. injection E as <- <-.
      destruct (Forall_dec (fun p : Q * list string => 0 <= fst p) (fun p => Qle_dec' 0 (fst p)) wr) as [NN|NN].
      + destruct wr as [|p0 wr0]; [discriminate|]. set (wr := p0 :: wr0) in *.
        destruct (Qlt_le_dec (next_draw g) 0) as [U|U]; [|destruct (Qlt_le_dec (next_draw g) 1) as [V|V]].
        * apply choose_In in E1 as I. apply in_map_iff in I as ([w n] & Hn & I). cbn in Hn.
          exists w. rewrite (HD _ _ I), Hn in I. split; [exact I|]. intros; lra.
        * destruct (choose_positive (map (fun p => tl (snd p)) wr) (map fst wr) g) as (j & r & Hc & Hr & Hp & _); auto.
          -- apply Forall_map. exact NN.
          -- now rewrite !map_length.
          -- discriminate.
          -- rewrite Hc in E1. injection E1 as -> _. rewrite nth_error_map in Hr, Hp.
             destruct (nth_error wr j) as [[w n]|] eqn:Ej; [|discriminate]. cbn in Hr. injection Hr as Hr.
             apply nth_error_In in Ej. exists w. split; [rewrite (HD _ _ Ej), Hr in Ej; exact Ej|].
             intros _ _ _ _ ([w' n'] & Ip & Pp). destruct Hp as (w'' & Hw & Pw).
             { exists w'. split; [|exact Pp]. now apply (in_map fst) in Ip. }
             cbn in Hw. injection Hw as <-. exact Pw.
        * apply choose_In in E1 as I. apply in_map_iff in I as ([w n] & Hn & I). cbn in Hn.
          exists w. rewrite (HD _ _ I), Hn in I. split; [exact I|]. intros; lra.
      + apply choose_In in E1 as I. apply in_map_iff in I as ([w n] & Hn & I). cbn in Hn.
        exists w. rewrite (HD _ _ I), Hn in I. split; [exact I|]. intros; contradiction.
    - apply choose_In in E1 as I. apply (prune_incl _ _ _ _ _ E) in I.
      apply in_map_iff in I as ([w n] & Hn & I). cbn in Hn.
      exists w. rewrite (HD _ _ I), Hn in I. split; [exact I|]. apply Qltb_false in Et. intros; lra. }
  destruct X as (w & Iw & Pw).
  destruct (routes_sound _ _ _ _ _ _ _ _ _ _ Hl E0 Iw) as (st & d & P & Er & M & R & W & N).
  injection Er as Er. exists st, d, w.
  split; [exact P|]. split; [rewrite <- Er; reflexivity|]. split; [exact M|]. split; [auto|].
  split; [exact W|]. split; [exact N|].
  intros T U V wr' Hwr. injection Hwr as <-. auto.
Qed.

(** Example: from A in the state before the first step, with awareness level 2 *)
Definition ex_aware : settings := up_s_AwarenessLevel (fun _ => 2%Z) default_settings.

Lemma ex_open_link i ki k : match nth_error (e_locations (ex_state 0)) i with
    Some l => existsb (Nat.eqb ki) (l_links l) = true | None => False end ->
  nth_error (e_links (ex_state 0)) ki = Some k -> open_link (ex_state 0) i ki k.
Proof.
  unfold open_link. destruct (nth_error (e_locations (ex_state 0)) i) as [l|]; [|easy].
  intros H K. exists l. repeat split; auto. apply existsb_exists in H as (x & Hx & E).
  apply Nat.eqb_eq in E as ->. exact Hx.
Qed.

Lemma routes_example : path (ex_state 0) 0 [1; 2]%nat 600 /\
  is_marker (ex_state 0) (last_stop [1; 2]%nat) = false /\
  stop_names (ex_state 0) [1; 2]%nat = ["B"; "C"]%string /\
  (real_stops (ex_state 0) [1; 2]%nat <= s_AwarenessLevel ex_aware)%Z.
Proof.
  split; [|split; [|split]]; [|vm_compute; reflexivity|vm_compute; reflexivity|vm_compute; discriminate].
  assert (H1 : open_link (ex_state 0) 0 0 ex_AB) by (apply ex_open_link; vm_compute; reflexivity).
  assert (H2 : open_link (ex_state 0) 1 2 ex_BC) by (apply ex_open_link; vm_compute; reflexivity).
  exact (path_more (ex_state 0) 0 0 ex_AB [2%nat] 500 H1 (path_one (ex_state 0) 1 2 ex_BC H2)).
Qed.
