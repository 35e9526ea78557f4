(** * CrawlProofs: the routes stored per location are the best explored paths *)

From Coq Require Import Lia Lqa.
From Verif Require Import Base State Moving Crawling Scoring Lemmas Inv InvMoves SpecRoutes SpecCrawl ScoreFrames RouteProofs Terminate2.
From Verif Require CouplingText Schedule.
Local Open Scope Q_scope.

(** ** The search as a list of offers *)

Definition offer (S : settings) (o : oracle) (e : eco) (k : link) (ep : location) (prior : Q)
    (origin : list string) : res (list stored) :=
  w <- crawlWeight S o e k ep prior false ;;
  Ok [(lname ep, (w, tl origin ++ [lname ep], k_endpoint k))].

Fixpoint offers (fuel : nat) (S : settings) (o : oracle) (e : eco) (ki : nat)
    (prior : Q) (origin : list string) (step : Z) : res (list stored) :=
  match fuel with
  | O => Err OutOfFuel
  | Datatypes.S fuel' =>
      k <- link_of e ki ;;
      ep <- endpoint_of e k ;;
      own <- (if l_marker ep then Ok [] else offer S o e k ep prior origin) ;;
      if (step <? s_AwarenessLevel S)%Z then
        foldM (fun acc li =>
                 sub <- (lel <- link_of e li ;;
                         lep <- endpoint_of e lel ;;
                         if mem_str (lname lep) origin then Ok []
                         else offers fuel' S o e li (prior + k_distance k)
                                (origin ++ [lname ep]) (step + 1)%Z) ;;
                 Ok (acc ++ sub))
              (l_links ep) own
      else Ok own
  end.

Definition absorb (d : list stored) (x : stored) : list stored :=
  let '(n, (w, r, j)) := x in
  let old := match dict_get n d with Some (w0, _, _) => w0 | None => 0 end in
  if Qltb old w then dict_set n (w, r, j) d else d.

Lemma rt_at src e e' i l' : Rt src e e' -> nth_error (e_locations e') i = Some l' ->
  exists l r, nth_error (e_locations e) i = Some l /\ l' = up_l_routes (fun _ => r) l.
Proof.
  intros [r ->] H. cbn in H. rewrite nth_upd in H. destruct (Nat.eqb src i).
  - destruct (nth_error (e_locations e) i) as [l|]; [|discriminate]. injection H as <-. eauto.
  - exists l', (l_routes l'). split; [assumption|now destruct l'].
Qed.

Lemma rt_weight S o src e e' k l r prior major : Rt src e e' ->
  crawlWeight S o e' k (up_l_routes (fun _ => r) l) prior major = crawlWeight S o e k l prior major.
Proof.
  intros [r' ->]. unfold crawlWeight, crawlScore, loc_attrs. reflexivity.
Qed.

(** One call of [_addLocationRoute] *)
Lemma add_offer S o src e0 e ki k ep prior origin e' :
  Rt src e0 e -> nth_error (e_links e0) ki = Some k ->
  nth_error (e_locations e0) (k_endpoint k) = Some ep ->
  addLocationRoute S o e src src ki prior origin false = Ok e' ->
  exists os, offer S o e0 k ep prior origin = Ok os /\
    e' = up_loc src (up_l_routes (fun d => fold_left absorb os d)) e.
Proof.
  intros R Hk Hep H. unfold addLocationRoute in H. rstep H. apply link_of_ok in E.
  rewrite (rt_links _ _ _ R) in E. assert (v = k) as -> by congruence. clear E.
  rstep H. unfold endpoint_of in E. apply loc_of_ok in E.
  destruct (rt_at _ _ _ _ _ R E) as (ep' & r & He & ->). assert (ep' = ep) as -> by congruence.
  rstep H. rewrite (rt_weight _ _ _ _ _ _ _ _ _ _ R) in E0.
  rstep H. apply loc_of_ok in E1. unfold offer. rewrite E0. cbn [bind].
  eexists; split; [reflexivity|]. cbn [fold_left absorb].
  destruct (Qltb _ v) eqn:Eq in H; injection H as <-.
  - apply up_loc_ext. intros l Hl. assert (l = v0) as -> by congruence.
    unfold up_l_routes. cbn [l_routes].
    change (lname (up_l_routes (fun _ => r) ep)) with (lname ep) in *. rewrite Eq. reflexivity.
  - symmetry. apply up_loc_id. intros l Hl. assert (l = v0) as -> by congruence.
    change (lname (up_l_routes (fun _ => r) ep)) with (lname ep) in *.
    unfold up_l_routes. rewrite Eq. now destruct v0.
Qed.

Lemma absorb_app src os os' e :
  up_loc src (up_l_routes (fun d => fold_left absorb os' d))
    (up_loc src (up_l_routes (fun d => fold_left absorb os d)) e) =
  up_loc src (up_l_routes (fun d => fold_left absorb (os ++ os') d)) e.
Proof.
  rewrite up_loc_up_loc. apply up_loc_ext. intros l _. unfold up_l_routes. cbn [l_routes l_name l_region l_x l_y l_movechance l_links l_closed_links l_major_routes]. rewrite fold_left_app. reflexivity.
Qed.
Lemma absorb_nil src e : up_loc src (up_l_routes (fun d => fold_left absorb [] d)) e = e.
Proof. apply up_loc_id. intros l _. now destruct l. Qed.

Lemma fold_offers {A} src (step : eco -> A -> res eco) (sub : A -> res (list stored)) e0 l :
  (forall e a e', In a l -> Rt src e0 e -> step e a = Ok e' ->
     exists os, sub a = Ok os /\ e' = up_loc src (up_l_routes (fun d => fold_left absorb os d)) e) ->
  forall e e' acc e1, Rt src e0 e -> foldM step l e = Ok e' ->
    e = up_loc src (up_l_routes (fun d => fold_left absorb acc d)) e1 ->
    exists os, foldM (fun acc a => s <- sub a ;; Ok (acc ++ s)) l acc = Ok os /\
      e' = up_loc src (up_l_routes (fun d => fold_left absorb os d)) e1.
Proof.
  intro Hs. induction l as [|a l IH]; intros e e' acc e1 R H Ee; cbn in H |- *.
  - injection H as <-. eauto.
  - rstep H. destruct (Hs e a v (or_introl eq_refl) R E) as (os & Eo & ->). rewrite Eo. cbn [bind].
    eapply IH; [|eapply rt_trans; [exact R|apply rt_up]|exact H|].
    + intros; eapply Hs; eauto. now right.
    + rewrite Ee. apply absorb_app.
Qed.

Lemma crawl_offers S o src e0 fuel : forall ki prior origin step e e',
  Rt src e0 e -> crawlLink fuel S o src ki prior origin step e = Ok e' ->
  exists os, offers fuel S o e0 ki prior origin step = Ok os /\
    e' = up_loc src (up_l_routes (fun d => fold_left absorb os d)) e.
Proof.
  induction fuel as [|fuel IH]; intros ki prior origin step e e' R H; [discriminate|].
  cbn [crawlLink offers] in *. rstep H. apply link_of_ok in E as Hk. rewrite (rt_links _ _ _ R) in Hk.
  rename v into k. apply link_of_ok in Hk as Hk'. rewrite Hk'. cbn [bind].
  rstep H. unfold endpoint_of in E0. apply loc_of_ok in E0. destruct (rt_at _ _ _ _ _ R E0) as (ep & r & Hep & ->).
  apply loc_of_ok in Hep as Hep'. unfold endpoint_of at 1. rewrite Hep'. cbn [bind].
  change (l_marker (up_l_routes (fun _ => r) ep)) with (l_marker ep) in H.
  change (l_links (up_l_routes (fun _ => r) ep)) with (l_links ep) in H.
  change (lname (up_l_routes (fun _ => r) ep)) with (lname ep) in H.
  rstep H.
  assert (Own : exists own, (if l_marker ep then Ok [] else offer S o e0 k ep prior origin) = Ok own /\
    v = up_loc src (up_l_routes (fun d => fold_left absorb own d)) e).
  { destruct (l_marker ep).
    - injection E1 as <-. exists []. split; [reflexivity|]. symmetry. apply absorb_nil.
    - eapply add_offer; eauto. }
  destruct Own as (own & -> & ->). cbn [bind]. destruct (step <? _)%Z; [|injection H as <-; eauto].
  eapply (fold_offers src _ (fun li =>
    lel <- link_of e0 li ;; lep <- endpoint_of e0 lel ;;
    if mem_str (lname lep) origin then Ok []
    else offers fuel S o e0 li (prior + k_distance k) (origin ++ [lname ep]) (step + 1)%Z) e0); [| |exact H|reflexivity].
  - intros e2 li e3 _ R2 Hs. cbv beta in Hs. rstep Hs. apply link_of_ok in E2. rewrite (rt_links _ _ _ R2) in E2.
    apply link_of_ok in E2. rewrite E2. cbn [bind].
    rstep Hs. unfold endpoint_of in E3. apply loc_of_ok in E3. destruct (rt_at _ _ _ _ _ R2 E3) as (lep & r2 & Hlep & ->).
    apply loc_of_ok in Hlep. unfold endpoint_of. rewrite Hlep. cbn [bind].
    change (lname (up_l_routes (fun _ => r2) lep)) with (lname lep) in Hs.
    destruct (mem_str (lname lep) origin).
    + injection Hs as <-. exists []. split; [reflexivity|]. symmetry. apply absorb_nil.
    + eapply IH; eauto.
  - eapply rt_trans; [exact R|apply rt_up].
Qed.

(** ** The best offers are kept *)

Lemma absorb_best os : forall d n,
  (forall w r j, dict_get n d = Some (w, r, j) -> 0 < w) ->
  match dict_get n (fold_left absorb os d) with
  | Some (w, r, j) => (dict_get n d = Some (w, r, j) \/ In (n, (w, r, j)) os) /\ 0 < w /\
      (forall w' r' j', dict_get n d = Some (w', r', j') -> w' <= w) /\
      (forall w' r' j', In (n, (w', r', j')) os -> w' <= w)
  | None => dict_get n d = None /\ forall w' r' j', In (n, (w', r', j')) os -> w' <= 0
  end.
Proof.
  induction os as [|[m [[w0 r0] j0]] os IH]; intros d n Pos; cbn [fold_left].
  - destruct (dict_get n d) as [[[w r] j]|] eqn:E.
    + repeat split; eauto. intros w' r' j' X; injection X as <- _ _; lra. intros ? ? ? [].
    + split; [reflexivity|intros ? ? ? []].
  - assert (A : dict_get n (absorb d (m, (w0, r0, j0))) =
        if String.eqb n m then
          if Qltb (match dict_get n d with Some (w1, _, _) => w1 | None => 0 end) w0 then Some (w0, r0, j0)
          else dict_get n d
        else dict_get n d).
    { unfold absorb. destruct (String.eqb n m) eqn:En.
      - apply String.eqb_eq in En as <-.
        destruct (Qltb _ w0); [rewrite CouplingText.get_set, String.eqb_refl|]; reflexivity.
      - destruct (Qltb _ w0); [rewrite CouplingText.get_set, En|]; reflexivity. }
    assert (Pos' : forall w r j, dict_get n (absorb d (m, (w0, r0, j0))) = Some (w, r, j) -> 0 < w).
    { intros w r j X. rewrite A in X. destruct (String.eqb n m); [|eauto].
      destruct (Qltb _ w0) eqn:Eq; [|eauto]. injection X as <- <- <-. apply Qltb_true in Eq.
      destruct (dict_get n d) as [[[w1 r1] j1]|]; [|assumption]. specialize (Pos _ _ _ eq_refl). lra. }
    specialize (IH (absorb d (m, (w0, r0, j0))) n Pos').
    destruct (dict_get n (fold_left absorb os (absorb d (m, (w0, r0, j0))))) as [[[w r] j]|].
    + destruct IH as (I & P & B1 & B2).
      destruct (String.eqb n m) eqn:En.
      * apply String.eqb_eq in En as <-.
        destruct (Qltb _ w0) eqn:Eq in A.
        -- rewrite A in *. specialize (B1 _ _ _ eq_refl). apply Qltb_true in Eq.
           split; [|split; [assumption|split]].
           ++ destruct I as [I|I]; [|right; now right]. injection I as <- <- <-. right; now left.
           ++ intros w' r' j' X. rewrite X in Eq. lra.
           ++ intros w' r' j' [X|X]; [injection X as <- <- <-; assumption|eauto].
        -- rewrite A in *. apply Qltb_false in Eq.
           split; [|split; [assumption|split]].
           ++ destruct I as [I|I]; [now left|right; now right].
           ++ exact B1.
           ++ intros w' r' j' [X|X]; [|eauto]. injection X as <- <- <-.
              destruct (dict_get n d) as [[[w1 r1] j1]|]; [specialize (B1 _ _ _ eq_refl)|]; lra.
      * rewrite A in *. split; [|split; [assumption|split]]; auto.
        -- destruct I as [I|I]; [now left|right; now right].
        -- intros w' r' j' [X|X]; [injection X as -> _; rewrite String.eqb_refl in En; discriminate|eauto].
    + destruct IH as [N B]. rewrite A in N. destruct (String.eqb n m) eqn:En.
      * apply String.eqb_eq in En as <-. destruct (Qltb _ w0) eqn:Eq in N; [discriminate|].
        rewrite N in Eq. split; [assumption|]. apply Qltb_false in Eq.
        intros w' r' j' [X|X]; [injection X as <- <- <-; assumption|eauto].
      * split; [assumption|]. intros w' r' j' [X|X]; [injection X as -> _; rewrite String.eqb_refl in En; discriminate|eauto].
Qed.

Lemma absorb_nodup os : forall d, NoDup (map fst d) -> NoDup (map fst (fold_left absorb os d)).
Proof.
  induction os as [|[m [[w r] j]] os IH]; intros d N; cbn [fold_left]; [assumption|]. apply IH.
  unfold absorb. destruct (Qltb _ w); [now apply Schedule.dict_set_nodup|assumption].
Qed.

(** ** The offers are the explored paths *)

Lemma crawlWeight_spec S o e k ep prior w : nth_error (e_locations e) (k_endpoint k) = Some ep ->
  crawlWeight S o e k ep prior false = Ok w ->
  route_weight S o e (k_endpoint k) (prior + k_distance k) w.
Proof.
  intros Hep H. unfold crawlWeight in H. cbv zeta in H. rstep H. rstep H. rstep H.
  unfold fdiv in E1. destruct (Qeqb v0 0) eqn:Ez; [discriminate|]. injection E1 as <-.
  exists (s_DistanceSoftening S + k_distance k + prior). split; [ring|].
  exists ep, v, v0. split; [assumption|]. split; [assumption|]. split; [assumption|]. split; [now apply Qeqb_false|assumption].
Qed.

Lemma route_weight_compat S o e i d d' w : d == d' ->
  route_weight S o e i d w -> route_weight S o e i d' w.
Proof.
  intros E (x & Hx & H). exists x. rewrite E in Hx. auto.
Qed.


Lemma nodup_snoc {A} (l : list A) x : NoDup l -> ~ In x l -> NoDup (l ++ [x]).
Proof.
  intros N Hn. rewrite <- (rev_involutive (l ++ [x])). apply NoDup_rev. rewrite rev_app_distr. cbn.
  constructor; [now rewrite <- in_rev|now apply NoDup_rev].
Qed.

Lemma offers_sound S o e fuel : forall ki prior o1 origin step out n w r j,
  offers fuel S o e ki prior (o1 :: origin) step = Ok out -> In (n, (w, r, j)) out ->
  exists stops d, lpath e ki stops d /\ r = origin ++ stop_names e stops /\
    j = last_stop stops /\ n = name_at e j /\
    is_marker e j = false /\
    (List.length stops = 1%nat \/ (step - 1 + Z.of_nat (List.length stops) <= s_AwarenessLevel S)%Z) /\
    route_weight S o e j (prior + d) w /\
    (no_self_links e -> NoDup (o1 :: origin) ->
     (forall k, nth_error (e_links e) ki = Some k -> ~ In (name_at e (k_endpoint k)) (o1 :: origin)) ->
     NoDup (o1 :: r)).
Proof.
  induction fuel as [|fuel IH]; intros ki prior o1 origin step out n w r j H I; [discriminate|].
  cbn [offers] in H. rstep H. apply link_of_ok in E as Hk. rename v into k.
  rstep H. unfold endpoint_of in E0. apply loc_of_ok in E0 as Hep. rename v into ep.
  rstep H. rename v into own.
  assert (ND : forall x, NoDup (o1 :: origin) -> ~ In x (o1 :: origin) -> NoDup (o1 :: origin ++ [x])).
  { intros x N Hn. now apply (nodup_snoc (o1 :: origin) x). }
  assert (C : In (n, (w, r, j)) own \/ (step < s_AwarenessLevel S)%Z /\ exists li sub, In li (l_links ep) /\
    (lel <- link_of e li ;; lep <- endpoint_of e lel ;;
     if mem_str (lname lep) (o1 :: origin) then Ok []
     else offers fuel S o e li (prior + k_distance k) ((o1 :: origin) ++ [lname ep]) (step + 1)%Z) = Ok sub /\
    In (n, (w, r, j)) sub).
  { destruct (step <? s_AwarenessLevel S)%Z eqn:Es; [|injection H as <-; now left].
    apply foldM_collect in H as [_ X]. apply X in I as [I|I]; [now left|].
    right. split; [now apply Z.ltb_lt|exact I]. }
  clear H I. destruct C as [Ho|(Es & li & sub & Hli & Hsub & I)].
  { destruct (l_marker ep) eqn:Em.
    - injection E1 as <-. destruct Ho.
    - unfold offer in E1. rstep E1. injection E1 as <-. destruct Ho as [Ho|[]]. injection Ho as <- -> <- <-.
      exists [k_endpoint k], (k_distance k). split; [now apply lpath_one|].
      split; [cbn; now rewrite (name_at_eq _ _ _ Hep)|]. split; [reflexivity|].
      split; [now rewrite (name_at_eq _ _ _ Hep)|].
      split; [now rewrite (marker_at_eq _ _ _ Hep)|]. split; [now left|].
      split; [now apply crawlWeight_spec with ep|].
      intros _ N Hn. specialize (Hn k Hk). rewrite (name_at_eq _ _ _ Hep) in Hn. cbn [tl]. now apply ND. }
  rstep Hsub. apply link_of_ok in E2 as Hlel. rename v into lel.
  rstep Hsub. unfold endpoint_of in E3. apply loc_of_ok in E3 as Hlep. rename v into lep.
  destruct (mem_str (lname lep) (o1 :: origin)) eqn:Emem; [injection Hsub as <-; destruct I|].
  apply mem_str_notIn in Emem. rewrite <- app_comm_cons in Hsub.
  destruct (IH _ _ _ _ _ _ _ _ _ _ Hsub I) as (stops & d & P & Er & Ej & En & Em & Hlen & Hw & Hnd).
  exists (k_endpoint k :: stops), (k_distance k + d).
  assert (NE : stops <> []) by (eapply lpath_nonempty; eauto).
  assert (EL : last_stop (k_endpoint k :: stops) = last_stop stops)
    by (unfold last_stop; destruct stops; [congruence|reflexivity]).
  split; [eapply lpath_more; eauto|].
  split; [cbn [stop_names map]; rewrite Er, <- app_assoc; cbn; now rewrite (name_at_eq _ _ _ Hep)|].
  rewrite EL. split; [exact Ej|]. split; [exact En|]. split; [exact Em|]. split.
  { right. destruct Hlen as [Hlen|Hlen]; cbn [List.length]; lia. }
  split.
  { eapply route_weight_compat; [|exact Hw]. ring. }
  intros NS N Hn. apply Hnd; auto.
  - apply ND; [assumption|]. rewrite <- (name_at_eq _ _ _ Hep). now apply Hn.
  - intros k' Hk'. assert (k' = lel) as -> by congruence. rewrite (name_at_eq _ _ _ Hlep), app_comm_cons, in_app_iff.
    intros [Y|[Y|[]]]; [now apply Emem|]. apply (NS (k_endpoint k) li lel).
    + exists ep; auto.
    + rewrite (name_at_eq _ _ _ Hlep), (name_at_eq _ _ _ Hep). congruence.
Qed.

Lemma offers_complete S o e ki stops d : lpath e ki stops d ->
  forall fuel prior o1 origin step out,
  offers fuel S o e ki prior (o1 :: origin) step = Ok out ->
  is_marker e (last_stop stops) = false ->
  NoDup ((o1 :: origin) ++ stop_names e stops) ->
  (List.length stops = 1%nat \/ (step - 1 + Z.of_nat (List.length stops) <= s_AwarenessLevel S)%Z) ->
  exists w, In (name_at e (last_stop stops), (w, origin ++ stop_names e stops, last_stop stops)) out /\
    route_weight S o e (last_stop stops) (prior + d) w.
Proof.
  induction 1 as [ki k Hk | ki k kj stops d Hk (l & Hl & Ij) P IH];
    intros fuel prior o1 origin step out H Hm N Hlen;
    (destruct fuel as [|fuel]; [discriminate|]); cbn [offers] in H.
  - apply link_of_ok in Hk as Hk'. rewrite Hk' in H. cbn [bind] in H.
    rstep H. unfold endpoint_of in E. apply loc_of_ok in E as Hep. rename v into ep.
    cbn in Hm. rewrite (marker_at_eq _ _ _ Hep) in Hm. rewrite Hm in H. unfold offer in H. rstep H. rstep E0.
    injection E0 as <-.
    exists v0. cbn. rewrite (name_at_eq _ _ _ Hep). split.
    + cbn [tl] in H. destruct (step <? _)%Z; [|injection H as <-; now left].
      apply foldM_collect in H as [_ X]. apply X. left; now left.
    + now apply crawlWeight_spec with ep.
  - apply link_of_ok in Hk as Hk'. rewrite Hk' in H. cbn [bind] in H.
    apply loc_of_ok in Hl as Hl'. unfold endpoint_of at 1 in H. rewrite Hl' in H. cbn [bind] in H.
    rstep H. rename v into own.
    assert (NE : stops <> []) by (eapply lpath_nonempty; eauto).
    assert (EL : last_stop (k_endpoint k :: stops) = last_stop stops)
      by (unfold last_stop; destruct stops; [congruence|reflexivity]).
    assert (Hlt : (step + Z.of_nat (List.length stops) <= s_AwarenessLevel S)%Z /\ (1 <= Z.of_nat (List.length stops))%Z).
    { destruct stops; [congruence|]. cbn [List.length] in *. destruct Hlen as [Hlen|Hlen]; [discriminate|]. lia. }
    replace (step <? s_AwarenessLevel S)%Z with true in H by (symmetry; apply Z.ltb_lt; lia).
    apply foldM_collect in H as [T X]. destruct (T kj Ij) as [sub Hsub]. pose proof Hsub as Hsub'.
    rstep Hsub. apply link_of_ok in E0 as Hlel. rename v into lel.
    rstep Hsub. unfold endpoint_of in E1. apply loc_of_ok in E1 as Hlep. rename v into lep.
    destruct (lpath_head e kj stops d lel P Hlel) as [rest ->].
    cbn [stop_names map] in N. rewrite (name_at_eq _ _ _ Hl), (name_at_eq _ _ _ Hlep) in N.
    assert (Hnm : mem_str (lname lep) (o1 :: origin) = false).
    { apply mem_str_notIn. intro F. apply (NoDup_remove_2 ((o1 :: origin) ++ [lname l]) (map (name_at e) rest) (lname lep)).
      - rewrite <- app_assoc. cbn. exact N.
      - apply in_or_app; left; apply in_or_app; now left. }
    rewrite Hnm in Hsub. rewrite <- app_comm_cons in Hsub.
    destruct (IH _ _ _ _ _ _ Hsub) as (w & Iw & Hw).
    + now rewrite <- EL.
    + rewrite app_comm_cons, <- app_assoc. cbn. rewrite (name_at_eq _ _ _ Hlep). exact N.
    + right. lia.
    + exists w. rewrite EL. split.
      * apply X. right. exists kj, sub. split; [exact Ij|]. split; [rewrite E0; exact Hsub'|].
        cbn [stop_names map] in Iw |- *. rewrite (name_at_eq _ _ _ Hl). rewrite <- app_assoc in Iw. exact Iw.
      * eapply route_weight_compat; [|exact Hw]. ring.
Qed.

(** The state in which the search runs *)
Lemma cleared S o src e g e' g' l : nth_error (e_locations e) src = Some l -> l_marker l = false ->
  s_AwarenessLevel S <> 0%Z ->
  generateLocationRoutes S o src e g = Ok (e', g') ->
  let e0 := up_loc src (up_l_routes (fun _ => [])) e in
  g' = g /\ exists os,
    foldM (fun acc ki => sub <- offers (route_fuel e0) S o e0 ki 0 [lname l] 1%Z ;; Ok (acc ++ sub)) (l_links l) [] = Ok os /\
    insertAllMajorRoutes S o src (up_loc src (up_l_routes (fun _ => fold_left absorb os [])) e) = Ok e'.
Proof.
  intros Hl Hm Aw H e0. unfold generateLocationRoutes in H.
  apply loc_of_ok in Hl as Hl'. rewrite Hl' in H. cbn [bind] in H. rewrite Hm in H. cbv zeta in H. fold e0 in H.
  destruct (s_AwarenessLevel S =? 0)%Z eqn:Ea; [apply Z.eqb_eq in Ea; contradiction|].
  rstep H. rstep H. injection H as <- <-. split; [reflexivity|].
  eapply (fold_offers src _ (fun ki => offers (route_fuel e0) S o e0 ki 0 [lname l] 1%Z) e0) in E;
    [|intros e1 ki e2 _ R Hs|apply rt_refl|symmetry; apply absorb_nil].
  - destruct E as (os & Hos & ->). exists os. split; [exact Hos|].
    rewrite <- E0. f_equal. unfold e0. rewrite up_loc_up_loc. apply up_loc_ext. intros; reflexivity.
  - replace (route_fuel e1) with (route_fuel e0) in Hs.
    + eapply crawl_offers; eauto.
    + unfold route_fuel. destruct R as [r ->]. cbn. now rewrite !upd_length.
Qed.

(** Paths, names, markers and weights do not depend on stored routes. *)
Section SameRoads.
  Context (src : nat) (e e0 : eco) (R : Rt src e e0).

  Lemma rt_here i l : nth_error (e_locations e) i = Some l ->
    exists r, nth_error (e_locations e0) i = Some (up_l_routes (fun _ => r) l).
  Proof.
    destruct R as [r ->]. intro H. cbn. rewrite nth_upd. destruct (Nat.eqb src i).
    - rewrite H. cbn. eauto.
    - exists (l_routes l). rewrite H. now destruct l.
  Qed.
  Lemma rt_name_at i : name_at e0 i = name_at e i.
  Proof.
    destruct R as [r ->]. unfold name_at. cbn. rewrite nth_upd. destruct (Nat.eqb src i); [|reflexivity].
    destruct (nth_error _ i); reflexivity.
  Qed.
  Lemma rt_marker i : is_marker e0 i = is_marker e i.
  Proof.
    destruct R as [r ->]. unfold is_marker. cbn. rewrite nth_upd. destruct (Nat.eqb src i); [|reflexivity].
    destruct (nth_error _ i); reflexivity.
  Qed.
  Lemma rt_open i ki k : open_link e0 i ki k <-> open_link e i ki k.
  Proof.
    unfold open_link. rewrite (rt_links _ _ _ R). split.
    - intros (l & Hl & I & Hk). destruct (rt_at _ _ _ _ _ R Hl) as (l0 & r & H0 & ->). exists l0; auto.
    - intros (l & Hl & I & Hk). destruct (rt_here _ _ Hl) as (r & H). eexists; repeat split; eauto.
  Qed.
  Lemma rt_path i stops d : path e0 i stops d <-> path e i stops d.
  Proof.
    split; induction 1 as [i ki k O|i ki k stops d O P IH].
    - apply path_one with ki. now apply rt_open.
    - apply path_more with ki; [now apply rt_open|assumption].
    - apply path_one with ki. now apply rt_open.
    - apply path_more with ki; [now apply rt_open|assumption].
  Qed.
  Lemma rt_self : no_self_links e0 <-> no_self_links e.
  Proof.
    split; intros H i ki k X F; apply (H i ki k); try (now apply rt_open); now rewrite ?rt_name_at in *.
  Qed.
  Lemma rt_stop_names stops : stop_names e0 stops = stop_names e stops.
  Proof. unfold stop_names. apply map_ext. intro. apply rt_name_at. Qed.
  Lemma rt_weight_over S o i x w : weight_over S o e0 i x w <-> weight_over S o e i x w.
  Proof.
    split; intros (l & sc & p & Hl & Hsc & H).
    - destruct (rt_at _ _ _ _ _ R Hl) as (l0 & r & H0 & ->). exists l0, sc, p. split; [assumption|].
      split; [|assumption]. rewrite <- Hsc. destruct R as [r' ->]. reflexivity.
    - destruct (rt_here _ _ Hl) as (r & H0). exists (up_l_routes (fun _ => r) l), sc, p. split; [assumption|].
      split; [|assumption]. rewrite <- Hsc. destruct R as [r' ->]. reflexivity.
  Qed.
  Lemma rt_route_weight S o i d w : route_weight S o e0 i d w <-> route_weight S o e i d w.
  Proof.
    split; intros (x & Hx & H); exists x; (split; [exact Hx|now apply rt_weight_over]).
  Qed.
  Lemma rt_major_weight S o i d w : major_weight S o e0 i d w <-> major_weight S o e i d w.
  Proof.
    split; intros (x & Hx & H); exists x; (split; [exact Hx|now apply rt_weight_over]).
  Qed.
End SameRoads.

Lemma dict_get_in {A} n (d : list (string * A)) v : NoDup (map fst d) -> In (n, v) d -> dict_get n d = Some v.
Proof.
  induction d as [|[k x] d IH]; cbn; intros N I; [destruct I|]. apply NoDup_cons_iff in N as [N1 N2].
  destruct I as [I|I].
  - injection I as -> ->. now rewrite String.eqb_refl.
  - destruct (String.eqb n k) eqn:E; [|auto]. apply String.eqb_eq in E as ->. exfalso. apply N1.
    change k with (fst (k, v)). now apply in_map.
Qed.
Lemma dict_in_get {A} n (d : list (string * A)) v : dict_get n d = Some v -> In (n, v) d.
Proof.
  induction d as [|[k x] d IH]; cbn; intro H; [discriminate|]. destruct (String.eqb n k) eqn:E; [|auto].
  apply String.eqb_eq in E as ->. injection H as ->. now left.
Qed.

(** ** Major routes *)

Lemma routes_rt src r e : (exists l, nth_error (e_locations e) src = Some l) ->
  routes_at (up_loc src (up_l_routes (fun _ => r)) e) src = r.
Proof. intros (l & H). unfold routes_at. cbn. rewrite nth_upd, Nat.eqb_refl, H. reflexivity. Qed.

Lemma find_link_spec e links n ki : find_link_to e links n = Ok (Some ki) ->
  exists k, In ki links /\ nth_error (e_links e) ki = Some k /\ name_at e (k_endpoint k) = n.
Proof.
  induction links as [|li links IH]; cbn; [discriminate|]. intro H. rstep H. rstep H.
  apply link_of_ok in E. unfold endpoint_of in E0. apply loc_of_ok in E0.
  destruct (String.eqb (lname v0) n) eqn:En.
  - injection H as <-. apply String.eqb_eq in En as <-. exists v. repeat split; auto. now apply name_at_eq.
  - destruct (IH H) as (k & I & Hk & Hn). exists k. auto.
Qed.

(** The entry that one major route may add *)
Lemma major_entry S o src e route : forall rest cur prior e',
  rest <> [] -> addMajorRoute S o e src cur prior route rest = Ok e' ->
  exists stops d w, path e cur stops d /\ stop_names e stops = rest /\
    major_weight S o e (last_stop stops) (prior + d) w /\
    (e' = e \/ (0 < w \/ exists c l w0 r0 j0, nth_error (e_locations e) c = Some l /\ In (name_at e (last_stop stops), (w0, r0, j0)) (l_routes l) /\ w0 < w) /\
     e' = up_loc src (up_l_routes (dict_set (name_at e (last_stop stops))
           (w, tl (removelast route) ++ [name_at e (last_stop stops)], last_stop stops))) e).
Proof.
  induction rest as [|n rest IH]; intros cur prior e' NE H; [congruence|]. cbn [addMajorRoute] in H.
  rstep H. apply loc_of_ok in E. rename v into c. rstep H. destruct v as [ki|]; [|discriminate].
  destruct (find_link_spec _ _ _ _ E0) as (k & I & Hk & Hn). destruct rest as [|n2 rest].
  - clear IH. unfold addLocationRoute in H. apply link_of_ok in Hk as Hk'. rewrite Hk' in H. cbn [bind] in H.
    rstep H. unfold endpoint_of in E1. apply loc_of_ok in E1. rename v into ep.
    rstep H. rename v into w. rewrite (proj2 (loc_of_ok _ _ _) E) in H. cbn [bind] in H.
    exists [k_endpoint k], (k_distance k), w.
    split; [apply path_one with ki; exists c; auto|]. split; [cbn; now rewrite Hn|].
    split.
    { cbn. unfold crawlWeight in E2. cbv zeta in E2. rstep E2. rstep E2. rstep E2.
      unfold fdiv in E5. destruct (Qeqb v0 0) eqn:Ez; [discriminate|]. injection E5 as <-.
      exists ((s_DistanceSoftening S + k_distance k + prior) / 4). split; [apply Qmult_comp; [ring|reflexivity]|].
      exists ep, v, v0. split; [assumption|]. split; [assumption|]. split; [assumption|]. split; [now apply Qeqb_false|assumption]. }
    cbn [last_stop List.last]. unfold last_stop. cbn [List.last]. rewrite (name_at_eq _ _ _ E1).
    destruct (Qltb _ w) eqn:Eq in H; injection H as <-; [right|now left]. split; [|reflexivity].
    apply Qltb_true in Eq. destruct (dict_get (lname ep) (l_routes c)) as [[[w0 r0] j0]|] eqn:G; [|now left].
    right. exists cur, c, w0, r0, j0. split; [assumption|]. split; [now apply dict_in_get|assumption].
  - rstep H. apply link_of_ok in E1. assert (v = k) as -> by congruence.
    destruct (IH _ _ _ ltac:(discriminate) H) as (stops & d & w & P & Nm & W & C).
    exists (k_endpoint k :: stops), (k_distance k + d), w.
    assert (EL : last_stop (k_endpoint k :: stops) = last_stop stops).
    { unfold last_stop. destruct stops; [discriminate Nm|reflexivity]. }
    rewrite EL. split; [apply path_more with ki; [exists c; auto|exact P]|].
    split; [cbn; now rewrite Hn, <- Nm|]. split; [|exact C].
    destruct W as (x & Hx & W). exists x. split; [|exact W]. rewrite Hx. apply Qmult_comp; [ring|reflexivity].
Qed.

Lemma stored_stops names n : names <> [] -> last names ""%string = n ->
  tl (removelast names) ++ [n] = without_first names.
Proof.
  intros NE <-. destruct names as [|a [|b names]]; [congruence|reflexivity|]. cbn [without_first].
  change (removelast (a :: b :: names)) with (a :: removelast (b :: names)). cbn [tl].
  change (last (a :: b :: names) ""%string) with (last (b :: names) ""%string). symmetry. now apply app_removelast_last.
Qed.

Lemma last_name e stops : stops <> [] -> last (stop_names e stops) ""%string = name_at e (last_stop stops).
Proof.
  intro NE. rewrite (app_removelast_last 0%nat NE) at 1. unfold stop_names. rewrite map_app. cbn.
  rewrite last_last. reflexivity.
Qed.

(** All stored weights are positive. *)
Definition positive (e : eco) : Prop :=
  forall i l n w r j, nth_error (e_locations e) i = Some l -> In (n, (w, r, j)) (l_routes l) -> 0 < w.

(** Entries of [regular] stay, others are those of major routes. *)
Definition extends (S : settings) (o : oracle) (src : nat) (e : eco) (regular : list stored) (e' : eco) : Prop :=
  Rt src e e' /\ NoDup (map fst (routes_at e' src)) /\
  (forall n v, In (n, v) regular -> In (n, v) (routes_at e' src)) /\
  (forall n w r j, In (n, (w, r, j)) (routes_at e' src) ->
    In (n, (w, r, j)) regular \/ ~ In n (map fst regular) /\
    exists stops d, path e src stops d /\ r = without_first (stop_names e stops) /\ j = last_stop stops /\
      n = name_at e j /\ major_weight S o e j d w /\ (exists hub l mr, nth_error (e_locations e) hub = Some l /\ In mr (l_major_routes l) /\ last mr ""%string = n)).

Lemma in_dict_set {A} n (v : A) d m x : NoDup (map fst d) ->
  In (m, x) (dict_set n v d) <-> (m = n /\ x = v) \/ (m <> n /\ In (m, x) d).
Proof.
  intro N. split.
  - intro I. apply dict_get_in in I; [|now apply Schedule.dict_set_nodup].
    rewrite CouplingText.get_set in I. destruct (String.eqb m n) eqn:E.
    + left. apply String.eqb_eq in E. injection I as <-. auto.
    + right. split; [intros ->; rewrite String.eqb_refl in E; discriminate|now apply dict_in_get].
  - intros [[-> ->]|[D I]]; apply dict_in_get; rewrite CouplingText.get_set.
    + now rewrite String.eqb_refl.
    + destruct (String.eqb m n) eqn:E; [apply String.eqb_eq in E; contradiction|now apply dict_get_in].
Qed.

Lemma extends_add S o src e regular e1 route e2 n0 hub l :
  nth_error (e_locations e) src <> None ->
  extends S o src e regular e1 -> route <> [] ->
  addMajorRoute S o e1 src src 0 route route = Ok e2 ->
  last route ""%string = n0 -> ~ In n0 (map fst regular) ->
  nth_error (e_locations e) hub = Some l -> (exists mr, In mr (l_major_routes l) /\ last mr ""%string = n0) ->
  extends S o src e regular e2.
Proof.
  intros Hs (R & N & Keep & Only) NE H Ln New Hh (mr & Imr & Lmr).
  destruct (major_entry _ _ _ _ _ _ _ _ _ NE H) as (stops & d & w & P & Nm & W & [->|(_ & E)]).
  { repeat split; assumption. }
  assert (NS : stops <> []) by (intros ->; inversion P).
  pose proof (last_name e1 stops NS) as LN. rewrite Nm, Ln in LN.
  assert (R2 : Rt src e e2) by (eapply rt_trans; [exact R|]; rewrite E; apply rt_up).
  rewrite (rt_name_at _ _ _ R) in *. rewrite <- LN in *.
  assert (Er : routes_at e2 src = dict_set n0 (w, tl (removelast route) ++ [n0], last_stop stops) (routes_at e1 src)).
  { rewrite E. unfold routes_at. cbn. rewrite nth_upd, Nat.eqb_refl.
    destruct (nth_error (e_locations e1) src) as [l1|] eqn:E1; [reflexivity|].
    destruct (nth_error (e_locations e) src) as [l0|] eqn:E0; [|congruence].
    destruct (rt_here _ _ _ R _ _ E0) as (r & E1'). congruence. }
  rewrite stored_stops in Er by assumption.
  split; [exact R2|]. rewrite Er. split; [now apply Schedule.dict_set_nodup|]. split.
  - intros n v I. apply in_dict_set; [exact N|]. right. split; [|auto]. intros ->. apply New.
    change n0 with (fst (n0, v)). now apply in_map.
  - intros n w1 r j I. apply in_dict_set in I as [[-> I]|[D I]]; [|now apply Only|exact N].
    injection I as -> -> ->. right. split; [exact New|]. exists stops, d.
    split; [now apply (rt_path _ _ _ R)|]. split; [now rewrite <- (rt_stop_names _ _ _ R), Nm|].
    split; [reflexivity|]. split; [exact LN|]. split; [|exists hub, l, mr; auto].
    apply (rt_major_weight _ _ _ R). destruct W as (x & Hx & W). exists x. split; [rewrite Hx; apply Qmult_comp; [ring|reflexivity]|exact W].
Qed.

Lemma extends_insert S o src e regular hub rl dest e1 e2 :
  nth_error (e_locations e) src <> None ->
  (forall n, In n (map fst regular) -> In n dest) ->
  extends S o src e regular e1 ->
  insertMajorRoutesForLocation S o src hub rl dest e1 = Ok e2 -> extends S o src e regular e2.
Proof.
  intros Hs Hd X H. unfold insertMajorRoutesForLocation in H. rstep H. apply loc_of_ok in E.
  destruct (rt_at _ _ _ _ _ (proj1 X) E) as (l & r & Hl & ->).
  change (l_major_routes (up_l_routes (fun _ => r) l)) with (l_major_routes l) in H.
  eapply (foldM_inv (extends S o src e regular)) in H; [exact H| |exact X].
  intros s mr s' Imr Xs Hstep. destruct mr as [|m0 mr]; [discriminate|].
  destruct (mem_str _ dest) eqn:Em in Hstep; [now injection Hstep as <-|]. cbv zeta in Hstep.
  apply mem_str_notIn in Em.
  eapply extends_add with (n0 := last (m0 :: mr) ""%string) (hub := hub) (l := l); eauto.
  - destruct rl; discriminate.
  - destruct (exists_last (l := m0 :: mr) ltac:(discriminate)) as (a & b & ->). rewrite app_assoc, !last_last. reflexivity.
Qed.

Lemma all_major S o src e regular e2 : 
  (exists l, nth_error (e_locations e) src = Some l) -> NoDup (map fst regular) ->
  (forall n w r j, In (n, (w, r, j)) regular -> n = name_at e j) ->
  insertAllMajorRoutes S o src (up_loc src (up_l_routes (fun _ => regular)) e) = Ok e2 ->
  extends S o src e regular e2.
Proof.
  intros (l & Hl) N Nm H. set (e1 := up_loc src (up_l_routes (fun _ => regular)) e) in *.
  assert (R : Rt src e e1) by apply rt_up.
  assert (Er : routes_at e1 src = regular) by (apply routes_rt; eauto).
  assert (X : extends S o src e regular e1).
  { split; [exact R|]. rewrite Er. repeat split; auto. }
  unfold insertAllMajorRoutes in H. rstep H. apply loc_of_ok in E. rename v into l1.
  assert (l_routes l1 = regular) by (unfold routes_at in Er; now rewrite E in Er).
  rstep H. rename v into dests. cbv zeta in H.
  assert (Hd : forall n, In n (map fst regular) -> In n (lname l1 :: dests)).
  { intros n I. right. apply in_map_iff in I as ([n' [[w r] j]] & <- & I). cbn.
    unfold compileDestList in E0. rewrite H0 in E0.
    apply mapM_Forall2 in E0. rewrite (Nm _ _ _ _ I).
    assert (I2 : In j (map (fun entry : stored => let '(_, (_, _, epi)) := entry in epi) regular)).
    { apply in_map_iff. exists (n', (w, r, j)). auto. }
    clear - E0 I2 R. unfold stored in *. induction E0 as [|x y xs ys Hxy F IH]; [destruct I2|].
    destruct I2 as [->|I2]; [left|right; now apply IH].
    rstep Hxy. injection Hxy as <-. apply loc_of_ok in E. rewrite <- (rt_name_at _ _ _ R). symmetry. now apply name_at_eq. }
  assert (Hs : nth_error (e_locations e) src <> None) by congruence.
  rstep H.
  assert (X1 : extends S o src e regular v).
  { destruct (l_major_routes l1); [now injection E1 as <-|]. eapply extends_insert; eauto. }
  clear E1. eapply (foldM_inv (extends S o src e regular)) in H; [exact H| |exact X1].
  intros s rn s' _ Xs Hstep. rstep Hstep. rstep Hstep. destruct v1 as [[w r] hub]. rstep Hstep.
  destruct (l_major_routes v1); [now injection Hstep as <-|]. eapply extends_insert; eauto.
Qed.

Lemma crawl_routes S o e g i l e' g' : nth_error (e_locations e) i = Some l -> l_marker l = false ->
  s_AwarenessLevel S <> 0%Z ->
  generateLocationRoutes S o i e g = Ok (e', g') ->
  g' = g /\ exists regular, extends S o i e regular e' /\ NoDup (map fst regular) /\
    (forall n w r j, In (n, (w, r, j)) regular ->
      exists stops d, path e i stops d /\ r = stop_names e stops /\ j = last_stop stops /\
        n = name_at e j /\ is_marker e j = false /\
        (Z.of_nat (List.length stops) <= reach_of S)%Z /\
        route_weight S o e j d w /\ 0 < w /\
        (no_self_links e -> NoDup (name_at e i :: stop_names e stops))) /\
    (forall stops d, explored S e i stops d ->
      exists w, route_weight S o e (last_stop stops) d w /\
        (0 < w -> exists w' r j, In (name_at e (last_stop stops), (w', r, j)) regular /\ w <= w')).
Proof.
  intros Hl Hm Aw H. destruct (cleared _ _ _ _ _ _ _ _ Hl Hm Aw H) as (-> & os & Hos & HM).
  split; [reflexivity|]. set (e0 := up_loc i (up_l_routes (fun _ => [])) e) in *.
  assert (R : Rt i e e0) by apply rt_up.
  exists (fold_left absorb os []). 
  assert (N : NoDup (map fst (fold_left absorb os []))) by (apply absorb_nodup; constructor).
  apply foldM_collect in Hos as [T X].
  destruct (rt_here _ _ _ R _ _ Hl) as (r0 & Hl0).
  assert (Sound : forall n w r j, In (n, (w, r, j)) (fold_left absorb os []) ->
      exists stops d, path e i stops d /\ r = stop_names e stops /\ j = last_stop stops /\
        n = name_at e j /\ is_marker e j = false /\
        (Z.of_nat (List.length stops) <= reach_of S)%Z /\
        route_weight S o e j d w /\ 0 < w /\
        (no_self_links e -> NoDup (name_at e i :: stop_names e stops))).
  { intros n w r j I. pose proof (absorb_best os [] n ltac:(discriminate)) as B.
    assert (I' : dict_get n (fold_left absorb os []) = Some (w, r, j)) by now apply dict_get_in.
    unfold stored in *. rewrite I' in B.
    destruct B as ([B|B] & P & _); [discriminate|].
    apply X in B as [[]|(ki & sub & Hki & Hsub & B)].
    destruct (offers_sound _ _ _ _ _ _ _ _ _ _ _ _ _ _ Hsub B) as (stops & d & LP & Er & Ej & En & Em & Hlen & Hw & Hnd).
    exists stops, d. split; [eapply (rt_path i e e0 R), lpath_path; eauto; exact Hki|].
    cbn in Er. rewrite (rt_stop_names _ _ _ R) in Er. rewrite (rt_name_at _ _ _ R) in En. rewrite (rt_marker _ _ _ R) in Em.
    split; [exact Er|]. split; [exact Ej|]. split; [exact En|]. split; [exact Em|].
    split; [unfold reach_of; destruct Hlen; lia|].
    split; [apply (rt_route_weight _ _ _ R); eapply route_weight_compat; [|exact Hw]; ring|].
    split; [exact P|]. intro NS. rewrite (name_at_eq _ _ _ Hl), <- Er. apply Hnd.
    + now apply (rt_self _ _ _ R).
    + repeat constructor. easy.
    + intros k Hk [F|[]]. apply (NS i ki k); [apply (rt_open _ _ _ R); exists (up_l_routes (fun _ => r0) l); auto|].
      rewrite (rt_name_at _ _ _ R) in F. now rewrite (name_at_eq _ _ _ Hl). }
  split; [|split; [exact N|split; [exact Sound|]]].
  { apply all_major; auto; [eauto|]. intros n w r j I. destruct (Sound _ _ _ _ I) as (st & d & _ & _ & _ & En & _). exact En. }
  { intros stops d (P & Mk & Len & ND). apply (rt_path _ _ _ R) in P.
    apply path_lpath in P as (l' & ki & Hl' & Iki & P).
    assert (l' = up_l_routes (fun _ => r0) l) as -> by congruence. change (In ki (l_links l)) in Iki.
    destruct (T ki Iki) as [sub Hsub].
    destruct (offers_complete _ _ _ _ _ _ P _ _ _ _ _ _ Hsub) as (w & Iw & Hw).
    + now rewrite (rt_marker _ _ _ R).
    + rewrite (rt_stop_names _ _ _ R). rewrite (name_at_eq _ _ _ Hl) in ND. exact ND.
    + unfold reach_of in Len. pose proof (lpath_nonempty _ _ _ _ P). destruct stops as [|s [|s2 st]]; [congruence|now left|right].
      cbn [List.length] in *. lia.
    + exists w. split; [apply (rt_route_weight _ _ _ R); eapply route_weight_compat; [|exact Hw]; ring|].
      intro Pos. assert (Io : In (name_at e0 (last_stop stops), (w, [] ++ stop_names e0 stops, last_stop stops)) os)
        by (apply X; right; exists ki, sub; auto).
      rewrite (rt_name_at _ _ _ R) in Io.
      pose proof (absorb_best os [] (name_at e (last_stop stops)) ltac:(discriminate)) as B.
      match type of B with match ?x with _ => _ end => destruct x as [[[w' r'] j']|] eqn:G end.
      * destruct B as (_ & _ & _ & B). exists w', r', j'. split; [now apply dict_in_get|eauto].
      * destruct B as [_ B]. specialize (B _ _ _ Io). lra. }
Qed.

(** ** The statements *)

Lemma weight_over_unique S o e i x x' w w' : pow_respects o -> x == x' ->
  weight_over S o e i x w -> weight_over S o e i x' w' -> w == w'.
Proof.
  intros P E (l & sc & p & Hl & Hs & Hp & _ & Hw) (l' & sc' & p' & Hl' & Hs' & Hp' & _ & Hw').
  assert (l' = l) as -> by congruence. assert (sc' = sc) as -> by congruence.
  assert (X : forall x y z v v', x == y -> fpow o x z = Ok v -> fpow o y z = Ok v' -> v == v').
  { intros a b z v v' Eab Hv Hv'. unfold fpow in Hv, Hv'. rstep Hv; [discriminate|]. rstep Hv; [discriminate|].
    rstep Hv'; [discriminate|]. rstep Hv'; [discriminate|]. injection Hv as <-. injection Hv' as <-. now apply P. }
  assert (Ep : p == p') by (eapply X; [exact E|exact Hp|exact Hp']).
  eapply X; [|exact Hw|exact Hw']. now rewrite Ep.
Qed.

Lemma stored_routes S o e g i l e' g' : nth_error (e_locations e) i = Some l -> l_marker l = false ->
  s_AwarenessLevel S <> 0%Z -> no_major_routes e ->
  generateLocationRoutes S o i e g = Ok (e', g') ->
  g' = g /\ exists routes, only_routes_of i routes e e' /\ NoDup (map fst routes) /\
    forall n w r j, In (n, (w, r, j)) routes ->
      exists stops d, path e i stops d /\ r = stop_names e stops /\ j = last_stop stops /\
        n = name_at e j /\ is_marker e j = false /\
        (Z.of_nat (List.length stops) <= reach_of S)%Z /\
        route_weight S o e j d w /\ 0 < w /\
        (no_self_links e -> NoDup (name_at e i :: stop_names e stops)).
Proof.
  intros Hl Hm Aw NM H. destruct (crawl_routes _ _ _ _ _ _ _ _ Hl Hm Aw H) as (-> & regular & X & N & Sound & _).
  split; [reflexivity|]. destruct X as ((r & E) & N' & _ & Only). exists r. split; [exact E|].
  assert (Er : routes_at e' i = r) by (rewrite E; apply routes_rt; eauto). rewrite Er in *. split; [exact N'|].
  intros n w rt j I. destruct (Only _ _ _ _ I) as [I'|(_ & _ & _ & _ & _ & _ & _ & _ & hub & lh & mr & Hh & Imr & _)]; [now apply Sound|].
  rewrite (NM _ _ Hh) in Imr. destruct Imr.
Qed.

Lemma best_routes S o e g i l e' g' stops d w : nth_error (e_locations e) i = Some l -> l_marker l = false ->
  s_AwarenessLevel S <> 0%Z -> pow_respects o ->
  generateLocationRoutes S o i e g = Ok (e', g') ->
  explored S e i stops d -> route_weight S o e (last_stop stops) d w -> 0 < w ->
  exists w' r j, In (name_at e (last_stop stops), (w', r, j)) (routes_at e' i) /\ w <= w' /\
    exists stops' d', path e i stops' d' /\ r = stop_names e stops' /\ j = last_stop stops' /\
      name_at e j = name_at e (last_stop stops) /\ route_weight S o e j d' w'.
Proof.
  intros Hl Hm Aw PR H X W Pos. destruct (crawl_routes _ _ _ _ _ _ _ _ Hl Hm Aw H) as (-> & regular & (_ & _ & Keep & _) & N & Sound & Best).
  destruct (Best _ _ X) as (w0 & W0 & B).
  assert (E : w0 == w).
  { destruct W as (x & Hx & W), W0 as (x0 & Hx0 & W0). eapply weight_over_unique; [exact PR| |exact W0|exact W].
    now rewrite Hx, Hx0. }
  destruct B as (w' & r & j & I & L); [now rewrite E|]. exists w', r, j. split; [auto|]. split; [now rewrite <- E|].
  destruct (Sound _ _ _ _ I) as (st & d' & P & Er & Ej & En & _ & _ & Wj & _). exists st, d'. auto 6.
Qed.

Lemma major_stored S o e g i l e' g' : nth_error (e_locations e) i = Some l -> l_marker l = false ->
  s_AwarenessLevel S <> 0%Z ->
  generateLocationRoutes S o i e g = Ok (e', g') ->
  g' = g /\ only_routes_of i (routes_at e' i) e e' /\ NoDup (map fst (routes_at e' i)) /\
  forall n w r j, In (n, (w, r, j)) (routes_at e' i) ->
    exists stops d, path e i stops d /\ j = last_stop stops /\ n = name_at e j /\
      ((r = stop_names e stops /\ route_weight S o e j d w /\ (Z.of_nat (List.length stops) <= reach_of S)%Z) \/
       (r = without_first (stop_names e stops) /\ major_weight S o e j d w /\
        exists hub lh mr, nth_error (e_locations e) hub = Some lh /\ In mr (l_major_routes lh) /\ last mr ""%string = n)).
Proof.
  intros Hl Hm Aw H. destruct (crawl_routes _ _ _ _ _ _ _ _ Hl Hm Aw H) as (-> & regular & X & N & Sound & _).
  split; [reflexivity|]. destruct X as ((r & E) & N' & _ & Only).
  assert (Er : routes_at e' i = r) by (rewrite E; apply routes_rt; eauto). split; [now rewrite Er|]. split; [assumption|].
  intros n w rt j I. destruct (Only _ _ _ _ I) as [I'|(_ & st & d & P & Ert & Ej & En & W & M)].
  - destruct (Sound _ _ _ _ I') as (st & d & P & Ert & Ej & En & _ & Ln & W & _). exists st, d. auto 8.
  - exists st, d. auto 8.
Qed.

Lemma select_fixed S o e a l time g r g' : s_FixedRoutes S = true -> s_AwarenessLevel S <> 0%Z ->
  selectRoute S o e a l time g = Ok (Some r, g') ->
  exists n w stops j, In (n, (w, stops, j)) (l_routes l) /\ r = map RName stops.
Proof.
  intros F A H. unfold selectRoute in H. destruct (Z.eqb_spec (s_AwarenessLevel S) 0) as [?|_]; [contradiction|].
  rewrite F in H. rstep H. rstep E. injection E as <-. rstep H. destruct v as [[rt|] g1]; [|discriminate].
  destruct rt as [|r0 rt]; [discriminate|]. injection H as <- <-.
  apply choose_In in E. apply in_map_iff in E as ([w q] & Eq & I). cbn in Eq. subst q.
  unfold fixedRoutes in E0. apply mapM_Forall2 in E0.
  assert (X : forall ents wr, Forall2 (fun (entry : string * (Q * list string * nat)) y =>
     (let '(_, (w, r, epi)) := entry in ep <- loc_of e epi ;; sc <- getEndPointScore S o e a ep time ;; Ok (w * sc, r)) = Ok y) ents wr ->
     In (w, r0 :: rt) wr -> exists n w0 j, In (n, (w0, r0 :: rt, j)) ents).
  { clear. induction 1 as [|[n [[w0 r1] j]] y xs ys Hxy F IH]; intros []; [subst y|].
    - rstep Hxy. rstep Hxy. injection Hxy as _ <-. exists n, w0, j. now left.
    - destruct IH as (n' & w1 & j' & I'); [assumption|]. exists n', w1, j'. now right. }
  destruct (X _ _ E0 I) as (n & w0 & j & I'). exists n, w0, (r0 :: rt), j. auto.
Qed.
