(** * Closures: closing and reopening links, refined to the road network *)

From Coq Require Import Lia Permutation.
From Verif Require Import Base State Moving Crawling Flee SpecAgents SpecRoutes SpecClosures Lemmas Inv InvMoves InvStruct.

(** ** Roads *)

Definition valid (e : eco) (ids : list nat) : Prop := forall ki, In ki ids -> (ki < List.length (e_links e))%nat.

Lemma roads_app e a b : roads e (a ++ b) = roads e a ++ roads e b.
Proof. apply flat_map_app. Qed.

Lemma roads_cons e ki k ids : nth_error (e_links e) ki = Some k -> roads e (ki :: ids) = norm k :: roads e ids.
Proof. intro H. cbn. now rewrite H. Qed.

Lemma roads_ext e e' ids : (forall ki, In ki ids -> option_map norm (nth_error (e_links e') ki) = option_map norm (nth_error (e_links e) ki)) ->
  roads e' ids = roads e ids.
Proof.
  induction ids as [|ki ids IH]; intro H; [reflexivity|]. unfold roads in *. cbn [flat_map]. rewrite IH by (intros; apply H; now right).
  specialize (H ki (or_introl eq_refl)).
  destruct (nth_error (e_links e') ki), (nth_error (e_links e) ki); cbn [option_map] in H; try discriminate; [|reflexivity].
  f_equal. congruence.
Qed.

Lemma roads_nth e ids : valid e ids -> forall j, nth_error (roads e ids) j =
  match nth_error ids j with Some ki => option_map norm (nth_error (e_links e) ki) | None => None end.
Proof.
  induction ids as [|ki ids IH]; intros V j; [now destruct j|].
  destruct (nth_error_ex (e_links e) ki) as [k K]; [apply V; now left|].
  rewrite (roads_cons _ _ _ _ K). destruct j as [|j]; cbn [nth_error]; [now rewrite K|].
  apply IH. intros kj Hj. apply V. now right.
Qed.

Lemma roads_length e ids : valid e ids -> List.length (roads e ids) = List.length ids.
Proof.
  induction ids as [|ki ids IH]; intro V; [reflexivity|].
  destruct (nth_error_ex (e_links e) ki) as [k K]; [apply V; now left|].
  rewrite (roads_cons _ _ _ _ K). cbn. f_equal. apply IH. intros kj Hj. apply V. now right.
Qed.

Lemma norm_norm k : norm (norm k) = norm k. Proof. reflexivity. Qed.
Lemma norm_endpoint k : k_endpoint (norm k) = k_endpoint k. Proof. reflexivity. Qed.

Lemma inv_valid_links e i l : Struct e -> nth_error (e_locations e) i = Some l -> valid e (l_links l).
Proof.
  intros I H ki Hk. destruct (st_loc _ I i l H) as (_ & _ & _ & O & _).
  destruct (O ki Hk) as (k & K & _). eapply nth_error_lt; eauto.
Qed.
Lemma inv_valid_store e i l : Struct e -> nth_error (e_locations e) i = Some l -> valid e (l_closed_links l).
Proof.
  intros I H ki Hk. destruct (st_loc _ I i l H) as (_ & _ & _ & _ & O).
  destruct (O ki Hk) as (k & K & _). eapply nth_error_lt; eauto.
Qed.

(** ** Frames *)

Lemma sbl_refl e : same_but_links e e.
Proof. split; [reflexivity|now destruct e]. Qed.
Lemma sbl_trans a b c : same_but_links a b -> same_but_links b c -> same_but_links a c.
Proof. intros [A1 A2] [B1 B2]. split; [congruence|]. rewrite B2, A2. now destruct a. Qed.
#[export] Hint Resolve sbl_refl : core.

Lemma sbl_up_link ki f e : same_but_links e (up_link ki f e).
Proof. split; [reflexivity|now destruct e]. Qed.
Lemma sbl_app k e : same_but_links e (up_e_links (fun h => h ++ k) e).
Proof. split; [reflexivity|now destruct e]. Qed.
Lemma sbl_up_links x f e : same_but_links e (up_loc x (up_l_links f) e).
Proof. split; [cbn; now apply map_upd|now destruct e]. Qed.
Lemma sbl_up_store x f e : same_but_links e (up_loc x (up_l_closed_links f) e).
Proof. split; [cbn; now apply map_upd|now destruct e]. Qed.

Definition bare (l : location) : location := up_l_links (fun _ => []) (up_l_closed_links (fun _ => []) l).

Lemma sbl_nth e e' i l : same_but_links e e' -> nth_error (e_locations e) i = Some l ->
  exists l', nth_error (e_locations e') i = Some l' /\ bare l' = bare l.
Proof. intros [H _] Hi. exact (map_eq_nth bare bare _ _ i l H Hi). Qed.
Lemma sbl_len e e' : same_but_links e e' -> List.length (e_locations e') = List.length (e_locations e).
Proof. intros [H _]. exact (map_eq_length _ _ _ _ H). Qed.
Lemma sbl_none e e' i : same_but_links e e' -> nth_error (e_locations e) i = None -> nth_error (e_locations e') i = None.
Proof. intros H N. apply nth_error_None in N. apply nth_error_None. rewrite (sbl_len _ _ H). exact N. Qed.

Lemma sbl_view {A} (v : location -> A) e e' i : (forall l, v (bare l) = v l) -> same_but_links e e' ->
  option_map v (nth_error (e_locations e') i) = option_map v (nth_error (e_locations e) i).
Proof.
  intros Hv H. destruct (nth_error (e_locations e) i) as [l|] eqn:E.
  - destruct (sbl_nth _ _ _ _ H E) as (l' & -> & B). cbn [option_map]. f_equal.
    rewrite <- (Hv l'), <- (Hv l). now rewrite B.
  - now rewrite (sbl_none _ _ _ H E).
Qed.

Lemma sbl_country e e' i : same_but_links e e' -> country_at e' i = country_at e i.
Proof.
  intro H. pose proof (sbl_view l_country e e' i (fun l => eq_refl) H) as V. unfold country_at.
  destruct (nth_error (e_locations e') i), (nth_error (e_locations e) i); cbn in V; congruence.
Qed.
Lemma sbl_object e e' t k : same_but_links e e' -> to_object e' t k = to_object e t k.
Proof.
  intro H. pose proof (sbl_view l_name e e' (k_endpoint k) (fun l => eq_refl) H) as V. unfold to_object.
  destruct (nth_error (e_locations e') (k_endpoint k)), (nth_error (e_locations e) (k_endpoint k)); cbn in V; congruence.
Qed.
Lemma sbl_names e e' : same_but_links e e' -> map l_name (e_locations e') = map l_name (e_locations e).
Proof.
  intros [H _]. assert (X : forall ls, map l_name ls = map l_name (map bare ls)) by (intro; now rewrite map_map).
  rewrite (X (e_locations e')), (X (e_locations e)). f_equal. exact H.
Qed.
Lemma sbl_convert e e' s : same_but_links e e' -> convert_name e' s = convert_name e s.
Proof.
  intro H. unfold convert_name. assert (map lname (e_locations e') = map lname (e_locations e)) as ->; [|reflexivity].
  unfold lname. rewrite <- (map_map l_name sval), <- (map_map l_name sval). now rewrite (sbl_names _ _ H).
Qed.
Lemma sbl_distinct e e' : same_but_links e e' -> distinct_names e -> distinct_names e'.
Proof.
  intros H D i j a b Hi Hj E.
  pose proof (sbl_view l_name e e' i (fun l => eq_refl) H) as Vi. pose proof (sbl_view l_name e e' j (fun l => eq_refl) H) as Vj.
  rewrite Hi in Vi. rewrite Hj in Vj.
  destruct (nth_error (e_locations e) i) eqn:Ei; [|discriminate]. destruct (nth_error (e_locations e) j) eqn:Ej; [|discriminate].
  cbn in Vi, Vj. apply (D i j _ _ Ei Ej). injection Vi as <-. injection Vj as <-. exact E.
Qed.

(** Only the roads of location [x] differ: they are [O] and [C] now. *)
Record Change (e e' : eco) (x : nat) (O C : list link) : Prop := {
  ch_rest : same_but_links e e';
  ch_opens : opens e' x = O;
  ch_closeds : closeds e' x = C;
  ch_others : forall j, j <> x -> opens e' j = opens e j /\ closeds e' j = closeds e j }.

(** ** One call *)

Lemma filter_not_true {A} (f : A -> bool) a l : f a = true -> filter (not f) (a :: l) = filter (not f) l.
Proof. intro H. cbn. unfold not at 1. now rewrite H. Qed.
Lemma filter_not_false {A} (f : A -> bool) a l : f a = false -> filter (not f) (a :: l) = a :: filter (not f) l.
Proof. intro H. cbn. unfold not at 1. now rewrite H. Qed.
Lemma filter_true {A} (f : A -> bool) a l : f a = true -> filter f (a :: l) = a :: filter f l.
Proof. intro H. cbn. now rewrite H. Qed.
Lemma filter_false {A} (f : A -> bool) a l : f a = false -> filter f (a :: l) = filter f l.
Proof. intro H. cbn. now rewrite H. Qed.

Lemma remove_fold_spec x t co r : forall e new rem e' new' rem' l,
  nth_error (e_locations e) x = Some l -> valid e r ->
  foldM (remove_step x t co) r (e, new, rem) = Ok (e', new', rem') ->
  same_but_links e e' /\
  (exists more l', new' = new ++ more /\ (forall ki, In ki more -> In ki r) /\
     roads e more = filter (not (to_object e t)) (roads e r) /\
     nth_error (e_locations e') x = Some l' /\ l_links l' = l_links l /\
     exists cs, l_closed_links l' = l_closed_links l ++ cs /\
        roads e' cs = if co then filter (to_object e t) (roads e r) else []) /\
  (forall ki, (ki < List.length (e_links e))%nat ->
     option_map norm (nth_error (e_links e') ki) = option_map norm (nth_error (e_links e) ki)) /\
  (List.length (e_links e) <= List.length (e_links e'))%nat /\
  (forall j, j <> x -> nth_error (e_locations e') j = nth_error (e_locations e) j) /\
  rem' = (rem || existsb (to_object e t) (roads e r))%bool.
Proof.
  induction r as [|ki r IH]; intros e new rem e' new' rem' l Hx V H; cbn [foldM] in H.
  - injection H as <- <- <-. split; [auto|]. split.
    { exists [], l. rewrite app_nil_r. do 5 (split; [solve [auto | intros ? []]|]). exists [].
      rewrite app_nil_r. split; [reflexivity|]. now destruct co. }
    do 3 (split; [auto|]). cbn. now rewrite Bool.orb_false_r.
  - rstep H. destruct v as [[e1 new1] rem1]. unfold remove_step in E. rstep E. rename v into k.
    unfold link_of in E0. apply of_option_ok in E0. rstep E. rename v into ep. unfold endpoint_of, loc_of in E1. apply of_option_ok in E1.
    assert (Vr : valid e r) by (intros kj Hj; apply V; now right).
    assert (Hit : to_object e t (norm k) = py_is (l_name ep) t).
    { unfold to_object. rewrite norm_endpoint, E1. reflexivity. }
    rewrite (roads_cons _ _ _ _ E0).
    destruct (py_is (l_name ep) t) eqn:Ep; cbn [negb] in E.
    + (* the link is hit *)
      rewrite (filter_not_true _ _ _ Hit), (filter_true _ _ _ Hit). cbn [existsb]. rewrite Hit.
      assert (X : exists l1, same_but_links e e1 /\ new1 = new /\ rem1 = true /\
         nth_error (e_locations e1) x = Some l1 /\ l_links l1 = l_links l /\
         (exists c, l_closed_links l1 = l_closed_links l ++ c /\ (forall kj, In kj c -> (kj < List.length (e_links e1))%nat) /\
            roads e1 c = if co then [norm k] else []) /\
         (forall kj, (kj < List.length (e_links e))%nat ->
            option_map norm (nth_error (e_links e1) kj) = option_map norm (nth_error (e_links e) kj)) /\
         (List.length (e_links e) <= List.length (e_links e1))%nat /\
         (forall j, j <> x -> nth_error (e_locations e1) j = nth_error (e_locations e) j)).
      { destruct co; injection E as <- <- <-.
        - exists (up_l_closed_links (fun c => c ++ [List.length (e_links e)]) l).
          split. { eapply sbl_trans; [|apply sbl_up_store]. eapply sbl_trans; [apply sbl_up_link|apply sbl_app]. }
          do 2 (split; [reflexivity|]). cbn [up_loc up_e_locations up_e_links up_link e_locations e_links].
          rewrite nth_upd_same, Hx. do 2 (split; [reflexivity|]). split.
          { exists [List.length (e_links e)]. split; [reflexivity|]. split.
            - intros kj [<-|[]]. rewrite app_length, upd_length. cbn. lia.
            - unfold roads. cbn [flat_map e_links up_loc up_e_locations up_e_links up_link]. rewrite nth_error_app2 by (rewrite upd_length; lia).
              rewrite upd_length, Nat.sub_diag. cbn [nth_error app]. reflexivity. }
          split. { intros kj Hj. rewrite nth_error_app1 by (rewrite upd_length; lia).
                   rewrite nth_upd. destruct (Nat.eqb_spec ki kj) as [->|]; [|reflexivity].
                   rewrite E0. reflexivity. }
          split; [rewrite app_length, upd_length; lia|]. intros j Hj. now rewrite nth_upd_other by congruence.
        - exists l. do 5 (split; [solve [auto]|]). split; [|auto].
          exists []. rewrite app_nil_r. split; [reflexivity|]. split; [intros ? []|reflexivity]. }
      destruct X as (l1 & Sb & -> & -> & Hx1 & Lk & (c & Cl & Cv & Cr) & Kp & Le & Ot).
      assert (Vr1 : valid e1 r) by (intros kj Hj; specialize (Vr kj Hj); lia).
      destruct (IH e1 _ _ _ _ _ l1 Hx1 Vr1 H) as (Sb' & (more & l' & -> & Sub & Rm & Hx' & Lk' & cs & Cl' & Rc) & Kp' & Le' & Ot' & ->).
      assert (Rr : roads e1 r = roads e r) by (apply roads_ext; intros; apply Kp, Vr; assumption).
      assert (Fo : forall K, filter (to_object e1 t) K = filter (to_object e t) K).
      { intro K. apply filter_ext. intro. now apply sbl_object. }
      assert (Fn : forall K, filter (not (to_object e1 t)) K = filter (not (to_object e t)) K).
      { intro K. apply filter_ext. intro y. unfold not. now rewrite (sbl_object e e1). }
      rewrite Rr, Fn in Rm. rewrite Rr, Fo in Rc.
      split; [eapply sbl_trans; eauto|]. split.
      { exists more, l'. split; [reflexivity|]. split; [intros kj Hj; right; auto|]. split.
        - rewrite <- Rm. symmetry. apply roads_ext. intros kj Hj. apply Kp, Vr, Sub, Hj.
        - split; [assumption|]. split; [congruence|]. exists (c ++ cs). split; [rewrite Cl', Cl; now rewrite app_assoc|].
          rewrite roads_app, Rc. rewrite (roads_ext e1 e') by (intros; apply Kp', Cv; assumption). rewrite Cr. now destruct co. }
      split; [intros kj Hj; rewrite Kp' by lia; auto|]. split; [lia|]. split; [intros; rewrite Ot' by assumption; auto|].
      now destruct rem.
    + (* not hit *)
      rewrite (filter_not_false _ _ _ Hit), (filter_false _ _ _ Hit). cbn [existsb]. rewrite Hit. cbn [orb].
      injection E as <- <- <-.
      destruct (IH e _ _ _ _ _ l Hx Vr H) as (Sb' & (more & l' & -> & Sub & Rm & Rest) & R2).
      split; [assumption|]. split; [|exact R2]. exists (ki :: more), l'. split; [now rewrite <- app_assoc|].
      split; [intros kj [<-|Hj]; [now left|right; auto]|]. split; [|exact Rest].
      rewrite (roads_cons _ _ _ _ E0). now f_equal.
Qed.

Lemma remove_spec s t co e e' b : Struct e -> remove_link_1way s t co e = Ok (e', b) ->
  let x := convert_name e s in
  Change e e' x (filter (not (to_object e t)) (opens e x))
                (closeds e x ++ if co then filter (to_object e t) (opens e x) else []) /\
  b = existsb (to_object e t) (opens e x).
Proof.
  intros I H x. unfold remove_link_1way, loc_of in H. fold x in H. rstep H. rename v into l. apply of_option_ok in E.
  rstep H. destruct v as [[e1 new] rem]. injection H as <- <-.
  pose proof (inv_valid_links _ _ _ I E) as Vl. pose proof (inv_valid_store _ _ _ I E) as Vs.
  destruct (remove_fold_spec _ _ _ _ _ _ _ _ _ _ _ E Vl E0) as (Sb & (more & l' & -> & Sub & Rm & Hx' & Lk' & cs & Cl' & Rc) & Kp & Le & Ot & ->).
  assert (Op : opens e x = roads e (l_links l)) by (unfold opens; now rewrite E).
  assert (Cl : closeds e x = roads e (l_closed_links l)) by (unfold closeds; now rewrite E).
  rewrite Op, Cl. split; [|reflexivity]. split.
  - eapply sbl_trans; [exact Sb|apply sbl_up_links].
  - unfold opens. cbn [up_loc up_e_locations e_locations]. rewrite nth_upd_same, Hx'. cbn [option_map l_links up_l_links app].
    rewrite <- Rm. apply roads_ext. intros ki Hk. apply Kp, Vl, Sub, Hk.
  - unfold closeds. cbn [up_loc up_e_locations e_locations]. rewrite nth_upd_same, Hx'. cbn [option_map l_closed_links up_l_links].
    rewrite Cl'. change (roads e1 (l_closed_links l ++ cs) = roads e (l_closed_links l) ++ (if co then filter (to_object e t) (roads e (l_links l)) else [])).
    rewrite roads_app, Rc. f_equal. apply roads_ext. intros ki Hk. apply Kp, Vs, Hk.
  - intros j Hj. unfold opens, closeds. cbn [up_loc up_e_locations e_locations]. rewrite nth_upd_other by congruence.
    rewrite Ot by assumption. destruct (nth_error (e_locations e) j) as [lj|] eqn:Ej; [|auto].
    split; apply roads_ext; intros ki Hk; apply Kp; [eapply inv_valid_links|eapply inv_valid_store]; eauto.
Qed.

Lemma reopen_fold_spec x t r : forall e new rem e' new' rem' l,
  nth_error (e_locations e) x = Some l -> valid e r ->
  foldM (reopen_step x t) r (e, new, rem) = Ok (e', new', rem') ->
  same_but_links e e' /\
  (exists more l', new' = new ++ more /\ (forall ki, In ki more -> In ki r) /\
     roads e more = filter (not (to_object e t)) (roads e r) /\
     nth_error (e_locations e') x = Some l' /\ l_closed_links l' = l_closed_links l /\
     exists os, l_links l' = l_links l ++ os /\ roads e os = filter (to_object e t) (roads e r)) /\
  (forall ki, option_map norm (nth_error (e_links e') ki) = option_map norm (nth_error (e_links e) ki)) /\
  (forall j, j <> x -> nth_error (e_locations e') j = nth_error (e_locations e) j) /\
  rem' = (rem || existsb (to_object e t) (roads e r))%bool.
Proof.
  induction r as [|ki r IH]; intros e new rem e' new' rem' l Hx V H; cbn [foldM] in H.
  - injection H as <- <- <-. split; [auto|]. split.
    { exists [], l. rewrite app_nil_r. do 5 (split; [solve [auto | intros ? []]|]). exists [].
      rewrite app_nil_r. split; reflexivity. }
    do 2 (split; [auto|]). cbn. now rewrite Bool.orb_false_r.
  - rstep H. destruct v as [[e1 new1] rem1]. unfold reopen_step in E. rstep E. rename v into k.
    unfold link_of in E0. apply of_option_ok in E0. rstep E. rename v into ep. unfold endpoint_of, loc_of in E1. apply of_option_ok in E1.
    assert (Vr : valid e r) by (intros kj Hj; apply V; now right).
    assert (Hit : to_object e t (norm k) = py_is (l_name ep) t).
    { unfold to_object. rewrite norm_endpoint, E1. reflexivity. }
    rewrite (roads_cons _ _ _ _ E0).
    destruct (py_is (l_name ep) t) eqn:Ep; cbn [negb] in E.
    + rewrite (filter_not_true _ _ _ Hit), (filter_true _ _ _ Hit). cbn [existsb]. rewrite Hit.
      injection E as <- <- <-. set (e1 := up_link ki _ _) in H.
      assert (Sb : same_but_links e e1) by (eapply sbl_trans; [apply sbl_up_links|apply sbl_up_link]).
      assert (Hx1 : nth_error (e_locations e1) x = Some (up_l_links (fun ks => ks ++ [ki]) l)).
      { unfold e1. cbn [up_loc up_e_locations up_e_links up_link e_locations]. now rewrite nth_upd_same, Hx. }
      assert (Kp : forall kj, option_map norm (nth_error (e_links e1) kj) = option_map norm (nth_error (e_links e) kj)).
      { intro kj. unfold e1. cbn [up_loc up_e_locations up_e_links up_link e_links]. rewrite nth_upd.
        destruct (Nat.eqb_spec ki kj) as [->|]; [|reflexivity]. now rewrite E0. }
      assert (Ot : forall j, j <> x -> nth_error (e_locations e1) j = nth_error (e_locations e) j).
      { intros j Hj. unfold e1. cbn [up_loc up_e_locations up_e_links up_link e_locations]. now rewrite nth_upd_other by congruence. }
      assert (Vr1 : valid e1 r).
      { intros kj Hj. specialize (Vr kj Hj). unfold e1. cbn. now rewrite upd_length. }
      clearbody e1.
      destruct (IH e1 _ _ _ _ _ _ Hx1 Vr1 H) as (Sb' & (more & l' & -> & Sub & Rm & Hx' & Lk' & os & Ol & Ro) & Kp' & Ot' & ->).
      assert (Rr : forall ids, roads e1 ids = roads e ids) by (intro; apply roads_ext; intros; apply Kp).
      assert (Fo : forall K, filter (to_object e1 t) K = filter (to_object e t) K).
      { intro K. apply filter_ext. intro. now apply sbl_object. }
      assert (Fn : forall K, filter (not (to_object e1 t)) K = filter (not (to_object e t)) K).
      { intro K. apply filter_ext. intro y. unfold not. now rewrite (sbl_object e e1). }
      rewrite !Rr, Fn in Rm. rewrite !Rr, Fo in Ro.
      split; [eapply sbl_trans; eauto|]. split.
      { exists more, l'. split; [reflexivity|]. split; [intros kj Hj; right; auto|]. split; [assumption|].
        split; [assumption|]. split; [exact Lk'|]. exists (ki :: os). split.
        - rewrite Ol. cbn. now rewrite <- app_assoc.
        - rewrite (roads_cons _ _ _ _ E0). now f_equal. }
      split; [intros kj; rewrite Kp'; auto|]. split; [intros; rewrite Ot' by assumption; auto|].
      now destruct rem.
    + rewrite (filter_not_false _ _ _ Hit), (filter_false _ _ _ Hit). cbn [existsb]. rewrite Hit. cbn [orb].
      injection E as <- <- <-.
      destruct (IH e _ _ _ _ _ l Hx Vr H) as (Sb' & (more & l' & -> & Sub & Rm & Rest) & R2).
      split; [assumption|]. split; [|exact R2]. exists (ki :: more), l'. split; [now rewrite <- app_assoc|].
      split; [intros kj [<-|Hj]; [now left|right; auto]|]. split; [|exact Rest].
      rewrite (roads_cons _ _ _ _ E0). now f_equal.
Qed.

Lemma reopen_spec s t e e' b : Struct e -> reopen_link_1way s t e = Ok (e', b) ->
  let x := convert_name e s in
  Change e e' x (opens e x ++ filter (to_object e t) (closeds e x))
                (filter (not (to_object e t)) (closeds e x)) /\
  b = existsb (to_object e t) (closeds e x).
Proof.
  intros I H x. unfold reopen_link_1way, loc_of in H. fold x in H. rstep H. rename v into l. apply of_option_ok in E.
  rstep H. destruct v as [[e1 new] rem]. injection H as <- <-.
  pose proof (inv_valid_store _ _ _ I E) as Vs.
  destruct (reopen_fold_spec _ _ _ _ _ _ _ _ _ _ E Vs E0) as (Sb & (more & l' & -> & Sub & Rm & Hx' & Lk' & os & Ol & Ro) & Kp & Ot & ->).
  assert (Op : opens e x = roads e (l_links l)) by (unfold opens; now rewrite E).
  assert (Cl : closeds e x = roads e (l_closed_links l)) by (unfold closeds; now rewrite E).
  assert (Rr : forall ids, roads e1 ids = roads e ids) by (intro; apply roads_ext; intros; apply Kp).
  rewrite Op, Cl. split; [|reflexivity]. split.
  - eapply sbl_trans; [exact Sb|apply sbl_up_store].
  - unfold opens. cbn [up_loc up_e_locations e_locations]. rewrite nth_upd_same, Hx'. cbn [option_map l_links up_l_closed_links].
    rewrite Ol. change (roads e1 (l_links l ++ os) = roads e (l_links l) ++ filter (to_object e t) (roads e (l_closed_links l))).
    now rewrite Rr, roads_app, Ro.
  - unfold closeds. cbn [up_loc up_e_locations e_locations]. rewrite nth_upd_same, Hx'. cbn [option_map l_closed_links up_l_closed_links app].
    rewrite <- Rm. apply Rr.
  - intros j Hj. unfold opens, closeds. cbn [up_loc up_e_locations e_locations]. rewrite nth_upd_other by congruence.
    rewrite Ot by assumption. destruct (nth_error (e_locations e) j) as [lj|] eqn:Ej; [|auto].
    split; apply Rr.
Qed.

(** ** Success *)

Lemma last_index_spec n names : forall i acc,
  match last_index n names i acc with
  | Some r => (acc = Some r /\ ~ In n names) \/
      exists p, r = (i + p)%nat /\ nth_error names p = Some n /\
        forall q, nth_error names q = Some n -> (q <= p)%nat
  | None => acc = None /\ ~ In n names
  end.
Proof.
  induction names as [|m names IH]; intros i acc; cbn [last_index].
  - destruct acc; auto.
  - specialize (IH (Datatypes.S i) (if String.eqb m n then Some i else acc)).
    destruct (String.eqb_spec m n) as [->|N]; destruct (last_index n names (Datatypes.S i) _) as [r|].
    + right. destruct IH as [[[= <-] X]|(p & -> & P & M)].
      * exists 0%nat. repeat split; [lia|]. intros [|q] Q; [lia|]. cbn in Q. apply nth_error_In in Q. contradiction.
      * exists (Datatypes.S p). repeat split; [lia|assumption|]. intros [|q] Q; [lia|]. cbn in Q. specialize (M q Q). lia.
    + destruct IH; discriminate.
    + destruct IH as [[-> X]|(p & -> & P & M)].
      * left. split; [reflexivity|]. intros [|]; contradiction.
      * right. exists (Datatypes.S p). repeat split; [lia|assumption|]. intros [|q] Q; [lia|]. cbn in Q. specialize (M q Q). lia.
    + destruct IH as [-> X]. split; [reflexivity|]. intros [|]; contradiction.
Qed.

Lemma convert_lt e s : e_locations e <> [] -> (convert_name e s < List.length (e_locations e))%nat.
Proof.
  intro N. unfold convert_name. pose proof (last_index_spec (sval s) (map lname (e_locations e)) 0 None) as L.
  destruct (last_index _ _ _ _) as [r|].
  - destruct L as [[X _]|(p & -> & P & _)]; [discriminate|]. apply nth_error_lt in P. rewrite map_length in P. exact P.
  - destruct (e_locations e); [congruence|cbn; lia].
Qed.

Lemma endpoint_ex e ki : Struct e -> (ki < List.length (e_links e))%nat ->
  exists k ep, nth_error (e_links e) ki = Some k /\ nth_error (e_locations e) (k_endpoint k) = Some ep.
Proof.
  intros I H. destruct (nth_error_ex _ _ H) as [k K]. destruct (st_link _ I ki k K) as (_ & Be & _).
  destruct (nth_error_ex _ _ Be) as [ep Ep]. eauto.
Qed.

Lemma convert_own e i l : distinct_names e -> nth_error (e_locations e) i = Some l -> convert_name e (l_name l) = i.
Proof.
  intros D H. unfold convert_name. pose proof (last_index_spec (sval (l_name l)) (map lname (e_locations e)) 0 None) as L.
  assert (Hi : nth_error (map lname (e_locations e)) i = Some (sval (l_name l))) by (now rewrite nth_error_map, H).
  destruct (last_index _ _ _ _) as [r|].
  - destruct L as [[X _]|(p & -> & P & _)]; [discriminate|]. rewrite nth_error_map in P.
    destruct (nth_error (e_locations e) p) as [l'|] eqn:Ep; [|discriminate]. injection P as P.
    apply (D p i l' l Ep H). now left.
  - destruct L as [_ L]. apply nth_error_In in Hi. contradiction.
Qed.

(** Under distinct names a name object is a place. *)
Lemma object_place e j l k : distinct_names e -> nth_error (e_locations e) j = Some l ->
  (k_endpoint k < List.length (e_locations e))%nat -> to_object e (l_name l) k = to_place j k.
Proof.
  intros D H L. unfold to_object, to_place. destruct (nth_error_ex _ _ L) as [l' H']. rewrite H'.
  unfold py_is. destruct (Nat.eqb_spec (k_endpoint k) j) as [<-|N].
  - assert (l' = l) as -> by congruence. apply Nat.eqb_refl.
  - destruct (Nat.eqb_spec (sid (l_name l')) (sid (l_name l))) as [E|]; [|reflexivity]. destruct N.
    apply (D _ _ l' l H' H). now right.
Qed.

Lemma roads_end e ids k : Struct e -> In k (roads e ids) -> (k_endpoint k < List.length (e_locations e))%nat.
Proof.
  intros I H. unfold roads in H. apply in_flat_map in H as (ki & _ & H).
  destruct (nth_error (e_links e) ki) as [k0|] eqn:K; [|destruct H]. destruct H as [<-|[]].
  rewrite norm_endpoint. apply (st_link _ I ki k0 K).
Qed.
Lemma opens_end e i k : Struct e -> In k (opens e i) -> (k_endpoint k < List.length (e_locations e))%nat.
Proof. unfold opens. intros I H. destruct (nth_error (e_locations e) i); [eapply roads_end; eauto|destruct H]. Qed.
Lemma closeds_end e i k : Struct e -> In k (closeds e i) -> (k_endpoint k < List.length (e_locations e))%nat.
Proof. unfold closeds. intros I H. destruct (nth_error (e_locations e) i); [eapply roads_end; eauto|destruct H]. Qed.

Lemma remove_ok s t co e : Struct e -> e_locations e <> [] -> exists e' b, remove_link_1way s t co e = Ok (e', b).
Proof.
  intros I N. unfold remove_link_1way. set (x := convert_name e s).
  destruct (nth_error_ex _ _ (convert_lt e s N)) as [l Hl]. fold x in Hl. unfold loc_of. rewrite Hl. cbn [of_option bind].
  assert (X : forall r e1 new rem, valid e r -> (List.length (e_links e) <= List.length (e_links e1))%nat ->
      List.length (e_locations e1) = List.length (e_locations e) ->
      (forall ki k, nth_error (e_links e) ki = Some k -> exists k1, nth_error (e_links e1) ki = Some k1 /\ k_endpoint k1 = k_endpoint k) ->
      exists st, foldM (remove_step x t co) r (e1, new, rem) = Ok st).
  { induction r as [|ki r IH]; intros e1 new rem V Le Ll Kp; cbn [foldM]; [eauto|].
    assert (Vr : valid e r) by (intros kj Hj; apply V; now right).
    destruct (endpoint_ex e ki I (V _ (or_introl eq_refl))) as (k & ep & K & Ep).
    destruct (Kp _ _ K) as (k1 & K1 & Ek).
    destruct (nth_error_ex (e_locations e1) (k_endpoint k)) as [ep1 Ep1]; [rewrite Ll; now apply nth_error_lt in Ep|].
    assert (H1 : exists e2 n2 r2, remove_step x t co (e1, new, rem) ki = Ok (e2, n2, r2) /\
      (List.length (e_links e) <= List.length (e_links e2))%nat /\ List.length (e_locations e2) = List.length (e_locations e) /\
      (forall kj k, nth_error (e_links e) kj = Some k -> exists k1, nth_error (e_links e2) kj = Some k1 /\ k_endpoint k1 = k_endpoint k)).
    { unfold remove_step, link_of, endpoint_of, loc_of. rewrite K1. cbn [of_option bind]. rewrite Ek, Ep1. cbn [of_option bind].
      destruct (py_is (l_name ep1) t); cbn [negb]; [|now eauto 8]. destruct co; [|now eauto 8].
      eexists _, _, _. split; [reflexivity|]. cbn. rewrite app_length, upd_length, upd_length. split; [lia|]. split; [assumption|].
      intros kj kk Kj. destruct (Kp _ _ Kj) as (kk1 & Kj1 & Ekk). rewrite nth_error_app1 by (rewrite upd_length; now apply nth_error_lt in Kj1).
      rewrite nth_upd. destruct (Nat.eqb_spec ki kj) as [->|]; rewrite Kj1; cbn; eauto. }
    destruct H1 as (e2 & n2 & r2 & -> & A & B & C). cbn [bind]. apply IH; auto. }
  destruct (X (l_links l) e [] false) as [[[e1 n1] r1] ->]; [eapply inv_valid_links; eauto|auto|auto|eauto|].
  cbn [bind]. eauto.
Qed.

Lemma reopen_ok s t e : Struct e -> e_locations e <> [] -> exists e' b, reopen_link_1way s t e = Ok (e', b).
Proof.
  intros I N. unfold reopen_link_1way. set (x := convert_name e s).
  destruct (nth_error_ex _ _ (convert_lt e s N)) as [l Hl]. fold x in Hl. unfold loc_of. rewrite Hl. cbn [of_option bind].
  assert (X : forall r e1 new rem, valid e r ->
      List.length (e_locations e1) = List.length (e_locations e) ->
      (forall ki k, nth_error (e_links e) ki = Some k -> exists k1, nth_error (e_links e1) ki = Some k1 /\ k_endpoint k1 = k_endpoint k) ->
      exists st, foldM (reopen_step x t) r (e1, new, rem) = Ok st).
  { induction r as [|ki r IH]; intros e1 new rem V Ll Kp; cbn [foldM]; [eauto|].
    assert (Vr : valid e r) by (intros kj Hj; apply V; now right).
    destruct (endpoint_ex e ki I (V _ (or_introl eq_refl))) as (k & ep & K & Ep).
    destruct (Kp _ _ K) as (k1 & K1 & Ek).
    destruct (nth_error_ex (e_locations e1) (k_endpoint k)) as [ep1 Ep1]; [rewrite Ll; now apply nth_error_lt in Ep|].
    assert (H1 : exists e2 n2 r2, reopen_step x t (e1, new, rem) ki = Ok (e2, n2, r2) /\
      List.length (e_locations e2) = List.length (e_locations e) /\
      (forall kj k, nth_error (e_links e) kj = Some k -> exists k1, nth_error (e_links e2) kj = Some k1 /\ k_endpoint k1 = k_endpoint k)).
    { unfold reopen_step, link_of, endpoint_of, loc_of. rewrite K1. cbn [of_option bind]. rewrite Ek, Ep1. cbn [of_option bind].
      destruct (py_is (l_name ep1) t); cbn [negb]; [|now eauto 8].
      eexists _, _, _. split; [reflexivity|]. cbn. rewrite upd_length. split; [assumption|].
      intros kj kk Kj. destruct (Kp _ _ Kj) as (kk1 & Kj1 & Ekk).
      rewrite nth_upd. destruct (Nat.eqb_spec ki kj) as [->|]; rewrite Kj1; cbn; eauto. }
    destruct H1 as (e2 & n2 & r2 & -> & B & C). cbn [bind]. apply IH; auto. }
  destruct (X (l_closed_links l) e [] false) as [[[e1 n1] r1] ->]; [eapply inv_valid_store; eauto|auto|eauto|].
  cbn [bind]. eauto.
Qed.
