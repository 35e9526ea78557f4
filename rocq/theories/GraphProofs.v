(** * GraphProofs: what export_graph returns *)

From Coq Require Import Lia.
From Verif Require Import Base State Moving Crawling Flee DataTable Spawning InputGeography Api SpecAgents SpecHistory SpecRoutes SpecClosures SpecGraph
  Lemmas Inv InvStruct Frames Closures ClosureProps ZoneProps RouteProofs.
Local Open Scope string_scope.
Local Open Scope list_scope.

Definition edge_list (e : eco) (l : location) : res (list (string * string * Q)) :=
  mapM (fun ki => k <- link_of e ki ;; ep <- endpoint_of e k ;; Ok (lname l, lname ep, k_distance k)) (l_links l).

Lemma edge_list_ok e l : forall es, edge_list e l = Ok es ->
  es = map (fun k => (lname l, name_at e (k_endpoint k), k_distance k)) (roads e (l_links l)).
Proof.
  unfold edge_list, roads. induction (l_links l) as [|ki ks IH]; intros es H; cbn [mapM] in H.
  - now injection H as <-.
  - rstep H. rstep E. apply link_of_ok in E0. rstep E. injection E as <-. rstep H. specialize (IH _ eq_refl). subst. injection H as <-.
    cbn [flat_map map]. rewrite E0. cbn [app map]. f_equal. unfold name_at. cbn.
    unfold endpoint_of, loc_of in E1. apply of_option_ok in E1. now rewrite E1.
Qed.
Lemma flat_nth {A B} (ls : list A) (F : nat -> list B) (G : A -> list B) : forall n,
  (forall i a, nth_error ls i = Some a -> F (n + i)%nat = G a) -> flat_map F (seq n (List.length ls)) = List.concat (map G ls).
Proof.
  induction ls as [|a ls IH]; intros n H; [reflexivity|]. cbn [List.length seq flat_map map List.concat].
  rewrite <- (H 0%nat a eq_refl), Nat.add_0_r. f_equal. apply IH. intros i b Hb. rewrite <- (H (Datatypes.S i) b Hb). f_equal. lia.
Qed.
Lemma edges_concat e : graph_edges e = List.concat (map (fun l => map (fun k => (lname l, name_at e (k_endpoint k), k_distance k)) (roads e (l_links l))) (e_locations e)).
Proof.
  unfold graph_edges. apply (flat_nth (e_locations e)). intros i l H. cbn [plus]. unfold opens. rewrite H. unfold name_at at 1. rewrite H. reflexivity.
Qed.

Lemma graph_ok e vs es : export_graph e = Ok (vs, es) -> vs = map (fun l => sval (l_name l)) (e_locations e) /\ es = graph_edges e.
Proof.
  unfold export_graph. intro H. rstep H. injection H as <- <-. split; [reflexivity|]. rewrite edges_concat. f_equal.
  change (mapM (edge_list e) (e_locations e) = Ok v) in E. revert v E. induction (e_locations e) as [|l ls IH]; intros v H; cbn [mapM] in H.
  - now injection H as <-.
  - rstep H. rstep H. injection H as <-. cbn [map]. f_equal; [now apply edge_list_ok|now apply IH].
Qed.

Theorem graph_exported : forall o e g, reachable o e g ->
  export_graph e = Ok (map (fun l => sval (l_name l)) (e_locations e), graph_edges e).
Proof.
  intros o e g R. apply reachable_inv in R as I.
  assert (X : exists r, export_graph e = Ok r).
  { unfold export_graph. change (exists r, (es <- mapM (edge_list e) (e_locations e) ;; Ok (map lname (e_locations e), List.concat es)) = Ok r).
    assert (A : forall l, In l (e_locations e) -> exists es, edge_list e l = Ok es).
    { intros l Hl. apply In_nth_error in Hl as [i Hl]. destruct (st_loc _ (i_struct _ I) i l Hl) as (_ & _ & _ & K & _).
      unfold edge_list. clear Hl. induction (l_links l) as [|ki ks IH]; [exists []; reflexivity|].
      destruct (K ki (or_introl eq_refl)) as (k & Hk & _). destruct IH as [es E]; [intros k' Hk'; apply K; now right|].
      destruct (st_link _ (i_struct _ I) ki k Hk) as (_ & Be & _). destruct (nth_error_ex _ _ Be) as [ep Ep].
      cbn [mapM]. rewrite (proj2 (link_of_ok e ki k) Hk). cbn [bind]. unfold endpoint_of, loc_of. rewrite Ep. cbn [of_option bind].
      unfold endpoint_of, loc_of in E. rewrite E. cbn [bind]. eauto. }
    assert (B : exists es, mapM (edge_list e) (e_locations e) = Ok es).
    { clear I R. induction (e_locations e) as [|l ls IH]; [exists []; reflexivity|]. destruct (A l (or_introl eq_refl)) as [es E].
      destruct IH as [r Er]; [intros l' Hl'; apply A; now right|]. cbn [mapM]. rewrite E. cbn [bind]. rewrite Er. cbn [bind]. eauto. }
    destruct B as [es ->]. cbn [bind]. eauto. }
  destruct X as [[vs es] X]. rewrite X. apply graph_ok in X as [-> ->]. reflexivity.
Qed.

Theorem graph_edge : forall o e g vs es a b d, reachable o e g -> export_graph e = Ok (vs, es) ->
  (In (a, b, d) es <-> exists i la j lb ki k, nth_error (e_locations e) i = Some la /\ nth_error (e_locations e) j = Some lb /\
     sval (l_name la) = a /\ sval (l_name lb) = b /\ In ki (l_links la) /\ nth_error (e_links e) ki = Some k /\
     k_startpoint k = i /\ k_endpoint k = j /\ k_closed k = false /\ k_distance k = d) /\
  (In (a, b, d) es -> In a vs /\ In b vs).
Proof.
  intros o e g vs es a b d R X. apply graph_ok in X as [-> ->]. apply reachable_inv in R as I.
  assert (W : In (a, b, d) (graph_edges e) <-> exists i la j lb ki k, nth_error (e_locations e) i = Some la /\ nth_error (e_locations e) j = Some lb /\
     sval (l_name la) = a /\ sval (l_name lb) = b /\ In ki (l_links la) /\ nth_error (e_links e) ki = Some k /\
     k_startpoint k = i /\ k_endpoint k = j /\ k_closed k = false /\ k_distance k = d).
  { unfold graph_edges. rewrite in_flat_map. split.
    - intros (i & Hi & H). apply in_map_iff in H as (k & Ek & H). unfold opens in H. destruct (nth_error (e_locations e) i) as [la|] eqn:La; [|destruct H].
      unfold roads in H. apply in_flat_map in H as (ki & Hki & H). destruct (st_loc _ (i_struct _ I) i la La) as (_ & _ & _ & K & _).
      destruct (K ki Hki) as (k0 & Hk & S & C). rewrite Hk in H. destruct H as [<-|[]].
      destruct (st_link _ (i_struct _ I) ki k0 Hk) as (_ & Be & _). destruct (nth_error_ex _ _ Be) as [lb Lb].
      exists i, la, (k_endpoint k0), lb, ki, k0. unfold name_at in Ek. rewrite La in Ek. cbn in Ek. rewrite Lb in Ek. injection Ek as <- <- <-.
      repeat (split; [first [assumption|reflexivity]|]). reflexivity.
    - intros (i & la & j & lb & ki & k & La & Lb & <- & <- & Hki & Hk & S & <- & C & <-). exists i. split.
      + apply in_seq. apply nth_error_lt in La. lia.
      + apply in_map_iff. exists (norm k). unfold name_at. rewrite La. cbn. rewrite Lb. split; [reflexivity|].
        unfold opens. rewrite La. unfold roads. apply in_flat_map. exists ki. split; [exact Hki|]. rewrite Hk. now left. }
  split; [exact W|]. intro H. apply W in H as (i & la & j & lb & ki & k & La & Lb & <- & <- & _).
  split; apply in_map_iff; eexists; (split; [reflexivity|]); eapply nth_error_In; eassumption.
Qed.

Lemma same_names e e' : map (fun l => up_l_links (fun _ => []) (up_l_closed_links (fun _ => []) l)) (e_locations e') =
  map (fun l => up_l_links (fun _ => []) (up_l_closed_links (fun _ => []) l)) (e_locations e) ->
  map (fun l => sval (l_name l)) (e_locations e') = map (fun l => sval (l_name l)) (e_locations e) /\ forall i, name_at e' i = name_at e i.
Proof.
  intro H. assert (N : map (fun l => sval (l_name l)) (e_locations e') = map (fun l => sval (l_name l)) (e_locations e)).
  { apply (f_equal (map (fun l => sval (l_name l)))) in H. rewrite !map_map in H. exact H. }
  split; [exact N|]. intro i. unfold name_at. apply (f_equal (fun l => nth_error l i)) in N. rewrite !nth_error_map in N.
  destruct (nth_error (e_locations e') i), (nth_error (e_locations e) i); cbn in N; congruence.
Qed.
Lemma name_at_of e i l : nth_error (e_locations e) i = Some l -> name_at e i = sval (l_name l).
Proof. unfold name_at. now intros ->. Qed.
Lemma in_edges e x : In x (graph_edges e) <-> exists i k, (i < List.length (e_locations e))%nat /\ In k (opens e i) /\ x = (name_at e i, name_at e (k_endpoint k), k_distance k).
Proof.
  unfold graph_edges. rewrite in_flat_map. split.
  - intros (i & Hi & H). apply in_seq in Hi. apply in_map_iff in H as (k & <- & H). exists i, k. split; [lia|auto].
  - intros (i & k & Hi & H & ->). exists i. split; [apply in_seq; lia|]. apply in_map_iff. eauto.
Qed.

Theorem graph_linked : forall o e g i li j lj d forced attrs e' vs es vs' es',
  reachable o e g -> distinct_names e ->
  nth_error (e_locations e) i = Some li -> nth_error (e_locations e) j = Some lj ->
  link_up (lname li) (lname lj) d forced attrs e = Ok e' ->
  export_graph e = Ok (vs, es) -> export_graph e' = Ok (vs', es') ->
  vs' = vs /\ List.length es' = (List.length es + 2)%nat /\
  forall x, In x es' <-> In x es \/ x = (lname li, lname lj, d) \/ x = (lname lj, lname li, d).
Proof.
  intros o e g i li j lj d forced attrs e' vs es vs' es' R D Hi Hj H X X'.
  destruct (link_made o e g i li j lj d forced attrs R D Hi Hj) as (e1 & did & H1 & Same & _ & _ & O). rewrite H1 in H. injection H as ->.
  apply graph_ok in X as [-> ->]. apply graph_ok in X' as [-> ->]. destruct Same as [M _]. cbn [up_e_dicts e_locations] in M.
  destruct (same_names e e' M) as [N Na]. split; [exact N|].
  assert (Len : List.length (e_locations e') = List.length (e_locations e)) by (apply (f_equal (@List.length _)) in M; now rewrite !map_length in M).
  pose proof (nth_error_lt _ _ _ Hi) as Li. pose proof (nth_error_lt _ _ _ Hj) as Lj. split.
  - unfold graph_edges. rewrite Len.
    assert (C : forall n m, List.length (flat_map (fun p => map (fun k => (name_at e' p, name_at e' (k_endpoint k), k_distance k)) (opens e' p)) (seq n m)) =
      (List.length (flat_map (fun p => map (fun k => (name_at e p, name_at e (k_endpoint k), k_distance k)) (opens e p)) (seq n m)) +
       (if (n <=? i)%nat && (i <? n + m)%nat then 1 else 0) + (if (n <=? j)%nat && (j <? n + m)%nat then 1 else 0))%nat).
    { intros n m. revert n. induction m as [|m IH]; intro n; cbn [seq flat_map].
      - cbn [List.length]. destruct (Nat.leb_spec n i), (Nat.ltb_spec i (n + 0)), (Nat.leb_spec n j), (Nat.ltb_spec j (n + 0)); cbn; lia.
      - rewrite !app_length, IH, !map_length, (proj2 (O n)), !app_length.
        destruct (Nat.eqb_spec n i), (Nat.eqb_spec n j); cbn [List.length];
        destruct (Nat.leb_spec n i), (Nat.ltb_spec i (n + Datatypes.S m)), (Nat.leb_spec n j), (Nat.ltb_spec j (n + Datatypes.S m)),
          (Nat.leb_spec (Datatypes.S n) i), (Nat.ltb_spec i (Datatypes.S n + m)), (Nat.leb_spec (Datatypes.S n) j), (Nat.ltb_spec j (Datatypes.S n + m)); cbn [andb]; lia. }
    rewrite C. cbn [Nat.leb plus andb]. rewrite (proj2 (Nat.ltb_lt _ _) Li), (proj2 (Nat.ltb_lt _ _) Lj). lia.
  - intro x. rewrite !in_edges, Len. split.
    + intros (p & k & Hp & Hk & ->). rewrite (proj2 (O p)) in Hk. rewrite !Na. apply in_app_iff in Hk as [Hk|Hk]; [left; eauto 6|right].
      apply in_app_iff in Hk as [Hk|Hk].
      * destruct (Nat.eqb_spec p i) as [->|]; [|destruct Hk]. destruct Hk as [<-|[]]. left. cbn. now rewrite (name_at_of _ _ _ Hi), (name_at_of _ _ _ Hj).
      * destruct (Nat.eqb_spec p j) as [->|]; [|destruct Hk]. destruct Hk as [<-|[]]. right. cbn. now rewrite (name_at_of _ _ _ Hi), (name_at_of _ _ _ Hj).
    + intros [(p & k & Hp & Hk & ->)|[->| ->]].
      * exists p, k. split; [exact Hp|]. rewrite (proj2 (O p)), !Na. split; [apply in_app_iff; now left|reflexivity].
      * exists i, (Link i j false d 0 0 0 forced did []). split; [exact Li|]. rewrite (proj2 (O i)), Nat.eqb_refl, !Na. cbn [k_endpoint k_distance].
        rewrite (name_at_of _ _ _ Hi), (name_at_of _ _ _ Hj). split; [|reflexivity]. apply in_app_iff. right. now left.
      * exists j, (Link j i false d 0 0 0 false did []). split; [exact Lj|]. rewrite (proj2 (O j)), Nat.eqb_refl, !Na. cbn [k_endpoint k_distance].
        rewrite (name_at_of _ _ _ Hi), (name_at_of _ _ _ Hj). split; [|reflexivity]. apply in_app_iff. right. apply in_app_iff. right. now left.
Qed.

Theorem graph_closed : forall o e g i li j lj close_only e' found vs es vs' es',
  reachable o e g -> distinct_names e ->
  nth_error (e_locations e) i = Some li -> nth_error (e_locations e) j = Some lj ->
  remove_link (l_name li) (l_name lj) false close_only e = Ok (e', found) ->
  export_graph e = Ok (vs, es) -> export_graph e' = Ok (vs', es') ->
  vs' = vs /\ es' = filter (fun x => negb (String.eqb (fst (fst x)) (lname li) && String.eqb (snd (fst x)) (lname lj))) es /\
  (found = true <-> exists d, In (lname li, lname lj, d) es).
Proof.
  intros o e g i li j lj close_only e' found vs es vs' es' R D Hi Hj H X X'.
  destruct (close_exact o e g i li j lj close_only e' found R D Hi Hj H) as (Same & Oi & _ & Op & ->).
  pose proof (reachable_inv _ _ _ R) as I.
  apply graph_ok in X as [-> ->]. apply graph_ok in X' as [-> ->]. destruct Same as [M _].
  destruct (same_names e e' M) as [N Na]. split; [exact N|].
  assert (Len : List.length (e_locations e') = List.length (e_locations e)) by (apply (f_equal (@List.length _)) in M; now rewrite !map_length in M).
  assert (U : forall p a, nth_error (e_locations e) p = Some a -> forall q b, nth_error (e_locations e) q = Some b -> String.eqb (name_at e p) (lname b) = Nat.eqb p q).
  { intros p a Ha q b Hb. rewrite (name_at_of _ _ _ Ha). destruct (Nat.eqb_spec p q) as [->|Ne].
    - rewrite Ha in Hb. injection Hb as <-. apply String.eqb_refl.
    - apply String.eqb_neq. intro E. apply Ne. apply (D _ _ _ _ Ha Hb). now left. }
  assert (Ends : forall p k, In k (opens e p) -> exists b, nth_error (e_locations e) (k_endpoint k) = Some b).
  { intros p k Hk. unfold opens in Hk. destruct (nth_error (e_locations e) p) as [l|] eqn:El; [|destruct Hk].
    unfold roads in Hk. apply in_flat_map in Hk as (ki & Hki & Hk). destruct (nth_error (e_links e) ki) as [k0|] eqn:K; [|destruct Hk].
    destruct Hk as [<-|[]]. destruct (st_link _ (i_struct _ I) ki k0 K) as (_ & Be & _). exact (nth_error_ex _ _ Be). }
  split.
  - unfold graph_edges. rewrite Len.
    assert (W : forall ps, (forall p, In p ps -> (p < List.length (e_locations e))%nat) ->
      flat_map (fun p => map (fun k => (name_at e' p, name_at e' (k_endpoint k), k_distance k)) (opens e' p)) ps =
      filter (fun x : string * string * Q => negb (String.eqb (fst (fst x)) (lname li) && String.eqb (snd (fst x)) (lname lj)))
        (flat_map (fun p => map (fun k => (name_at e p, name_at e (k_endpoint k), k_distance k)) (opens e p)) ps)).
    { induction ps as [|p ps IH]; intro B; [reflexivity|]. cbn [flat_map]. rewrite filter_app. rewrite IH by (intros q Hq; apply B; now right). f_equal.
      destruct (nth_error_ex _ _ (B p (or_introl eq_refl))) as [lp Lp].
      assert (F : opens e' p = filter (fun k => negb (Nat.eqb p i && to_place j k)) (opens e p)).
      { destruct (Nat.eqb_spec p i) as [->|Ne]; [exact Oi|]. rewrite (proj1 (Op p Ne)). symmetry.
        induction (opens e p) as [|k ks IHk]; [reflexivity|]. cbn [filter andb negb]. f_equal. exact IHk. }
      rewrite F. pose proof (Ends p) as En. clear F. induction (opens e p) as [|k ks IHk]; [reflexivity|]. cbn [filter map fst snd].
      destruct (En k (or_introl eq_refl)) as [b Hb].
      rewrite (U _ _ Lp _ _ Hi), (U _ _ Hb _ _ Hj). fold (to_place j k).
      specialize (IHk (fun k' Hk' => En k' (or_intror Hk'))).
      destruct (negb (Nat.eqb p i && to_place j k)); cbn [map]; rewrite IHk; [rewrite !Na; reflexivity|reflexivity]. }
    apply W. intros p Hp. apply in_seq in Hp. lia.
  - rewrite existsb_exists. split.
    + intros (k & Hk & T). exists (k_distance k). apply in_edges. exists i, k. split; [now apply nth_error_lt in Hi|]. split; [exact Hk|].
      unfold to_place in T. apply Nat.eqb_eq in T. rewrite T, (name_at_of _ _ _ Hi), (name_at_of _ _ _ Hj). reflexivity.
    + intros [d Hd]. apply in_edges in Hd as (p & k & Hp & Hk & E). injection E as E1 E2 _.
      destruct (nth_error_ex _ _ Hp) as [lp Lp]. destruct (Ends p k Hk) as [b Hb].
      pose proof (U _ _ Lp _ _ Hi) as Y1. rewrite <- E1, String.eqb_refl in Y1. symmetry in Y1. apply Nat.eqb_eq in Y1. subst p.
      pose proof (U _ _ Hb _ _ Hj) as Y2. rewrite <- E2, String.eqb_refl in Y2. symmetry in Y2. exists k. split; [exact Hk|exact Y2].
Qed.
