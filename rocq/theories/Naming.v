(** * Naming: names of locations, scheduled closures as calls, forced redirections *)

From Coq Require Import Lia Permutation.
From Verif Require Import Base State Moving Flee Api SpecHistory SpecRoutes SpecClosures SpecCalls Lemmas Inv InvStruct ScoreFrames
  RouteProofs Closures ClosureProps Detached OffRoad.
Local Open Scope string_scope.
Local Open Scope list_scope.

(** ** Names *)

Lemma found_convert e n : found_as e (sval n) (convert_name e n).
Proof.
  unfold found_as, convert_name. pose proof (last_index_spec (sval n) (map lname (e_locations e)) 0 None) as L.
  destruct (last_index _ _ _ _) as [r|].
  - destruct L as [[X _]|(p & -> & P & M)]; [discriminate|]. left. rewrite nth_error_map in P. cbn [Nat.add].
    destruct (nth_error (e_locations e) p) as [l|] eqn:E; [|discriminate]. injection P as P. exists l. split; [reflexivity|]. split; [exact P|].
    intros j k Hk N. assert (X : nth_error (map lname (e_locations e)) j = Some (sval n)) by (rewrite nth_error_map, Hk; cbn; now rewrite <- N).
    specialize (M j X). lia.
  - destruct L as [_ L]. right. split; [|reflexivity]. intros l Hl E. apply L. rewrite <- E. now apply (in_map lname).
Qed.
Lemma found_unique e n i j : found_as e n i -> found_as e n j -> i = j.
Proof.
  intros [(l & Hl & L & M)|[N ->]] [(k & Hk & K & P)|[O ->]]; [|exfalso|exfalso|reflexivity].
  - specialize (M j k Hk K). specialize (P i l Hl L). lia.
  - eapply O; [eapply nth_error_In, Hl|exact L].
  - eapply N; [eapply nth_error_In, Hk|exact K].
Qed.
Lemma found_iff e n i : found_as e (sval n) i <-> convert_name e n = i.
Proof. split; [intro H; eapply found_unique; [apply found_convert|exact H]|intros <-; apply found_convert]. Qed.

(** ** Closures as calls *)

Lemma run_app o h1 h2 e g : run o (h1 ++ h2) e g = ('(e1, g1) <- run o h1 e g ;; run o h2 e1 g1).
Proof.
  unfold run. rewrite foldM_app. destruct (foldM _ h1 (e, g)) as [[e1 g1]|]; reflexivity.
Qed.

Lemma enact_calls o fuel S t tw c e g :
  run o (map (pair S) (closure_calls fuel t tw c)) e g = (e' <- enact_one fuel S t tw e c ;; Ok (e', g)).
Proof.
  unfold closure_calls, enact_one, enact_close, enact_open, closure_kinds. cbn [find fst].
  rewrite !(String.eqb_sym _ (c_kind c)).
  repeat match goal with |- context [String.eqb (c_kind c) ?s] => destruct (String.eqb (c_kind c) s) eqn:? end;
  destruct (t =? c_start c)%Z; destruct (t =? c_end c)%Z; unfold run, close_link; cbn [app map foldM fst snd step bind rmap];
  repeat match goal with
  | |- context [bind (bind ?x _) _] => destruct x; cbn [bind rmap fst snd]
  | |- context [bind ?x _] => destruct x; cbn [bind rmap fst snd]
  end; try reflexivity.
Qed.

Theorem schedule_calls : forall o fuel S t twoway e g,
  run o (map (pair S) (flat_map (closure_calls fuel t twoway) (e_closures e))) e g =
  (e' <- enact_border_closures fuel S t twoway e ;; Ok (e', g)).
Proof.
  intros o fuel S t tw e g. unfold enact_border_closures. generalize (e_closures e). intro L. revert e g.
  induction L as [|c L IH]; intros e g; [reflexivity|]. cbn [flat_map foldM]. rewrite map_app, run_app, enact_calls.
  destruct (enact_one fuel S t tw e c) as [e1|]; cbn [bind]; [apply IH|reflexivity].
Qed.

(** ** Forced redirections *)

Definition redirect (v : bool) (m : string) (e : eco) (ids : list nat) (ki : nat) (k : link) : link :=
  if (existsb (Nat.eqb ki) ids && String.eqb (name_at e (k_endpoint k)) m)%bool then up_k_forced_redirection (fun _ => v) k else k.

Lemma redirect_loop v m : forall ids e e',
  foldM (fun e1 ki => k <- link_of e1 ki ;; ep <- endpoint_of e1 k ;;
           if String.eqb (lname ep) m then Ok (up_link ki (up_k_forced_redirection (fun _ => v)) e1) else Ok e1) ids e = Ok e' ->
  e' = up_e_links (fun _ => e_links e') e /\
  forall ki, nth_error (e_links e') ki = option_map (redirect v m e ids ki) (nth_error (e_links e) ki).
Proof.
  induction ids as [|x ids IH]; intros e e' H.
  - injection H as <-. split; [now destruct e|]. intro ki. unfold redirect. cbn [existsb andb]. now destruct (nth_error _ ki).
  - cbn [foldM] in H. rstep H. rename v0 into e1. rstep E. apply of_option_ok in E0. rename v0 into k. rstep E. apply of_option_ok in E1. rename v0 into ep.
    apply IH in H as [H1 H2].
    assert (X : e_locations e1 = e_locations e /\ e1 = up_e_links (fun _ => e_links e1) e /\
                forall ki, nth_error (e_links e1) ki = option_map (fun k => if (Nat.eqb ki x && String.eqb (name_at e (k_endpoint k)) m)%bool
                                                           then up_k_forced_redirection (fun _ => v) k else k) (nth_error (e_links e) ki)).
    { assert (N : name_at e (k_endpoint k) = lname ep) by (unfold name_at; now rewrite E1).
      destruct (String.eqb (lname ep) m) eqn:Q; injection E as <-.
      - split; [reflexivity|]. split; [reflexivity|]. intro ki. cbn [up_link up_e_links e_links].
        destruct (Nat.eqb_spec ki x) as [->|Ne]; cbn [andb].
        + rewrite nth_upd_same, E0. cbn [option_map]. now rewrite N, Q.
        + rewrite nth_upd_other by auto. now destruct (nth_error _ ki).
      - split; [reflexivity|]. split; [now destruct e|]. intro ki. destruct (Nat.eqb_spec ki x) as [->|Ne]; cbn [andb].
        + rewrite E0. cbn [option_map]. now rewrite N, Q.
        + now destruct (nth_error _ ki). }
    destruct X as (X1 & X2 & X3). split.
    + rewrite H1, X2. now destruct e.
    + intro ki. rewrite H2, X3. destruct (nth_error (e_links e) ki) as [q|]; [|reflexivity]. cbn [option_map]. f_equal.
      assert (NA : forall i, name_at e1 i = name_at e i) by (intro i; unfold name_at; now rewrite X1).
      unfold redirect. rewrite !NA. cbn [existsb].
      destruct (String.eqb (name_at e (k_endpoint q)) m) eqn:Q; destruct (Nat.eqb ki x); destruct (existsb (Nat.eqb ki) ids); cbn [andb orb];
        cbn [up_k_forced_redirection k_endpoint]; rewrite ?Q; reflexivity.
Qed.

Theorem redirected : forall o e g n m v, reachable o e g -> e_locations e <> [] ->
  exists e' i l, set_forced_redirection n m v e = Ok e' /\ found_as e (sval n) i /\ nth_error (e_locations e) i = Some l /\
    e' = up_e_links (fun _ => e_links e') e /\
    forall ki, nth_error (e_links e') ki =
      option_map (fun k => if (existsb (Nat.eqb ki) (l_links l) && String.eqb (name_at e (k_endpoint k)) (sval m))%bool
                           then up_k_forced_redirection (fun _ => v) k else k) (nth_error (e_links e) ki).
Proof.
  intros o e g n m v R N. pose proof (reachable_inv _ _ _ R) as I.
  assert (T : exists e', set_forced_redirection n m v e = Ok e').
  { pose proof (convert_lt e n N) as C. destruct (nth_error_ex _ _ C) as [l Hl]. unfold set_forced_redirection, loc_of. rewrite Hl. cbn [of_option bind].
    assert (G : forall ids u, (forall ki, In ki ids -> exists k ep, nth_error (e_links u) ki = Some k /\ nth_error (e_locations u) (k_endpoint k) = Some ep) ->
      exists u', foldM (fun e1 ki => k <- link_of e1 ki ;; ep <- endpoint_of e1 k ;;
           if String.eqb (lname ep) (sval m) then Ok (up_link ki (up_k_forced_redirection (fun _ => v)) e1) else Ok e1) ids u = Ok u').
    { induction ids as [|x ids IH]; intros u Hu; [eexists; reflexivity|]. destruct (Hu x (or_introl eq_refl)) as (k & ep & K & Ep).
      cbn [foldM]. unfold link_of, endpoint_of, loc_of. rewrite K. cbn [of_option bind]. rewrite Ep. cbn [of_option bind].
      destruct (String.eqb (lname ep) (sval m)); cbn [bind]; apply IH; intros ki Hk; destruct (Hu ki (or_intror Hk)) as (k' & ep' & K' & Ep'); [|eauto].
      cbn [up_link up_e_links e_links e_locations]. destruct (Nat.eq_dec ki x) as [->|Ne].
      - rewrite nth_upd_same, K. cbn [option_map]. do 2 eexists. split; [reflexivity|]. exact Ep.
      - rewrite nth_upd_other by auto. eauto. }
    apply G. intros ki Hk. apply endpoint_ex; [apply I|]. destruct (st_loc _ (i_struct _ I) _ _ Hl) as (_ & _ & _ & L & _). destruct (L ki Hk) as (k & K & _). eapply nth_error_lt; eauto. }
  destruct T as [e' H]. exists e', (convert_name e n). pose proof H as H0. unfold set_forced_redirection in H. rstep H. apply of_option_ok in E.
  exists v0. split; [exact H0|]. split; [apply found_convert|]. split; [exact E|]. exact (redirect_loop v (sval m) _ _ _ H).
Qed.

(** They play no part in the choice of a route. *)
Section Unforced.
  Variables (S : settings) (o : oracle) (e : eco).

  Let strip := up_k_forced_redirection (fun _ => false).
  Lemma unforced_link ki : link_of (unforced e) ki = rmap strip (link_of e ki).
  Proof. unfold link_of, unforced. cbn [up_e_links e_links]. rewrite nth_error_map. now destruct (nth_error (e_links e) ki). Qed.
  Lemma unforced_weight a : forall fuel ki prior origin step time,
    calculateLinkWeight fuel S o (unforced e) a ki prior origin step time = calculateLinkWeight fuel S o e a ki prior origin step time.
  Proof.
    induction fuel as [|fuel IH]; intros ki prior origin step time; [reflexivity|]. cbn [calculateLinkWeight]. rewrite unforced_link.
    destruct (link_of e ki) as [k|]; [|reflexivity]. cbn [rmap bind].
    change (endpoint_of (unforced e) (strip k)) with (endpoint_of e k). destruct (endpoint_of e k) as [ep|]; [|reflexivity]. cbn [bind].
    change (linkWeight S o (unforced e) a (strip k) ep prior time) with (linkWeight S o e a k ep prior time).
    destruct (if l_marker ep then _ else _) as [[own step1]|]; [|reflexivity]. cbn [bind].
    destruct (step1 <? s_AwarenessLevel S)%Z; [|reflexivity]. apply foldM_ext. intros acc li _. rewrite unforced_link.
    destruct (link_of e li) as [lel|]; [|reflexivity]. cbn [rmap bind].
    change (endpoint_of (unforced e) (strip lel)) with (endpoint_of e lel). destruct (endpoint_of e lel) as [lep|]; [|reflexivity]. cbn [bind].
    destruct (mem_str (lname lep) origin); [reflexivity|]. change (k_distance (strip k)) with (k_distance k). now rewrite IH.
  Qed.
End Unforced.

Theorem unforced_choice : forall S o e a l time g, selectRoute S o (unforced e) a l time g = selectRoute S o e a l time g.
Proof.
  intros S o e a l time g. unfold selectRoute.
  assert (A : allRoutes S o (unforced e) a l time = allRoutes S o e a l time).
  { unfold allRoutes. apply foldM_ext. intros acc ki _. change (route_fuel (unforced e)) with (route_fuel e). now rewrite unforced_weight. }
  rewrite A. reflexivity.
Qed.

(** ** Closures in terms of names *)

Theorem close_named : forall o e g s t close_only e' found x,
  reachable o e g -> remove_link s t false close_only e = Ok (e', found) -> found_as e (sval s) x ->
  same_but_links e e' /\
  opens e' x = filter (not (to_object e t)) (opens e x) /\
  closeds e' x = (closeds e x ++ (if close_only then filter (to_object e t) (opens e x) else []))%list /\
  (forall p, p <> x -> opens e' p = opens e p /\ closeds e' p = closeds e p) /\
  found = existsb (to_object e t) (opens e x).
Proof. intros o e g s t co e' found x R H X. apply found_iff in X as <-. exact (close_objects _ _ _ _ _ _ _ _ R H). Qed.

Theorem entered_never : forall o e g s t close_only e1 found i ki k h e2 g2 ai a2,
  reachable o e g -> rng_ok g ->
  remove_link s t false close_only e = Ok (e1, found) ->
  found_as e (sval s) i -> open_link e i ki k -> to_object e t k = true ->
  run o h e1 g = Ok (e2, g2) -> nth_error (e_agents e2) ai = Some a2 -> a_location a2 = PLink ki ->
  off_road e1 ki /\
  exists a1, nth_error (e_agents e1) ai = Some a1 /\ a_location a1 = PLink ki /\
    a_places_travelled a1 = a_places_travelled a2.
Proof. intros o e g s t co e1 found i ki k h e2 g2 ai a2 R G H X. apply found_iff in X. revert R G H X. apply never_entered. Qed.

Theorem link_back : forall o e g s t twoway e1 e2 b1 b2, reachable o e g ->
  close_link s t twoway e = Ok (e1, b1) -> reopen_link s t twoway e1 = Ok (e2, b2) ->
  (forall i k, found_as e (sval (if twoway then t else s)) i -> In k (closeds e i) ->
     to_object e (if twoway then s else t) k = false) ->
  (same_but_links e e2 /\
   forall p, Permutation (opens e2 p) (opens e p) /\ Permutation (closeds e2 p) (closeds e p)) /\ b2 = b1.
Proof.
  intros o e g s t tw e1 e2 b1 b2 R H1 H2 N. apply (link_restored _ _ _ _ _ _ _ _ _ _ R H1 H2).
  intro k. apply N. apply found_convert.
Qed.

Theorem traffic_back : forall o e g s t twoway e1 e2 b1 b2, reachable o e g ->
  close_link s t twoway e = Ok (e1, b1) -> reopen_link s t twoway e1 = Ok (e2, b2) ->
  (forall i k, found_as e (sval (if twoway then t else s)) i -> In k (closeds e i) ->
     to_object e (if twoway then s else t) k = false) ->
  forall p, Permutation
    (map (fun k => (k_startpoint k, k_endpoint k, k_distance k, k_cumNumAgents k)) (opens e2 p))
    (map (fun k => (k_startpoint k, k_endpoint k, k_distance k, k_cumNumAgents k)) (opens e p)).
Proof.
  intros o e g s t tw e1 e2 b1 b2 R H1 H2 N. apply (traffic_survives _ _ _ _ _ _ _ _ _ _ R H1 H2).
  intro k. apply N. apply found_convert.
Qed.

Theorem close_mark : forall s t e e' b i l ki k ep, close_link s t false e = Ok (e', b) ->
  found_as e (sval s) i -> nth_error (e_locations e) i = Some l -> In ki (l_links l) ->
  nth_error (e_links e) ki = Some k -> nth_error (e_locations e) (k_endpoint k) = Some ep ->
  py_is (l_name ep) t = true ->
  e_agents e' = e_agents e /\ exists k', nth_error (e_links e') ki = Some k' /\ k_closed k' = true.
Proof. intros s t e e' b i l ki k ep H X. apply found_iff in X. revert H X. apply close_marks. Qed.
