(** * ScoreFrames: what score updates and route generation change *)

From Coq Require Import Lia.
From Verif Require Import Base State Moving Crawling Scoring Diagnostics Flee Lemmas Inv InvMoves.

(** ** Only the stored routes of one location *)

Definition Rt (src : nat) (e e' : eco) : Prop :=
  exists r, e' = up_loc src (up_l_routes (fun _ => r)) e.

Lemma eco_eta e : up_e_locations (fun x => x) e = e. Proof. now destruct e. Qed.
Lemma up_loc_id i f e : (forall l, nth_error (e_locations e) i = Some l -> f l = l) -> up_loc i f e = e.
Proof.
  intro H. unfold up_loc. rewrite <- (eco_eta e) at 2. unfold up_e_locations. f_equal.
  rewrite (upd_ext i f (fun l => l)) by assumption. apply upd_id.
Qed.
Lemma up_loc_ext i f f' e : (forall l, nth_error (e_locations e) i = Some l -> f l = f' l) -> up_loc i f e = up_loc i f' e.
Proof. intro H. unfold up_loc, up_e_locations. f_equal. now apply upd_ext. Qed.
Lemma upd_upd {A} n (f h : A -> A) l : upd n h (upd n f l) = upd n (fun a => h (f a)) l.
Proof. revert n; induction l; destruct n; cbn; f_equal; auto. Qed.
Lemma up_loc_up_loc i f h e : up_loc i h (up_loc i f e) = up_loc i (fun l => h (f l)) e.
Proof. unfold up_loc, up_e_locations. cbn. f_equal. apply upd_upd. Qed.

Lemma rt_refl src e : Rt src e e.
Proof.
  destruct (nth_error (e_locations e) src) as [l|] eqn:E.
  - exists (l_routes l). symmetry. apply up_loc_id. intros l' H. assert (l' = l) as -> by congruence. now destruct l.
  - exists []. symmetry. apply up_loc_id. congruence.
Qed.
Lemma rt_trans src a b c : Rt src a b -> Rt src b c -> Rt src a c.
Proof. intros [r ->] [r' ->]. exists r'. rewrite up_loc_up_loc. reflexivity. Qed.
Lemma rt_up src f e : Rt src e (up_loc src (up_l_routes f) e).
Proof.
  destruct (nth_error (e_locations e) src) as [l|] eqn:E.
  - exists (f (l_routes l)). apply up_loc_ext. intros l' H. assert (l' = l) as -> by congruence. reflexivity.
  - exists []. apply up_loc_ext. congruence.
Qed.
#[export] Hint Resolve rt_refl : core.

Lemma rt_addLocationRoute S o e src cur ki prior origin major e' :
  addLocationRoute S o e src cur ki prior origin major = Ok e' -> Rt src e e'.
Proof. unfold addLocationRoute; intro H; rinv H; auto using rt_up. Qed.

Lemma rt_crawlLink fuel S o src ki prior origin step e e' :
  crawlLink fuel S o src ki prior origin step e = Ok e' -> Rt src e e'.
Proof.
  revert ki prior origin step e e'. induction fuel as [|fuel IH]; intros ki prior origin step e e' H;
    cbn [crawlLink] in H; [discriminate|].
  rstep H. rstep H. rstep H.
  assert (S1 : Rt src e v1) by (rinv E1; auto; eapply rt_addLocationRoute; eauto).
  rstep H; [|rinv H; assumption].
  eapply rt_trans; [exact S1|].
  eapply (foldM_rel (Rt src)) in H; eauto using rt_trans.
  intros s a s' _ Hs. rinv Hs; auto. eapply IH; eauto.
Qed.

Lemma rt_addMajorRoute S o route rest : forall src cur prior e e',
  addMajorRoute S o e src cur prior route rest = Ok e' -> Rt src e e'.
Proof.
  induction rest as [|n rest IH]; intros src cur prior e e' H; cbn [addMajorRoute] in H;
    [discriminate|].
  do 3 rstep H; [|discriminate]. destruct rest.
  - eapply rt_addLocationRoute; eauto.
  - rstep H. eapply IH; eauto.
Qed.

Lemma rt_insertMajor S o src hub r d e e' :
  insertMajorRoutesForLocation S o src hub r d e = Ok e' -> Rt src e e'.
Proof.
  unfold insertMajorRoutesForLocation; intro H; rstep H.
  eapply (foldM_rel (Rt src)) in H; eauto using rt_trans.
  intros s a s' _ Hs. destruct a; [discriminate|]. rstep Hs; [rinv Hs; auto|].
  cbv zeta in Hs. eapply rt_addMajorRoute; eauto.
Qed.

Lemma rt_insertAllMajor S o src e e' : insertAllMajorRoutes S o src e = Ok e' -> Rt src e e'.
Proof.
  unfold insertAllMajorRoutes; intro H; do 2 rstep H. cbv zeta in H. rstep H.
  assert (S1 : Rt src e v1) by (rinv E1; auto; eapply rt_insertMajor; eauto).
  eapply rt_trans; [exact S1|].
  eapply (foldM_rel (Rt src)) in H; eauto using rt_trans.
  intros s a s' _ Hs. do 2 rstep Hs. rstep Hs. destruct a0. rstep Hs.
  rstep Hs; [rinv Hs; auto|]. eapply rt_insertMajor; eauto.
Qed.

(** The random stream is only read by the AwarenessLevel 0 branch. *)
Definition Streams (g g' : rng) : Prop :=
  g_u g' = g_u g /\ g_nu g' = g_nu g /\ g_nk g' = g_nk g.
Lemma streams_refl g : Streams g g. Proof. repeat split. Qed.
Lemma streams_trans a b c : Streams a b -> Streams b c -> Streams a c.
Proof. intros (A & B & C) (D & E & F); repeat split; congruence. Qed.
Lemma streams_u g u g' : rng_u g = (u, g') -> Streams g g'.
Proof. intro H; injection H as _ <-. repeat split. Qed.
Lemma streams_nu g u g' : rng_nu g = (u, g') -> Streams g g'.
Proof. intro H; injection H as _ <-. repeat split. Qed.
Lemma streams_nk g u g' : rng_nk g = (u, g') -> Streams g g'.
Proof. intro H; injection H as _ <-. repeat split. Qed.
#[export] Hint Resolve streams_refl : core.
Lemma streams_ok g g' : Streams g g' -> rng_ok g -> rng_ok g'.
Proof. intros (A & B & _) [C D]; split; rewrite ?A, ?B; assumption. Qed.

Lemma streams_randint lo hi g z g' : np_randint lo hi g = Ok (z, g') -> Streams g g'.
Proof.
  unfold np_randint. intro H. rstep H; [discriminate|]. destruct (rng_nk g) eqn:E. injection H as _ <-.
  eapply streams_nk; eauto.
Qed.

Lemma rt_generate S o src e g e' g' :
  generateLocationRoutes S o src e g = Ok (e', g') -> Rt src e e' /\ Streams g g'.
Proof.
  unfold generateLocationRoutes; intro H; rstep H. rstep H; [rinv H; auto|]. cbv zeta in H.
  rstep H. { rstep H. destruct v0. rinv H. split; [apply rt_up|eapply streams_randint; eauto]. }
  do 2 rstep H. rinv H. split; auto.
  eapply rt_trans; [apply rt_up|]. eapply rt_trans; [|eapply rt_insertAllMajor; eauto].
  eapply (foldM_rel (Rt src)) in E0; eauto using rt_trans.
  intros; eapply rt_crawlLink; eauto.
Qed.

(** ** Only stored routes and scores *)

Definition set_score (sc : Q) (r : list (string * (Q * list string * nat))) (l : location) : location :=
  up_l_routes (fun _ => r) (up_l_score1 (fun _ => sc) (up_l_score0 (fun _ => 1%Q) l)).

Lemma updateLocationScore_spec S o t i e g e' g' : updateLocationScore S o t i e g = Ok (e', g') ->
  Streams g g' /\ exists l d sc r, nth_error (e_locations e) i = Some l /\ loc_attrs e l = Ok d /\
    locationScore S o d t l = Ok sc /\ e' = up_loc i (set_score sc r) e /\
    (s_FixedRoutes S = false -> r = l_routes l).
Proof.
  unfold updateLocationScore, loc_of; intro H. rstep H. apply of_option_ok in E. rename v into l.
  rstep H. rename v into d. rstep H. rename v into sc. cbv zeta in H. rstep H.
  - apply rt_generate in H as [[r ->] St]. split; auto. exists l, d, sc, r. repeat split; auto.
    + rewrite up_loc_up_loc; reflexivity.
    + discriminate.
  - rinv H. split; auto. exists l, d, sc, (l_routes l). repeat split; auto.
    apply up_loc_ext. intros l' Hl. assert (l' = l) as -> by congruence. now destruct l.
Qed.

(** The parts of a location that score updates leave alone *)
Definition lsc (l : location) : location := set_score 0 [] l.

Record Sc (e e' : eco) : Prop := {
  sc_eco : e' = up_e_locations (fun _ => e_locations e') e;
  sc_locs : map lsc (e_locations e') = map lsc (e_locations e) }.
Lemma sc_refl e : Sc e e. Proof. split; auto; now destruct e. Qed.
Lemma sc_trans a b c : Sc a b -> Sc b c -> Sc a c.
Proof. intros [A1 A2] [B1 B2]; split; [|congruence]. rewrite B1, A1. now destruct a. Qed.
#[export] Hint Resolve sc_refl : core.
Lemma sc_up_loc i f e : (forall l, lsc (f l) = lsc l) -> Sc e (up_loc i f e).
Proof. intro H; split; cbn; auto. now apply map_upd. Qed.
Lemma sc_rt src e e' : Rt src e e' -> Sc e e'.
Proof. intros [r ->]. apply sc_up_loc. reflexivity. Qed.

Lemma sc_updateLocationScore S o t i e g e' g' : updateLocationScore S o t i e g = Ok (e', g') ->
  Sc e e' /\ Streams g g'.
Proof.
  intro H; apply updateLocationScore_spec in H as (St & l & d & sc & r & _ & _ & _ & -> & _).
  split; auto. now apply sc_up_loc.
Qed.

Lemma sc_update_scores S o e g e' g' : update_scores S o e g = Ok (e', g') -> Sc e e' /\ Streams g g'.
Proof.
  unfold update_scores; intro H.
  eapply (foldM_rel (fun s s' => Sc (fst s) (fst s') /\ Streams (snd s) (snd s'))) in H; auto.
  - intros [e1 g1] [e2 g2] [e3 g3] [A B] [C D]; split; [eapply sc_trans | eapply streams_trans]; eauto.
  - intros [e1 g1] i [e2 g2] _ Hs. cbn [fst snd]. apply sc_updateLocationScore in Hs as [A B]. split; auto.
    eapply sc_trans; [|exact A]. now apply sc_up_loc.
Qed.
