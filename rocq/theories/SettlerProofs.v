(** * SettlerProofs: reading the agents from a table *)

From Coq Require Import Lia.
From Verif Require Import Base State Moving Crawling Scoring Diagnostics Flee DataTable
  Spawning InputGeography Api SpecAgents SpecHistory SpecRoutes SpecTravel SpecClosures SpecChoice SpecZones SpecData SpecSpawn SpecNetwork
  Lemmas Inv InvMoves InvStruct Frames ScoreFrames Travel Closures ChoiceProofs Streams Profile Zones ZoneProps DataProofs SpawnProofs NetworkProofs.
Local Open Scope string_scope.
Local Open Scope list_scope.

Lemma attributes_further headers : forall cells k d attrs, agent_attributes headers cells k d = Ok attrs ->
  (cells = [] /\ attrs = d) \/ exists hs, headers = Some hs /\ (k + List.length cells <= List.length hs)%nat /\
    attrs = fold_left (fun d nc => dict_set (fst nc) (VStr (sval (snd nc))) d) (combine (skipn k hs) cells) d.
Proof.
  induction cells as [|c cells IH]; intros k d attrs H; cbn [agent_attributes] in H; [injection H as <-; auto|].
  rstep H. apply of_option_ok in E. rstep H. apply of_option_ok in E0. right. exists v. split; [exact E|].
  assert (K : skipn k v = v0 :: skipn (S k) v).
  { clear -E0. revert v E0. induction k as [|k IH]; intros [|b v] E; try discriminate; [now injection E as ->|]. now apply IH. }
  rewrite K. cbn [combine fold_left fst snd].
  apply IH in H as [[-> ->]|(cs & C & L & ->)].
  - split; [|now rewrite combine_nil]. apply nth_error_lt in E0. cbn. lia.
  - assert (cs = v) as -> by congruence. split; [cbn; lia|reflexivity].
Qed.

Definition heads_of (headers : option (list string)) : list string := match headers with Some h => h | None => [] end.

Lemma attributes_ok headers cells attrs : agent_attributes headers cells 0 [] = Ok attrs ->
  (List.length cells <= List.length (heads_of headers))%nat /\ attrs = further (heads_of headers) cells.
Proof.
  intro H. unfold further. apply attributes_further in H as [[-> ->]|(hs & -> & L & ->)]; cbn [heads_of].
  - split; [cbn; lia|]. now rewrite combine_nil.
  - split; [exact L|reflexivity].
Qed.

Lemma nth_same {A} (l : list A) : forall m, (forall i, nth_error l i = nth_error m i) -> l = m.
Proof.
  induction l as [|a l IH]; intros [|b m] H; [reflexivity|discriminate (H 0%nat)|discriminate (H 0%nat)|].
  pose proof (H 0%nat) as [= ->]. f_equal. apply IH. intro i. exact (H (S i)).
Qed.

(** The names known to the simulation are those of its locations *)
Lemma grown_named take new e e' : grown take new e e' -> named_ok e -> named_ok e'.
Proof.
  intros G N. assert (M : map l_name (e_locations e') = map l_name (e_locations e)).
  { destruct G as (_ & L & F). apply nth_same. intro i. rewrite !nth_error_map. destruct (nth_error (e_locations e) i) as [l|] eqn:Hl.
    - destruct (F i l Hl) as (l' & -> & U & _). cbn. f_equal. change (l_name (uncounted l') = l_name (uncounted l)). now rewrite U.
    - apply nth_error_None in Hl. rewrite <- L in Hl. apply nth_error_None in Hl. now rewrite Hl. }
  red. rewrite M. destruct G as (-> & _). exact N.
Qed.
Lemma grown_locations take new e e' : grown take new e e' -> List.length (e_locations e') = List.length (e_locations e).
Proof. intros (_ & L & _). exact L. Qed.

Definition is_called (e : eco) (name : string) (i : nat) : bool :=
  match nth_error (e_locations e) i with Some l => String.eqb (sval (l_name l)) name | None => false end.
Lemma called_later take new e e' name i : grown take new e e' -> is_called e' name i = is_called e name i.
Proof.
  intros G. unfold is_called. destruct (nth_error (e_locations e) i) as [l|] eqn:Hl.
  - destruct (grown_nth _ _ _ _ _ _ G Hl) as (l' & -> & ->). reflexivity.
  - apply nth_error_None in Hl. rewrite <- (grown_locations _ _ _ _ G) in Hl. apply nth_error_None in Hl. now rewrite Hl.
Qed.

Lemma settle_loop S d name : forall is_ e e', named_ok e -> e_par e = false ->
  foldM (fun e1 i => n <- of_option IndexError (nth_error (e_locationNames e1) i) ;;
                     if String.eqb (sval n) name then add_agent S i d e1 else Ok e1) is_ e = Ok e' ->
  grown (s_TakeFromPopulation S) (map (fun i => newcomer i d) (filter (is_called e name) is_)) e e'.
Proof.
  induction is_ as [|i is_ IH]; intros e e' N P H; cbn [foldM] in H; [injection H as <-; apply grown_refl|].
  rstep H. rstep E. apply of_option_ok in E0. red in N. rewrite <- N, nth_error_map in E0. cbn [filter].
  assert (Q : is_called e name i = String.eqb (sval v0) name).
  { unfold is_called. destruct (nth_error (e_locations e) i); [|discriminate]. now injection E0 as <-. }
  rewrite Q. destruct (String.eqb (sval v0) name); [|injection E as <-; now apply IH].
  pose proof (append_grown S true i d e v P E) as G. cbn [andb] in G. pose proof (grown_named _ _ _ _ G N) as N'.
  apply IH in H; [|exact N'|now rewrite (grown_par _ _ _ _ G)].
  cbn [map]. rewrite (filter_ext (is_called e name) (is_called v name)) by (intro; symmetry; eapply called_later; exact G).
  exact (grown_trans _ [newcomer i d] _ _ _ _ G H).
Qed.

Lemma settlers_later take new e e' heads r ags : grown take new e e' -> settlers e' heads r ags -> settlers e heads r ags.
Proof.
  intros G (c & cells & -> & L & ->). exists c, cells. split; [reflexivity|]. split; [exact L|]. f_equal.
  rewrite (grown_locations _ _ _ _ G). apply filter_ext. intro i. exact (called_later _ _ _ _ (sval c) i G).
Qed.

Lemma agent_row_ok S headers e r f' h' e' : named_ok e -> e_par e = false -> skipped r = false ->
  read_agent_row S (false, headers, e) r = Ok (f', h', e') ->
  f' = false /\ h' = headers /\ exists new, settlers e (heads_of headers) r new /\ grown (s_TakeFromPopulation S) new e e'.
Proof.
  intros N P K H. unfold read_agent_row in H. rstep H. apply comment_skipped in E. subst v. rewrite K in H.
  do 3 rstep H. injection H as <- <- <-. split; [reflexivity|]. split; [reflexivity|].
  apply attributes_ok in E as [L ->]. destruct r as [|c cells]; [discriminate|]. cbn in E0. injection E0 as <-. cbn [tl] in *.
  apply settle_loop in E1; auto. eexists. split; [|exact E1]. exists c, cells. split; [reflexivity|]. split; [exact L|].
  f_equal. red in N. rewrite <- N, map_length. reflexivity.
Qed.

Lemma agent_rows_ok S headers : forall rows e f' h' e', named_ok e -> e_par e = false ->
  foldM (read_agent_row S) rows (false, headers, e) = Ok (f', h', e') ->
  exists groups, Forall2 (settlers e (heads_of headers)) (filter (fun r => negb (skipped r)) rows) groups /\
    grown (s_TakeFromPopulation S) (List.concat groups) e e'.
Proof.
  induction rows as [|r rows IH]; intros e f' h' e' N P H; cbn [foldM] in H.
  - injection H as <- <- <-. exists []. split; [constructor|apply grown_refl].
  - rstep H. destruct v as [[f1 h1] e1]. cbn [filter]. destruct (skipped r) eqn:K; cbn [negb].
    + unfold read_agent_row in E. rstep E. apply comment_skipped in E0. subst v. rewrite K in E. injection E as <- <- <-. eauto.
    + apply agent_row_ok in E as (-> & -> & new & Sn & G); auto.
      apply IH in H as (groups & F & G'); [|eapply grown_named; eauto|now rewrite (grown_par _ _ _ _ G)].
      exists (new :: groups). split; [|cbn [List.concat]; eapply grown_trans; eauto].
      constructor; [exact Sn|]. clear -F G. induction F as [|a b l m H F IH]; constructor; [eapply settlers_later; eauto|exact IH].
Qed.

Theorem agents_read : forall o e g S rows e', reachable o e g -> read_agents S rows e = Ok e' ->
  exists groups, grown (s_TakeFromPopulation S) (List.concat groups) e e' /\
    match rows with
    | [] => groups = []
    | h :: data => Forall2 (settlers e (if skipped h then [] else map sval (tl h))) (filter (fun r => negb (skipped r)) data) groups
    end.
Proof.
  intros o e g S rows e' R H.
  assert (N : named_ok e). { apply reachable_inv in R. red. symmetry. apply (st_names _ (i_struct _ R)). }
  apply reachable_par in R. unfold read_agents in H. rstep H. destruct v as [[f1 h1] e1]. injection H as <-.
  destruct rows as [|h data]; cbn [foldM] in E; [injection E as <- <- <-; exists []; split; [apply grown_refl|reflexivity]|].
  rstep E. unfold read_agent_row in E0. rstep E0. apply comment_skipped in E1. subst v0.
  destruct (skipped h); injection E0 as <-; apply agent_rows_ok in E as (groups & F & G); auto; exists groups; split; auto.
Qed.

(** ** Comments and columns of the tables *)

Local Opaque skipn.

Lemma location_rows_ok : forall rows cols attr locs cols' attr' locs',
  foldM read_location_row rows (cols, attr, locs) = Ok (cols', attr', locs') ->
  locs' = locs ++ filter (fun r => negb (skipped r)) rows /\
  cols' = cols ++ flat_map (fun r => if skipped r then map sval (skipn 8 r) else []) rows /\
  attr' = (if existsb (fun r => skipped r && (8 <? List.length r)%nat)%bool rows then Some cols' else attr).
Proof.
  induction rows as [|r rows IH]; intros cols attr locs cols' attr' locs' H; cbn [foldM] in H.
  - injection H as <- <- <-. cbn. now rewrite !app_nil_r.
  - rstep H. destruct v as [[c1 a1] l1]. unfold read_location_row in E. rstep E. apply comment_skipped in E0. subst v.
    cbn [filter flat_map existsb]. destruct (skipped r) eqn:K; cbn [negb andb].
    + destruct (8 <? List.length r)%nat eqn:L; injection E as <- <- <-; apply IH in H as (-> & C & A).
      * split; [reflexivity|]. split; [rewrite C, <- app_assoc; reflexivity|]. cbn [orb]. rewrite A. match goal with |- (if ?b then _ else _) = _ => destruct b eqn:X end; [reflexivity|].
        f_equal. rewrite C. apply Nat.ltb_lt in L.
        assert (N : flat_map (fun r => if skipped r then map sval (skipn 8 r) else []) rows = []).
        { clear -X. induction rows as [|r rows IH]; [reflexivity|]. cbn [existsb flat_map] in *. apply Bool.orb_false_elim in X as [X Y].
          rewrite (IH Y). destruct (skipped r); [|reflexivity]. cbn [andb] in X. apply Nat.ltb_ge in X. now rewrite skipn_all2. }
        rewrite N. now rewrite !app_nil_r.
      * apply Nat.ltb_ge in L. rewrite skipn_all2 by exact L. cbn [map app orb]. auto.
    + injection E as <- <- <-. apply IH in H as (-> & -> & A). split; [now rewrite <- app_assoc|]. split; [reflexivity|exact A].
Qed.

Theorem locations_read : forall rows cols locs, read_locations rows = Ok (cols, locs) ->
  locs = filter (fun r => negb (skipped r)) rows /\
  cols = (if existsb (fun r => skipped r && (8 <? List.length r)%nat)%bool rows
          then Some (["name"; "region"; "country"; "gps_x"; "gps_y"; "location_type"; "conflict_date"; "pop/cap"] ++
                     flat_map (fun r => if skipped r then map sval (skipn 8 r) else []) rows)
          else None).
Proof.
  intros rows cols locs H. unfold read_locations in H. rstep H. destruct v as [[c a] l]. injection H as <- <-.
  apply location_rows_ok in E as (-> & -> & ->). split; reflexivity.
Qed.

Lemma link_rows_ok : forall rows cols attr locs cols' attr' locs',
  foldM read_link_row rows (cols, attr, locs) = Ok (cols', attr', locs') ->
  locs' = locs ++ filter (fun r => negb (skipped r)) rows /\
  cols' = cols ++ flat_map (fun r => if skipped r then map sval (skipn 4 r) else []) rows /\
  attr' = (if existsb skipped rows then Some cols' else attr).
Proof.
  induction rows as [|r rows IH]; intros cols attr locs cols' attr' locs' H; cbn [foldM] in H.
  - injection H as <- <- <-. cbn. now rewrite !app_nil_r.
  - rstep H. destruct v as [[c1 a1] l1]. unfold read_link_row in E. rstep E. apply comment_skipped in E0. subst v.
    cbn [filter flat_map existsb]. destruct (skipped r) eqn:K; cbn [negb orb]; cbv zeta in E; injection E as <- <- <-; apply IH in H as (-> & C & A).
    + split; [reflexivity|].
      assert (Q : (if (4 <? List.length r)%nat then cols ++ map sval (skipn 4 r) else cols) = cols ++ map sval (skipn 4 r)).
      { destruct (4 <? List.length r)%nat eqn:L; [reflexivity|]. apply Nat.ltb_ge in L. rewrite skipn_all2 by exact L. cbn. now rewrite app_nil_r. }
      rewrite Q in *. split; [rewrite C, <- app_assoc; reflexivity|]. rewrite A. destruct (existsb skipped rows) eqn:X; [reflexivity|].
      f_equal. rewrite C.
      assert (N : flat_map (fun r => if skipped r then map sval (skipn 4 r) else []) rows = []).
      { clear -X. induction rows as [|r rows IH]; [reflexivity|]. cbn [existsb flat_map] in *. apply Bool.orb_false_elim in X as [X Y].
        rewrite (IH Y), X. reflexivity. }
      rewrite N. now rewrite !app_nil_r.
    + split; [now rewrite <- app_assoc|]. split; [exact C|exact A].
Qed.

Theorem links_read : forall rows cols links, read_links rows = Ok (cols, links) ->
  links = filter (fun r => negb (skipped r)) rows /\
  cols = (if existsb skipped rows
          then Some (["name1"; "name2"; "distance"; "forced_redirection"] ++
                     flat_map (fun r => if skipped r then map sval (skipn 4 r) else []) rows)
          else None).
Proof.
  intros rows cols links H. unfold read_links in H. rstep H. destruct v as [[c a] l]. injection H as <- <-.
  apply link_rows_ok in E as (-> & -> & ->). split; reflexivity.
Qed.

(** ** Weights after adding a location *)

Theorem added_weights : forall o g0 S name region x y descr given cap pop foreign country attrs e g e' g',
  reachable o e g0 -> decay_ok S ->
  add_location S o name region x y descr given cap pop foreign country attrs e g = Ok (e', g') -> weights_current S e'.
Proof.
  intros o g0 S name region x y descr given cap pop foreign country attrs e g e' g' R D H.
  pose proof (weights_count _ _ _ R) as W. destruct (reachable_timed _ _ _ R) as [T0 T].
  pose proof (location_added _ _ _ _ _ _ _ _ _ _ _ _ _ _ _ _ _ H) as (l & d & E & _ & _ & _ & _ & _ & _ & _ & _ & _ & _ & _ & _ & U & _).
  unfold add_location in H. 
  match type of H with (let (_, _) := ?x in _) = _ => destruct x as [e0 did] eqn:Q end.
  rstep H. rstep H. cbv zeta in H. rstep H. destruct v1 as [e1 g1]. rstep H. injection H as <- <-.
  match type of E3 with refresh_spawn_weights S ?x = _ => set (e2 := x) in * end.
  pose proof (refresh_only _ _ _ E3) as F.
  assert (L : e_locations e2 = e_locations e ++ [l]).
  { transitivity (e_locations v1); [rewrite F; reflexivity|rewrite E; reflexivity]. }
  assert (Tm : e_time e2 = e_time e) by (transitivity (e_time v1); [rewrite F; reflexivity|rewrite E; reflexivity]).
  assert (Wt : e_spawn_weights e1 = e_spawn_weights e).
  { apply updateLocationScore_spec in E2 as (_ & l0 & d0 & sc & rt & _ & _ & _ & -> & _). destruct attrs; injection Q as <- <-; reflexivity. }
  destruct (refresh_any S e2 D) as (e3 & E4 & Wc & _).
  - split; rewrite Tm; [exact T0|]. rewrite L. intros m Hm. apply in_app_or in Hm as [Hm|[<-|[]]]; [now apply T|].
    destruct U as (_ & _ & _ & _ & _ & _ & _ & _ & ->). lia.
  - rewrite L. unfold e2. cbn [up_e_locationNames up_e_spawn_weights e_spawn_weights]. rewrite Wt, !app_length, W. reflexivity.
  - congruence.
Qed.
