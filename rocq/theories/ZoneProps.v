(** * ZoneProps: camps, conflict zones, spawn weights, links *)

From Coq Require Import Lia Lqa.
From Verif Require Import Base State Moving Crawling Scoring Diagnostics Flee DataTable
  Spawning InputGeography Api SpecAgents SpecHistory SpecRoutes SpecTravel SpecClosures SpecChoice SpecZones
  Lemmas Inv InvMoves InvStruct Frames ScoreFrames Travel Closures ChoiceProofs Profile Zones.

(** ** Changing one location *)

Lemma up_one i l f e : nth_error (e_locations e) i = Some l -> only_location i l (f l) e (up_loc i f e).
Proof.
  intro H. split; [exact H|]. cbn [up_loc up_e_locations e_locations]. rewrite nth_upd_same, H. split; [reflexivity|].
  split; [|reflexivity]. intros j N. apply nth_upd_other. congruence.
Qed.
Lemma convert_named e i l n : distinct_names e -> nth_error (e_locations e) i = Some l -> sval n = lname l -> convert_name e n = i.
Proof. intros D H E. rewrite <- (convert_own e i l D H). unfold convert_name. now rewrite E. Qed.
Lemma on_named e i l n f : distinct_names e -> nth_error (e_locations e) i = Some l -> sval n = lname l ->
  on_named_loc n f e = Ok (up_loc i f e).
Proof. intros D H E. unfold on_named_loc. rewrite (convert_named e i l n D H E). unfold loc_of. rewrite H. reflexivity. Qed.

Lemma camp_opened S n idp e i l : distinct_names e -> nth_error (e_locations e) i = Some l -> sval n = lname l ->
  exists e' l', open_camp S n idp e = Ok e' /\ only_location i l l' e e' /\ untyped l' = untyped l /\
    l_camp l' = true /\ l_idpcamp l' = (idp || l_idpcamp l)%bool /\ l_town l' = false /\ l_forward l' = false /\
    l_marker l' = false /\ l_flood_zone l' = false /\ l_conflict l' = (-1)%Q /\
    l_movechance l' = (if idp then s_IDPCampMoveChance S else s_CampMoveChance S).
Proof.
  intros D H E. eexists. eexists. split; [apply (on_named e i l); assumption|]. split; [apply up_one, H|].
  unfold loc_open_camp. destruct idp; cbn; repeat split.
Qed.
Lemma camp_closed S n idp e i l : distinct_names e -> nth_error (e_locations e) i = Some l -> sval n = lname l ->
  exists e' l', close_camp S n idp e = Ok e' /\ only_location i l l' e e' /\ untyped l' = untyped l /\
    l_camp l' = false /\ l_idpcamp l' = false /\ l_town l' = true /\ l_forward l' = false /\
    l_marker l' = false /\ l_flood_zone l' = false /\ l_conflict l' = (-1)%Q /\
    l_movechance l' = s_DefaultMoveChance S.
Proof.
  intros D H E. eexists. eexists. split; [apply (on_named e i l); assumption|]. split; [apply up_one, H|]. repeat split.
Qed.

Lemma type_changed S n t e i l e' : distinct_names e -> nth_error (e_locations e) i = Some l -> sval n = lname l ->
  change_location_type S n t e = Ok e' ->
  exists l', only_location i l l' e e' /\ untyped l' = untyped l /\ l_conflict l' = (-1)%Q /\
    l_camp l' = str_in "camp" (lower t) /\ l_idpcamp l' = (l_camp l' && str_in "idp" (lower t))%bool /\
    (* exactly one of the five kinds *)
    [l_camp l'; l_forward l'; l_marker l'; l_flood_zone l'; l_town l'] =
      (if str_in "camp" (lower t) then [true; false; false; false; false]
       else if str_in "forward" (lower t) then [false; true; false; false; false]
       else if str_in "marker" (lower t) then [false; false; true; false; false]
       else if str_in "flood_zone" (lower t) then [false; false; false; true; false]
       else [false; false; false; false; true]) /\
    l_movechance l' = (if l_idpcamp l' then s_IDPCampMoveChance S else if l_camp l' then s_CampMoveChance S
                       else if (l_forward l' || l_marker l')%bool then 1%Q else s_DefaultMoveChance S).
Proof.
  intros D H E C. unfold change_location_type in C. cbv zeta in C.
  destruct (str_in "camp" (lower t)) eqn:B1.
  { rewrite (on_named e i l) in C by assumption. injection C as <-. eexists. split; [apply up_one, H|].
    destruct (str_in "idp" (lower t)); cbn; repeat split. }
  destruct (str_in "conflict" (lower t)) eqn:B2. { rstep C. discriminate. }
  destruct (str_in "forward" (lower t)) eqn:B3.
  { rewrite (on_named e i l) in C by assumption. injection C as <-. eexists. split; [apply up_one, H|]. cbn; repeat split. }
  destruct (str_in "marker" (lower t)) eqn:B4.
  { rewrite (on_named e i l) in C by assumption. injection C as <-. eexists. split; [apply up_one, H|]. cbn; repeat split. }
  destruct (str_in "flood_zone" (lower t)) eqn:B5.
  { rewrite (on_named e i l) in C by assumption. injection C as <-. eexists. split; [apply up_one, H|]. cbn; repeat split. }
  rstep C; [|rstep C; discriminate].
  rewrite (on_named e i l) in C by assumption. injection C as <-. eexists. split; [apply up_one, H|]. cbn; repeat split.
Qed.
Lemma type_conflict_fails S n t e : str_in "camp" (lower t) = false -> str_in "conflict" (lower t) = true ->
  e_locations e <> [] -> change_location_type S n t e = Err AttributeError.
Proof.
  intros A B N. unfold change_location_type. rewrite A, B. unfold on_named_loc, loc_of.
  destruct (nth_error_ex _ _ (convert_lt e n N)) as [l ->]. reflexivity.
Qed.

(** ** Decay *)

Lemma py_index_nth {A} (l : list A) z d : (0 <= z < Z.of_nat (List.length l))%Z -> py_index l z = Ok (nth (Z.to_nat z) l d).
Proof.
  intro H. unfold py_index. replace (z <? 0)%Z with false by lia. cbv zeta. replace (z <? 0)%Z with false by lia.
  rewrite (nth_error_nth' l d) by lia. reflexivity.
Qed.

Lemma decay_spec S t : decay_ok S -> (0 <= t)%Z -> get_conflict_decay S t = Ok (decay_after S t).
Proof.
  unfold decay_ok, get_conflict_decay, decay_after. destruct (s_conflict_spawn_decay S) as [[|a l]|]; [reflexivity| |reflexivity].
  intros I T. cbv zeta. set (L := a :: l). assert (HL : (1 <= Z.of_nat (List.length L))%Z) by (unfold L; cbn [List.length]; lia).
  clearbody L. replace (Z.of_nat (List.length L) <? 1)%Z with false by lia. replace (s_conflict_spawn_decay_interval S =? 0)%Z with false by lia.
  rewrite Z.quot_div_nonneg by lia. apply py_index_nth. assert (0 <= t / s_conflict_spawn_decay_interval S)%Z by (apply Z.div_pos; lia). lia.
Qed.

Lemma decay_lookup S l t : s_conflict_spawn_decay S = Some l -> l <> [] -> (0 < s_conflict_spawn_decay_interval S)%Z -> (0 <= t)%Z ->
  exists k d, get_conflict_decay S t = Ok d /\ nth_error l k = Some d /\
    (Z.of_nat k * s_conflict_spawn_decay_interval S <= t)%Z /\
    ((t < (Z.of_nat k + 1) * s_conflict_spawn_decay_interval S)%Z \/ k = (List.length l - 1)%nat).
Proof.
  intros E N I T. assert (HL : (1 <= List.length l)%nat) by (destruct l; [congruence|cbn; lia]).
  set (iv := s_conflict_spawn_decay_interval S) in *.
  assert (Q0 : (0 <= t / iv)%Z) by (apply Z.div_pos; lia).
  exists (Z.to_nat (Z.min (t / iv) (Z.of_nat (List.length l) - 1))), (decay_after S t).
  split; [apply decay_spec; [unfold decay_ok; rewrite E; destruct l; [exact Logic.I|exact I]|exact T]|].
  pose proof (Z.mul_div_le t iv I). pose proof (Z.mul_succ_div_gt t iv I).
  split.
  - unfold decay_after. rewrite E. destruct l as [|a l]; [congruence|]. fold iv. apply nth_error_nth'. lia.
  - split; [nia|]. destruct (Z.le_gt_cases (Z.of_nat (List.length l)) (t / iv)).
    + right. lia.
    + left. nia.
Qed.

Lemma decay_none S t : s_conflict_spawn_decay S = None \/ s_conflict_spawn_decay S = Some [] -> get_conflict_decay S t = Ok 1%Q.
Proof. unfold get_conflict_decay. intros [-> | ->]; reflexivity. Qed.

Lemma decay_monotone S l t1 t2 d1 d2 : s_conflict_spawn_decay S = Some l -> (0 < s_conflict_spawn_decay_interval S)%Z ->
  (forall i j a b, nth_error l i = Some a -> nth_error l j = Some b -> (i <= j)%nat -> (b <= a)%Q) ->
  (0 <= t1)%Z -> (t1 <= t2)%Z -> get_conflict_decay S t1 = Ok d1 -> get_conflict_decay S t2 = Ok d2 -> (d2 <= d1)%Q.
Proof.
  intros E I M T0 T H1 H2. destruct l as [|a l].
  { rewrite decay_none in H1, H2 by auto. injection H1 as <-. injection H2 as <-. lra. }
  destruct (decay_lookup S (a :: l) t1 E ltac:(discriminate) I T0) as (k1 & e1 & G1 & N1 & A1 & B1).
  destruct (decay_lookup S (a :: l) t2 E ltac:(discriminate) I ltac:(lia)) as (k2 & e2 & G2 & N2 & A2 & B2).
  assert (d1 = e1) as -> by congruence. assert (d2 = e2) as -> by congruence.
  apply (M k1 k2); auto. pose proof (nth_error_lt _ _ _ N1). pose proof (nth_error_lt _ _ _ N2).
  set (iv := s_conflict_spawn_decay_interval S) in *. destruct B2 as [B2|B2]; [|lia].
  assert (Z.of_nat k1 < Z.of_nat k2 + 1)%Z by nia. lia.
Qed.

(** ** Spawn weights *)

Lemma weight_spec S t l : decay_ok S -> (l_time_of_conflict l <= t)%Z ->
  exists w, spawn_weight S t l = Ok w /\ (w == weight S t l)%Q.
Proof.
  intros D T. unfold spawn_weight, weight. destruct (s_conflict_driven_spawning S); [eexists; split; reflexivity|].
  destruct (Qltb 0 (l_conflict l)); [|eexists; split; reflexivity].
  assert (X := decay_spec S (t - l_time_of_conflict l) D ltac:(lia)).
  destruct (s_conflict_spawn_decay S) as [[|a dl]|] eqn:E; cbn [bind].
  - eexists. split; [reflexivity|]. unfold decay_after. rewrite E. ring.
  - unfold get_location_conflict_decay. rewrite X. cbn [bind]. eexists. split; [reflexivity|]. ring.
  - eexists. split; [reflexivity|]. unfold decay_after. rewrite E. ring.
Qed.

Lemma refresh_any S e : decay_ok S -> Timed e -> List.length (e_spawn_weights e) = List.length (e_locations e) ->
  exists e', refresh_spawn_weights S e = Ok e' /\ weights_current S e' /\
    List.length (e_spawn_weights e') = List.length (e_locations e') /\
    e' = up_e_spawn_weights (fun _ => e_spawn_weights e') e.
Proof.
  intros D [_ T] L. unfold refresh_spawn_weights.
  assert (X : exists ws, mapM (spawn_weight S (e_time e)) (e_locations e) = Ok ws /\ Forall2 Qeq ws (map (weight S (e_time e)) (e_locations e))).
  { revert T. generalize (e_locations e). intro ls. induction ls as [|l ls IH]; intro T; cbn; [eauto|].
    destruct (weight_spec S (e_time e) l D) as (w & -> & W); [apply T; now left|].
    destruct IH as (ws & -> & F); [intros; apply T; now right|]. cbn. eexists. split; [reflexivity|]. now constructor. }
  destruct X as (ws & E & F). rewrite E. cbn [bind]. pose proof (mapM_ok_length _ _ _ E) as Lw.
  replace (List.length (e_spawn_weights e) <? List.length ws)%nat with false by (symmetry; apply Nat.ltb_ge; lia).
  exists (up_e_spawn_weights (fun _ => ws) e). split.
  - unfold up_e_spawn_weights. rewrite skipn_all2 by lia. now rewrite app_nil_r.
  - split; [exact F|]. split; [exact Lw|reflexivity].
Qed.
Lemma refresh_ok o e g S : reachable o e g -> decay_ok S ->
  exists e', refresh_spawn_weights S e = Ok e' /\ weights_current S e' /\
    List.length (e_spawn_weights e') = List.length (e_locations e') /\
    e' = up_e_spawn_weights (fun _ => e_spawn_weights e') e.
Proof.
  intros R D. apply refresh_any; auto; [eapply reachable_timed; eauto|]. apply reachable_inv in R. apply st_weights, i_struct, R.
Qed.
Lemma weights_count o e g : reachable o e g -> List.length (e_spawn_weights e) = List.length (e_locations e).
Proof. intros R. apply reachable_inv in R. apply st_weights, i_struct, R. Qed.

Lemma weights_zero S e : s_conflict_driven_spawning S = true -> weights_current S e -> Forall (fun w => w == 0)%Q (e_spawn_weights e).
Proof.
  intros C W. unfold weights_current in W. remember (map _ _) as ws eqn:E.
  assert (F : Forall (fun w => w == 0)%Q ws).
  { subst ws. clear W. induction (e_locations e); cbn; constructor; auto. unfold weight. now rewrite C. }
  clear E. induction W; inversion F; subst; constructor; auto. now rewrite H.
Qed.

(** ** Conflict zones *)

Lemma first_index_spec n names : forall i, match first_index n names i with
  | Some r => exists p, r = (i + p)%nat /\ nth_error names p = Some n /\ forall q m, (q < p)%nat -> nth_error names q = Some m -> m <> n
  | None => ~ In n names
  end.
Proof.
  induction names as [|m names IH]; intro i; cbn; [tauto|]. destruct (String.eqb_spec m n) as [->|N].
  - exists 0%nat. repeat split; [lia|]. intros; lia.
  - specialize (IH (Datatypes.S i)). destruct (first_index _ _ _) as [r|].
    + destruct IH as (p & -> & P & Q). exists (Datatypes.S p). repeat split; [lia|exact P|].
      intros [|q] m' Lq Hq; cbn in Hq; [congruence|]. eapply Q; eauto; lia.
    + intros [X|X]; auto.
Qed.

Lemma names_eq e : Inv e -> map sval (e_locationNames e) = map lname (e_locations e).
Proof. intro I. rewrite (st_names _ (i_struct _ I)), map_map. reflexivity. Qed.

Lemma first_index_named e name i l : Inv e -> first_named e name i l ->
  first_index name (map sval (e_locationNames e)) 0 = Some i.
Proof.
  intros I (H & E & F). fold (lname l) in E. rewrite names_eq by assumption.
  pose proof (first_index_spec name (map lname (e_locations e)) 0) as X.
  destruct (first_index _ _ _) as [r|].
  - destruct X as (p & -> & P & Q). cbn. f_equal. rewrite nth_error_map in P.
    destruct (nth_error (e_locations e) p) as [m|] eqn:Em; [|discriminate]. injection P as P.
    destruct (Nat.lt_trichotomy p i) as [L|[->|L]]; [|reflexivity|].
    + exfalso. eapply F; eauto.
    + exfalso. eapply (Q i name L); [|reflexivity]. rewrite nth_error_map, H. cbn. now rewrite E.
  - exfalso. apply X. rewrite <- E. apply in_map. eapply nth_error_In; eauto.
Qed.

Lemma timed_up_time i f e : Timed e -> (forall l, l_time_of_conflict (f l) = e_time e \/ l_time_of_conflict (f l) = l_time_of_conflict l) ->
  Timed (up_loc i f e).
Proof.
  intros T H. apply (timed_up i f e); [|exact T]. intros l Hl. destruct (H l) as [-> | ->]; lia.
Qed.

Lemma zone_added o e g S name q i l : reachable o e g -> decay_ok S -> first_named e name i l ->
  exists e1 e' l', only_location i l l' e e1 /\ unfought l' = unfought l /\ l_conflict l' = q /\
    l_movechance l' = s_ConflictMoveChance S /\ l_town l' = false /\ l_time_of_conflict l' = e_time e /\
    add_conflict_zone S name q true e = Ok e' /\ weights_current S e' /\
    e' = up_e_spawn_weights (fun _ => e_spawn_weights e') e1.
Proof.
  intros R D F. pose proof (reachable_timed _ _ _ R) as T. apply reachable_inv in R as I.
  pose proof (first_index_named _ _ _ _ I F) as X. destruct F as (H & E & _).
  unfold add_conflict_zone. rewrite X. unfold loc_of. rewrite H. cbn [of_option bind].
  match goal with |- context [up_loc i ?f e] => set (f0 := f) end.
  destruct (refresh_any S (up_loc i f0 e) D) as (e' & Re & W & _ & Q).
  - apply timed_up_time; [exact T|]. intro l0. left. reflexivity.
  - cbn [up_loc up_e_locations e_locations e_spawn_weights]. rewrite upd_length. apply st_weights, i_struct, I.
  - exists (up_loc i f0 e), e', (f0 l). split; [apply up_one, H|]. repeat (split; [reflexivity|]). auto.
Qed.

Lemma zone_unknown S name q c e o g : reachable o e g -> (forall l, In l (e_locations e) -> lname l <> name) ->
  add_conflict_zone S name q c e = Ok e.
Proof.
  intros R N. apply reachable_inv in R as I. unfold add_conflict_zone. rewrite names_eq by assumption.
  pose proof (first_index_spec name (map lname (e_locations e)) 0) as X. destruct (first_index _ _ _) as [r|]; [|reflexivity].
  destruct X as (p & _ & P & _). apply nth_error_In, in_map_iff in P as (l & E & Hl). now destruct (N l Hl).
Qed.

Lemma skipn_head {A} k (l : list A) n ns : skipn k l = n :: ns -> nth_error l k = Some n.
Proof. revert l. induction k as [|k IH]; intros [|a l] H; try discriminate; cbn in *; [congruence|auto]. Qed.

Lemma upd_split {A} k (f : A -> A) ls l : nth_error ls k = Some l ->
  skipn (Datatypes.S k) (upd k f ls) = skipn (Datatypes.S k) ls /\
  firstn (Datatypes.S k) (upd k f ls) = firstn k ls ++ [f l].
Proof.
  revert k. induction ls as [|a r IH]; intros [|k] Hl; try discriminate.
  - injection Hl as ->. split; reflexivity.
  - destruct (IH k Hl) as [A1 C]. split; [exact A1|]. cbn [upd]. rewrite firstn_cons, C. reflexivity.
Qed.
Lemma up_locs_ext k f F G e : F (upd k f (e_locations e)) = G (e_locations e) ->
  up_e_locations F (up_loc k f e) = up_e_locations G e.
Proof. intro H. unfold up_loc, up_e_locations. cbn [e_locations]. now rewrite H. Qed.
Lemma up_locs_ext0 F G e : F (e_locations e) = G (e_locations e) -> up_e_locations F e = up_e_locations G e.
Proof. intro H. unfold up_e_locations. now rewrite H. Qed.

(** Removal acts on all locations of that name. *)
Lemma remove_fold S name c ns : forall k e, List.length (e_locations e) = (k + List.length ns)%nat ->
  skipn k (e_locationNames e) = ns ->
  foldM (fun e1 i =>
           ni <- of_option IndexError (nth_error (e_locationNames e1) i) ;;
           if String.eqb (sval ni) name then
             _ <- loc_of e1 i ;;
             Ok (up_loc i (fun l => up_l_town (fun _ => true) (set_conflict (-1)
                             (if c : bool then set_movechance (s_DefaultMoveChance S) l else l))) e1)
           else Ok e1) (seq k (List.length ns)) e =
  Ok (up_e_locations (fun ls => firstn k ls ++ map (fun nl => if String.eqb (sval (fst nl)) name then
        up_l_town (fun _ => true) (set_conflict (-1) (if c then set_movechance (s_DefaultMoveChance S) (snd nl) else snd nl)) else snd nl)
        (combine ns (skipn k ls))) e).
Proof.
  induction ns as [|n ns IH]; intros k e L K; cbn [seq foldM List.length].
  - f_equal. cbn in L. rewrite Nat.add_0_r in L.
    destruct e; unfold up_e_locations; cbn in *. now rewrite app_nil_r, firstn_all2 by lia.
  - assert (Hn : nth_error (e_locationNames e) k = Some n).
    { eapply skipn_head, K. }
    rewrite Hn. cbn [of_option bind].
    destruct (nth_error_ex (e_locations e) k) as [l Hl]; [cbn in L; lia|].
    assert (Sk : skipn k (e_locations e) = l :: skipn (Datatypes.S k) (e_locations e)).
    { clear - Hl. revert k Hl. induction (e_locations e) as [|a r IH]; intros [|k] Hl; try discriminate; cbn.
      - now injection Hl as ->. - apply IH, Hl. }
    assert (K' : skipn (Datatypes.S k) (e_locationNames e) = ns).
    { clear - K. revert k K. generalize (e_locationNames e). induction l as [|a r IH]; intros [|k] K; try discriminate; cbn in *.
      - congruence. - apply IH, K. }
    destruct (String.eqb (sval n) name) eqn:B.
    + unfold loc_of. rewrite Hl. cbn [of_option bind]. rewrite IH; [|cbn; rewrite upd_length; cbn in L; lia|exact K'].
      f_equal. apply up_locs_ext. rewrite Sk. cbn [combine map fst snd]. rewrite B.
      rewrite (proj1 (upd_split k _ _ l Hl)), (proj2 (upd_split k _ _ l Hl)), <- app_assoc. reflexivity.
    + cbn [bind]. rewrite IH; [|cbn in L; lia|exact K']. f_equal. apply up_locs_ext0. rewrite Sk.
      cbn [combine map fst snd]. rewrite B.
      pose proof (proj2 (upd_split k (fun l => l) _ l Hl)) as U. rewrite upd_id in U. rewrite U, <- app_assoc. reflexivity.
Qed.

Lemma combine_map_l {A B C} (f : A -> B) (h : B * A -> C) l : map h (combine (map f l) l) = map (fun a => h (f a, a)) l.
Proof. induction l; cbn; congruence. Qed.

Lemma zone_removed o e g S name : reachable o e g -> decay_ok S ->
  exists e', remove_conflict_zone S name true e = Ok e' /\ weights_current S e' /\
    e' = up_e_locations (fun _ => e_locations e') (up_e_spawn_weights (fun _ => e_spawn_weights e') e) /\
    List.length (e_locations e') = List.length (e_locations e) /\
    forall i l, nth_error (e_locations e) i = Some l -> exists l', nth_error (e_locations e') i = Some l' /\
      (lname l <> name -> l' = l) /\
      (lname l = name -> l_conflict l' = (-1)%Q /\ l_movechance l' = s_DefaultMoveChance S /\ l_town l' = true /\
         l_time_of_conflict l' = l_time_of_conflict l /\ unfought l' = unfought l).
Proof.
  intros R D. pose proof (reachable_timed _ _ _ R) as T. apply reachable_inv in R as I.
  unfold remove_conflict_zone.
  assert (N := st_names _ (i_struct _ I)).
  assert (Ln : List.length (e_locationNames e) = List.length (e_locations e)) by (rewrite N; apply map_length).
  pose proof (remove_fold S name true (e_locationNames e) 0 e (eq_sym Ln) eq_refl) as F. cbn [skipn firstn app] in F.
  rewrite F; clear F. cbn [bind]. rewrite N.
  match goal with |- context [refresh_spawn_weights S ?x] => set (e1 := x) end.
  assert (L1 : e_locations e1 = map (fun l => if String.eqb (lname l) name then
     up_l_town (fun _ => true) (set_conflict (-1) (set_movechance (s_DefaultMoveChance S) l)) else l) (e_locations e)).
  { unfold e1. cbn [up_e_locations e_locations]. now rewrite combine_map_l. }
  destruct (refresh_any S e1 D) as (e' & Re & W & _ & Q).
  - destruct T as [T0 T]. split; [exact T0|]. rewrite L1. intros l Hl. apply in_map_iff in Hl as (l0 & <- & Hl0).
    specialize (T l0 Hl0). change (e_time e1) with (e_time e). destruct (String.eqb (lname l0) name); exact T.
  - rewrite L1, map_length. unfold e1; cbn [up_e_locations e_spawn_weights]. apply st_weights, i_struct, I.
  - exists e'. split; [exact Re|]. split; [exact W|].
    assert (L' : e_locations e' = e_locations e1) by (rewrite Q; reflexivity).
    split; [|split].
    + rewrite Q at 1. rewrite L'. unfold e1. reflexivity.
    + now rewrite L', L1, map_length.
    + intros i l H. rewrite L', L1, nth_error_map, H. cbn [option_map]. eexists. split; [reflexivity|].
      destruct (String.eqb_spec (lname l) name); split; intro; try congruence. repeat split.
Qed.

Lemma intensity_set S name q c e : set_conflict_intensity S name q c e =
  if Qltb q (1 # 1000000) then remove_conflict_zone S name c e else add_conflict_zone S name q c e.
Proof. reflexivity. Qed.

(** ** Choosing where agents appear *)

Lemma bisect_all acc ws x : Forall (fun w => 0 <= w)%Q ws ->
  (acc <= x)%Q -> (x < acc + sumQ ws)%Q ->
  let i := bisect_right (accumulate acc ws) x in
  (i < List.length ws)%nat /\ (acc + sumQ (firstn i ws) <= x)%Q /\ (x < acc + sumQ (firstn (S i) ws))%Q.
Proof.
  intros F; revert acc; induction F as [|w ws Hw F IH]; intros acc L U; [cbn in U; lra|].
  cbn [accumulate bisect_right]. destruct (Qltb x (acc + w)) eqn:E; qb.
  - cbn. repeat split; [lia|lra|lra].
  - destruct (IH (acc + w)%Q) as (A & B & C); [exact E|cbn in U |- *; lra|].
    cbv zeta. set (i := bisect_right (accumulate (acc + w) ws) x) in *.
    split; [cbn [List.length] in *; lia|].
    change (firstn (S i) (w :: ws)) with (w :: firstn i ws).
    change (firstn (S (S i)) (w :: ws)) with (w :: firstn (S i) ws).
    cbn [sumQ]. split; lra.
Qed.

Lemma bisect_compat l l' x x' t : (0 < t)%Q -> (x' == x * t)%Q -> Forall2 (fun a b => b == a * t)%Q l l' -> bisect_right l x = bisect_right l' x'.
Proof.
  intros T X F. induction F as [|a b l l' E F IH]; [reflexivity|]. cbn.
  destruct (Qltb x a) eqn:A, (Qltb x' b) eqn:B; auto; qb; exfalso; nra.
Qed.

Lemma cdf_shape ws t : ~ (t == 0)%Q -> (t == sumQ ws)%Q -> ws <> [] ->
  let cum := accumulate 0 (map (fun w => w / t)%Q ws) in
  Forall2 (fun a b => b == a * t)%Q (map (fun c => c / List.last cum 1)%Q cum) (accumulate 0 ws).
Proof.
  intros NT E N cum.
  assert (L : (List.last cum 1 == 1)%Q).
  { unfold cum. etransitivity; [apply accumulate_last; destruct ws; [congruence|discriminate]|].
    rewrite sumQ_map_div by assumption. rewrite <- E. field. assumption. }
  assert (X : forall acc acc' c, (acc' == acc * t)%Q -> (c == 1)%Q ->
    Forall2 (fun a b => b == a * t)%Q (map (fun x => x / c)%Q (accumulate acc (map (fun w => w / t)%Q ws))) (accumulate acc' ws)).
  { clear L E N cum. induction ws as [|w ws IH]; intros acc acc' c A C; cbn; constructor.
    - rewrite A, C. field. assumption.
    - apply IH; [rewrite A; field; assumption|exact C]. }
  apply X; [ring|exact L].
Qed.

Lemma np_choices_spec cdf n : forall g, fst (np_choices cdf n g) = map (fun m => bisect_right cdf (g_nu g (g_ni g + m))) (seq 0 n).
Proof.
  induction n as [|n IH]; intro g; [reflexivity|]. cbn [np_choices seq map].
  unfold rng_nu at 1. cbn [fst snd]. destruct (np_choices cdf n _) as [is_ g2] eqn:E. cbn [fst].
  rewrite Nat.add_0_r. f_equal. specialize (IH (Rng (g_u g) (g_nu g) (g_nk g) (g_i g) (Datatypes.S (g_ni g)) (g_ki g))).
  unfold rng_nu in E. rewrite E in IH. cbn [fst] in IH. rewrite IH, <- seq_shift, map_map. apply map_ext. intro m. cbn. do 2 f_equal. lia.
Qed.

Lemma pick_spec number e g : (0 <= number)%Z -> List.length (e_spawn_weights e) = List.length (e_locations e) ->
  Forall (fun w => 0 <= w)%Q (e_spawn_weights e) -> (0 < sumQ (e_spawn_weights e))%Q -> rng_ok g ->
  exists picks g', pick_spawn_locations number e g = Ok (picks, g') /\ Z.of_nat (List.length picks) = number /\
    forall n i, nth_error picks n = Some i ->
      (i < List.length (e_locations e))%nat /\ share (e_spawn_weights e) i (g_nu g (g_ni g + n)) /\
      exists w, nth_error (e_spawn_weights e) i = Some w /\ (0 < w)%Q.
Proof.
  intros N L F T [_ G]. unfold pick_spawn_locations. set (ws := e_spawn_weights e) in *.
  apply Qltb_true in T as TB. rewrite TB. cbn [negb]. replace (number <? 0)%Z with false by lia.
  rewrite L, Nat.eqb_refl. cbn [negb].
  assert (X : existsb (fun w => Qltb w 0) ws = false).
  { clear - F. induction F; [reflexivity|]. cbn. destruct (Qltb x 0) eqn:E; qb; [lra|exact IHF]. }
  rewrite X. assert (NE : ws <> []) by (intros ->; cbn in T; lra).
  pose proof (cdf_shape ws (sumQ ws) ltac:(lra) ltac:(reflexivity) NE) as C. cbv zeta in *.
  set (cdf := map _ _) in *. clearbody cdf. pose proof (np_choices_spec cdf (Z.to_nat number) g) as P.
  destruct (np_choices cdf (Z.to_nat number) g) as [picks g'] eqn:Eg. cbn [fst] in P. subst picks.
  eexists. eexists. split; [reflexivity|]. rewrite map_length, seq_length. split; [lia|].
  intros n i H. rewrite nth_error_map in H. destruct (nth_error (seq 0 (Z.to_nat number)) n) as [m|] eqn:Em; [|discriminate].
  assert (m = n). { assert (HL := nth_error_lt _ _ _ Em). rewrite seq_length in HL. apply (nth_error_nth _ _ 0%nat) in Em. rewrite seq_nth in Em by lia. lia. }
  subst m. cbn [option_map] in H. injection H as <-. set (u := g_nu g (g_ni g + n)). specialize (G (g_ni g + n)%nat). fold u in G.
  rewrite (bisect_compat cdf (accumulate 0 ws) u (u * sumQ ws) (sumQ ws)) by (auto; reflexivity).
  destruct (bisect_all 0 ws (u * sumQ ws) F) as (A & B & D).
  - apply Qmult_le_0_compat; lra.
  - setoid_replace (0 + sumQ ws)%Q with (1 * sumQ ws)%Q by ring. apply Qmult_lt_compat_r; lra.
  - set (i := bisect_right _ _) in *. assert (Sh : share ws i u) by (unfold share, before; split; lra).
    split; [lia|]. split; [exact Sh|]. eapply share_positive; exact Sh.
Qed.

Lemma pick_fails number e g : (sumQ (e_spawn_weights e) <= 0)%Q -> pick_spawn_locations number e g = Err AssertionError.
Proof. intro H. unfold pick_spawn_locations. apply Qltb_false in H. now rewrite H. Qed.
Lemma pick_sound number e g picks g' : rng_ok g -> pick_spawn_locations number e g = Ok (picks, g') ->
  Z.of_nat (List.length picks) = number /\
  forall i, In i picks -> exists l w, nth_error (e_locations e) i = Some l /\ nth_error (e_spawn_weights e) i = Some w /\ (0 < w)%Q.
Proof.
  intros G H. pose proof H as H0. unfold pick_spawn_locations in H. cbv zeta in H. do 4 (rstep H; [discriminate|]).
  clear H. apply Bool.negb_false_iff in B, B1. apply Qltb_true in B. apply Nat.eqb_eq in B1.
  assert (F : Forall (fun w => 0 <= w)%Q (e_spawn_weights e)).
  { apply Forall_forall. intros w Hw. destruct (Qltb w 0) eqn:E; qb; [|exact E]. exfalso.
    assert (existsb (fun w => Qltb w 0) (e_spawn_weights e) = true); [|congruence]. apply existsb_exists. exists w. split; [exact Hw|]. now apply Qltb_true. }
  destruct (pick_spec number e g ltac:(lia) B1 F B G) as (p & g1 & E & Lp & P). rewrite E in H0. injection H0 as -> ->.
  split; [exact Lp|]. intros i Hi. apply In_nth_error in Hi as [n Hn]. destruct (P n i Hn) as (A & _ & w & W & Pos).
  destruct (nth_error_ex _ _ A) as [l Hl]. eauto.
Qed.

(** Only locations with inhabitants where there is a conflict *)
Lemma pick_zones S o e g number picks g' : reachable o e g -> rng_ok g -> weights_current S e ->
  (forall l, In l (e_locations e) -> (0 <= l_pop l)%Z) -> (forall t, (0 <= t)%Z -> (0 <= decay_after S t)%Q) ->
  pick_spawn_locations number e g = Ok (picks, g') ->
  s_conflict_driven_spawning S = false /\
  forall i, In i picks -> exists l, nth_error (e_locations e) i = Some l /\ (0 < l_conflict l)%Q /\ (0 < l_pop l)%Z.
Proof.
  intros R G W P D H. destruct (pick_sound _ _ _ _ _ G H) as [_ Q].
  assert (T := reachable_timed _ _ _ R). destruct T as [_ T].
  split.
  - destruct (s_conflict_driven_spawning S) eqn:C; [|reflexivity]. exfalso. apply weights_zero in W; [|exact C].
    unfold pick_spawn_locations in H. cbv zeta in H. rstep H; [discriminate|]. apply Bool.negb_false_iff, Qltb_true in B.
    clear - W B. induction W; cbn in B; [lra|]. apply IHW. rewrite H in B. lra.
  - intros i Hi. destruct (Q i Hi) as (l & w & Hl & Hw & Pw). exists l. split; [exact Hl|].
    assert (E : (w == weight S (e_time e) l)%Q).
    { unfold weights_current in W. clear - W Hl Hw. revert i Hl Hw W. generalize (e_spawn_weights e). induction (e_locations e) as [|a ls IH]; intros ws [|i] Hl Hw W;
        try discriminate; inversion W; subst; cbn in *; try discriminate.
      - congruence. - eapply IH; eauto. }
    assert (Tl := T l (nth_error_In _ _ Hl)). assert (Pl := P l (nth_error_In _ _ Hl)).
    unfold weight in E. destruct (s_conflict_driven_spawning S); [lra|]. destruct (Qltb 0 (l_conflict l)) eqn:C; [|lra].
    apply Qltb_true in C. split; [exact C|]. specialize (D (e_time e - l_time_of_conflict l)%Z ltac:(lia)).
    destruct (Z.eq_dec (l_pop l) 0) as [Z0|]; [|lia]. exfalso. rewrite Z0 in E. change (inject_Z 0) with 0%Q in E. nra.
Qed.

(** ** New links *)

Lemma roads_app e e' ks : (forall ki k, nth_error (e_links e) ki = Some k -> nth_error (e_links e') ki = Some k) ->
  (forall ki, In ki ks -> (ki < List.length (e_links e))%nat) -> roads e' ks = roads e ks.
Proof.
  intros X H. unfold roads. induction ks as [|ki ks IH]; [reflexivity|]. cbn [flat_map].
  destruct (nth_error_ex (e_links e) ki) as [k Hk]; [apply H; now left|]. rewrite Hk, (X _ _ Hk). f_equal.
  apply IH. intros; apply H; now right.
Qed.

Lemma kapp_opens x k e p : Inv e -> (x < List.length (e_locations e))%nat ->
  opens (kapp x k e) p = (opens e p ++ (if Nat.eqb p x then [norm k] else []))%list /\
  closeds (kapp x k e) p = closeds e p.
Proof.
  intros I L. assert (X : forall ki k0, nth_error (e_links e) ki = Some k0 -> nth_error (e_links (kapp x k e)) ki = Some k0).
  { intros ki k0 H. unfold kapp. cbn. rewrite nth_error_app1 by (eapply nth_error_lt; eauto). exact H. }
  assert (Y : nth_error (e_links (kapp x k e)) (List.length (e_links e)) = Some k).
  { unfold kapp. cbn. rewrite nth_error_app2, Nat.sub_diag by lia. reflexivity. }
  unfold opens, closeds. destruct (Nat.eqb_spec p x) as [->|N].
  - destruct (nth_error_ex _ _ L) as [l Hl]. rewrite Hl.
    unfold kapp at 1 3. cbn [up_loc up_e_locations e_locations]. rewrite nth_upd_same. cbn [up_e_links e_locations]. rewrite Hl. cbn [option_map].
    cbn [up_l_links l_links l_closed_links]. destruct (st_loc _ (i_struct _ I) _ _ Hl) as (_ & _ & _ & A & B). split.
    + transitivity (roads (kapp x k e) (l_links l) ++ roads (kapp x k e) [List.length (e_links e)])%list.
      { unfold roads. now rewrite flat_map_app. }
      f_equal; [apply roads_app; auto|].
      * intros ki Hk. destruct (A _ Hk) as (k0 & Hk0 & _). eapply nth_error_lt; eauto.
      * unfold roads. cbn [flat_map]. now rewrite Y.
    + apply roads_app; auto. intros ki Hk. destruct (B _ Hk) as (k0 & Hk0 & _). eapply nth_error_lt; eauto.
  - rewrite app_nil_r. unfold kapp at 1 3. cbn [up_loc up_e_locations e_locations]. rewrite nth_upd_other by congruence. cbn [up_e_links e_locations].
    destruct (nth_error (e_locations e) p) as [l|] eqn:Hl; [|auto].
    destruct (st_loc _ (i_struct _ I) _ _ Hl) as (_ & _ & _ & A & B).
    split; apply roads_app; auto; intros ki Hk; [destruct (A _ Hk) as (k0 & Hk0 & _)|destruct (B _ Hk) as (k0 & Hk0 & _)]; eapply nth_error_lt; eauto.
Qed.

Lemma last_named e i l n : distinct_names e -> Inv e -> nth_error (e_locations e) i = Some l -> lname l = n ->
  last_index n (map sval (e_locationNames e)) 0 None = Some i.
Proof.
  intros D I H E. rewrite names_eq by assumption. pose proof (last_index_spec n (map lname (e_locations e)) 0 None) as L.
  destruct (last_index _ _ _ _) as [r|].
  - destruct L as [[X _]|(p & -> & P & _)]; [discriminate|]. cbn [Nat.add]. f_equal. rewrite nth_error_map in P.
    destruct (nth_error (e_locations e) p) as [m|] eqn:Em; [|discriminate]. injection P as P.
    apply (D p i m l Em H). left. unfold lname in *. congruence.
  - destruct L as [_ X]. exfalso. apply X. rewrite <- E. apply in_map. eapply nth_error_In; eauto.
Qed.

Lemma link_made o e g i li j lj d forced at_ : reachable o e g -> distinct_names e ->
  nth_error (e_locations e) i = Some li -> nth_error (e_locations e) j = Some lj ->
  exists e' did, link_up (lname li) (lname lj) d forced at_ e = Ok e' /\
    same_but_links (up_e_dicts (fun _ => e_dicts e') e) e' /\
    (forall a, at_ = Some a -> nth_error (e_dicts e') did = Some a) /\
    (forall n v, nth_error (e_dicts e) n = Some v -> nth_error (e_dicts e') n = Some v) /\
    forall p, closeds e' p = closeds e p /\
      opens e' p = (opens e p ++ (if Nat.eqb p i then [Link i j false d 0 0 0 forced did []] else [])
                              ++ (if Nat.eqb p j then [Link j i false d 0 0 0 false did []] else []))%list.
Proof.
  intros R D Hi Hj. apply reachable_inv in R as I.
  pose proof (last_named e i li _ D I Hi eq_refl) as Xi. pose proof (last_named e j lj _ D I Hj eq_refl) as Xj.
  assert (O : exists e', link_up (lname li) (lname lj) d forced at_ e = Ok e').
  { unfold link_up. rewrite Xi, Xj. unfold loc_of. rewrite Hi, Hj. cbn [of_option bind]. destruct at_; eauto. }
  destruct O as [e' H]. exists e'. pose proof H as H0. apply link_up_spec in H as (i1 & i2 & e0 & did & Y1 & Y2 & L1 & L2 & C & ->).
  assert (i1 = i) as -> by congruence. assert (i2 = j) as -> by congruence. exists did. split; [exact H0|].
  assert (P : Inv e0 /\ e_locations e0 = e_locations e /\ e_links e0 = e_links e /\ (did < List.length (e_dicts e0))%nat).
  { destruct C as [(-> & -> & ->)|(a & -> & -> & ->)].
    - split; [exact I|]. split; [reflexivity|]. split; [reflexivity|]. apply st_dicts, i_struct, I.
    - split; [eapply inv_same; [apply sl_same, still_dicts|exact I]|]; cbn; rewrite ?app_length; cbn.
      + lia.
      + split; [reflexivity|]. split; [reflexivity|]. lia. }
  destruct P as (I0 & HL & HK & HD).
  assert (I1 : Inv (kapp i (Link i j false d 0 0 0 forced did []) e0)).
  { apply inv_kapp; cbn; rewrite ?HL; auto. }
  assert (SB : forall x k f, same_but_links f (kapp x k f)).
  { intros x k f. unfold kapp. eapply sbl_trans; [apply (sbl_app [k])|apply sbl_up_links]. }
  split; [|split; [|split]].
  - assert (Z : up_e_dicts (fun _ => e_dicts e0) e = e0).
    { destruct C as [(_ & -> & _)|(a & _ & -> & _)]; destruct e; reflexivity. }
    change (e_dicts (kapp j (Link j i false d 0 0 0 false did []) (kapp i (Link i j false d 0 0 0 forced did []) e0))) with (e_dicts e0).
    rewrite Z. eapply sbl_trans; [apply SB|apply SB].
  - intros a Ha. destruct C as [(X & _)|(a' & X & -> & ->)]; [congruence|]. cbn. rewrite nth_error_app2, Nat.sub_diag by lia. cbn. congruence.
  - intros n v Hn. destruct C as [(_ & -> & _)|(a' & _ & -> & _)]; cbn; [exact Hn|]. rewrite nth_error_app1; [exact Hn|]. eapply nth_error_lt; eauto.
  - intro p. destruct (kapp_opens j (Link j i false d 0 0 0 false did []) _ p I1) as [A B]; [cbn; rewrite upd_length, HL; exact L2|].
    destruct (kapp_opens i (Link i j false d 0 0 0 forced did []) e0 p I0) as [A0 B0]; [rewrite HL; exact L1|].
    assert (X : opens e0 p = opens e p /\ closeds e0 p = closeds e p) by (unfold opens, closeds, roads; rewrite HL, HK; auto).
    destruct X as [X1 X2]. rewrite B, B0, A, A0, X1, X2, <- app_assoc. split; reflexivity.
Qed.

Lemma link_unknown o e g n1 n2 d f at_ : reachable o e g ->
  (forall l, In l (e_locations e) -> lname l <> n1) \/ (forall l, In l (e_locations e) -> lname l <> n2) ->
  link_up n1 n2 d f at_ e = Err SystemExit.
Proof.
  intros R N. apply reachable_inv in R as I. unfold link_up. rewrite names_eq by assumption.
  assert (X : forall n, (forall l, In l (e_locations e) -> lname l <> n) -> last_index n (map lname (e_locations e)) 0 None = None).
  { intros n Hn. pose proof (last_index_spec n (map lname (e_locations e)) 0 None) as L. destruct (last_index _ _ _ _) as [r|]; [|reflexivity].
    destruct L as [[Y _]|(p & _ & P & _)]; [discriminate|]. apply nth_error_In, in_map_iff in P as (l & E & Hl). now destruct (Hn l Hl). }
  destruct N as [N|N]; rewrite (X _ N); [reflexivity|]. now destruct (last_index _ _ _ _).
Qed.

(** ** New agents *)

Lemma agent_added o e g S i l attrs : reachable o e g -> nth_error (e_locations e) i = Some l ->
  exists e' l', add_agent S i attrs e = Ok e' /\
    e' = up_e_locations (fun _ => e_locations e') (up_e_agents (fun ags => ags ++ [new_agent i attrs])%list e) /\
    nth_error (e_locations e') i = Some l' /\
    (forall j, j <> i -> nth_error (e_locations e') j = nth_error (e_locations e) j) /\
    l_numAgents l' = (l_numAgents l + 1)%Z /\
    l_pop l' = (if s_TakeFromPopulation S then if (0 <? l_pop l)%Z then l_pop l - 1 else l_pop l else l_pop l)%Z /\
    l_numAgentsSpawned l' = (if s_TakeFromPopulation S then l_numAgentsSpawned l + 1 else l_numAgentsSpawned l)%Z.
Proof.
  intros R H. assert (P := reachable_par _ _ _ R).
  unfold add_agent, append_agent, loc_of. rewrite H. cbn [of_option bind].
  destruct (s_TakeFromPopulation S).
  - cbn [up_loc up_e_locations e_locations]. rewrite nth_upd_same, H. cbn [option_map of_option bind].
    eexists. eexists. split; [reflexivity|]. split; [reflexivity|]. cbn [up_loc up_e_locations up_e_agents e_locations e_par].
    rewrite nth_upd_same, nth_upd_same, H. cbn [option_map]. split; [reflexivity|]. split.
    { intros j N. now rewrite !nth_upd_other by congruence. }
    rewrite P. destruct (0 <? l_pop l)%Z; cbn; repeat split; lia.
  - rewrite H. cbn [of_option bind]. eexists. eexists. split; [reflexivity|]. split; [reflexivity|].
    cbn [up_loc up_e_locations up_e_agents e_locations e_par]. rewrite nth_upd_same, H. split; [reflexivity|]. split.
    { intros j N. now rewrite nth_upd_other by congruence. }
    rewrite P. cbn; repeat split; lia.
Qed.
