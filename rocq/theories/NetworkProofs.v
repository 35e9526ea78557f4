(** * NetworkProofs: adding locations, reading the network and the agents from tables *)

From Coq Require Import Lia Lqa.
From Verif Require Import Base State Moving Crawling Scoring Diagnostics Flee DataTable Spawning InputGeography Api
  SpecAgents SpecHistory SpecNetwork Lemmas Inv InvMoves InvStruct Frames ScoreFrames.
Local Open Scope string_scope.
Local Open Scope Q_scope.
Local Open Scope list_scope.

(** ** Types *)

Lemma kind_cases t :
  kind_of (Some t) =
    if str_in "camp" (lower t) then Some KCamp else if str_in "conflict" (lower t) then Some KConflict
    else if str_in "forward" (lower t) then Some KForward else if str_in "marker" (lower t) then Some KMarker
    else if str_in "flood_zone" (lower t) then Some KFloodZone
    else if (str_in "default" (lower t) || str_in "town" (lower t))%bool then Some KTown else None.
Proof.
  unfold kind_of, kind_words, says. cbn [find fst snd].
  repeat match goal with |- context [if ?b then _ else _] => destruct b; try reflexivity end.
Qed.

Definition blank (name : pystr) region x y mc cap pop foreign country did : location :=
  Location name region x y mc [] [] [] [] 0 0 cap pop foreign country (-1) false false false false false false (-1) 0 0 did 1 1 [].

(** All fields but type, move chance and conflict level *)
Definition core (l : location) : location :=
  up_l_camp (fun _ => false) (up_l_idpcamp (fun _ => false) (up_l_town (fun _ => false)
    (up_l_forward (fun _ => false) (up_l_marker (fun _ => false) (up_l_flood_zone (fun _ => false)
      (up_l_conflict (fun _ => 0%Q) (up_l_movechance (fun _ => 0%Q) l))))))).

Lemma iff_bool (b : bool) (P : Prop) : (if b then P else ~ P) -> (b = true <-> P).
Proof. destruct b; [tauto|]. intro N. split; [discriminate|tauto]. Qed.

Lemma typed_auto S lt mc d (v : location) k : kind_of lt = k -> l_movechance v = chance S lt mc ->
  l_camp v = match k with Some KCamp => true | _ => false end ->
  l_idpcamp v = match k with Some KCamp => says "idp" lt | _ => false end ->
  l_town v = match k with Some KTown => true | _ => false end ->
  l_forward v = match k with Some KForward => true | _ => false end ->
  l_marker v = match k with Some KMarker => true | _ => false end ->
  l_flood_zone v = match k with Some KFloodZone => true | _ => false end ->
  (match k with
   | Some KConflict => match dict_get "conflict_intensity" d with None => l_conflict v = 1 | Some q => py_float q = Ok (l_conflict v) end
   | _ => l_conflict v = (-1) end) ->
  typed S lt mc d (auto_camp v).
Proof.
  intros K C F1 F2 F3 F4 F5 F6 F7. unfold auto_camp. rewrite C.
  destruct (Qltb (chance S lt mc) (5 # 1000)) eqn:Q.
  - apply Qltb_true in Q. assert (St : sticky S lt mc) by exact Q.
    destruct k as [[]|]; rewrite F1, F6; cbn [andb negb]; constructor; cbn; rewrite ?K, ?F1, ?F2, ?F3, ?F4, ?F5, ?F6; auto;
      try (intro X; now contradiction X); try discriminate; intuition discriminate.
  - apply Qltb_false in Q. assert (St : ~ sticky S lt mc) by (unfold sticky; lra). cbn [andb].
    destruct k as [[]|]; constructor; cbn; rewrite ?K, ?F1, ?F2, ?F3, ?F4, ?F5, ?F6; auto;
      try (intro X; now contradiction X); try discriminate; intuition discriminate.
Qed.

Lemma core_auto v : core (auto_camp v) = core v.
Proof. unfold auto_camp. destruct (_ && _ && _)%bool; reflexivity. Qed.

Lemma new_location_typed S d name region x y lt mc cap pop foreign country did l :
  new_location S d name region x y lt mc cap pop foreign country did = Ok l ->
  typed S lt mc d l /\ core l = core (blank name region x y mc cap pop foreign country did).
Proof.
  unfold new_location. intro H. rstep H. injection H as <-. rewrite core_auto.
  unfold parse_location_type in E. destruct lt as [t|].
  - pose proof (kind_cases t) as K. cbv zeta in E.
    destruct (str_in "camp" (lower t)) eqn:B1.
    { destruct (str_in "idp" (lower t)) eqn:B2; injection E as <-; (split; [|reflexivity]); eapply typed_auto;
        [exact K|..]; try reflexivity; unfold chance, says; rewrite ?K, ?B2; reflexivity. }
    destruct (str_in "conflict" (lower t)) eqn:B2.
    { rstep E. injection E as <-. split; [|reflexivity]. eapply typed_auto; [exact K|..]; try reflexivity.
      - unfold chance. now rewrite K.
      - cbn. unfold dict_get_default in E0. destruct (dict_get "conflict_intensity" d); [exact E0|]. cbn in E0. congruence. }
    destruct (str_in "forward" (lower t)); [|destruct (str_in "marker" (lower t)); [|destruct (str_in "flood_zone" (lower t));
      [|destruct (_ || _)%bool]]]; injection E as <-; (split; [|reflexivity]); (eapply typed_auto; [exact K|..]; try reflexivity);
      unfold chance; now rewrite K.
  - injection E as <-. split; [|reflexivity]. eapply typed_auto; reflexivity.
Qed.

(** ** addLocation *)

Lemma upd_last {A} (f : A -> A) l a : upd (List.length l) f (l ++ [a]) = l ++ [f a].
Proof. induction l as [|b l IH]; cbn; [reflexivity|]. now rewrite IH. Qed.

Lemma refresh_only S e e' : refresh_spawn_weights S e = Ok e' -> e' = up_e_spawn_weights (fun _ => e_spawn_weights e') e.
Proof. unfold refresh_spawn_weights. intro H. rstep H. rstep H; [discriminate|]. injection H as <-. reflexivity. Qed.

Lemma shape w ns ws k f l (e : eco) : k = List.length (e_locations e) ->
  up_e_spawn_weights (fun _ => w) (up_e_locationNames ns (up_e_spawn_weights ws (up_loc k f (up_e_locations (fun ls => ls ++ [l]) e)))) =
  up_e_spawn_weights (fun _ => w) (up_e_locationNames ns (up_e_locations (fun ls => ls ++ [f l]) e)).
Proof.
  intros ->. unfold up_e_spawn_weights, up_e_locationNames, up_loc, up_e_locations. cbn [e_locations e_locationNames e_links e_dicts
    e_agents e_closures e_time e_spawn_weights e_num_arrivals e_travel_durations e_agents_out e_links_out e_par e_rank e_mpi_size e_total_agents].
  f_equal. apply upd_last.
Qed.

Definition dict_added (attrs : option dict) (ds : list dict) : list dict :=
  match attrs with None => ds | Some d => ds ++ [d] end.
Definition dict_number (attrs : option dict) (ds : list dict) : nat :=
  match attrs with None => 0%nat | Some _ => List.length ds end.

Lemma add_location_full S o n r x y lt mc cap pop f c at_ e g e' g' :
  add_location S o n r x y lt mc cap pop f c at_ e g = Ok (e', g') ->
  exists d l sc rt,
    nth_error (e_dicts e') (dict_number at_ (e_dicts e)) = Some d /\ (forall a, at_ = Some a -> d = a) /\
    new_location S d n r x y lt mc cap pop f c (dict_number at_ (e_dicts e)) = Ok l /\
    e' = up_e_spawn_weights (fun _ => e_spawn_weights e') (up_e_locationNames (fun ns => ns ++ [n])
           (up_e_locations (fun ls => ls ++ [set_score sc rt l]) (up_e_dicts (dict_added at_) e))) /\
    locationScore S o d 0 l = Ok sc /\
    (s_FixedRoutes S = false -> rt = []).
Proof.
  unfold add_location; intro H.
  set (e0 := up_e_dicts (dict_added at_) e). set (did := dict_number at_ (e_dicts e)).
  assert (P : match at_ with
              | None => (e, 0%nat)
              | Some d => (up_e_dicts (fun ds => ds ++ [d]) e, List.length (e_dicts e))
              end = (e0, did)) by (unfold e0, did; destruct at_, e; reflexivity).
  rewrite P in H; clear P. cbv beta iota in H.
  rstep H. unfold dict_of in E. apply of_option_ok in E. rename v into d.
  rstep H. rename v into l. cbv zeta in H. rstep H. destruct v as [e1 g1]. rstep H. injection H as <- <-.
  pose proof E1 as U. apply updateLocationScore_spec in U as (_ & l0 & d0 & sc & rt & N0 & A0 & L0 & -> & R0).
  cbn [up_e_locations e_locations] in N0. rewrite nth_error_app2, Nat.sub_diag in N0 by lia. cbn in N0. injection N0 as <-.
  assert (Lr : l_routes l = [] /\ l_attributes l = did).
  { apply new_location_typed in E0 as [_ C]. split; [apply (f_equal l_routes) in C; exact C|apply (f_equal l_attributes) in C; exact C]. }
  destruct Lr as [Lr La]. unfold loc_attrs, dict_of in A0. rewrite La in A0. cbn [up_e_locations e_dicts] in A0. apply of_option_ok in A0.
  assert (d0 = d) as -> by congruence.
  pose proof (refresh_only _ _ _ E2) as F. exists d, l, sc, rt.
  assert (Ds : e_dicts v = e_dicts e0) by (rewrite F; reflexivity).
  split; [rewrite Ds; exact E|]. split.
  { intros a ->. unfold did, e0 in E. cbn in E. rewrite nth_error_app2, Nat.sub_diag in E by lia. cbn in E. congruence. }
  split; [exact E0|]. split.
  { etransitivity; [exact F|]. fold e0. apply shape. reflexivity. }
  split; [exact L0|]. intro Fx. rewrite (R0 Fx). exact Lr.
Qed.

Theorem location_added : forall S o name region x y descr given cap pop foreign country attrs e g e' g',
  add_location S o name region x y descr given cap pop foreign country attrs e g = Ok (e', g') ->
  exists l d,
    e' = up_e_spawn_weights (fun _ => e_spawn_weights e') (up_e_dicts (fun _ => e_dicts e')
           (up_e_locationNames (fun ns => ns ++ [name]) (up_e_locations (fun ls => ls ++ [l]) e))) /\
    e_dicts e' = e_dicts e ++ match attrs with Some a => [a] | None => [] end /\
    nth_error (e_dicts e') (l_attributes l) = Some d /\ (forall a, attrs = Some a -> d = a /\ l_attributes l = List.length (e_dicts e)) /\
    l_name l = name /\ l_region l = region /\ l_x l = x /\ l_y l = y /\ l_capacity l = cap /\ l_pop l = pop /\
    l_foreign l = foreign /\ l_country l = country /\
    typed S descr given d l /\ untouched l /\ (s_FixedRoutes S = false -> l_routes l = []).
Proof.
  intros S o name region x y descr given cap pop foreign country attrs e g e' g' H.
  apply add_location_full in H as (d & l & sc & rt & D & Da & N & E & _ & R).
  apply new_location_typed in N as [T C]. exists (set_score sc rt l), d.
  assert (Q : e_dicts e' = dict_added attrs (e_dicts e)) by (rewrite E; reflexivity).
  assert (At : l_attributes l = dict_number attrs (e_dicts e)) by (apply (f_equal l_attributes) in C; exact C).
  split. { rewrite Q. etransitivity; [exact E|]. destruct e; reflexivity. }
  split. { rewrite Q. destruct attrs; cbn; [reflexivity|now rewrite app_nil_r]. }
  split. { cbn. rewrite At. exact D. }
  split. { intros a ->. split; [now apply Da|]. cbn. exact At. }
  assert (W : forall A (p : location -> A), (forall m, p (core m) = p m) -> p (set_score sc rt l) = p l ->
     p (set_score sc rt l) = p (blank name region x y given cap pop foreign country (dict_number attrs (e_dicts e)))).
  { intros A p Pc Ps. rewrite Ps, <- (Pc l), C. apply Pc. }
  split; [exact (W _ l_name (fun _ => eq_refl) eq_refl)|].
  split; [exact (W _ l_region (fun _ => eq_refl) eq_refl)|].
  split; [exact (W _ l_x (fun _ => eq_refl) eq_refl)|].
  split; [exact (W _ l_y (fun _ => eq_refl) eq_refl)|].
  split; [exact (W _ l_capacity (fun _ => eq_refl) eq_refl)|].
  split; [exact (W _ l_pop (fun _ => eq_refl) eq_refl)|].
  split; [exact (W _ l_foreign (fun _ => eq_refl) eq_refl)|].
  split; [exact (W _ l_country (fun _ => eq_refl) eq_refl)|].
  split. { destruct T. constructor; assumption. }
  split; [|exact R]. unfold untouched.
  split; [exact (W _ l_links (fun _ => eq_refl) eq_refl)|].
  split; [exact (W _ l_closed_links (fun _ => eq_refl) eq_refl)|].
  split; [exact (W _ l_major_routes (fun _ => eq_refl) eq_refl)|].
  split; [exact (W _ l_numAgents (fun _ => eq_refl) eq_refl)|].
  split; [exact (W _ l_numAgentsOnRank (fun _ => eq_refl) eq_refl)|].
  split; [exact (W _ l_numAgentsSpawned (fun _ => eq_refl) eq_refl)|].
  split; [exact (W _ l_numAgentsSpawnedOnRank (fun _ => eq_refl) eq_refl)|].
  split; [exact (W _ l_incoming_journey_lengths (fun _ => eq_refl) eq_refl)|].
  exact (W _ l_time_of_conflict (fun _ => eq_refl) eq_refl).
Qed.

(** ** StoreInputGeographyInEcosystem: locations *)

Lemma cellv_ok r i s : cellv r i = Ok s -> exists c, nth_error r i = Some c /\ sval c = s.
Proof. unfold cellv, cell. intro H. rstep H. apply of_option_ok in E. injection H as <-. eauto. Qed.

Lemma empty_cell_eqb s : empty_cell s = String.eqb s "".
Proof. destruct s; reflexivity. Qed.

Lemma extra_further columns : forall more k d attrs, extra_attributes columns k more d = Ok attrs ->
  (more = [] /\ attrs = d) \/ exists cs, columns = Some cs /\ (k + List.length more <= List.length cs)%nat /\
    attrs = fold_left (fun d nc => dict_set (fst nc) (VStr (sval (snd nc))) d) (combine (skipn k cs) more) d.
Proof.
  induction more as [|c more IH]; intros k d attrs H; cbn [extra_attributes] in H; [injection H as <-; auto|].
  rstep H. apply of_option_ok in E. rstep H. apply of_option_ok in E0. right. exists v. split; [exact E|].
  assert (K : skipn k v = v0 :: skipn (S k) v).
  { clear -E0. revert v E0. induction k as [|k IH]; intros [|b v] E; try discriminate; [now injection E as ->|]. now apply IH. }
  rewrite K. cbn [combine fold_left fst snd].
  apply IH in H as [[-> ->]|(cs & C & L & ->)].
  - split; [|now rewrite combine_nil]. apply nth_error_lt in E0. cbn. lia.
  - assert (cs = v) as -> by congruence. split; [cbn; lia|reflexivity].
Qed.

Lemma split_row (r : list pystr) n c : nth_error r n = Some c -> exists a b, r = a ++ c :: b /\ List.length a = n.
Proof. intro H. apply nth_error_split in H as (a & b & -> & L). eauto. Qed.

Lemma eight (r : list pystr) c0 c1 c2 c3 c4 c5 c7 : nth_error r 0 = Some c0 -> nth_error r 1 = Some c1 -> nth_error r 2 = Some c2 ->
  nth_error r 3 = Some c3 -> nth_error r 4 = Some c4 -> nth_error r 5 = Some c5 -> nth_error r 7 = Some c7 ->
  exists c6, nth_error r 6 = Some c6 /\ r = c0 :: c1 :: c2 :: c3 :: c4 :: c5 :: c6 :: c7 :: skipn 8 r.
Proof.
  intros. do 8 (destruct r as [|? r]; [discriminate|]). cbn in *. exists p5. split; congruence.
Qed.

Lemma majors_ok name : forall routes mrs, mapM (major_routes_of name) routes = Ok mrs -> List.concat mrs = major_of name routes.
Proof.
  unfold major_of. induction routes as [|r routes IH]; intros mrs H; cbn [mapM] in H; [injection H as <-; reflexivity|].
  rstep H. rstep H. injection H as <-. cbn [List.concat flat_map]. rewrite (IH _ eq_refl). f_equal.
  unfold major_routes_of in E. destruct r as [|c r]; [discriminate|]. injection E as <-.
  assert (F : forall l, nonempty_names l = names_of l).
  { intro l. unfold nonempty_names, names_of. apply filter_ext. intro s. now rewrite empty_cell_eqb. }
  rewrite !F. cbn [hd tl]. f_equal.
  assert (L : List.last (c :: r) c = hd (PS "" 0) (rev (c :: r))).
  { destruct (exists_last (l := c :: r)) as (a & b & X); [discriminate|]. rewrite X, last_last, rev_app_distr. reflexivity. }
  change (match r with [] => c | _ :: _ => List.last r c end) with (List.last (c :: r) c). now rewrite L.
Qed.

Lemma number_ok c x : float_cell c = Ok x -> number c x.
Proof.
  unfold float_cell, number. rewrite empty_cell_eqb. destruct (String.eqb_spec c "") as [->|N]; intro H.
  - injection H as <-. auto.
  - apply of_option_ok in H. auto.
Qed.
Lemma people_ok f c n : population_cell f c = Ok n -> people f c n.
Proof.
  unfold population_cell, people. rewrite empty_cell_eqb. destruct (String.eqb_spec c "") as [->|N]; intro H.
  - injection H as <-. auto.
  - destruct (parse_Z c) as [m|] eqn:P; [|discriminate]. destruct (f =? 0)%Z eqn:F; [discriminate|]. injection H as <-.
    right. split; [exact N|]. split; [lia|]. eauto.
Qed.

(** [l] without open links *)
Definition unlinked (l : location) : location := up_l_links (fun _ => []) l.

Lemma store_location_ok S o factor ig home e g r e' g' :
  store_location S o factor ig home (e, g) r = Ok (e', g') ->
  exists l attrs, from_row S factor home (ig_columns ig) (ig_major_routes ig) r l attrs /\
    l_attributes l = List.length (e_dicts e) /\ l_links l = [] /\ l_closed_links l = [] /\
    l_numAgents l = 0%Z /\ l_numAgentsSpawned l = 0%Z /\ l_time_of_conflict l = (-1)%Z /\ l_name l = hd (PS "" 0) r /\
    e' = up_e_spawn_weights (fun _ => e_spawn_weights e') (up_e_dicts (fun ds => ds ++ [attrs])
           (up_e_locationNames (fun ns => ns ++ [l_name l]) (up_e_locations (fun ls => ls ++ [l]) e))).
Proof.
  unfold store_location. intro H.
  rstep H. apply of_option_ok in E. rename v into c0. rstep H. apply cellv_ok in E0 as (c7 & C7 & <-).
  rstep H. rename v into p. rstep H. apply cellv_ok in E1 as (c3 & C3 & <-). rstep H. rename v into x.
  rstep H. apply cellv_ok in E2 as (c4 & C4 & <-). rstep H. rename v into y.
  rstep H. apply cellv_ok in E3 as (c1 & C1 & <-). cbv zeta in H. rstep H. apply cellv_ok in E3 as (c2 & C2 & <-).
  rstep H. apply cellv_ok in E3 as (c5 & C5 & <-). rstep H. rename v into t.
  destruct (eight _ _ _ _ _ _ _ _ E C1 C2 C3 C4 C5 C7) as (c6 & C6 & R).
  assert (T : type_asked (sval c5) (sval c6) t).
  { unfold type_asked, says. rstep E3.
    - rstep E3. unfold cellv, cell in E4. rewrite C6 in E4. cbn in E4. injection E4 as <-. rstep E3. apply of_option_ok in E4. injection E3 as <-. eauto.
    - now injection E3 as <-. }
  rstep H. rename v into attrs. rstep H. destruct v as [e1 g1]. rstep H. injection H as <- <-.
  apply location_added in E5 as (l & d & Ee & Ds & Dn & Da & F1 & F2 & F3 & F4 & F5 & F6 & F7 & F8 & Ty & Un & _).
  destruct (Da attrs eq_refl) as [-> At]. destruct Un as (U1 & U2 & U3 & U4 & U5 & U6 & U7 & U8 & U9).
  set (l' := up_l_major_routes (fun l => l ++ List.concat v) l). exists l', attrs.
  split.
  { exists c0, c1, c2, c3, c4, c5, c6, c7, (skipn 8 r), t, p. split; [exact R|].
    unfold l'; cbn [up_l_major_routes l_name l_region l_country l_foreign l_x l_y l_capacity l_pop l_major_routes].
    rewrite F1, F2, F3, F4, F5, F6, F7, F8, U3. cbn [app]. unfold or_unknown. rewrite !empty_cell_eqb.
    repeat (split; [reflexivity|]). split; [now apply number_ok|]. split; [now apply number_ok|]. split; [exact T|].
    split; [destruct Ty; constructor; assumption|]. split; [now apply people_ok|]. split.
    { unfold says. destruct (str_in "camp" (lower t)); auto. }
    split; [|now apply majors_ok]. apply extra_further in E4. exact E4. }
  repeat (split; [assumption|]). split; [rewrite R; exact F1|].
  unfold l'; cbn [up_l_major_routes l_name]. rewrite F1.
  assert (X : e_locations e1 = e_locations e ++ [l]) by (rewrite Ee; reflexivity).
  assert (Y : up_loc (List.length (e_locations e)) (up_l_major_routes (fun l => l ++ List.concat v)) e1 =
     up_e_locations (fun _ => e_locations e ++ [l']) e1).
  { unfold up_loc. unfold up_e_locations. rewrite X, upd_last. reflexivity. }
  rewrite Y. cbn [up_e_locations e_spawn_weights]. rewrite Ee at 1. rewrite Ds. reflexivity.
Qed.

Lemma nil_locations e : up_e_locations (fun l => l ++ []) e = e. Proof. destruct e; unfold up_e_locations; cbn; now rewrite app_nil_r. Qed.
Lemma nil_names e : up_e_locationNames (fun l => l ++ []) e = e. Proof. destruct e; unfold up_e_locationNames; cbn; now rewrite app_nil_r. Qed.
Lemma nil_dicts e : up_e_dicts (fun l => l ++ []) e = e. Proof. destruct e; unfold up_e_dicts; cbn; now rewrite app_nil_r. Qed.
Lemma nil_links e : up_e_links (fun l => l ++ []) e = e. Proof. destruct e; unfold up_e_links; cbn; now rewrite app_nil_r. Qed.
Lemma same_weights e : up_e_spawn_weights (fun _ => e_spawn_weights e) e = e. Proof. now destruct e. Qed.
Lemma same_locations e : up_e_locations (fun _ => e_locations e) e = e. Proof. now destruct e. Qed.

Lemma eco_ext a b : e_locations a = e_locations b -> e_locationNames a = e_locationNames b -> e_links a = e_links b -> e_dicts a = e_dicts b -> e_agents a = e_agents b -> e_closures a = e_closures b -> e_time a = e_time b -> e_spawn_weights a = e_spawn_weights b -> e_num_arrivals a = e_num_arrivals b -> e_travel_durations a = e_travel_durations b -> e_agents_out a = e_agents_out b -> e_links_out a = e_links_out b -> e_par a = e_par b -> e_rank a = e_rank b -> e_mpi_size a = e_mpi_size b -> e_total_agents a = e_total_agents b -> a = b.
Proof. destruct a, b. cbn. intros. subst. reflexivity. Qed.

Lemma add_twice w w1 d1 d2 n1 n2 l1 l2 e :
  up_e_spawn_weights (fun _ => w) (up_e_dicts (fun d => d ++ d2) (up_e_locationNames (fun n => n ++ n2) (up_e_locations (fun l => l ++ l2)
    (up_e_spawn_weights (fun _ => w1) (up_e_dicts (fun d => d ++ d1) (up_e_locationNames (fun n => n ++ n1) (up_e_locations (fun l => l ++ l1) e))))))) =
  up_e_spawn_weights (fun _ => w) (up_e_dicts (fun d => d ++ d1 ++ d2) (up_e_locationNames (fun n => n ++ n1 ++ n2) (up_e_locations (fun l => l ++ l1 ++ l2) e))).
Proof.
  apply eco_ext; try reflexivity; symmetry; [exact (app_assoc (e_locations e) l1 l2)|exact (app_assoc (e_locationNames e) n1 n2)|exact (app_assoc (e_dicts e) d1 d2)].
Qed.
Lemma link_twice x y d1 d2 n1 n2 e :
  up_e_locations (fun _ => y) (up_e_dicts (fun d => d ++ d2) (up_e_links (fun k => k ++ n2)
    (up_e_locations (fun _ => x) (up_e_dicts (fun d => d ++ d1) (up_e_links (fun k => k ++ n1) e))))) =
  up_e_locations (fun _ => y) (up_e_dicts (fun d => d ++ d1 ++ d2) (up_e_links (fun k => k ++ n1 ++ n2) e)).
Proof.
  apply eco_ext; try reflexivity; symmetry; [exact (app_assoc (e_links e) n1 n2)|exact (app_assoc (e_dicts e) d1 d2)].
Qed.

(** What a new location looks like before links are added *)
Definition fresh_row S factor home ig (r : list pystr) (ds : list dict) (l : location) : Prop :=
  exists attrs, from_row S factor home (ig_columns ig) (ig_major_routes ig) r l attrs /\
    nth_error ds (l_attributes l) = Some attrs /\ l_links l = [] /\ l_closed_links l = [] /\
    l_numAgents l = 0%Z /\ l_numAgentsSpawned l = 0%Z /\ l_time_of_conflict l = (-1)%Z.

Lemma fresh_row_more S factor home ig r ds ds' l : fresh_row S factor home ig r ds l -> fresh_row S factor home ig r (ds ++ ds') l.
Proof.
  intros (attrs & A & B & C). exists attrs. split; [exact A|]. split; [|exact C]. rewrite nth_error_app1; [exact B|]. now apply nth_error_lt in B.
Qed.

Lemma store_locations_ok S o factor ig home : forall rows e g e' g',
  foldM (store_location S o factor ig home) rows (e, g) = Ok (e', g') ->
  exists new ds, Forall2 (fun r l => fresh_row S factor home ig r (e_dicts e') l) rows new /\
    e' = up_e_spawn_weights (fun _ => e_spawn_weights e') (up_e_dicts (fun d => d ++ ds)
           (up_e_locationNames (fun ns => ns ++ map l_name new) (up_e_locations (fun ls => ls ++ new) e))).
Proof.
  induction rows as [|r rows IH]; intros e g e' g' H; cbn [foldM] in H.
  - injection H as <- <-. exists [], []. split; [constructor|]. cbn [map]. now rewrite nil_locations, nil_names, nil_dicts, same_weights.
  - rstep H. destruct v as [e1 g1]. apply store_location_ok in E as (l & attrs & R & A & U1 & U2 & U3 & U4 & U5 & _ & E).
    apply IH in H as (new & ds & F & E'). exists (l :: new), (attrs :: ds).
    assert (D1 : e_dicts e1 = e_dicts e ++ [attrs]) by (rewrite E; reflexivity).
    assert (D2 : e_dicts e' = (e_dicts e ++ [attrs]) ++ ds) by (rewrite E'; cbn; now rewrite D1).
    split.
    + constructor; [|exact F]. rewrite D2. apply fresh_row_more. exists attrs. split; [exact R|]. split; [|auto].
      rewrite A, nth_error_app2, Nat.sub_diag by lia. reflexivity.
    + etransitivity; [exact E'|]. rewrite E. exact (add_twice _ _ [attrs] ds [l_name l] (map l_name new) [l] new e).
Qed.

(** ** Links *)

Lemma leaving_app i : forall ks n ks', leaving i n (ks ++ ks') = leaving i n ks ++ leaving i (n + List.length ks) ks'.
Proof.
  induction ks as [|k ks IH]; intros n ks'; cbn [leaving app List.length]; [now rewrite Nat.add_0_r|].
  rewrite IH, <- app_assoc. do 3 f_equal. lia.
Qed.

(** Links [new] and dictionaries [ds] have been added, nothing else. *)
Definition Linked (new : list link) (ds : list dict) (e e' : eco) : Prop :=
  e' = up_e_locations (fun _ => e_locations e') (up_e_dicts (fun d => d ++ ds) (up_e_links (fun ks => ks ++ new) e)) /\
  List.length (e_locations e') = List.length (e_locations e) /\
  forall i l, nth_error (e_locations e) i = Some l ->
    nth_error (e_locations e') i = Some (up_l_links (fun ks => ks ++ leaving i (List.length (e_links e)) new) l).

Lemma linked_refl e : Linked [] [] e e.
Proof.
  split; [|split; [reflexivity|]].
  - now rewrite nil_links, nil_dicts, same_locations.
  - intros i l H. rewrite H. cbn. destruct l; unfold up_l_links; cbn. now rewrite app_nil_r.
Qed.
Lemma linked_links new ds e e' : Linked new ds e e' -> e_links e' = e_links e ++ new.
Proof. intros (E & _). rewrite E. reflexivity. Qed.
Lemma linked_dicts new ds e e' : Linked new ds e e' -> e_dicts e' = e_dicts e ++ ds.
Proof. intros (E & _). rewrite E. reflexivity. Qed.
Lemma linked_names new ds e e' : Linked new ds e e' -> e_locationNames e' = e_locationNames e.
Proof. intros (E & _). rewrite E. reflexivity. Qed.
Lemma linked_trans n1 d1 n2 d2 a b c : Linked n1 d1 a b -> Linked n2 d2 b c -> Linked (n1 ++ n2) (d1 ++ d2) a c.
Proof.
  intros A B. pose proof (linked_links _ _ _ _ A) as L. destruct A as (A1 & A2 & A3), B as (B1 & B2 & B3).
  split; [|split; [congruence|]].
  - etransitivity; [exact B1|]. rewrite A1 at 1. apply link_twice.
  - intros i l H. apply A3, B3 in H. rewrite H. rewrite L, app_length, leaving_app. unfold up_l_links. cbn. now rewrite <- app_assoc.
Qed.

Lemma last_index_ok n : forall names i acc k, last_index n names i acc = Some k ->
  (acc = Some k /\ ~ In n names) \/ (exists j, k = (i + j)%nat /\ nth_error names j = Some n /\ forall j' m, (j < j')%nat -> nth_error names j' = Some m -> m <> n).
Proof.
  induction names as [|m names IH]; intros i acc k H; cbn [last_index] in H; [auto|].
  apply IH in H as [[H N]|(j & -> & J & L)].
  - destruct (String.eqb_spec m n) as [->|Nm].
    + right. exists 0%nat. injection H as <-. split; [lia|]. split; [reflexivity|]. intros [|j'] m' Lt Hm; [lia|].
      intros ->. apply N. eapply nth_error_In; exact Hm.
    + left. split; [exact H|]. intros [X|X]; [congruence|now apply N].
  - right. exists (Datatypes.S j). split; [lia|]. split; [exact J|]. intros [|j'] m' Lt Hm; [lia|]. apply (L j' m'); [lia|exact Hm].
Qed.

(** The list of names of the ecosystem is that of its locations. *)
Definition named_ok (e : eco) : Prop := map l_name (e_locations e) = e_locationNames e.

Lemma called_ok e n i : named_ok e -> last_index n (map sval (e_locationNames e)) 0 None = Some i -> called e n i.
Proof.
  intros N H. rewrite <- N, map_map in H. apply last_index_ok in H as [[H _]|(j & -> & J & L)]; [discriminate|]. cbn [Nat.add].
  rewrite nth_error_map in J. destruct (nth_error (e_locations e) j) as [l|] eqn:El; [|discriminate]. cbn in J. injection J as J.
  split; [eauto|]. intros j' l' Lt Hl'. apply (L j' _ Lt). rewrite nth_error_map, Hl'. reflexivity.
Qed.

Lemma linked_named new ds e e' : Linked new ds e e' -> named_ok e -> named_ok e'.
Proof.
  intros Lk N. red. rewrite (linked_names _ _ _ _ Lk), <- N. destruct Lk as (_ & L & F). 
  apply nth_ext with (d := PS "" 0) (d' := PS "" 0); [rewrite !map_length; exact L|]. intros n Hn. rewrite map_length, L in Hn.
  destruct (nth_error (e_locations e) n) as [l|] eqn:El; [|apply nth_error_None in El; lia].
  pose proof (F _ _ El) as F'. erewrite !nth_error_nth; [reflexivity|..]; rewrite nth_error_map, ?El, ?F'; reflexivity.
Qed.
Lemma linked_called new ds e e' n i : Linked new ds e e' -> called e n i -> called e' n i.
Proof.
  intros (_ & L & F) [(l & Hl & Nl) Last]. split.
  - eexists. split; [apply F; exact Hl|]. exact Nl.
  - intros j l' Lt Hj. destruct (nth_error (e_locations e) j) as [m|] eqn:Em.
    + pose proof (F _ _ Em) as F'. rewrite F' in Hj. injection Hj as <-. apply (Last j m Lt Em).
    + apply nth_error_None in Em. apply nth_error_lt in Hj. lia.
Qed.

Lemma link_up_ok n1 n2 d f attrs e e' : named_ok e -> link_up n1 n2 d f (Some attrs) e = Ok e' ->
  exists k1 k2, Linked [k1; k2] [attrs] e e' /\ built e' (Road n1 n2 d f) attrs k1 k2.
Proof.
  intros N H. unfold link_up in H. cbv zeta in H.
  destruct (last_index n1 _ 0 None) as [i|] eqn:E1; [|discriminate]. destruct (last_index n2 _ 0 None) as [j|] eqn:E2; [|discriminate].
  rstep H. rstep H. cbn [up_e_dicts e_links] in H. injection H as <-.
  set (n := List.length (e_links e)). set (a := List.length (e_dicts e)).
  set (k1 := Link i j false d 0 0 0 f a []). set (k2 := Link j i false d 0 0 0 false a []).
  match goal with |- context [Linked _ _ e ?x] => set (e' := x) end. exists k1, k2.
  assert (Lk : Linked [k1; k2] [attrs] e e').
  { split; [|split].
    - apply eco_ext; try reflexivity. symmetry. exact (app_assoc (e_links e) [k1] [k2]).
    - unfold e'. cbn. now rewrite !upd_length.
    - intros p l Hl. unfold e'. cbn [up_loc up_e_locations up_e_links up_e_dicts e_locations]. rewrite !nth_upd.
      cbn [leaving k_startpoint k1 k2]. rewrite Hl. unfold up_l_links.
      destruct (Nat.eqb j p) eqn:J, (Nat.eqb i p) eqn:I; cbn; rewrite ?app_nil_r, <- ?app_assoc; try reflexivity. now destruct l. }
  split; [exact Lk|]. exists i, j, a. cbn [rd_from rd_to rd_length rd_forced].
  split; [eapply linked_called; [exact Lk|]; now apply called_ok|].
  split; [eapply linked_called; [exact Lk|]; now apply called_ok|].
  split; [|auto]. rewrite (linked_dicts _ _ _ _ Lk), nth_error_app2 by (unfold a; lia). unfold a. now rewrite Nat.sub_diag.
Qed.

Lemma built_more new ds e e' r attrs k1 k2 : Linked new ds e e' -> built e r attrs k1 k2 -> built e' r attrs k1 k2.
Proof.
  intros L (i & j & a & A & B & C & D). exists i, j, a. split; [eapply linked_called; eauto|]. split; [eapply linked_called; eauto|].
  split; [|exact D]. rewrite (linked_dicts _ _ _ _ L), nth_error_app1; [exact C|]. now apply nth_error_lt in C.
Qed.

Lemma all_more new ds e e' rs ks : Linked new ds e e' -> all_built e rs ks -> all_built e' rs ks.
Proof. intros L A. induction A; constructor; auto. eapply built_more; eauto. Qed.
Lemma all_app e rs ks rs' ks' : all_built e rs ks -> all_built e rs' ks' -> all_built e (rs ++ rs') (ks ++ ks').
Proof. intros A B. induction A; [exact B|]. cbn. now constructor. Qed.

Lemma store_link_ok ig e r e' : named_ok e -> store_link ig e r = Ok e' ->
  exists rs attrs new ds, roads_from_row (ig_link_columns ig) r rs attrs /\ Linked new ds e e' /\
    all_built e' (map (fun x => (x, attrs)) rs) new.
Proof.
  intros N H. unfold store_link in H. rstep H. rename v into attrs. cbv zeta in H.
  assert (W : forall forced (swap : bool) a e e', named_ok e ->
     (n1 <- cellv r 0 ;; n2 <- cellv r 1 ;; c2 <- cellv r 2 ;; dist <- of_option ValueError (parse_Q c2) ;;
      if swap then link_up n2 n1 dist forced (Some a) e else link_up n1 n2 dist forced (Some a) e) = Ok e' ->
     exists c0 c1 c2 d k1 k2, r = c0 :: c1 :: c2 :: skipn 3 r /\ parse_Q (sval c2) = Some d /\ Linked [k1; k2] [a] e e' /\
       built e' (if swap then Road (sval c1) (sval c0) d forced else Road (sval c0) (sval c1) d forced) a k1 k2).
  { clear. intros forced swap a e e' N H. rstep H. apply cellv_ok in E as (c0 & C0 & <-). rstep H. apply cellv_ok in E as (c1 & C1 & <-).
    rstep H. apply cellv_ok in E as (c2 & C2 & <-). rstep H. apply of_option_ok in E. exists c0, c1, c2, v.
    assert (R : r = c0 :: c1 :: c2 :: skipn 3 r) by (do 3 (destruct r as [|? r]; [discriminate|]); cbn in *; congruence).
    destruct swap; apply link_up_ok in H as (k1 & k2 & L & B); auto; exists k1, k2; auto. }
  apply extra_further in E. destruct (nth_error r 3) as [c3|] eqn:C3.
  - assert (R3 : skipn 3 r = c3 :: skipn 4 r) by (do 3 (destruct r as [|? r]; [discriminate|]); destruct r; [discriminate|]; cbn in *; congruence).
    rstep H. rename v into ty.
    assert (Ty : sval c3 = "" /\ ty = 0%Z \/ sval c3 <> "" /\ parse_Z (sval c3) = Some ty).
    { rewrite empty_cell_eqb in E0. destruct (String.eqb_spec (sval c3) "") as [X|X]; [injection E0 as <-; auto|]. apply of_option_ok in E0. auto. }
    rstep H. rename v into e1.
    destruct (ty =? 1)%Z eqn:T1.
    + assert (T2 : (ty =? 2)%Z = false) by lia. rewrite T2 in H.
      apply (W true false) in E1 as (c0 & c1 & c2 & d & k1 & k2 & R & P & L & B); [|exact N].
      pose proof (linked_named _ _ _ _ L N) as N1.
      apply (W false false) in H as (c0' & c1' & c2' & d' & k3 & k4 & R' & P' & L' & B'); [|exact N1].
      assert (X : c0' = c0 /\ c1' = c1 /\ c2' = c2) by (rewrite R in R' at 1; injection R' as -> -> ->; auto).
      destruct X as (-> & -> & ->). assert (d' = d) as -> by congruence.
      exists [Road (sval c0) (sval c1) d true; Road (sval c0) (sval c1) d false], attrs, [k1; k2; k3; k4], [attrs; attrs].
      split; [|split].
      * exists c0, c1, c2, (skipn 3 r), d. split; [exact R|]. split; [exact P|]. cbv zeta. rewrite R3. split; [|exact E].
        exists ty. rewrite T2, T1. auto.
      * exact (linked_trans _ _ _ _ _ _ _ L L').
      * cbn [map]. constructor; [eapply built_more; eauto|]. constructor; [exact B'|constructor].
    + injection E1 as <-. destruct (ty =? 2)%Z eqn:T2.
      * apply (W true true) in H as (c0 & c1 & c2 & d & k1 & k2 & R & P & L & B); [|exact N].
        exists [Road (sval c1) (sval c0) d true], attrs, [k1; k2], [attrs]. split; [|split; [exact L|constructor; [exact B|constructor]]].
        exists c0, c1, c2, (skipn 3 r), d. split; [exact R|]. split; [exact P|]. cbv zeta. rewrite R3. split; [|exact E].
        exists ty. rewrite T2. auto.
      * apply (W false false) in H as (c0 & c1 & c2 & d & k1 & k2 & R & P & L & B); [|exact N].
        exists [Road (sval c0) (sval c1) d false], attrs, [k1; k2], [attrs]. split; [|split; [exact L|constructor; [exact B|constructor]]].
        exists c0, c1, c2, (skipn 3 r), d. split; [exact R|]. split; [exact P|]. cbv zeta. rewrite R3. split; [|exact E].
        exists ty. rewrite T2, T1. auto.
  - apply (W false false) in H as (c0 & c1 & c2 & d & k1 & k2 & R & P & L & B); [|exact N].
    exists [Road (sval c0) (sval c1) d false], [], [k1; k2], [[]]. split; [|split; [exact L|constructor; [exact B|constructor]]].
    exists c0, c1, c2, (skipn 3 r), d. split; [exact R|]. split; [exact P|]. cbv zeta.
    assert (R3 : skipn 3 r = []). { apply nth_error_None in C3. now apply skipn_all2. }
    rewrite R3. auto.
Qed.

Lemma store_links_ok ig : forall rows e e', named_ok e -> foldM (store_link ig) rows e = Ok e' ->
  exists rss new ds, Forall2 (fun r ra => roads_from_row (ig_link_columns ig) r (fst ra) (snd ra)) rows rss /\
    Linked new ds e e' /\ all_built e' (flat_map (fun ra => map (fun x => (x, snd ra)) (fst ra)) rss) new.
Proof.
  induction rows as [|r rows IH]; intros e e' N H; cbn [foldM] in H.
  - injection H as <-. exists [], [], []. split; [constructor|]. split; [apply linked_refl|constructor].
  - rstep H. apply store_link_ok in E as (rs & attrs & new & ds & R & L & B); [|exact N].
    apply IH in H as (rss & new' & ds' & F & L' & B'); [|eapply linked_named; eauto].
    exists ((rs, attrs) :: rss), (new ++ new'), (ds ++ ds'). split; [constructor; assumption|].
    split; [eapply linked_trans; eauto|]. cbn [flat_map fst snd]. apply all_app; [eapply all_more; eauto|exact B'].
Qed.

Lemma closures_ok : forall rows cs, mapM store_closure rows = Ok cs -> Forall2 closure_row rows cs.
Proof.
  intros rows cs H. apply mapM_Forall2 in H. induction H as [|r c rows cs H _ IH]; constructor; [|exact IH]. clear IH. unfold store_closure in H.
  rstep H. apply cellv_ok in E as (c0 & C0 & <-). rstep H. apply of_option_ok in E. rstep H. apply of_option_ok in E0.
  rstep H. apply cellv_ok in E1 as (c3 & C3 & <-). rstep H. apply of_option_ok in E1.
  rstep H. apply cellv_ok in E2 as (c4 & C4 & <-). rstep H. apply of_option_ok in E2. injection H as <-.
  exists c0, v, v0, c3, c4, (skipn 5 r), v1, v2. split; [|auto]. do 5 (destruct r as [|? r]; [discriminate|]). cbn in *. congruence.
Qed.

(** ** The whole network *)

Lemma F2_len {A B} (R : A -> B -> Prop) l m : Forall2 R l m -> List.length l = List.length m.
Proof. induction 1; cbn; congruence. Qed.
Lemma F2_nth {A B} (R : A -> B -> Prop) l m : Forall2 R l m -> forall i a b, nth_error l i = Some a -> nth_error m i = Some b -> R a b.
Proof. induction 1; intros [|i] a b Ha Hb; try discriminate; cbn in *; [injection Ha as <-; now injection Hb as <-|eauto]. Qed.

Lemma from_row_linked S factor home cols majors r l attrs f : from_row S factor home cols majors r l attrs ->
  from_row S factor home cols majors r (up_l_links f l) attrs.
Proof.
  intros (c0 & c1 & c2 & c3 & c4 & c5 & c6 & c7 & more & t & p & H). exists c0, c1, c2, c3, c4, c5, c6, c7, more, t, p.
  repeat (split; [apply H|]). split; [|apply H]. destruct H as (_ & _ & _ & _ & _ & _ & _ & _ & Ty & _). destruct Ty. constructor; assumption.
Qed.

Lemma comment_skipped r b : is_comment r = Ok b -> b = skipped r.
Proof.
  unfold is_comment, skipped. destruct r as [|c r]; [now intros [= <-]|]. destruct (sval c) as [|a s]; [discriminate|]. intros [= <-].
  cbn [String.prefix]. destruct (Ascii.ascii_dec "#" a) as [<-|N].
  - rewrite Ascii.eqb_refl. now destruct s.
  - destruct (Ascii.eqb_spec a "#"); [congruence|reflexivity].
Qed.
Lemma read_plain_ok rows lc : read_plain rows = Ok lc -> lc = filter (fun r => negb (skipped r)) rows.
Proof.
  unfold read_plain. intro H.
  assert (W : forall rows acc lc, foldM (fun acc r => c <- is_comment r ;; if c : bool then Ok acc else Ok (acc ++ [r])) rows acc = Ok lc ->
    lc = acc ++ filter (fun r => negb (skipped r)) rows).
  { clear. induction rows as [|r rows IH]; intros acc lc H; cbn [foldM] in H; [injection H as <-; now rewrite app_nil_r|].
    rstep H. rstep E. apply comment_skipped in E0. subst v0. cbn [filter]. destruct (skipped r); injection E as <-; apply IH in H; [exact H|].
    rewrite H, <- app_assoc. reflexivity. }
  now apply W in H.
Qed.

Theorem network_stored : forall o e g0 S factor ig changes g e' g' ig',
  reachable o e g0 -> store_input S o factor ig changes e g = Ok (e', g', ig') ->
  exists first home rss links rows,
    nth_error (ig_locations ig) 0 = Some first /\ option_map (fun c => or_unknown (sval c)) (nth_error first 2) = Some home /\
    List.length (e_locations e') = (List.length (e_locations e) + List.length (ig_locations ig))%nat /\
    (forall i l, nth_error (e_locations e) i = Some l ->
       nth_error (e_locations e') i = Some (up_l_links (fun ks => ks ++ leaving i (List.length (e_links e)) links) l)) /\
    (forall n r, nth_error (ig_locations ig) n = Some r -> let i := (List.length (e_locations e) + n)%nat in
       exists l attrs, nth_error (e_locations e') i = Some l /\ nth_error (e_dicts e') (l_attributes l) = Some attrs /\
         from_row S factor home (ig_columns ig) (ig_major_routes ig) r l attrs /\
         l_links l = leaving i (List.length (e_links e)) links /\ l_closed_links l = [] /\
         l_numAgents l = 0%Z /\ l_numAgentsSpawned l = 0%Z /\ l_time_of_conflict l = (-1)%Z) /\
    Forall2 (fun r ra => roads_from_row (ig_link_columns ig) r (fst ra) (snd ra)) (ig_links ig) rss /\
    all_built e' (flat_map (fun ra => map (fun x => (x, snd ra)) (fst ra)) rss) links /\
    e_links e' = e_links e ++ links /\
    ig_closures ig = Some rows /\ Forall2 closure_row rows (e_closures e') /\
    e_agents e' = e_agents e /\ e_time e' = e_time e /\
    ig_location_changes ig' = Some (filter (fun r => negb (skipped r)) changes).
Proof.
  intros o e g0 S factor ig changes g e' g' ig' R H. unfold store_input in H.
  rstep H. apply of_option_ok in E. rename v into first. rstep H. apply cellv_ok in E0 as (c2 & C2 & <-). cbv zeta in H.
  rstep H. destruct v as [e1 g1]. rstep H. rename v into e2. rstep H. apply of_option_ok in E2. rename v into rows.
  rstep H. rename v into cs. rstep H. rename v into lc. injection H as <- <- <-.
  replace (if empty_cell (sval c2) then "unknown" else sval c2) with (or_unknown (sval c2)) in E0 by (unfold or_unknown, empty_cell; now destruct (sval c2)).
  apply store_locations_ok in E0 as (new & ds & F & L).
  assert (N0 : named_ok e). { apply reachable_inv in R. red. symmetry. apply (st_names _ (i_struct _ R)). }
  assert (N1 : named_ok e1). { red. rewrite L. cbn [up_e_spawn_weights up_e_dicts up_e_locationNames up_e_locations e_locations e_locationNames]. rewrite map_app. f_equal. exact N0. }
  apply store_links_ok in E1 as (rss & links & ds' & Rs & Lk & B); [|exact N1].
  exists first, (or_unknown (sval c2)), rss, links, rows.
  assert (Ll : e_locations e1 = e_locations e ++ new) by (rewrite L; reflexivity).
  assert (Lk1 : e_links e1 = e_links e) by (rewrite L; reflexivity).
  pose proof (F2_len _ _ _ F) as Len.
  pose proof (linked_links _ _ _ _ Lk) as K2. pose proof (linked_dicts _ _ _ _ Lk) as D2. destruct Lk as (Eq & L2 & F2).
  split; [exact E|]. split; [rewrite C2; reflexivity|].
  cbn [up_e_closures e_locations e_links e_dicts e_closures e_agents e_time].
  split; [rewrite L2, Ll, app_length; f_equal; symmetry; exact Len|]. split.
  { intros i l Hl. rewrite <- Lk1. apply F2. rewrite Ll, nth_error_app1; [exact Hl|now apply nth_error_lt in Hl]. }
  split.
  { intros n r Hr. cbv zeta. set (i := (List.length (e_locations e) + n)%nat). assert (X : exists l, nth_error new n = Some l) by (apply nth_error_lt in Hr; apply nth_error_ex; rewrite <- Len; exact Hr).
    destruct X as [l Hl]. pose proof (F2_nth _ _ _ F _ _ _ Hr Hl) as (attrs & A1 & A2 & A3 & A4 & A5 & A6 & A7).
    exists (up_l_links (fun ks => ks ++ leaving i (List.length (e_links e)) links) l), attrs.
    split. { rewrite <- Lk1. apply F2. rewrite Ll, nth_error_app2 by lia. unfold i. now rewrite Nat.add_comm, Nat.add_sub. }
    split. { cbn. rewrite D2, nth_error_app1; [|apply nth_error_lt in A2]; [|exact A2]. exact A2. }
    split. { apply from_row_linked. exact A1. }
    cbn. rewrite A3. auto. }
  split; [exact Rs|]. split.
  { clear -B. induction B as [|r a rs k1 k2 ks H B IH]; constructor; [|exact IH]. exact H. }
  split; [rewrite K2, Lk1; reflexivity|]. split; [exact E2|]. split; [now apply closures_ok|].
  split; [rewrite Eq, L; reflexivity|]. split; [rewrite Eq, L; reflexivity|]. cbn. now rewrite (read_plain_ok _ _ E4).
Qed.
