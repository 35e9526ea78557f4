(** * FloodProofs: flood levels of the locations and flood-driven spawning *)

From Coq Require Import Lia Lqa.
From Verif Require Import Base State Moving Crawling Scoring Diagnostics Flee DataTable
  Spawning InputGeography Api SpecAgents SpecHistory SpecReports SpecSpawn SpecFloods SpecNetwork
  Lemmas Inv InvMoves InvStruct Frames CoreProofs Zones WeightProofs NetworkProofs SpawnProofs.
Local Open Scope Q_scope.
Local Open Scope list_scope.

(** ** UpdateLocationAttributes *)

Lemma py_index_nonneg {A} (l : list A) z v : (0 <= z)%Z -> py_index l z = Ok v -> nth_error l (Z.to_nat z) = Some v.
Proof.
  intros N H. unfold py_index in H. cbv zeta in H. destruct (z <? 0)%Z eqn:B; [apply Z.ltb_lt in B; lia|]. rewrite B in H. apply of_option_ok in H; exact H.
Qed.

Lemma attribute_value_ok k table t name v : (0 <= t)%Z -> attribute_value k table t name = Ok v -> value_on k table t name v.
Proof.
  intros T H. unfold attribute_value in H. cbv zeta in H. unfold value_on.
  destruct (String.eqb_spec k "forecast_flood_levels") as [->|N].
  - right. split; [reflexivity|]. unfold forecast_row. destruct (dict_get name table) as [row|] eqn:E; [injection H as <-; eauto|].
    destruct table as [|[k first] rest] eqn:Et; [discriminate|]. injection H as <-. eexists. split; [reflexivity|]. right. split; [reflexivity|].
    exists k, first, rest. split; [reflexivity|]. split; [apply repeat_length|]. apply Forall_forall. intros x Hx. apply repeat_spec in Hx. now symmetry.
  - left. split; [exact N|]. unfold level_on. destruct (dict_get name table) as [row|] eqn:E.
    + rstep H. injection H as <-. exists v0. split; [reflexivity|]. left. exists row. split; [reflexivity|]. split; [exact T|]. now apply py_index_nonneg.
    + injection H as <-. eexists. split; [reflexivity|]. now right.
Qed.

Lemma set_one j l k v ds e e1 : nth_error (e_locations e) j = Some l -> set_loc_attribute j k v (up_e_dicts (fun _ => ds) e) = Ok e1 ->
  exists d, nth_error ds (l_attributes l) = Some d /\ e1 = up_e_dicts (fun _ => upd (l_attributes l) (dict_set k v) ds) e.
Proof.
  intros Hl H. unfold set_loc_attribute, loc_of, loc_attrs, dict_of in H. cbn [up_e_dicts e_locations e_dicts] in H. rewrite Hl in H. cbn [of_option bind] in H.
  destruct (nth_error ds (l_attributes l)) as [d|]; [|discriminate]. cbn [of_option bind] in H. injection H as <-. eauto.
Qed.

(** The last locations get their attribute. *)
Lemma update_loop k table t e : (0 <= t)%Z -> own_attributes e -> forall n ds e',
  (n <= List.length (e_locations e))%nat ->
  foldM (fun e1 i =>
           l <- loc_of e1 i ;;
           v <- attribute_value k table t (lname l) ;;
           set_loc_attribute i k v e1) (seq (List.length (e_locations e) - n) n) (up_e_dicts (fun _ => ds) e) = Ok e' ->
  e' = up_e_dicts (fun _ => e_dicts e') e /\ List.length (e_dicts e') = List.length ds /\
  (forall m, (forall i l, (List.length (e_locations e) - n <= i)%nat -> nth_error (e_locations e) i = Some l -> l_attributes l <> m) ->
             nth_error (e_dicts e') m = nth_error ds m) /\
  forall i l, (List.length (e_locations e) - n <= i)%nat -> nth_error (e_locations e) i = Some l ->
    exists d v, nth_error ds (l_attributes l) = Some d /\ nth_error (e_dicts e') (l_attributes l) = Some (dict_set k v d) /\
      value_on k table t (lname l) v.
Proof.
  intros T Ow. induction n as [|n IH]; intros ds e' Le H.
  - cbn [seq foldM] in H. injection H as <-. split; [reflexivity|]. split; [reflexivity|]. split; [reflexivity|].
    intros i l Hi Hl. apply nth_error_lt in Hl. lia.
  - cbn [seq foldM] in H. set (j := (List.length (e_locations e) - Datatypes.S n)%nat) in *.
    unfold loc_of at 1 in H. cbn [up_e_dicts e_locations] in H.
    destruct (nth_error (e_locations e) j) as [l|] eqn:Hl; [|apply nth_error_None in Hl; lia]. cbn [of_option bind] in H.
    destruct (attribute_value k table t (lname l)) as [v|] eqn:Ev; [|discriminate]. cbn [bind] in H.
    destruct (set_loc_attribute j k v (up_e_dicts (fun _ => ds) e)) as [e1|] eqn:Es; [|discriminate]. cbn [bind] in H.
    apply (set_one j l) in Es as (d & Hd & ->); [|exact Hl].
    replace (Datatypes.S j) with (List.length (e_locations e) - n)%nat in H by (unfold j; lia).
    apply (IH (upd (l_attributes l) (dict_set k v) ds)) in H; [|lia]. destruct H as (A & B & C & D).
    split; [exact A|]. split; [now rewrite B, upd_length|].
    assert (Oth : forall i m, i <> j -> nth_error (e_locations e) i = Some m -> l_attributes m <> l_attributes l)
      by (intros i m Ne Hm X; apply Ne; eapply Ow; eauto).
    split.
    + intros m Hm. rewrite C by (intros i m1 Hi Hm1; apply (Hm i m1); [unfold j; lia|exact Hm1]). apply nth_upd_other. intro X. eapply (Hm j l); auto.
    + intros i m Hi Hm. destruct (Nat.eq_dec i j) as [->|Ne].
      * assert (m = l) as -> by congruence. exists d, v. split; [exact Hd|]. split; [|now apply attribute_value_ok].
        rewrite C by (intros i' m' Hi' Hm' X; eapply (Oth i' m'); eauto; lia).
        now rewrite nth_upd_same, Hd.
      * destruct (D i m) as (d1 & v1 & D1 & D2 & D3); [lia|exact Hm|]. exists d1, v1.
        rewrite nth_upd_other in D1; [auto|]. intro X. eapply Oth; eauto.
Qed.

Theorem attributes_updated ig k t e e' : update_attributes ig k t e = Ok e' -> own_attributes e -> (0 <= t)%Z ->
  exists table, dict_get k (ig_attributes ig) = Some table /\ only_attribute k (value_on k table t) e e'.
Proof.
  intros H Ow T. unfold update_attributes in H. rstep H. apply of_option_ok in E. rename v into table. exists table. split; [exact E|].
  assert (X : e = up_e_dicts (fun _ => e_dicts e) e) by now destruct e.
  replace 0%nat with (List.length (e_locations e) - List.length (e_locations e))%nat in H by lia.
  match type of H with foldM ?f ?l e = _ => assert (H' : foldM f l (up_e_dicts (fun _ => e_dicts e) e) = Ok e') by (rewrite <- X; exact H) end.
  clear X H. apply update_loop in H' as (A & B & C & D); auto. split; [exact A|]. split; [exact B|]. split.
  - intros n Hn. apply C. intros i l _ Hl. apply Hn. eapply nth_error_In; eauto.
  - intros l Hl. apply In_nth_error in Hl as [i Hl]. destruct (D i l) as (d & v & D1 & D2 & D3); [lia|exact Hl|].
    exists d, (dict_set k v d), v. split; [exact D1|]. split; [exact D2|]. rewrite dget_set, String.eqb_refl. split; [reflexivity|]. split; [exact D3|].
    intros k' Nk. rewrite dget_set. destruct (String.eqb_spec k' k); [contradiction|reflexivity].
Qed.

(** ** AddNewConflictZones in flood simulations *)

(** Locations keep names and dictionaries, dictionaries their contents. *)
Definition kept (e e' : eco) : Prop :=
  e_dicts e' = e_dicts e /\ List.length (e_locations e') = List.length (e_locations e) /\
  forall i l, nth_error (e_locations e) i = Some l -> exists l', nth_error (e_locations e') i = Some l' /\
    l_name l' = l_name l /\ l_attributes l' = l_attributes l.
Lemma kept_refl e : kept e e.
Proof. split; [reflexivity|]. split; [reflexivity|]. eauto. Qed.
Lemma kept_trans a b c : kept a b -> kept b c -> kept a c.
Proof.
  intros (A1 & A2 & A3) (B1 & B2 & B3). split; [congruence|]. split; [congruence|]. intros i l Hl.
  destruct (A3 i l Hl) as (l1 & H1 & N1 & D1). destruct (B3 i l1 H1) as (l2 & H2 & N2 & D2). exists l2. split; [exact H2|]. split; congruence.
Qed.
Lemma kept_named name f e e' : (forall l, l_name (f l) = l_name l /\ l_attributes (f l) = l_attributes l) -> on_named_loc name f e = Ok e' -> kept e e'.
Proof.
  intros F H. unfold on_named_loc in H. cbv zeta in H. rstep H. injection H as <-. split; [reflexivity|].
  split; [unfold up_loc, up_e_locations; cbn [e_locations]; apply upd_length|]. intros i l Hl. unfold up_loc, up_e_locations. cbn [e_locations].
  destruct (Nat.eq_dec i (convert_name e name)) as [->|N].
  - rewrite nth_upd_same, Hl. exists (f l). split; [reflexivity|]. apply F.
  - rewrite nth_upd_other by congruence. eauto.
Qed.
Lemma kept_change S n t e e' : change_location_type S n t e = Ok e' -> kept e e'.
Proof.
  unfold change_location_type. cbv zeta. intro H.
  repeat match type of H with (if ?b then _ else _) = _ => destruct b end;
    try (eapply kept_named; [|exact H]; intro l; cbv beta; try destruct (str_in "idp" (lower t)); split; reflexivity); rstep H; discriminate.
Qed.
Lemma kept_changes S t changes e e' : apply_changes S t changes e = Ok e' -> kept e e'.
Proof.
  unfold apply_changes. intro H. eapply (foldM_rel kept) in H; [exact H|exact kept_refl|intros a b c; apply kept_trans|].
  intros a c b _ Hs. rstep Hs. rstep Hs. destruct (v0 =? t)%Z; [|injection Hs as <-; apply kept_refl]. rstep Hs. rstep Hs. eapply kept_change; eauto.
Qed.
Lemma kept_own e e' : kept e e' -> own_attributes e -> own_attributes e'.
Proof.
  intros (_ & L & K) Ow i j l m Hi Hj X.
  destruct (nth_error_ex (e_locations e) i) as [l0 Hl0]; [rewrite <- L; eapply nth_error_lt; eauto|].
  destruct (nth_error_ex (e_locations e) j) as [m0 Hm0]; [rewrite <- L; eapply nth_error_lt; eauto|].
  destruct (K _ _ Hl0) as (l1 & A & _ & B). destruct (K _ _ Hm0) as (m1 & A' & _ & B').
  eapply Ow; eauto. congruence.
Qed.
Lemma only_own k R e e' : only_attribute k R e e' -> own_attributes e -> own_attributes e'.
Proof. intros (A & _) Ow i j l m. rewrite A. cbn [up_e_dicts e_locations]. apply Ow. Qed.

Theorem flood_day S cf ig t e e' : s_FloodRulesEnabled S = true -> own_attributes e -> (0 <= t)%Z ->
  add_new_conflict_zones S cf ig t e = Ok e' ->
  exists levels, dict_get "flood_level" (ig_attributes ig) = Some levels /\
  forall i l, nth_error (e_locations e) i = Some l -> exists l' d d',
    nth_error (e_locations e') i = Some l' /\ lname l' = lname l /\ attributes_of e l d /\ attributes_of e' l' d' /\
    (exists z, dict_get "flood_level" d' = Some (VInt z) /\ level_on levels t (lname l) z) /\
    (s_FloodForecaster S = true -> exists table row, dict_get "forecast_flood_levels" (ig_attributes ig) = Some table /\
       dict_get "forecast_flood_levels" d' = Some (VList row) /\ forecast_row table (lname l) row) /\
    (forall k, k <> "flood_level"%string -> (s_FloodForecaster S = false \/ k <> "forecast_flood_levels"%string) -> dict_get k d' = dict_get k d).
Proof.
  intros Fl Ow T H. unfold add_new_conflict_zones in H. rstep H. rename v into changes. rstep H. rename v into e1. rewrite Fl in H.
  rstep H. rename v into e2. apply kept_changes in E0. pose proof (kept_own _ _ E0 Ow) as Ow1.
  apply attributes_updated in E1 as (levels & Lv & U); auto. pose proof (only_own _ _ _ _ U Ow1) as Ow2. exists levels. split; [exact Lv|].
  destruct E0 as (Kd & _ & K). destruct U as (Ue & _ & _ & U).
  assert (L2 : e_locations e2 = e_locations e1) by (rewrite Ue; reflexivity).
  intros i l Hl. destruct (K i l Hl) as (l1 & Hl1 & Nm & At). destruct (U l1) as (d & d1 & v & A1 & A2 & A3 & A4 & A5); [eapply nth_error_In; eauto|].
  assert (Nm' : lname l1 = lname l) by (unfold lname; now rewrite Nm). rewrite Nm' in A4.
  assert (D0 : attributes_of e l d) by (unfold attributes_of in *; rewrite <- At, <- Kd; exact A1).
  destruct A4 as [[_ A4]|[X _]]; [|discriminate X]. destruct A4 as (z & -> & Lz).
  destruct (s_FloodForecaster S) eqn:Ff.
  - apply attributes_updated in H as (table & Tb & We & _ & _ & W); auto. destruct (W l1) as (d2 & d3 & v & B1 & B2 & B3 & B4 & B5); [rewrite L2; eapply nth_error_In; eauto|].
    assert (d2 = d1) as -> by (unfold attributes_of in *; congruence). rewrite Nm' in B4.
    destruct B4 as [[X _]|[_ B4]]; [now contradiction X|]. destruct B4 as (row & -> & Fr).
    exists l1, d, d3. split; [rewrite We; cbn [up_e_dicts e_locations]; now rewrite L2|]. split; [exact Nm'|]. split; [exact D0|]. split; [exact B2|].
    split; [exists z; rewrite B5 by discriminate; auto|]. split; [intros _; exists table, row; auto|].
    intros k Nk [X|Nf]; [discriminate|]. rewrite B5, A5; auto.
  - injection H as <-. exists l1, d, d1. split; [now rewrite L2|]. split; [exact Nm'|]. split; [exact D0|]. split; [exact A2|].
    split; [eauto|]. split; [discriminate|]. intros k Nk _. now apply A5.
Qed.

(** ** Who has an own dictionary *)

Definition bounded (e : eco) : Prop := forall i l, nth_error (e_locations e) i = Some l -> (l_attributes l < List.length (e_dicts e))%nat.

Lemma store_one_own S o factor ig home e g r e' g' : bounded e -> own_attributes e ->
  store_location S o factor ig home (e, g) r = Ok (e', g') -> bounded e' /\ own_attributes e'.
Proof.
  intros Bd Ow H. apply store_location_ok in H as (l & attrs & _ & At & _ & _ & _ & _ & _ & _ & X).
  assert (L : e_locations e' = e_locations e ++ [l]) by (rewrite X; reflexivity).
  assert (D : e_dicts e' = e_dicts e ++ [attrs]) by (rewrite X; reflexivity). clear X.
  assert (Old : forall i m, nth_error (e_locations e') i = Some m -> (i < List.length (e_locations e) /\ nth_error (e_locations e) i = Some m)%nat \/
      (i = List.length (e_locations e) /\ m = l)).
  { intros i m Hm. rewrite L in Hm. destruct (Nat.lt_ge_cases i (List.length (e_locations e))) as [B|B].
    - left. rewrite nth_error_app1 in Hm by exact B. auto.
    - right. rewrite nth_error_app2 in Hm by exact B. destruct (i - List.length (e_locations e))%nat as [|x] eqn:Ex; [|destruct x; discriminate].
      injection Hm as <-. split; [lia|reflexivity]. }
  split.
  - intros i m Hm. rewrite D, app_length. cbn [List.length]. destruct (Old i m Hm) as [[_ Hm']|[_ ->]]; [apply Bd in Hm'; lia|lia].
  - intros i j m m' Hm Hm' Eq. destruct (Old i m Hm) as [[Bi Hi]|[-> ->]], (Old j m' Hm') as [[Bj Hj]|[-> ->]]; auto.
    + eapply Ow; eauto.
    + apply Bd in Hi. lia.
    + apply Bd in Hj. lia.
Qed.

Theorem stored_own o e g0 S factor ig changes g e' g' ig' : reachable o e g0 -> own_attributes e ->
  store_input S o factor ig changes e g = Ok (e', g', ig') -> own_attributes e'.
Proof.
  intros R Ow H. unfold store_input in H. rstep H. rstep H. cbv zeta in H. rstep H. destruct v1 as [e1 g1]. rstep H. rename v1 into e2.
  rstep H. rstep H. rstep H. injection H as <- <- <-.
  assert (N0 : named_ok e). { apply reachable_inv in R. red. symmetry. apply (st_names _ (i_struct _ R)). }
  assert (N1 : named_ok e1).
  { pose proof E1 as X. apply store_locations_ok in X as (new & ds & F & L). red. rewrite L.
    cbn [up_e_spawn_weights up_e_dicts up_e_locationNames up_e_locations e_locations e_locationNames]. rewrite map_app. f_equal. exact N0. }
  assert (B0 : bounded e).
  { apply reachable_inv in R. intros i l Hl. apply (st_loc _ (i_struct _ R) i l Hl). }
  assert (B1 : bounded e1 /\ own_attributes e1).
  { eapply (foldM_inv (fun st : eco * rng => bounded (fst st) /\ own_attributes (fst st))) in E1; [exact E1| |split; assumption].
    intros [a ga] r [b gb] _ [Ba Oa] Hs. cbn [fst] in *. eapply store_one_own; eauto. }
  apply store_links_ok in E2 as (rss & links & ds' & _ & (_ & Len & Lk) & _); [|exact N1].
  intros i j l m. cbn [up_e_closures e_locations]. intros Hi Hj Eq.
  destruct (nth_error_ex (e_locations e1) i) as [l0 Hl0]; [rewrite <- Len; eapply nth_error_lt; eauto|].
  destruct (nth_error_ex (e_locations e1) j) as [m0 Hm0]; [rewrite <- Len; eapply nth_error_lt; eauto|].
  apply (proj2 B1 i j l0 m0 Hl0 Hm0). apply Lk in Hl0, Hm0. rewrite Hl0 in Hi. rewrite Hm0 in Hj. injection Hi as <-. injection Hj as <-. exact Eq.
Qed.

Theorem own_kept o h e g e' g' : run o h e g = Ok (e', g') -> List.length (e_locations e') = List.length (e_locations e) ->
  own_attributes e -> own_attributes e'.
Proof.
  intros H Len Ow i j l m Hi Hj Eq.
  destruct (nth_error_ex (e_locations e) i) as [l0 Hl0]; [rewrite <- Len; eapply nth_error_lt; eauto|].
  destruct (nth_error_ex (e_locations e) j) as [m0 Hm0]; [rewrite <- Len; eapply nth_error_lt; eauto|].
  destruct (places_stay o h e g e' g' i l0 H Hl0) as (l1 & A & _ & _ & _ & _ & _ & _ & B).
  destruct (places_stay o h e g e' g' j m0 H Hm0) as (m1 & A' & _ & _ & _ & _ & _ & _ & B').
  eapply Ow; eauto. congruence.
Qed.

(** ** Flood-driven spawning *)

Lemma flood_number_ok S d l g n g' : String.eqb (lower (s_flood_spawn_mode S)) "poisson" = false ->
  flood_spawn_number S d l g = Ok (n, g') -> g' = g /\ flood_amount S d l n.
Proof.
  intros M H. unfold flood_spawn_number in H. cbv zeta in H. unfold flood_amount, flood_level_of, dict_get_default in *.
  destruct (dict_get "flood_level" d) as [v|] eqn:E.
  2:{ cbn in H. injection H as <- <-. split; [reflexivity|]. left. exists 0. split; [now left|]. split; [lra|reflexivity]. }
  destruct v as [z|q|s|row]; cbn [py_num bind] in H; try discriminate.
  - destruct (Qltb 0 (inject_Z z)) eqn:B.
    + apply Qltb_true in B. assert (Pz : (0 < z)%Z) by (change 0 with (inject_Z 0) in B; now rewrite <- Zlt_Qlt in B).
      cbn [py_as_index bind] in H. rstep H. apply py_index_nonneg in E0; [|lia].
      assert (X : g' = g /\ n = if String.eqb (s_flood_spawn_mode S) "constant" then Qtrunc v
         else if String.eqb (s_flood_spawn_mode S) "pop_ratio" then Qtrunc (v * inject_Z (l_pop l)) else 0%Z).
      { destruct (String.eqb (s_flood_spawn_mode S) "constant"); [injection H as <- <-; auto|].
        destruct (String.eqb (s_flood_spawn_mode S) "pop_ratio"); [injection H as <- <-; auto|]. rewrite M in H. injection H as <- <-; auto. }
      destruct X as [-> ->]. split; [reflexivity|]. right. exists z, v. auto.
    + apply Qltb_false in B. injection H as <- <-. split; [reflexivity|]. left. exists (inject_Z z). split; [right; left; eauto|]. split; [exact B|reflexivity].
  - destruct (Qltb 0 q) eqn:B; [discriminate|]. apply Qltb_false in B. injection H as <- <-. split; [reflexivity|]. left. exists q. auto.
Qed.

Lemma amount_same S d l l' n : l_pop l' = l_pop l -> flood_amount S d l n -> flood_amount S d l' n.
Proof. intros P. unfold flood_amount. now rewrite P. Qed.

Lemma flood_loop S dm e0 : String.eqb (lower (s_flood_spawn_mode S)) "poisson" = false ->
  forall is_ total e g n e' g', e_par e = false -> rng_ok g -> NoDup is_ -> e_dicts e = e_dicts e0 ->
  (forall i l0, In i is_ -> nth_error (e_locations e0) i = Some l0 -> exists l, nth_error (e_locations e) i = Some l /\
      l_attributes l = l_attributes l0 /\ l_pop l = l_pop l0) ->
  (forall i, In i is_ -> (i < List.length (e_locations e0))%nat) ->
  foldM (fun st i =>
           let '(total, e1, g1) := st in
           l <- loc_of e1 i ;;
           '(n, g2) <- (at_ <- loc_attrs e1 l ;; flood_spawn_number S at_ l g1) ;;
           '(e2, g3) <- spawn_n S dm true i n (e1, g2) ;;
           Ok ((total + n)%Z, e2, g3)) is_ (total, e, g) = Ok (n, e', g') ->
  exists ns, Forall2 (fun i n => exists l d, nth_error (e_locations e0) i = Some l /\ attributes_of e0 l d /\ flood_amount S d l n) is_ ns /\
  n = (total + sumZ ns)%Z /\
  exists new, grown (s_TakeFromPopulation S) new e e' /\
    fresh_in dm e (flat_map (fun im => repeat (fst im) (Z.to_nat (snd im))) (combine is_ ns)) new.
Proof.
  intros M. induction is_ as [|i is_ IH]; intros total e g n e' g' P G ND Ds K B H; cbn [foldM] in H.
  - injection H as <- <- <-. exists []. split; [constructor|]. split; [cbn; lia|]. exists []. split; [apply grown_refl|constructor].
  - destruct (nth_error_ex (e_locations e0) i) as [l0 Hl0]; [apply B; now left|].
    destruct (K i l0 (or_introl eq_refl) Hl0) as (l & Hl & C1 & C2).
    unfold loc_of at 1 in H. rewrite Hl in H. cbn [of_option bind] in H.
    destruct (loc_attrs e l) as [d|] eqn:Ed; [|discriminate]. cbn [bind] in H. apply attrs_ok in Ed.
    destruct (flood_spawn_number S d l g) as [[m g2]|] eqn:En; [|discriminate]. cbn [bind] in H.
    apply flood_number_ok in En as [-> Am]; [|exact M].
    destruct (spawn_n S dm true i m (e, g)) as [[e2 g3]|] eqn:Es; [|discriminate]. cbn [bind] in H.
    apply n_spec in Es as (G3 & n1 & Gr & F1); auto. cbn [andb] in Gr.
    inversion ND as [|x xs NI ND']; subst x xs.
    apply IH in H as (ns & Fa & -> & n2 & Gr2 & F2); auto.
    + exists (m :: ns). split; [constructor; [|exact Fa]|].
      { exists l0, d. split; [exact Hl0|]. split; [unfold attributes_of in *; now rewrite <- C1, <- Ds|]. eapply amount_same; [|exact Am]. now symmetry. }
      split; [cbn [sumZ fold_right]; unfold sumZ; lia|].
      exists (n1 ++ n2). split; [eapply grown_trans; eauto|]. cbn [combine flat_map fst snd].
      apply fresh_app; [exact F1|]. eapply fresh_later; eauto. intros j Hj. destruct Gr as (_ & L & _). rewrite <- L. eapply fresh_lt; eauto.
    + erewrite grown_par; eauto.
    + destruct Gr as (Ge & _). rewrite Ge. exact Ds.
    + intros j lj Hj Hlj. destruct (K j lj (or_intror Hj) Hlj) as (q & Hq & D1 & D2). destruct Gr as (_ & _ & Gr).
      destruct (Gr j q Hq) as (q' & Hq' & U & _ & _ & Po). exists q'. split; [exact Hq'|].
      split; [rewrite <- D1; change (l_attributes (uncounted q') = l_attributes (uncounted q)); now rewrite U|]. rewrite Po, <- D2.
      assert (Z0 : arrivals j n1 = 0%Z) by (eapply arrivals_none; [exact F1|]; intro Hr; apply repeat_spec in Hr; subst; contradiction).
      rewrite Z0. destruct (s_TakeFromPopulation S); [|reflexivity]. destruct (0 <? l_pop q)%Z eqn:Bq; lia.
    + intros j Hj. apply B. now right.
Qed.

Lemma F2_seq {A B} (R : A -> B -> Prop) (ls : list A) : forall k (ms : list B),
  Forall2 (fun i m => exists l, nth_error ls (i - k)%nat = Some l /\ R l m) (seq k (List.length ls)) ms -> Forall2 R ls ms.
Proof.
  induction ls as [|a ls IH]; intros k ms H; cbn [List.length seq] in H.
  - inversion H. constructor.
  - inversion H as [|x m xs ms' H1 H2]; subst. constructor.
    + rewrite Nat.sub_diag in H1. destruct H1 as (l & [= <-] & Hr). exact Hr.
    + apply (IH (Datatypes.S k)). clear - H2. remember (seq (Datatypes.S k) (List.length ls)) as is_ eqn:Es.
      assert (Hin : forall i, In i is_ -> (Datatypes.S k <= i)%nat) by (subst; intros i Hi; apply in_seq in Hi; lia). clear Es.
      induction H2 as [|i m is_ ms H F IHF]; constructor; [|apply IHF; intros; apply Hin; now right].
      replace (i - k)%nat with (Datatypes.S (i - Datatypes.S k)) in H by (specialize (Hin i (or_introl eq_refl)); lia). exact H.
Qed.

Lemma F2_impl {A B} (P R : A -> B -> Prop) l m : (forall a b, P a b -> R a b) -> Forall2 P l m -> Forall2 R l m.
Proof. intros H F. induction F; constructor; auto. Qed.

Theorem flood_spawning o S dm t sp d e g n sp' d' e' g' :
  reachable o e g -> rng_ok g -> s_conflict_driven_spawning S = false -> s_flood_driven_spawning S = true ->
  String.eqb (lower (s_flood_spawn_mode S)) "poisson" = false ->
  spawn_daily_displaced S dm t sp d e g = Ok (n, sp', d', e', g') ->
  sp' = sp /\ d' = d /\ exists ns,
  Forall2 (fun l n => exists a, attributes_of e l a /\ flood_amount S a l n) (e_locations e) ns /\ n = sumZ ns /\
  exists new, grown (s_TakeFromPopulation S) new e e' /\
    fresh_in dm e (flat_map (fun im => repeat (fst im) (Z.to_nat (snd im))) (combine (seq 0 (List.length ns)) ns)) new.
Proof.
  intros R G C F M H. unfold spawn_daily_displaced in H. rewrite C, F in H.
  destruct (spawn_loop _ _ _ _ _) as [[[n1 e1] g1]|] eqn:E; [|discriminate]. cbn [bind] in H. injection H as <- <- <- <- <-.
  split; [reflexivity|]. split; [reflexivity|]. unfold spawn_loop in E.
  assert (Bd : forall i, In i (seq 0 (List.length (e_locations e))) -> (i < List.length (e_locations e))%nat) by (intros i Hi; apply in_seq in Hi; lia).
  destruct (flood_loop S dm e M _ _ _ _ _ _ _ (reachable_par _ _ _ R) G (seq_NoDup _ _) eq_refl
    (fun i l0 _ H => ex_intro _ l0 (conj H (conj eq_refl eq_refl))) Bd E) as (ns & Fa & -> & new & Gr & Fr).
  exists ns. split; [|split; [lia|]].
  - apply (F2_seq _ _ 0%nat). eapply F2_impl; [|exact Fa]. intros i m (l & a & Hl & Ha & Hm). rewrite Nat.sub_0_r. eauto.
  - exists new. split; [exact Gr|]. apply F2_len in Fa. rewrite seq_length in Fa. rewrite <- Fa. exact Fr.
Qed.
