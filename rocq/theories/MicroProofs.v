(** * MicroProofs: the input of the micro model and its weather *)

From Coq Require Import Lia Lqa.
From Verif Require Import Base State Moving Crawling Flee InputGeography Pflee MicroGeography
  SpecAgents SpecHistory SpecNetwork SpecMicro Lemmas NetworkProofs.
Local Open Scope string_scope.
Local Open Scope Q_scope.
Local Open Scope list_scope.

(** ** The file of routes *)

Lemma cell_ok r i c : cell r i = Ok c -> nth_error r i = Some c.
Proof. unfold cell. destruct (nth_error r i); cbn; congruence. Qed.

Lemma hash_prefix a s : prefix "#" (String a s) = Ascii.eqb a "#"%char.
Proof. destruct a as [[] [] [] [] [] [] [] []]; try reflexivity. now destruct s. Qed.
Lemma comment_ok r b : micro_comment r = Ok b <-> exists c more, r = c :: more /\ sval c <> "" /\ b = skipped r.
Proof.
  split.
  - destruct r as [|c r]; cbn [micro_comment]; [discriminate|]. destruct (sval c) as [|a s] eqn:E; [discriminate|]. intro H. injection H as <-.
    exists c, r. split; [reflexivity|]. split; [congruence|]. cbn [skipped]. now rewrite E, hash_prefix.
  - intros (c & more & -> & N & ->). cbn [micro_comment skipped]. destruct (sval c) as [|a s]; [congruence|]. now rewrite hash_prefix.
Qed.

Lemma five (r : list pystr) c0 c1 c2 c3 c4 : nth_error r 0 = Some c0 -> nth_error r 1 = Some c1 -> nth_error r 2 = Some c2 ->
  nth_error r 3 = Some c3 -> nth_error r 4 = Some c4 -> r = c0 :: c1 :: c2 :: c3 :: c4 :: skipn 5 r.
Proof. do 5 (destruct r as [|? r]; [discriminate|]). cbn. congruence. Qed.

Lemma read_row_ok acc r acc' : micro_read_link_row acc r = Ok acc' <->
  readable r /\ acc' = acc ++ (if skipped r then [] else [firstn 5 r]).
Proof.
  unfold micro_read_link_row. split.
  - intro H. rstep H. apply comment_ok in E as (c & more & Er & N & ->). destruct (skipped r) eqn:K.
    + injection H as <-. split; [exists c, more; auto|now rewrite app_nil_r].
    + rstep H. apply cell_ok in E. rstep H. apply cell_ok in E0. rstep H. apply cell_ok in E1. rstep H. apply cell_ok in E2.
      rstep H. apply cell_ok in E3. injection H as <-. pose proof (five _ _ _ _ _ _ E E0 E1 E2 E3) as F.
      split; [|rewrite F; reflexivity]. exists c, more. split; [exact Er|]. split; [exact N|]. right. rewrite F. cbn. lia.
  - intros [(c & more & Er & N & D) ->].
    assert (C : micro_comment r = Ok (skipped r)) by (apply comment_ok; exists c, more; auto). rewrite C. cbn [bind].
    destruct (skipped r) eqn:K; [now rewrite app_nil_r|]. destruct D as [D|D]; [congruence|].
    clear - D. do 5 (destruct r as [|? r]; [cbn in D; lia|]). reflexivity.
Qed.

Theorem micro_file : forall rows links,
  micro_read_links rows = Ok links <->
  Forall readable rows /\ links = map (firstn 5) (filter (fun r => negb (skipped r)) rows).
Proof.
  unfold micro_read_links. intros rows links.
  enough (W : forall acc, foldM micro_read_link_row rows acc = Ok links <->
    Forall readable rows /\ links = acc ++ map (firstn 5) (filter (fun r => negb (skipped r)) rows)) by apply (W []).
  induction rows as [|r rows IH]; intro acc; cbn [foldM filter].
  - split; [intro H; injection H as <-; split; [constructor|cbn; now rewrite app_nil_r]|intros [_ ->]; cbn; now rewrite app_nil_r].
  - split.
    + intro H. rstep H. apply read_row_ok in E as [R ->]. apply IH in H as [F ->]. split; [now constructor|].
      rewrite <- app_assoc. f_equal. destruct (skipped r); reflexivity.
    + intros [F ->]. inversion F as [|? ? R F' E1]; subst.
      rewrite (proj2 (read_row_ok acc r _) (conj R eq_refl)). cbn [bind]. apply IH. split; [exact F'|].
      rewrite <- app_assoc. f_equal. destruct (skipped r); reflexivity.
Qed.

(** ** Locations *)

Lemma micro_people f c n : micro_population f c = Ok n -> people f c n.
Proof.
  unfold micro_population, people. rewrite empty_cell_eqb. destruct (String.eqb_spec c "") as [->|N]; intro H.
  - injection H as <-. auto.
  - right. rstep H. apply of_option_ok in E. destruct (f =? 0)%Z eqn:F; [discriminate|]. injection H as <-.
    split; [exact N|]. split; [lia|]. eauto.
Qed.

Definition micro_fresh S factor (r : list pystr) (ds : list dict) (l : location) : Prop :=
  exists attrs, micro_row S factor r l attrs /\ nth_error ds (l_attributes l) = Some attrs /\
    l_links l = [] /\ l_closed_links l = [] /\ l_numAgents l = 0%Z /\ l_numAgentsSpawned l = 0%Z /\ l_time_of_conflict l = (-1)%Z.

Lemma micro_location_ok S o factor e g r e' g' :
  micro_store_location S o factor (e, g) r = Ok (e', g') ->
  exists l, micro_fresh S factor r (e_dicts e') l /\
    e' = up_e_spawn_weights (fun _ => e_spawn_weights e') (up_e_dicts (fun ds => ds ++ [])
           (up_e_locationNames (fun ns => ns ++ [l_name l]) (up_e_locations (fun ls => ls ++ [l]) e))).
Proof.
  unfold micro_store_location. intro H.
  rstep H. apply cell_ok in E. rename v into c0. rstep H. apply cellv_ok in E0 as (c1 & C1 & <-).
  rstep H. rename v into p. rstep H. apply cellv_ok in E1 as (c2 & C2 & <-). rstep H. rename v into x.
  rstep H. apply cellv_ok in E2 as (c3 & C3 & <-). rstep H. rename v into y.
  rstep H. apply cellv_ok in E3 as (c7 & C7 & <-). cbv zeta in H. rstep H. apply cellv_ok in E3 as (c4 & C4 & <-).
  rstep H. rename v into t.
  assert (exists c5, nth_error r 5 = Some c5) as [c5 C5] by (apply nth_error_ex; apply nth_error_lt in C7; lia).
  assert (exists c6, nth_error r 6 = Some c6) as [c6 C6] by (apply nth_error_ex; apply nth_error_lt in C7; lia).
  assert (R : r = c0 :: c1 :: c2 :: c3 :: c4 :: c5 :: c6 :: c7 :: skipn 8 r).
  { clear - E C1 C2 C3 C4 C5 C6 C7. do 8 (destruct r as [|? r]; [discriminate|]). cbn in *. congruence. }
  assert (T : type_asked (sval c4) (sval c5) t).
  { unfold type_asked, says. rstep E3.
    - rstep E3. unfold cellv, cell in E4. rewrite C5 in E4. cbn in E4. injection E4 as <-. rstep E3. apply of_option_ok in E4. injection E3 as <-. eauto.
    - now injection E3 as <-. }
  unfold par_add_location in H. change (Qltb (-1) 0) with true in H. cbv iota in H.
  apply location_added in H as (l & d & Ee & Ds & Dn & Da & F1 & F2 & F3 & F4 & F5 & F6 & F7 & F8 & Ty & Un & _).
  destruct Un as (U1 & U2 & U3 & U4 & U5 & U6 & U7 & U8 & U9). exists l. split.
  - exists d. split; [|auto 10].
    exists c0, c1, c2, c3, c4, c5, c6, c7, (skipn 8 r), t, p. split; [exact R|].
    rewrite F1, F2, F3, F4, F5, F6, F7, F8, U3. unfold or_unknown. rewrite !empty_cell_eqb.
    repeat (split; [reflexivity|]). split; [now apply micro_people|]. split; [now apply number_ok|]. split; [now apply number_ok|].
    split; [exact T|]. split; [exact Ty|]. split; [|reflexivity]. unfold says. destruct (str_in "camp" (lower (sval c4))); auto.
  - rewrite F1. etransitivity; [exact Ee|]. rewrite Ds. reflexivity.
Qed.

Lemma micro_locations_ok S o factor : forall rows e g e' g',
  foldM (micro_store_location S o factor) rows (e, g) = Ok (e', g') ->
  exists new, Forall2 (fun r l => micro_fresh S factor r (e_dicts e') l) rows new /\
    e' = up_e_spawn_weights (fun _ => e_spawn_weights e') (up_e_dicts (fun d => d ++ [])
           (up_e_locationNames (fun ns => ns ++ map l_name new) (up_e_locations (fun ls => ls ++ new) e))).
Proof.
  induction rows as [|r rows IH]; intros e g e' g' H; cbn [foldM] in H.
  - injection H as <- <-. exists []. split; [constructor|]. cbn [map]. now rewrite nil_locations, nil_names, nil_dicts, same_weights.
  - rstep H. destruct v as [e1 g1]. apply micro_location_ok in E as (l & R & E).
    apply IH in H as (new & F & E'). exists (l :: new).
    assert (D2 : e_dicts e' = e_dicts e1) by (rewrite E'; cbn; now rewrite app_nil_r).
    split; [constructor; [rewrite D2; exact R|exact F]|].
    etransitivity; [exact E'|]. rewrite E. exact (add_twice _ _ [] [] [l_name l] (map l_name new) [l] new e).
Qed.

(** ** Links *)

Lemma laid_up n1 n2 d f e e' : named_ok e -> link_up n1 n2 d f None e = Ok e' ->
  exists k1 k2, Linked [k1; k2] [] e e' /\ laid e' (Road n1 n2 d f) k1 k2.
Proof.
  intros N H. unfold link_up in H. cbv zeta in H.
  destruct (last_index n1 _ 0 None) as [i|] eqn:E1; [|discriminate]. destruct (last_index n2 _ 0 None) as [j|] eqn:E2; [|discriminate].
  rstep H. rstep H. injection H as <-.
  set (k1 := Link i j false d 0 0 0 f 1 []). set (k2 := Link j i false d 0 0 0 false 1 []).
  match goal with |- context [Linked _ _ e ?x] => set (e' := x) end. exists k1, k2.
  assert (Lk : Linked [k1; k2] [] e e').
  { split; [|split].
    - apply eco_ext; try reflexivity; symmetry; [exact (app_assoc (e_links e) [k1] [k2])|exact (app_nil_r (e_dicts e))].
    - unfold e'. cbn. now rewrite !upd_length.
    - intros p l Hl. unfold e'. cbn [up_loc up_e_locations up_e_links up_e_dicts e_locations]. rewrite !nth_upd.
      cbn [leaving k_startpoint k1 k2]. rewrite Hl. unfold up_l_links.
      destruct (Nat.eqb j p) eqn:J, (Nat.eqb i p) eqn:I; cbn; rewrite ?app_nil_r, <- ?app_assoc; try reflexivity. now destruct l. }
  split; [exact Lk|]. exists i, j. cbn [rd_from rd_to rd_length rd_forced].
  split; [eapply linked_called; [exact Lk|]; now apply called_ok|].
  split; [eapply linked_called; [exact Lk|]; now apply called_ok|]. auto.
Qed.

Lemma laid_more new ds e e' r k1 k2 : Linked new ds e e' -> laid e r k1 k2 -> laid e' r k1 k2.
Proof.
  intros L (i & j & A & B & D). exists i, j. split; [eapply linked_called; eauto|]. split; [eapply linked_called; eauto|exact D].
Qed.
Lemma all_laid_more new ds e e' rs ks : Linked new ds e e' -> all_laid e rs ks -> all_laid e' rs ks.
Proof. intros L A. induction A; constructor; auto. eapply laid_more; eauto. Qed.
Lemma all_laid_app e rs ks rs' ks' : all_laid e rs ks -> all_laid e rs' ks' -> all_laid e (rs ++ rs') (ks ++ ks').
Proof. intros A B. induction A; [exact B|]. cbn. now constructor. Qed.

Lemma micro_link_ok e ts r e' ts' : named_ok e -> micro_store_link (e, ts) r = Ok (e', ts') ->
  exists rs type new, micro_roads r rs type /\ Linked new [] e e' /\ all_laid e' rs new /\ ts' = ts ++ link_types rs type.
Proof.
  intros N H. unfold micro_store_link in H. cbv zeta in H.
  assert (W : forall forced (swap : bool) e ts e' ts', named_ok e ->
     (n1 <- cellv r 0 ;; n2 <- cellv r 1 ;; c2 <- cellv r 2 ;; dist <- of_option ValueError (parse_Q c2) ;; t <- cellv r 4 ;;
      if swap then micro_link_up n2 n1 dist forced t (e, ts) else micro_link_up n1 n2 dist forced t (e, ts)) = Ok (e', ts') ->
     exists c0 c1 c2 c3 c4 d k1 k2, r = c0 :: c1 :: c2 :: c3 :: c4 :: skipn 5 r /\ parse_Q (sval c2) = Some d /\ Linked [k1; k2] [] e e' /\
       laid e' (if swap then Road (sval c1) (sval c0) d forced else Road (sval c0) (sval c1) d forced) k1 k2 /\
       ts' = ts ++ [Some (sval c4); None]).
  { clear. intros forced swap e ts e' ts' N H. rstep H. apply cellv_ok in E as (c0 & C0 & <-). rstep H. apply cellv_ok in E as (c1 & C1 & <-).
    rstep H. apply cellv_ok in E as (c2 & C2 & <-). rstep H. apply of_option_ok in E. rstep H. apply cellv_ok in E0 as (c4 & C4 & <-).
    assert (exists c3, nth_error r 3 = Some c3) as [c3 C3] by (apply nth_error_ex; apply nth_error_lt in C4; lia).
    exists c0, c1, c2, c3, c4, v. pose proof (five _ _ _ _ _ _ C0 C1 C2 C3 C4) as R.
    destruct swap; unfold micro_link_up in H; rstep H; injection H as <- <-; apply laid_up in E0 as (k1 & k2 & L & B); auto; exists k1, k2; auto. }
  destruct (Nat.ltb_spec 4 (List.length r)) as [Len|Len].
  - rstep H. apply cellv_ok in E as (c3 & C3 & <-). rstep H. apply of_option_ok in E. rename v into mark. rstep H. destruct v as [e1 ts1].
    destruct (mark =? 1)%Z eqn:T1.
    + assert (T2 : (mark =? 2)%Z = false) by lia. rewrite T2 in H.
      apply (W true false) in E0 as (c0 & c1 & c2 & c3' & c4 & d & k1 & k2 & R & P & L & B & ->); [|exact N].
      apply (W false false) in H as (c0' & c1' & c2' & c3'' & c4' & d' & k3 & k4 & R' & P' & L' & B' & ->); [|eapply linked_named; eauto].
      assert (X : c0' = c0 /\ c1' = c1 /\ c2' = c2 /\ c3' = c3 /\ c4' = c4).
      { rewrite R in R' at 1. injection R' as -> -> -> -> ->. rewrite R in C3. cbn in C3. injection C3 as ->. auto. }
      destruct X as (-> & -> & -> & -> & ->). assert (d' = d) as -> by congruence.
      exists [Road (sval c0) (sval c1) d true; Road (sval c0) (sval c1) d false], (sval c4), [k1; k2; k3; k4].
      split; [|split; [|split]].
      * exists c0, c1, c2, c3, c4, (skipn 5 r), d, mark. split; [exact R|]. rewrite T1, T2. auto.
      * exact (linked_trans _ _ _ _ _ _ _ L L').
      * constructor; [eapply laid_more; eauto|]. constructor; [exact B'|constructor].
      * now rewrite <- app_assoc.
    + injection E0 as <- <-. destruct (mark =? 2)%Z eqn:T2.
      * apply (W true true) in H as (c0 & c1 & c2 & c3' & c4 & d & k1 & k2 & R & P & L & B & ->); [|exact N].
        assert (c3' = c3) as -> by (rewrite R in C3; cbn in C3; congruence).
        exists [Road (sval c1) (sval c0) d true], (sval c4), [k1; k2].
        split; [|split; [exact L|split; [constructor; [exact B|constructor]|reflexivity]]].
        exists c0, c1, c2, c3, c4, (skipn 5 r), d, mark. split; [exact R|]. rewrite T2. auto.
      * apply (W false false) in H as (c0 & c1 & c2 & c3' & c4 & d & k1 & k2 & R & P & L & B & ->); [|exact N].
        assert (c3' = c3) as -> by (rewrite R in C3; cbn in C3; congruence).
        exists [Road (sval c0) (sval c1) d false], (sval c4), [k1; k2].
        split; [|split; [exact L|split; [constructor; [exact B|constructor]|reflexivity]]].
        exists c0, c1, c2, c3, c4, (skipn 5 r), d, mark. split; [exact R|]. rewrite T1, T2. auto.
  - exfalso. apply (W false false) in H as (c0 & c1 & c2 & c3 & c4 & d & k1 & k2 & R & _); [|exact N].
    rewrite R in Len. cbn in Len. lia.
Qed.

Lemma micro_links_ok : forall rows e ts e' ts', named_ok e -> foldM micro_store_link rows (e, ts) = Ok (e', ts') ->
  exists rss new, Forall2 (fun r rt => micro_roads r (fst rt) (snd rt)) rows rss /\
    Linked new [] e e' /\ all_laid e' (flat_map fst rss) new /\
    ts' = ts ++ flat_map (fun rt => link_types (fst rt) (snd rt)) rss.
Proof.
  induction rows as [|r rows IH]; intros e ts e' ts' N H; cbn [foldM] in H.
  - injection H as <- <-. exists [], []. split; [constructor|]. split; [apply linked_refl|]. split; [constructor|]. cbn. now rewrite app_nil_r.
  - rstep H. destruct v as [e1 ts1]. apply micro_link_ok in E as (rs & type & new & R & L & B & ->); [|exact N].
    apply IH in H as (rss & new' & F & L' & B' & ->); [|eapply linked_named; eauto].
    exists ((rs, type) :: rss), (new ++ new'). split; [constructor; assumption|].
    split; [exact (linked_trans _ _ _ _ _ _ _ L L')|]. cbn [flat_map fst snd].
    split; [apply all_laid_app; [eapply all_laid_more; eauto|exact B']|]. now rewrite app_assoc.
Qed.

(** ** The whole *)

Theorem micro_stored : forall S o factor locs links closures e types g e' types' g',
  map l_name (e_locations e) = e_locationNames e ->
  micro_store S o factor locs links closures e types g = Ok (e', types', g') ->
  exists rss new,
    List.length (e_locations e') = (List.length (e_locations e) + List.length locs)%nat /\
    (forall i l, nth_error (e_locations e) i = Some l ->
       nth_error (e_locations e') i = Some (up_l_links (fun ks => ks ++ leaving i (List.length (e_links e)) new) l)) /\
    (forall n r, nth_error locs n = Some r -> let i := (List.length (e_locations e) + n)%nat in
       exists l attrs, nth_error (e_locations e') i = Some l /\ nth_error (e_dicts e') (l_attributes l) = Some attrs /\
         micro_row S factor r l attrs /\
         l_links l = leaving i (List.length (e_links e)) new /\ l_closed_links l = [] /\
         l_numAgents l = 0%Z /\ l_numAgentsSpawned l = 0%Z /\ l_time_of_conflict l = (-1)%Z) /\
    Forall2 (fun r rt => micro_roads r (fst rt) (snd rt)) links rss /\
    all_laid e' (flat_map fst rss) new /\ e_links e' = e_links e ++ new /\
    types' = types ++ flat_map (fun rt => link_types (fst rt) (snd rt)) rss /\
    Forall2 closure_row closures (e_closures e') /\
    e_dicts e' = e_dicts e /\ e_agents e' = e_agents e /\ e_time e' = e_time e.
Proof.
  intros S o factor locs links closures e types g e' types' g' N0 H. unfold micro_store in H.
  rstep H. destruct v as [e1 g1]. rstep H. destruct v as [e2 ts2]. rstep H. rename v into cs. injection H as <- <- <-.
  apply micro_locations_ok in E as (new & F & L).
  assert (N1 : named_ok e1). { red. rewrite L. cbn [up_e_spawn_weights up_e_dicts up_e_locationNames up_e_locations e_locations e_locationNames]. rewrite map_app. f_equal. exact N0. }
  apply micro_links_ok in E0 as (rss & lks & Rs & Lk & B & ->); [|exact N1].
  exists rss, lks.
  assert (Ll : e_locations e1 = e_locations e ++ new) by (rewrite L; reflexivity).
  assert (Lk1 : e_links e1 = e_links e) by (rewrite L; reflexivity).
  assert (D1 : e_dicts e1 = e_dicts e) by (rewrite L; cbn; apply app_nil_r).
  pose proof (F2_len _ _ _ F) as Len.
  pose proof (linked_links _ _ _ _ Lk) as K2. pose proof (linked_dicts _ _ _ _ Lk) as D2. rewrite app_nil_r in D2. destruct Lk as (Eq & L2 & F2).
  cbn [up_e_closures e_locations e_links e_dicts e_closures e_agents e_time].
  split; [rewrite L2, Ll, app_length; f_equal; symmetry; exact Len|]. split.
  { intros i l Hl. rewrite <- Lk1. apply F2. rewrite Ll, nth_error_app1; [exact Hl|now apply nth_error_lt in Hl]. }
  split.
  { intros n r Hr. cbv zeta. set (i := (List.length (e_locations e) + n)%nat). assert (X : exists l, nth_error new n = Some l) by (apply nth_error_lt in Hr; apply nth_error_ex; rewrite <- Len; exact Hr).
    destruct X as [l Hl]. pose proof (F2_nth _ _ _ F _ _ _ Hr Hl) as (attrs & A1 & A2 & A3 & A4 & A5 & A6 & A7).
    exists (up_l_links (fun ks => ks ++ leaving i (List.length (e_links e)) lks) l), attrs.
    split. { rewrite <- Lk1. apply F2. rewrite Ll, nth_error_app2 by lia. unfold i. now rewrite Nat.add_comm, Nat.add_sub. }
    split. { cbn. rewrite D2. exact A2. }
    split.
    { destruct A1 as (c0 & c1 & c2 & c3 & c4 & c5 & c6 & c7 & more & t & p & M).
      exists c0, c1, c2, c3, c4, c5, c6, c7, more, t, p. cbn. destruct M as (M1 & M2 & M3 & M4 & M5 & M6 & M7 & M8 & M9 & M10 & M11).
      repeat (split; [assumption|]). split; [destruct M10; constructor; assumption|exact M11]. }
    cbn. rewrite A3. auto. }
  split; [exact Rs|]. split.
  { clear -B. induction B as [|r rs k1 k2 ks H B IH]; constructor; [exact H|exact IH]. }
  split; [rewrite K2, Lk1; reflexivity|]. split; [reflexivity|]. split; [now apply closures_ok|].
  split; [rewrite D2, D1; reflexivity|].
  split; rewrite Eq, L; reflexivity.
Qed.

(** A row whose third cell is no number is refused. *)
Lemma fold_refused {A B} (f : A -> B -> res A) r : (forall a x, f a r <> Ok x) -> forall rows a x, In r rows -> foldM f rows a <> Ok x.
Proof.
  intro R. induction rows as [|b rows IH]; intros a x I H; [destruct I|]. cbn [foldM] in H. rstep H.
  destruct I as [->|I]; [exact (R _ _ E)|exact (IH _ _ I H)].
Qed.
Theorem micro_refuses : forall S o factor locs links closures e types g r c x,
  In r locs -> nth_error r 2 = Some c -> sval c <> "" -> parse_Q (sval c) = None ->
  micro_store S o factor locs links closures e types g <> Ok x.
Proof.
  intros S o factor locs links closures e types g r c x I C N P H. unfold micro_store in H. rstep H. clear H. revert E. apply (fold_refused _ r); [|exact I].
  clear - C N P. intros [e g] x H. unfold micro_store_location in H. rstep H. clear E. rstep H. clear E. rstep H. clear E. rstep H. apply cellv_ok in E as (c' & C' & <-).
  rewrite C in C'. injection C' as <-. rstep H. unfold float_cell in E. rewrite empty_cell_eqb, P in E.
  destruct (String.eqb_spec (sval c) ""); [contradiction|discriminate].
Qed.

(** ** Weather *)

Lemma Qltb_lt x y : Qltb x y = true <-> x < y.
Proof. unfold Qltb. rewrite negb_true_iff, <- not_true_iff_false, Qle_bool_iff. split; intro H; lra. Qed.
Lemma Qleb_le x y : Qleb x y = true <-> x <= y.
Proof. apply Qle_bool_iff. Qed.

Definition is_crossing (t : option string) : bool := match t with Some t => String.eqb t "crossing" | None => false end.
Lemma crossing_iff t : is_crossing t = true <-> t = Some "crossing".
Proof. destruct t as [t|]; cbn; [rewrite String.eqb_eq|]; split; congruence. Qed.

Theorem weather_river : forall w from to x1 x2 distance time d,
  weather_distance (Some w) (Some "crossing") from to x1 x2 distance time = Ok d <->
  exists before level after f, w_river w = before ++ (Z.of_nat time, level) :: after /\
    (forall r, In r before -> fst r <> Z.of_nat time) /\ river_factor level f /\ d = distance * f.
Proof.
  intros w from to x1 x2 distance time d. unfold weather_distance. cbn [String.eqb Ascii.eqb Bool.eqb].
  assert (S : forall l, match find (fun r : Z * Q => (fst r =? Z.of_nat time)%Z) l with
     | Some r => exists before after, l = before ++ (Z.of_nat time, snd r) :: after /\ forall r, In r before -> fst r <> Z.of_nat time
     | None => forall r, In r l -> fst r <> Z.of_nat time end).
  { induction l as [|r l IH]; cbn; [intros r []|]. destruct (fst r =? Z.of_nat time)%Z eqn:E.
    - exists [], l. split; [|intros ? []]. destruct r as [z q]. cbn in *. apply Z.eqb_eq in E. subst. reflexivity.
    - apply Z.eqb_neq in E. destruct (find _ l).
      + destruct IH as (b & a & -> & IH). exists (r :: b), a. split; [reflexivity|]. intros r' [<-|I]; [exact E|auto].
      + intros r' [<-|I]; [exact E|auto]. }
  specialize (S (w_river w)). split.
  - destruct (find _ (w_river w)) as [r|]; cbn [option_map of_option bind]; [|discriminate]. destruct S as (b & a & E & Nb). intro H.
    exists b, (snd r), a. destruct (Qltb (snd r) 8000) eqn:L; injection H as <-.
    + exists 1. apply Qltb_lt in L. repeat (split; [assumption|]). split; [now constructor|reflexivity].
    + exists 10000. assert (~ snd r < 8000) by (rewrite <- Qltb_lt; congruence). repeat (split; [assumption|]). split; [constructor; lra|reflexivity].
  - intros (b & level & a & f & E & Nb & F & ->).
    assert (X : find (fun r : Z * Q => (fst r =? Z.of_nat time)%Z) (w_river w) = Some (Z.of_nat time, level)).
    { rewrite E. clear - Nb. induction b as [|r b IH]; cbn; [now rewrite Z.eqb_refl|]. destruct (Z.eqb_spec (fst r) (Z.of_nat time)) as [Y|Y].
      - exfalso. apply (Nb r); [now left|exact Y].
      - apply IH. intros r' I. apply Nb. now right. }
    rewrite X. cbn [option_map snd of_option bind]. inversion F as [L|L]; subst.
    + apply Qltb_lt in L. now rewrite L.
    + destruct (Qltb level 8000) eqn:Y; [apply Qltb_lt in Y; lra|reflexivity].
Qed.

Definition both_names (from to : string) (c : string * list Q) : bool :=
  (String.eqb (fst c) (from ++ " - " ++ to) || String.eqb (fst c) (to ++ " - " ++ from))%bool.
Lemma both_iff from to c : both_names from to c = true <-> fst c = (from ++ " - " ++ to)%string \/ fst c = (to ++ " - " ++ from)%string.
Proof. unfold both_names. now rewrite orb_true_iff, !String.eqb_eq. Qed.

Theorem weather_rain : forall w type from to x1 x2 distance time d, type <> Some "crossing" ->
  (weather_distance (Some w) type from to x1 x2 distance time = Ok d <->
   exists before name days after tp f, w_rain w = before ++ (name, days) :: after /\
     (name = (from ++ " - " ++ to)%string \/ name = (to ++ " - " ++ from)%string) /\
     (forall c, In c before -> fst c <> (from ++ " - " ++ to)%string /\ fst c <> (to ++ " - " ++ from)%string) /\
     nth_error days time = Some tp /\ rain_factor x1 x2 tp f /\ d = distance * f).
Proof.
  intros w type from to x1 x2 distance time d NC. unfold weather_distance. fold (is_crossing type).
  assert (C : is_crossing type = false) by (apply not_true_iff_false; now rewrite crossing_iff). rewrite C.
  change (rain_columns w from to) with (filter (both_names from to) (w_rain w)).
  assert (S : forall l, match hd_error (filter (both_names from to) l) with
     | Some c => exists before after, l = before ++ c :: after /\ both_names from to c = true /\ forall r, In r before -> both_names from to r = false
     | None => True end).
  { induction l as [|r l IH]; cbn; [exact I|]. destruct (both_names from to r) eqn:E; cbn.
    - exists [], l. split; [reflexivity|]. split; [exact E|]. intros ? [].
    - destruct (hd_error _); [|exact I]. destruct IH as (b & a & -> & B & IH). exists (r :: b), a. split; [reflexivity|]. split; [exact B|].
      intros r' [<-|J]; [exact E|auto]. }
  specialize (S (w_rain w)). split.
  - destruct (hd_error _) as [[name days]|]; cbn [of_option bind]; [|discriminate]. destruct S as (b & a & E & B & Nb). cbn [snd].
    destruct (nth_error days time) as [tp|] eqn:T; cbn [of_option bind]; [|discriminate]. intro H.
    exists b, name, days, a, tp.
    assert (R : exists f, rain_factor x1 x2 tp f /\ d = distance * f).
    { destruct (Qleb tp x1) eqn:A1; [apply Qleb_le in A1; injection H as <-; exists 1; split; [now constructor|reflexivity]|].
      assert (~ tp <= x1) by (rewrite <- Qleb_le; congruence).
      destruct (Qleb tp x2) eqn:A2; [apply Qleb_le in A2; injection H as <-; exists 2; split; [constructor; [lra|now left]|reflexivity]|].
      assert (~ tp <= x2) by (rewrite <- Qleb_le; congruence).
      destruct (Qltb x2 tp && Qltb 15 tp)%bool eqn:A3; injection H as <-.
      - apply andb_true_iff in A3 as [A3 A4]. apply Qltb_lt in A3, A4. exists 10000. split; [constructor; lra|reflexivity].
      - apply andb_false_iff in A3. exists 2. split; [|reflexivity]. constructor; [lra|]. right.
        destruct A3 as [A3|A3]; apply not_true_iff_false in A3; rewrite Qltb_lt in A3; lra. }
    destruct R as (f & R & ->). exists f. split; [exact E|]. split; [apply (both_iff from to (name, days)); exact B|].
    split; [|auto]. intros c I. apply Nb in I. apply not_true_iff_false in I. rewrite both_iff in I. tauto.
  - intros (b & name & days & a & tp & f & E & B & Nb & T & F & ->).
    assert (X : hd_error (filter (both_names from to) (w_rain w)) = Some (name, days)).
    { rewrite E. clear - B Nb. induction b as [|r b IH]; cbn.
      - rewrite (proj2 (both_iff from to (name, days)) B). reflexivity.
      - assert (Y : both_names from to r = false) by (apply not_true_iff_false; rewrite both_iff; destruct (Nb r (or_introl eq_refl)); tauto).
        rewrite Y. apply IH. intros c I. apply Nb. now right. }
    rewrite X. cbn [of_option bind snd]. rewrite T. cbn [of_option bind]. clear - F. inversion F as [L|L M|L M P]; subst.
    + apply Qleb_le in L. now rewrite L.
    + destruct (Qleb tp x1) eqn:A1; [apply Qleb_le in A1; lra|]. destruct (Qleb tp x2) eqn:A2; [reflexivity|].
      assert (Y : ~ tp <= x2) by (rewrite <- Qleb_le; congruence). destruct M as [M|M]; [contradiction|].
      destruct (Qltb 15 tp) eqn:A3; [apply Qltb_lt in A3; lra|]. now rewrite andb_false_r.
    + destruct (Qleb tp x1) eqn:A1; [apply Qleb_le in A1; lra|]. destruct (Qleb tp x2) eqn:A2; [apply Qleb_le in A2; lra|].
      apply Qltb_lt in M, P. now rewrite M, P.
Qed.

Theorem weather_bounds : forall w type from to x1 x2 distance time d, 0 <= distance ->
  weather_distance w type from to x1 x2 distance time = Ok d -> distance <= d /\ d <= 10000 * distance.
Proof.
  intros [w|] type from to x1 x2 distance time d P H; [|discriminate].
  assert (F : exists f, 1 <= f /\ f <= 10000 /\ d = distance * f).
  { destruct (is_crossing type) eqn:C.
    - apply crossing_iff in C. subst. apply weather_river in H as (? & ? & ? & f & _ & _ & F & ->). exists f. inversion F; subst; repeat split; try lra; reflexivity.
    - assert (N : type <> Some "crossing") by (rewrite <- crossing_iff; congruence).
      apply weather_rain in H as (? & ? & ? & ? & ? & f & _ & _ & _ & _ & F & ->); [|exact N]. exists f. inversion F; subst; repeat split; try lra; reflexivity. }
  destruct F as (f & F1 & F2 & ->). split; nra.
Qed.

Lemma rain_grows : forall x1 x2 tp f tp' f', rain_factor x1 x2 tp f -> rain_factor x1 x2 tp' f' -> tp <= tp' -> f <= f'.
Proof. intros x1 x2 tp f tp' f' A B L. inversion A; inversion B; subst; lra. Qed.

Theorem weather_both_ways : forall w type from to x1 x2 distance time, type <> Some "crossing" ->
  weather_distance w type to from x1 x2 distance time = weather_distance w type from to x1 x2 distance time.
Proof.
  intros [w|] type from to x1 x2 distance time N; [|reflexivity]. unfold weather_distance. fold (is_crossing type).
  assert (C : is_crossing type = false) by (apply not_true_iff_false; now rewrite crossing_iff). rewrite C.
  replace (rain_columns w to from) with (rain_columns w from to); [reflexivity|].
  unfold rain_columns. apply filter_ext. intro c. apply orb_comm.
Qed.

Theorem more_rain : forall name days river type from to x1 x2 distance t t' tp tp' d d', 0 <= distance -> type <> Some "crossing" ->
  nth_error days t = Some tp -> nth_error days t' = Some tp' -> tp <= tp' ->
  weather_distance (Some (Weather [(name, days)] river)) type from to x1 x2 distance t = Ok d ->
  weather_distance (Some (Weather [(name, days)] river)) type from to x1 x2 distance t' = Ok d' -> d <= d'.
Proof.
  intros name days river type from to x1 x2 distance t t' tp tp' d d' P NC T T' L H H'.
  assert (W : forall t tp d, nth_error days t = Some tp -> weather_distance (Some (Weather [(name, days)] river)) type from to x1 x2 distance t = Ok d ->
    exists f, rain_factor x1 x2 tp f /\ d = distance * f).
  { clear - NC. intros t tp d T H. apply weather_rain in H as (b & n & ds & a & tp' & f & E & _ & _ & T' & F & ->); [|exact NC].
    cbn [w_rain] in E. destruct b as [|x [|y b]]; cbn in E; [|injection E as _ E; discriminate E|injection E as _ E; discriminate E].
    injection E as _ <- _. exists f. split; [congruence|reflexivity]. }
  apply (W _ _ _ T) in H as (f & F & ->). apply (W _ _ _ T') in H' as (f' & F' & ->).
  pose proof (rain_grows _ _ _ _ _ _ F F' L). nra.
Qed.
