(** * CurvesProofs: the pictures of a run *)

From Coq Require Import Lia Lqa Qabs.
From Verif Require Import Base Lemmas Analysis AgentLog RunScript Validation SpecRun SpecCoupling AnalysisProofs SpecValidation ValidationProofs ValidationReport ValidationFacts RunProofs ErrorCurves SpecCurves.
Local Open Scope string_scope.
Local Open Scope Q_scope.
Local Open Scope list_scope.

(** ** Lists *)

Lemma mapM_keys {A B} (f : A -> res B) l : (forall x, In x l -> (exists y, f x = Ok y) \/ f x = Err KeyError) ->
  (exists x, In x l /\ f x = Err KeyError) -> mapM f l = Err KeyError.
Proof.
  induction l as [|x l IH]; intros H (y & Y & E); [destruct Y|]. cbn [mapM]. destruct (H x (or_introl eq_refl)) as [(z & Z)|Z]; rewrite Z; [|reflexivity].
  cbn [bind]. destruct Y as [-> |Y]; [congruence|]. rewrite IH; [reflexivity| |eauto]. intros u U. apply H. now right.
Qed.
Lemma mapM_same {A B} (f : A -> res B) (h : A -> B) l : (forall x, In x l -> f x = Ok (h x)) -> mapM f l = Ok (map h l).
Proof.
  induction l as [|x l IH]; intro H; [reflexivity|]. cbn [mapM map]. rewrite (H x) by now left. cbn [bind].
  rewrite IH; [reflexivity|]. intros y Y. apply H. now right.
Qed.
Lemma mapM_after {A B C} (f : B -> res C) (g : A -> B) l : mapM (fun x => f (g x)) l = mapM f (map g l).
Proof. induction l as [|x l IH]; [reflexivity|]. cbn [mapM map]. now rewrite IH. Qed.

(** ** The columns of the camps *)

Definition three (c : string) : list string := [(c ++ " sim")%string; (c ++ " data")%string; (c ++ " error")%string].
Lemma camps_names camps lines : forall k, map fst (camps_table camps lines k) = flat_map three camps.
Proof.
  unfold camps_table. induction camps as [|c camps IH]; intro k; [reflexivity|].
  cbn [List.length seq combine flat_map fst snd map]. rewrite map_app, IH. reflexivity.
Qed.
Definition idps_column (idp : bool) (lines : list report) : frame :=
  if idp then [("total IDPs", map (fun r => match r_idps r with Some z => inject_Z z | None => 0 end) lines)] else [].

Lemma mem_in s l : str_mem s l = true <-> In s l.
Proof.
  unfold str_mem. rewrite existsb_exists. split.
  - intros (x & X & E). apply String.eqb_eq in E. now subst.
  - intro H. exists s. split; [exact H|apply String.eqb_refl].
Qed.
Lemma not_dropped c s : c <> "Total" -> In s (three c) -> str_mem s dropped = false.
Proof.
  intros T H. destruct (str_mem s dropped) eqn:E; [|reflexivity]. exfalso. apply mem_in in E. unfold three, dropped in *.
  destruct H as [<-|[<-|[<-|[]]]]; repeat (destruct E as [E|E]; [|]); try contradiction; symmetry in E;
    try (apply (end_differs c _ _) in E; [exact E|discriminate|cbn; discriminate]).
  apply T. change "Total error" with ("Total" ++ " error")%string in E. now apply app_same in E.
Qed.

Lemma drop_table idp camps lines : ~ In "Total" camps ->
  drop_columns (output_table idp camps lines) = Ok (camps_table camps lines 0 ++ idps_column idp lines).
Proof.
  intro T. unfold drop_columns.
  assert (forallb (fun d => str_mem d (map fst (output_table idp camps lines))) dropped = true) as ->.
  { apply forallb_forall. intros d D. apply mem_in. unfold output_table. rewrite map_app. apply in_or_app. right.
    rewrite map_app. apply in_or_app. left. exact D. }
  f_equal. unfold output_table. fold (camps_table camps lines 0). rewrite !filter_app. f_equal.
  - assert (F : Forall (fun s => str_mem s dropped = false) (map fst (camps_table camps lines 0))).
    { rewrite camps_names. apply Forall_forall. intros s S. apply in_flat_map in S as (c & C & S). eapply not_dropped; [|exact S].
      intro X. subst. contradiction. }
    induction (camps_table camps lines 0) as [|x l IH]; [reflexivity|]. inversion F as [|? ? F1 F2]; subst. cbn [filter]. rewrite F1.
    cbn [negb]. now rewrite IH.
  - destruct idp; reflexivity.
Qed.

Lemma find_absent x w camps lines : x <> "" -> end_char x = "m"%char -> ~ In w camps -> x = " sim" -> forall k, find_column (w ++ x) (camps_table camps lines k) = None.
Proof.
  intros X0 X1 N -> k. unfold camps_table. revert k. induction camps as [|c camps IH]; intro k; [reflexivity|].
  cbn [List.length seq combine flat_map fst snd]. unfold camp_columns at 1. cbn [app find_column].
  destruct (String.eqb_spec (c ++ " sim") (w ++ " sim")) as [E|_]; [exfalso; apply N; left; now apply app_same in E|].
  destruct (String.eqb_spec (c ++ " data") (w ++ " sim")) as [E|_].
  { exfalso. apply (end_differs c " data" (w ++ " sim")%string); [discriminate|rewrite end_app by discriminate; discriminate|exact E]. }
  destruct (String.eqb_spec (c ++ " error") (w ++ " sim")) as [E|_].
  { exfalso. apply (end_differs c " error" (w ++ " sim")%string); [discriminate|rewrite end_app by discriminate; discriminate|exact E]. }
  apply IH. intro. apply N. now right.
Qed.
Lemma no_sim_column idp w camps lines : ~ In w camps -> column (camps_table camps lines 0 ++ idps_column idp lines) (w ++ " sim") = Err KeyError.
Proof.
  intro N. unfold column. rewrite find_app, (find_absent " sim") by (try reflexivity; try discriminate; exact N).
  destruct idp; [|reflexivity]. cbn [idps_column find_column]. destruct (String.eqb_spec "total IDPs" (w ++ " sim")) as [E|_]; [|reflexivity].
  exfalso. symmetry in E. revert E. apply end_differs; [discriminate|cbn; discriminate].
Qed.
Lemma a_column idp i c camps lines : NoDup camps -> Forall (fun r => List.length (r_camps r) = List.length camps) lines -> nth_error camps i = Some c ->
  column (camps_table camps lines 0 ++ idps_column idp lines) (c ++ " sim") = Ok (map (fun r => sim_in r i) lines) /\
  column (camps_table camps lines 0 ++ idps_column idp lines) (c ++ " data") = Ok (map (fun r => data_in r i) lines).
Proof.
  intros ND F H. rewrite <- (column_sim false camps lines ND F i c H), <- (column_data false camps lines ND F i c H).
  destruct (table_app false camps lines) as (rest & E & _). unfold column. rewrite E, !find_app.
  destruct (find_sim camps lines ND 0 i c H) as [-> ->]. auto.
Qed.

(** ** The first word *)

Lemma first_word w ws x : Forall one_word (w :: ws) -> one_word x -> exists rest, py_words (join " " (w :: ws) ++ String " " x) = w :: rest.
Proof.
  intros F X. unfold py_words. rewrite pieces_join by (try assumption; discriminate). inversion F as [|? ? [W1 W2] F']; subst. cbn [app filter].
  destruct (String.eqb_spec w ""); [contradiction|]. cbn [negb]. eauto.
Qed.
Lemma three_words s c : In s (three c) -> exists x, one_word x /\ s = (c ++ String " " x)%string.
Proof.
  intros [<-|[<-|[<-|[]]]]; [exists "sim"|exists "data"|exists "error"]; (split; [|reflexivity]); (split; [discriminate|]); cbn; intros d D;
    repeat (destruct D as [<-|D]; [reflexivity|]); destruct D.
Qed.

(** ** The pictures of the camps *)

Lemma plot_one f w ws s : Forall one_word (w :: ws) -> In s (three (join " " (w :: ws))) ->
  plot_column f s = if String.eqb w "Date" then Ok [] else
    y1 <- column f (w ++ " sim") ;; y2 <- column f (w ++ " data") ;; Ok [(w, y1, y2)].
Proof.
  intros F H. destruct (three_words _ _ H) as (x & X & ->). destruct (first_word w ws x F X) as (rest & E). unfold plot_column. now rewrite E.
Qed.

Lemma pictures_ok camps lines : plain_names camps -> Forall (fun r => List.length (r_camps r) = List.length camps) lines ->
  exists ps, plot_camps (output_table false camps lines) = Ok ps /\
    forall w y1 y2, In (w, y1, y2) ps <-> exists i, nth_error camps i = Some w /\ y1 = map (fun r => sim_in r i) lines /\ y2 = map (fun r => data_in r i) lines.
Proof.
  intros (ND & W & D & T) F. unfold plot_camps. rewrite drop_table by exact T. cbn [bind]. set (g := camps_table camps lines 0 ++ idps_column false lines).
  rewrite (mapM_after (plot_column g) fst). assert (E : map fst g = flat_map three camps).
  { unfold g. rewrite map_app, camps_names. cbn [idps_column map]. apply app_nil_r. }
  rewrite E.
  assert (P : forall c i s, nth_error camps i = Some c -> In s (three c) ->
    plot_column g s = Ok [(c, map (fun r => sim_in r i) lines, map (fun r => data_in r i) lines)]).
  { intros c i s C S. assert (In c camps) as I by (eapply nth_error_In; eauto). rewrite Forall_forall in W.
    rewrite (plot_one g c [] s); [|constructor; [now apply W|constructor]|exact S].
    destruct (String.eqb_spec c "Date") as [-> |_]; [contradiction|]. destruct (a_column false i c camps lines ND F C) as [A B]. fold g in A, B.
    rewrite A. cbn [bind]. rewrite B. reflexivity. }
  set (h := fun s => match plot_column g s with Ok y => y | Err _ => [] end).
  rewrite (mapM_same (plot_column g) h).
  2:{ intros s S. apply in_flat_map in S as (c & C & S). apply In_nth_error in C as (i & C). unfold h. rewrite (P c i s C S). reflexivity. }
  cbn [bind]. eexists. split; [reflexivity|]. intros w y1 y2. rewrite <- flat_map_concat_map, in_flat_map. split.
  - intros (s & S & H). apply in_flat_map in S as (c & C & S). apply In_nth_error in C as (i & C). unfold h in H. rewrite (P c i s C S) in H.
    destruct H as [H|[]]. injection H as <- <- <-. eauto.
  - intros (i & C & -> & ->). exists (w ++ " sim")%string. split; [apply in_flat_map; exists w; split; [eapply nth_error_In; eauto|now left]|].
    unfold h. rewrite (P w i (w ++ " sim")%string C); left; reflexivity.
Qed.

(** It fails if the first word of the name of a camp is not a camp. *)
Lemma plot_either idp camps lines : Forall (fun r => List.length (r_camps r) = List.length camps) lines -> NoDup camps ->
  let g := camps_table camps lines 0 ++ idps_column idp lines in
  Forall (fun c => exists ws, ws <> [] /\ Forall one_word ws /\ c = join " " ws) camps ->
  forall s, In s (map fst g) -> (exists y, plot_column g s = Ok y) \/ plot_column g s = Err KeyError.
Proof.
  intros F ND g G s S. unfold g in S. rewrite map_app, camps_names in S.
  assert (X : forall w, (exists y, (y1 <- column g (w ++ " sim") ;; y2 <- column g (w ++ " data") ;; Ok [(w, y1, y2)]) = Ok y) \/
                        (y1 <- column g (w ++ " sim") ;; y2 <- column g (w ++ " data") ;; Ok [(w, y1, y2)]) = Err KeyError).
  { intro w. unfold column. destruct (find_column (w ++ " sim") g); cbn [of_option bind]; [|auto].
    destruct (find_column (w ++ " data") g); cbn [of_option bind]; eauto. }
  apply in_app_or in S as [S|S].
  - apply in_flat_map in S as (c & C & S). rewrite Forall_forall in G. destruct (G c C) as ([|w ws] & N & W & ->); [easy|].
    rewrite (plot_one g w ws s W S). destruct (String.eqb w "Date"); [eauto|]. apply X.
  - destruct idp; [|destruct S]. destruct S as [<-|[]]. change (plot_column g (fst ("total IDPs", @nil Q))) with (plot_column g "total IDPs").
    unfold plot_column. change (py_words "total IDPs") with ["total"; "IDPs"]. cbn [String.eqb Ascii.eqb]. apply X.
Qed.

Lemma pictures_words idp camps lines w ws : good_table camps lines -> ~ In "Total" camps -> In (join " " (w :: ws)) camps -> Forall one_word (w :: ws) ->
  w <> "Date" -> ~ In w camps -> plot_camps (output_table idp camps lines) = Err KeyError.
Proof.
  intros (ND & G & F) T C W D N. unfold plot_camps. rewrite drop_table by exact T. cbn [bind]. set (g := camps_table camps lines 0 ++ idps_column idp lines).
  rewrite (mapM_after (plot_column g) fst). rewrite mapM_keys; [reflexivity| |].
  - intros s S. apply plot_either; try assumption. eapply Forall_impl; [|exact G]. intros c (H & _). exact H.
  - exists (join " " (w :: ws) ++ " sim")%string. split.
    + unfold g. rewrite map_app, camps_names. apply in_or_app. left. apply in_flat_map. exists (join " " (w :: ws)). split; [exact C|now left].
    + rewrite (plot_one g w ws) by (try assumption; now left). destruct (String.eqb_spec w "Date"); [contradiction|].
      unfold g. now rewrite no_sim_column.
Qed.
Lemma pictures_idps camps lines : good_table camps lines -> ~ In "Total" camps -> ~ In "total" camps ->
  plot_camps (output_table true camps lines) = Err KeyError.
Proof.
  intros (ND & G & F) T N. unfold plot_camps. rewrite drop_table by exact T. cbn [bind]. set (g := camps_table camps lines 0 ++ idps_column true lines).
  rewrite (mapM_after (plot_column g) fst). rewrite mapM_keys; [reflexivity| |].
  - intros s S. apply plot_either; try assumption. eapply Forall_impl; [|exact G]. intros c (H & _). exact H.
  - exists "total IDPs". split.
    + unfold g. rewrite map_app. apply in_or_app. right. now left.
    + unfold plot_column. change (py_words "total IDPs") with ["total"; "IDPs"]. change (String.eqb "total" "Date") with false. cbv iota.
      unfold g. now rewrite no_sim_column.
Qed.

(** ** The curves of the error *)

Lemma Qtrunc_quot a b c : (0 < c)%Z -> Qtrunc (inject_Z a * inject_Z b / inject_Z c) = Z.quot (a * b) c.
Proof.
  intro C. destruct c as [|c|c]; try lia. unfold Qtrunc, Qdiv, Qmult, Qinv, inject_Z. cbn [Qnum Qden]. now rewrite Z.mul_1_r.
Qed.
Lemma sim_whole r i : sim_in r i = inject_Z (sim_Z r i).
Proof. unfold sim_in, sim_Z. destruct (nth_error (r_camps r) i) as [[[s d] x]|]; reflexivity. Qed.
Lemma data_whole r i : exists d, data_in r i = inject_Z d.
Proof. unfold data_in. destruct (nth_error (r_camps r) i) as [[[s d] x]|]; [exists d; auto|exists 0%Z; auto]. Qed.
Lemma cut_whole r i : inject_Z (Qtrunc (rescaled_in r i)) = whole_in r i.
Proof.
  unfold rescaled_in, whole_in. rewrite sim_whole. destruct (Z.ltb_spec 0 (r_in_camps r)) as [H|H]; [|reflexivity]. now rewrite Qtrunc_quot.
Qed.
Lemma whole_int r i : exists z, whole_in r i = inject_Z z.
Proof. unfold whole_in. destruct (0 <? r_in_camps r)%Z; [eauto|exists 0%Z; reflexivity]. Qed.
Lemma round_ints a b : round4 (Qabs (inject_Z a - inject_Z b)) == Qabs (inject_Z a - inject_Z b).
Proof.
  assert (E : Qabs (inject_Z a - inject_Z b) == inject_Z (Z.abs (a - b))).
  { assert (inject_Z a - inject_Z b == inject_Z (a - b)) as ->; [|reflexivity].
    unfold Z.sub. rewrite inject_Z_plus, inject_Z_opp. reflexivity. }
  rewrite (round4_comp _ _ E), round4_int. now rewrite E.
Qed.

Definition off (b : bool) (i : nat) (r : report) : Q := round4 (Qabs ((if b then whole_in r i else sim_in r i) - data_in r i)).
Lemma off_exact b i r : off b i r == Qabs ((if b then whole_in r i else sim_in r i) - data_in r i).
Proof.
  unfold off. destruct (data_whole r i) as (d & ->). destruct b.
  - destruct (whole_int r i) as (z & ->). apply round_ints.
  - rewrite sim_whole. apply round_ints.
Qed.

Section Errors.
Variables (idp : bool) (camps : list string) (lines : list report).
Hypothesis ND : NoDup camps.
Hypothesis FULL : Forall (fun r => List.length (r_camps r) = List.length camps) lines.

Lemma quantified i c : nth_error camps i = Some c ->
  error_quantification (output_table idp camps lines) c = Ok (map (off false i) lines, map (off true i) lines).
Proof.
  intro H. destruct (column_totals idp camps lines) as (U & _ & _ & Sm). unfold error_quantification.
  rewrite (column_sim idp camps lines ND FULL i c H), (column_data idp camps lines ND FULL i c H), U, Sm. cbn [bind].
  rewrite rescale_in, map_map, !abs_diffs_map. cbn [bind]. do 2 f_equal. apply map_ext. intro r. unfold off. now rewrite cut_whole.
Qed.
Lemma all_quantified : mapM (error_quantification (output_table idp camps lines)) camps =
  Ok (map (fun i => (map (off false i) lines, map (off true i) lines)) (seq 0 (List.length camps))).
Proof.
  assert (G : forall k l, (forall i c, nth_error l i = Some c -> nth_error camps (k + i) = Some c) ->
    mapM (error_quantification (output_table idp camps lines)) l = Ok (map (fun i => (map (off false i) lines, map (off true i) lines)) (seq k (List.length l)))).
  { intros k l. revert k. induction l as [|c l IH]; intros k H; [reflexivity|]. cbn [mapM List.length seq map].
    rewrite (quantified k c) by (rewrite <- (H 0%nat c eq_refl); f_equal; lia). cbn [bind]. rewrite (IH (Datatypes.S k)); [reflexivity|].
    intros i d Hi. rewrite <- (H (Datatypes.S i) d Hi). f_equal. lia. }
  apply (G 0%nat camps). auto.
Qed.
End Errors.

Lemma add_up_ok (F : nat -> report -> Q) lines n : (0 < n)%nat ->
  exists g : report -> Q, add_up (map (fun i => map (F i) lines) (seq 0 n)) = Ok (map g lines) /\ forall r, g r == sumQ (map (fun i => F i r) (seq 0 n)).
Proof.
  intro N. destruct n as [|n]; [lia|]. cbn [seq map add_up].
  assert (G : forall k m f, exists g : report -> Q, fold_left zip_add (map (fun i => map (F i) lines) (seq k m)) (map f lines) = map g lines /\
    forall r, g r == f r + sumQ (map (fun i => F i r) (seq k m))).
  { intros k m. revert k. induction m as [|m IH]; intros k f; cbn [seq map fold_left].
    - exists f. split; [reflexivity|]. intro r. cbn. ring.
    - rewrite zip_add_map. destruct (IH (Datatypes.S k) (fun r => f r + F k r)) as (g & G1 & G2). exists g. split; [exact G1|].
      intro r. rewrite (G2 r). cbn [sumQ]. ring. }
  destruct (G 1%nat n (F 0%nat)) as (g & G1 & G2). exists g. split; [now rewrite G1|]. intro r. rewrite (G2 r). reflexivity.
Qed.

Lemma F2_map {A} (g : A -> Q) (P : A -> Q -> Prop) l : (forall x, P x (g x)) -> Forall2 P l (map g l).
Proof. intro H. induction l; constructor; auto. Qed.

Lemma curves_ok idp camps lines : good_table camps lines -> camps <> [] ->
  exists c, plot_errors (output_table idp camps lines) = Ok c /\
    Forall2 (fun r x => x == day_error sim_in (List.length camps) r) lines (c_normal c) /\
    Forall2 (fun r x => x == day_error whole_in (List.length camps) r) lines (c_rescaled c) /\
    c_len c = List.length lines /\
    (lines <> [] -> (exists m, c_mean c = Ok m /\ m == mean (map (day_error sim_in (List.length camps)) lines)) /\
                    (exists m, c_mean_rescaled c = Ok m /\ m == mean (map (day_error whole_in (List.length camps)) lines))).
Proof.
  intros (ND & GN & FULL) N. destruct (column_totals idp camps lines) as (U & _). unfold plot_errors. rewrite U. cbn [bind].
  rewrite (names_ok idp camps lines GN), (all_quantified idp camps lines ND FULL). cbn [bind]. rewrite !map_map. cbn [fst snd].
  assert (P : (0 < List.length camps)%nat) by (destruct camps; [easy|cbn; lia]).
  destruct (add_up_ok (off false) lines _ P) as (g1 & -> & G1). destruct (add_up_ok (off true) lines _ P) as (g2 & -> & G2). cbn [bind].
  rewrite !over_map. eexists. split; [reflexivity|]. cbn [c_normal c_rescaled c_mean c_mean_rescaled c_len].
  assert (X1 : forall r, g1 r / Qmaxb (inject_Z (r_data r)) 1 == day_error sim_in (List.length camps) r).
  { intro r. rewrite max_people, (G1 r). unfold day_error. rewrite (sum_ext (fun i => off false i r) (fun i => Qabs (sim_in r i - data_in r i))); [reflexivity|].
    intros i _. apply (off_exact false). }
  assert (X2 : forall r, g2 r / Qmaxb (inject_Z (r_data r)) 1 == day_error whole_in (List.length camps) r).
  { intro r. rewrite max_people, (G2 r). unfold day_error. rewrite (sum_ext (fun i => off true i r) (fun i => Qabs (whole_in r i - data_in r i))); [reflexivity|].
    intros i _. apply (off_exact true). }
  split; [now apply F2_map|]. split; [now apply F2_map|]. split; [now rewrite map_length|]. intro NL.
  split; apply mean_forall; try exact NL; now apply F2_map.
Qed.
Lemma curves_none idp lines : plot_errors (output_table idp [] lines) = Err IndexError.
Proof.
  destruct (column_totals idp [] lines) as (U & _). unfold plot_errors. rewrite U. cbn [bind]. rewrite (names_ok idp [] lines) by constructor. reflexivity.
Qed.

(** ** What the curves mean *)

Lemma sum_zero (f : nat -> Q) l : (forall i, 0 <= f i) -> (sumQ (map f l) == 0 <-> forall i, In i l -> f i == 0).
Proof.
  intro P. assert (PS : forall l, 0 <= sumQ (map f l)).
  { clear - P. intro l. induction l as [|i l IH]; cbn [map sumQ]; [lra|]. specialize (P i). lra. }
  induction l as [|i l IH]; cbn [map sumQ]; [split; [intros _ i []|reflexivity]|]. split.
  - intro H. pose proof (P i). pose proof (PS l). intros j [<-|J]; [lra|]. apply IH; [lra|exact J].
  - intro H. rewrite (H i) by now left. assert (sumQ (map f l) == 0) as -> by (apply IH; intros j J; apply H; now right). ring.
Qed.
Lemma day_zero sim n r : day_error sim n r == 0 <-> forall i, (i < n)%nat -> sim r i == data_in r i.
Proof.
  unfold day_error. pose proof (people_pos r) as P.
  assert (A : forall x, x / people r == 0 <-> x == 0).
  { intro x. split; intro H.
    - assert (x == x / people r * people r) as -> by (field; lra). rewrite H. ring.
    - rewrite H. field. lra. }
  rewrite A, sum_zero by (intro; apply Qabs_nonneg). split; intros H i I.
  - specialize (H i). rewrite in_seq in H. specialize (H ltac:(lia)). revert H. apply Qabs_case; intros _ H; lra.
  - apply in_seq in I. rewrite (H i) by lia. assert (data_in r i - data_in r i == 0) as -> by ring. reflexivity.
Qed.
Lemma shares_zero n r : right_shares n r -> day_error whole_in n r == 0.
Proof.
  intros (P & H). apply day_zero. intros i I. unfold whole_in. pose proof P as P'. apply Z.ltb_lt in P'. rewrite P'.
  specialize (H i I). rewrite sim_whole in H. destruct (data_whole r i) as (d & D). rewrite D in *.
  rewrite <- !inject_Z_mult in H. assert (E : (sim_Z r i * r_data r = d * r_in_camps r)%Z) by (unfold Qeq, inject_Z in H; cbn [Qnum Qden] in H; lia).
  rewrite E, Z.quot_mul by lia. reflexivity.
Qed.

Lemma sum_abs_le (f g : nat -> Q) l : (forall i, In i l -> 0 <= f i /\ 0 <= g i) ->
  sumQ (map (fun i => Qabs (f i - g i)) l) <= sumQ (map f l) + sumQ (map g l).
Proof.
  induction l as [|i l IH]; intro H; cbn [map sumQ]; [lra|]. destruct (H i (or_introl eq_refl)) as [A B].
  assert (Qabs (f i - g i) <= f i + g i) by (apply Qabs_case; intros; lra).
  assert (sumQ (map (fun j => Qabs (f j - g j)) l) <= sumQ (map f l) + sumQ (map g l)) by (apply IH; intros j J; apply H; now right). lra.
Qed.
Lemma sum_le (f g : nat -> Q) l : (forall i, In i l -> f i <= g i) -> sumQ (map f l) <= sumQ (map g l).
Proof.
  induction l as [|i l IH]; intro H; cbn [map sumQ]; [lra|]. pose proof (H i (or_introl eq_refl)).
  assert (sumQ (map f l) <= sumQ (map g l)) by (apply IH; intros j J; apply H; now right). lra.
Qed.
Lemma sum_data (l : list (Z * Z * Q)) : sumQ (map (fun i => match nth_error l i with Some (_, d, _) => inject_Z d | None => 0 end) (seq 0 (List.length l))) ==
  inject_Z (sumZ (map (fun x => snd (fst x)) l)).
Proof.
  induction l as [|[[s d] x] l IH]; [reflexivity|]. cbn [List.length seq map sumQ sumZ nth_error fst snd]. rewrite inject_Z_plus, <- IH.
  rewrite <- seq_shift, map_map. reflexivity.
Qed.
Lemma sum_scale (f : nat -> Q) u l : sumQ (map (fun i => f i * u) l) == sumQ (map f l) * u.
Proof. induction l as [|i l IH]; cbn [map sumQ]; [ring|]. rewrite IH. ring. Qed.

Lemma day_bound n r : totals_right r -> List.length (r_camps r) = n -> day_error whole_in n r <= 2.
Proof.
  intros (C & D & F) <-. unfold day_error. pose proof (people_pos r) as P. apply Qle_shift_div_r; [lra|].
  assert (NN : forall i, (0 <= sim_Z r i)%Z /\ 0 <= data_in r i).
  { intro i. unfold sim_Z, data_in. destruct (nth_error (r_camps r) i) as [[[s d] x]|] eqn:E; [|split; [lia|lra]].
    rewrite Forall_forall in F. destruct (F _ (nth_error_In _ _ E)) as [A B]. cbn [fst snd] in *. split; [exact A|].
    change 0 with (inject_Z 0). now rewrite <- Zle_Qle. }
  assert (SD : sumQ (map (data_in r) (seq 0 (List.length (r_camps r)))) == inject_Z (r_data r)) by (rewrite D; apply sum_data).
  assert (DP : (0 <= r_data r)%Z).
  { rewrite D. clear - F. induction F as [|x l [_ A] F IH]; cbn [map sumZ]; lia. }
  assert (WD : forall i, 0 <= whole_in r i).
  { intro i. unfold whole_in. destruct (Z.ltb_spec 0 (r_in_camps r)); [|lra]. change 0 with (inject_Z 0). rewrite <- Zle_Qle.
    apply Z.quot_pos; [|lia]. destruct (NN i). nia. }
  assert (LE : inject_Z (r_data r) <= people r) by (unfold people; rewrite <- Zle_Qle; lia).
  assert (SW : sumQ (map (whole_in r) (seq 0 (List.length (r_camps r)))) <= inject_Z (r_data r)).
  { destruct (Z.ltb_spec 0 (r_in_camps r)) as [H|H].
    - assert (H' : 0 < inject_Z (r_in_camps r)) by (change 0 with (inject_Z 0); now rewrite <- Zlt_Qlt).
      apply Qle_trans with (sumQ (map (fun i => sim_in r i * (inject_Z (r_data r) / inject_Z (r_in_camps r))) (seq 0 (List.length (r_camps r))))).
      + apply sum_le. intros i _. unfold whole_in. apply Z.ltb_lt in H as H2. rewrite H2, sim_whole.
        assert (E : inject_Z (sim_Z r i) * (inject_Z (r_data r) / inject_Z (r_in_camps r)) == inject_Z (sim_Z r i * r_data r) / inject_Z (r_in_camps r)).
        { rewrite inject_Z_mult. field. lra. }
        rewrite E. apply Qle_shift_div_l; [exact H'|]. rewrite <- inject_Z_mult, <- Zle_Qle. rewrite Z.mul_comm. apply Z.mul_quot_le; [|lia]. destruct (NN i). nia.
      + rewrite sum_scale. pose proof (sum_sims (r_camps r)) as X. rewrite <- C in X.
        change (sumQ (map (sim_in r) (seq 0 (List.length (r_camps r)))) == inject_Z (r_in_camps r)) in X. rewrite X.
        assert (inject_Z (r_in_camps r) * (inject_Z (r_data r) / inject_Z (r_in_camps r)) == inject_Z (r_data r)) as -> by (field; lra). lra.
    - apply Qle_trans with (sumQ (map (fun _ => 0) (seq 0 (List.length (r_camps r))))).
      + apply sum_le. intros i _. unfold whole_in. apply Z.ltb_ge in H. rewrite H. lra.
      + apply Qle_trans with 0; [|change 0 with (inject_Z 0); now rewrite <- Zle_Qle]. clear. induction (seq 0 _) as [|i l IH]; cbn [map sumQ]; lra. }
  pose proof (sum_abs_le (whole_in r) (data_in r) (seq 0 (List.length (r_camps r)))) as B.
  assert (B' := B (fun i _ => conj (WD i) (proj2 (NN i)))). lra.
Qed.

(** ** The lines of a run *)

Lemma run_totals fuel S o inp g camps lines : run_script fuel S o inp g = Ok (camps, lines) ->
  forall r, In r lines -> (0 < r_raw r)%Z -> (forall s d x, In (s, d, x) (r_camps r) -> (0 <= d)%Z) ->
  totals_right r /\ List.length (r_camps r) = List.length camps.
Proof.
  intros H r Hr P D. apply script_lines in H as (w & _ & -> & _ & Ls). apply In_nth_error in Hr as (t & Hr).
  destruct (Ls t r Hr) as (sp & d & e & g' & _ & _ & _ & Lo). pose proof (lo_camps _ _ _ _ _ _ _ _ Lo) as F.
  split; [|symmetry; now apply Forall2_length in F]. split; [exact (lo_in_camps _ _ _ _ _ _ _ _ Lo)|]. split.
  - match type of Lo with line_of _ _ _ _ ?raw _ _ _ => destruct (Z.ltb_spec 0 raw) as [R|R] end.
    + now apply (lo_raw _ _ _ _ _ _ _ _ Lo) in R as (_ & _ & R & _).
    + apply (lo_none _ _ _ _ _ _ _ _ Lo) in R as (R & _). lia.
  - apply Forall_forall. intros [[s z] x] I. cbn [fst snd]. split; [|eapply D; eauto].
    clear - F I. induction F as [|c [[s' d'] x'] l l' (A & _) F IH]; [destruct I|]. destruct I as [I|I]; [|auto]. injection I as -> -> ->.
    destruct A as (i & _ & ->). unfold SpecAgents.how_many. lia.
Qed.
Lemma run_error fuel S o inp g camps lines : run_script fuel S o inp g = Ok (camps, lines) ->
  forall r, In r lines -> (0 < r_raw r)%Z -> day_error sim_in (List.length camps) r == r_error r * inject_Z (r_raw r) / people r.
Proof.
  intros H r Hr P. apply script_lines in H as (w & _ & -> & _ & Ls). apply In_nth_error in Hr as (t & Hr).
  destruct (Ls t r Hr) as (sp & d & e & g' & _ & _ & _ & Lo). pose proof (lo_camps _ _ _ _ _ _ _ _ Lo) as F. apply Forall2_length in F. rewrite F.
  match type of Lo with line_of _ _ _ _ ?raw _ _ _ => destruct (Z.ltb_spec 0 raw) as [R|R] end.
  2:{ apply (lo_none _ _ _ _ _ _ _ _ Lo) in R as (R & _). lia. }
  apply (lo_raw _ _ _ _ _ _ _ _ Lo) in R as (R1 & _ & _ & R2). rewrite <- R1 in R2. unfold day_error.
  assert (P' : 0 < inject_Z (r_raw r)) by (change 0 with (inject_Z 0); now rewrite <- Zlt_Qlt).
  assert (E : sumQ (map (fun i => Qabs (sim_in r i - data_in r i)) (seq 0 (List.length (r_camps r)))) ==
              inject_Z (sumZ (map (fun x => Z.abs (fst (fst x) - snd (fst x))) (r_camps r)))).
  { unfold sim_in, data_in. clear. induction (r_camps r) as [|[[s d] x] l IH]; [reflexivity|].
    cbn [List.length seq map sumQ sumZ nth_error fst snd]. rewrite inject_Z_plus, <- IH, <- seq_shift, map_map.
    assert (Qabs (inject_Z s - inject_Z d) == inject_Z (Z.abs (s - d))) as ->; [|reflexivity].
    assert (inject_Z s - inject_Z d == inject_Z (s - d)) as ->; [|reflexivity]. unfold Z.sub. rewrite inject_Z_plus, inject_Z_opp. reflexivity. }
  rewrite E, R2. pose proof (people_pos r). field. lra.
Qed.

(** ** The numbers of agents, and the whole program *)

Lemma numagents_ok idp camps lines : plot_numagents (output_table idp camps lines) =
  Ok [map (fun r => inject_Z (r_total r)) lines; map (fun r => inject_Z (r_in_camps r)) lines;
      map (fun r => inject_Z (r_raw r)) lines; map (fun r => inject_Z (r_debt r)) lines].
Proof.
  unfold plot_numagents.
  assert (str_mem "refugee_debt" (map fst (output_table idp camps lines)) = true) as ->.
  { apply mem_in. unfold output_table. rewrite !map_app. apply in_or_app. right. apply in_or_app. left. cbn. auto 10. }
  destruct (column_totals idp camps lines) as (_ & T & R & Sm). cbn [mapM]. rewrite T, Sm, R. cbn [bind].
  assert (column (output_table idp camps lines) "refugee_debt" = Ok (map (fun r => inject_Z (r_debt r)) lines)) as ->; [|reflexivity].
  unfold column, output_table. fold (camps_table camps lines 0). rewrite find_app, find_none by (cbn; discriminate). reflexivity.
Qed.
Lemma all_pictures camps lines : good_table camps lines -> plain_names camps -> camps <> [] ->
  exists ps ns c, plot_flee_output (output_table false camps lines) = Ok (ps, ns, c) /\
    plot_camps (output_table false camps lines) = Ok ps /\ plot_numagents (output_table false camps lines) = Ok ns /\
    plot_errors (output_table false camps lines) = Ok c.
Proof.
  intros G P N. destruct (pictures_ok camps lines P) as (ps & E1 & _); [apply G|].
  destruct (curves_ok false camps lines G N) as (c & E2 & _). pose proof (numagents_ok false camps lines) as E3.
  exists ps. eexists. exists c. unfold plot_flee_output. rewrite E1, E2, E3. cbn [bind]. auto.
Qed.

(** ** The same about the curves that are drawn *)

Lemma F2_then {A B} (P R : A -> B -> Prop) l m : (forall a b, In a l -> P a b -> R a b) -> Forall2 P l m -> Forall2 R l m.
Proof.
  intros H F. induction F as [|a b l m X F IH]; constructor; [apply H; [now left|exact X]|]. apply IH. intros c d C. apply H. now right.
Qed.
Lemma drawn_zero idp camps lines c : good_table camps lines -> camps <> [] -> plot_errors (output_table idp camps lines) = Ok c ->
  Forall2 (fun r x => x == 0 <-> forall i, (i < List.length camps)%nat -> sim_in r i == data_in r i) lines (c_normal c) /\
  Forall2 (fun r x => right_shares (List.length camps) r -> x == 0) lines (c_rescaled c).
Proof.
  intros G N P. destruct (curves_ok idp camps lines G N) as (c' & P' & A & B & _). rewrite P in P'. injection P' as <-. split.
  - eapply F2_then; [|exact A]. intros r x _ ->. apply day_zero.
  - eapply F2_then; [|exact B]. intros r x _ -> S. now apply shares_zero.
Qed.
Lemma day_nonneg sim n r : 0 <= day_error sim n r.
Proof.
  unfold day_error. pose proof (people_pos r) as P. apply Qle_shift_div_l; [lra|]. rewrite Qmult_0_l.
  induction (seq 0 n) as [|i l IH]; cbn [map sumQ]; [lra|]. pose proof (Qabs_nonneg (sim r i - data_in r i)). lra.
Qed.
Lemma drawn_bound idp camps lines c : good_table camps lines -> camps <> [] -> plot_errors (output_table idp camps lines) = Ok c ->
  Forall2 (fun r x => 0 <= x /\ (totals_right r -> x <= 2)) lines (c_rescaled c).
Proof.
  intros G N P. destruct (curves_ok idp camps lines G N) as (c' & P' & A & B & _). rewrite P in P'. injection P' as <-.
  eapply F2_then; [|exact B]. intros r x I ->. split; [apply day_nonneg|]. intro T. apply day_bound; [exact T|].
  destruct G as (_ & _ & F). rewrite Forall_forall in F. now apply F.
Qed.
Lemma drawn_run fuel S o inp g idp camps lines c : run_script fuel S o inp g = Ok (camps, lines) -> NoDup camps -> Forall good_name camps -> camps <> [] ->
  plot_errors (output_table idp camps lines) = Ok c ->
  Forall2 (fun r x => (0 < r_raw r)%Z -> x == r_error r * inject_Z (r_raw r) / people r) lines (c_normal c) /\
  Forall2 (fun r x => (0 < r_raw r)%Z -> (forall s d y, In (s, d, y) (r_camps r) -> (0 <= d)%Z) -> x <= 2) lines (c_rescaled c).
Proof.
  intros R ND GN N P. pose proof (run_table _ _ _ _ _ _ _ R ND GN) as G. split.
  - destruct (curves_ok idp camps lines G N) as (c' & P' & A & _). rewrite P in P'. injection P' as <-. eapply F2_then; [|exact A].
    intros r x I -> W. eapply run_error; eauto.
  - eapply F2_then; [|exact (drawn_bound idp camps lines c G N P)]. intros r x I [_ X] W D. apply X. eapply run_totals; eauto.
Qed.
