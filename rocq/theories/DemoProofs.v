(** * DemoProofs: reading demographics files and drawing from them *)

From Coq Require Import Lia Lqa.
From Verif Require Import Base State Lemmas Moving Flee DataTable Spawning Coupling SpecCoupling CouplingText SpecChoice ChoiceProofs
  SpecHistory SpecSpawn Api ZoneProps SpawnProofs AcledProofs Schedule CrawlProofs Demographics SpecDemographics.
Local Open Scope string_scope.
Local Open Scope list_scope.

(** ** Names of files *)

Local Ltac freely := unfold free; cbn; intuition discriminate.

Lemma split_head c p s : free c p -> forall h t, split c s = h :: t -> split c (p ++ s) = (p ++ h)%string :: t.
Proof.
  induction p as [|d p IH]; intros F h t H; [exact H|]. cbn [String.append split].
  destruct (Ascii.eqb_spec d c) as [->|N]; [exfalso; apply F; now left|].
  rewrite (IH (fun I => F (or_intror I)) h t H). reflexivity.
Qed.
Lemma free_cons c d s : free c (String d s) <-> d <> c /\ free c s.
Proof. unfold free. cbn. intuition. Qed.

Lemma word_exists x : exists a, first_word a x.
Proof.
  induction x as [|d x (a & A & B & rest & -> & R)].
  - exists "". repeat split; try (intros []). exists "". auto.
  - destruct (Ascii.eqb_spec d "."%char) as [->|N1].
    { exists "". repeat split; try (intros []). eexists. split; [reflexivity|]. right. eauto. }
    destruct (Ascii.eqb_spec d "_"%char) as [->|N2].
    { exists "". repeat split; try (intros []). eexists. split; [reflexivity|]. right. eauto. }
    exists (String d a). split; [apply free_cons; auto|]. split; [apply free_cons; auto|]. exists rest. auto.
Qed.

Lemma word_attr a x : free "/" x -> first_word a x -> attribute_of ("input_csv/" ++ file_of x) = Ok a.
Proof.
  intros FS (FD & FU & rest & -> & R). unfold attribute_of.
  change ("input_csv/" ++ file_of (a ++ rest))%string with ("input_csv" ++ String "/" (file_of (a ++ rest)))%string.
  rewrite split_app. rewrite (split_free "/" "input_csv") by (freely).
  assert (F : free "/" (file_of (a ++ rest))).
  { unfold file_of. apply free_app. split; [freely|]. apply free_app. split; [exact FS|freely]. }
  rewrite (split_free _ _ F). cbn [app nth_error of_option bind]. unfold file_of.
  assert (P : free "." ("demographics_" ++ a)) by (apply free_app; split; [freely|exact FD]).
  assert (U : forall s, split "_" (("demographics_" ++ a) ++ s)%string = "demographics" :: split "_" (a ++ s)%string).
  { intro s. rewrite app_assoc_s. change ("demographics_" ++ (a ++ s))%string with ("demographics" ++ String "_" (a ++ s))%string.
    rewrite split_app, (split_free "_" "demographics") by (freely). reflexivity. }
  assert (D : forall s h t, split "." s = h :: t -> split "." ("demographics_" ++ (a ++ s))%string = (("demographics_" ++ a) ++ h)%string :: t).
  { intros s h t E. rewrite <- app_assoc_s, (split_head "." _ s P h t E). reflexivity. }
  rewrite app_assoc_s. destruct R as [->|(r & [-> | ->])].
  - change ("" ++ ".csv")%string with ("" ++ String "." "csv")%string. rewrite (D ("" ++ String "." "csv")%string "" ["csv"] eq_refl). cbn [of_option bind].
    rewrite U, app_empty, (split_free _ _ FU). reflexivity.
  - destruct (split "." (String "." r ++ ".csv")) as [|h t] eqn:E; [now apply split_nonempty in E|]. rewrite (D _ _ _ E). cbn [of_option bind].
    cbn in E. injection E as <- _. rewrite U, app_empty, (split_free _ _ FU). reflexivity.
  - destruct (split "." (String "_" r ++ ".csv")) as [|h t] eqn:E; [now apply split_nonempty in E|]. rewrite (D _ _ _ E). cbn [of_option bind].
    rewrite U. cbn [String.append split] in E. change (Ascii.eqb "_" ".") with false in E. cbv iota in E.
    destruct (split "." (r ++ ".csv")) as [|h' t'] eqn:E'; [now apply split_nonempty in E'|]. injection E as <- <-.
    rewrite split_app, (split_free _ _ FU). reflexivity.
Qed.
Lemma word_iff a x : free "/" x -> attribute_of ("input_csv/" ++ file_of x) = Ok a <-> first_word a x.
Proof.
  intro F. split; [|now apply word_attr]. intro H. destruct (word_exists x) as (b & W). rewrite (word_attr b x F W) in H. congruence.
Qed.

Lemma ends_iff w s : ends_with w s = true <-> exists p, s = (p ++ w)%string.
Proof.
  induction s as [|c s IH]; cbn [ends_with].
  - destruct (String.eqb_spec "" w) as [<-|N]; [split; [exists ""; reflexivity|reflexivity]|]. split; [discriminate|].
    intros ([|] & H); [contradiction|discriminate].
  - destruct (String.eqb_spec (String c s) w) as [<-|N]; [split; [exists ""; reflexivity|reflexivity]|]. rewrite IH. split.
    + intros (p & ->). exists (String c p). reflexivity.
    + intros ([|d p] & H); [contradiction|]. cbn in H. injection H as -> ->. now exists p.
Qed.
Lemma sub_all s : substring 0 (String.length s) s = s.
Proof. induction s; cbn; congruence. Qed.
Lemma matches_iff f : matches f = true <-> exists x, f = file_of x.
Proof.
  unfold matches. rewrite Bool.andb_true_iff. split.
  - intros [P E]. apply String.prefix_correct in P. apply sub_split0 in P as (b & ->).
    replace (substring 13 (String.length ("demographics_" ++ b) - 13) ("demographics_" ++ b)) with b in E.
    2:{ cbn [String.append String.length Nat.sub substring]. rewrite Nat.sub_0_r, sub_all. reflexivity. }
    apply ends_iff in E as (p & ->). exists p. reflexivity.
  - intros (x & ->). unfold file_of. set (b := (x ++ ".csv")%string). split.
    + apply String.prefix_correct. cbn [String.append String.length substring]. destruct b; reflexivity.
    + cbn [String.append String.length Nat.sub substring]. rewrite Nat.sub_0_r, sub_all. apply ends_iff. now exists x.
Qed.

(** ** Reading *)

Lemma file_inj x y : file_of x = file_of y -> x = y.
Proof.
  unfold file_of. intro E. injection E as E. revert y E. induction x as [|c x IH]; intros [|d y] E.
  - reflexivity.
  - exfalso. cbn in E. injection E as -> E. destruct y as [|? [|? [|? [|? y]]]]; cbn in E; try discriminate.
  - exfalso. cbn in E. injection E as -> E. destruct x as [|? [|? [|? [|? x]]]]; cbn in E; try discriminate.
  - cbn in E. injection E as -> E. f_equal. now apply IH.
Qed.

Lemma file_attr f : free "/" (fst f) -> matches (fst f) = true -> exists a, attribute_of ("input_csv/" ++ fst f) = Ok a /\ forall b, gives b f <-> b = a.
Proof.
  intros F M. apply matches_iff in M as (x & E). assert (FX : free "/" x).
  { rewrite E in F. unfold file_of in F. apply free_app in F as [_ F]. apply free_app in F as [F _]. exact F. }
  destruct (word_exists x) as (a & W). exists a. rewrite E. split; [now apply word_attr|].
  assert (A := word_attr a x FX W). intro b. split.
  - intros (y & E' & W'). rewrite E in E'.
    assert (x = y) by now apply file_inj.
    subst y. apply (word_attr b x FX) in W'. congruence.
  - intros ->. exists x. auto.
Qed.
Lemma not_gives f : matches (fst f) = false -> forall a, ~ gives a f.
Proof. intros M a (x & E & _). assert (matches (fst f) = true) by (apply matches_iff; eauto). congruence. Qed.

Lemma reads files : file_names files -> forall dm0, exists dm, foldM read_demographic_csv (filter (fun f => matches (fst f)) files) dm0 = Ok dm /\
  (NoDup (map fst dm0) -> NoDup (map fst dm)) /\
  forall a fr, dict_get a dm = Some fr <-> last_of files a fr \/ (forall f, In f files -> ~ gives a f) /\ dict_get a dm0 = Some fr.
Proof.
  induction files as [|f files IH]; intros F dm0.
  - exists dm0. split; [reflexivity|]. split; [auto|]. intros a fr. split; [intro H; right; split; [intros f []|exact H]|].
    intros [(b & f & c & E & _)|[_ H]]; [destruct b; discriminate|exact H].
  - inversion F as [|? ? F1 F2]; subst. cbn [filter]. destruct (matches (fst f)) eqn:M.
    + destruct (file_attr f F1 M) as (a0 & A & G). destruct (IH F2 (dict_set a0 (snd f) dm0)) as (dm & R & N & L).
      exists dm. cbn [foldM]. unfold read_demographic_csv at 1. rewrite A. cbn [bind]. split; [exact R|].
      split; [intro ND; now apply N, dict_set_nodup|]. intros a fr. rewrite L, get_set. split.
      * intros [(b & n & c & -> & H1 & H2)|[H1 H2]]; [left; exists (f :: b), n, c; auto|].
        destruct (String.eqb_spec a a0) as [->|NE].
        -- left. exists [], (fst f), files. injection H2 as <-. destruct f; cbn. split; [reflexivity|]. split; [now apply G|exact H1].
        -- right. split; [|exact H2]. intros f' [<-|I]; [rewrite G; exact NE|auto].
      * intros [(b & n & c & E & H1 & H2)|[H1 H2]].
        -- destruct b as [|f' b]; cbn [app] in E; injection E as -> ->.
           ++ right. split; [exact H2|]. apply G in H1. subst. rewrite String.eqb_refl. reflexivity.
           ++ left. exists b, n, c. auto.
        -- right. split; [intros f' I; apply H1; now right|]. destruct (String.eqb_spec a a0) as [->|NE]; [|exact H2].
           exfalso. apply (H1 f (or_introl eq_refl)). now apply G.
    + destruct (IH F2 dm0) as (dm & R & N & L). exists dm. split; [exact R|]. split; [exact N|]. intros a fr. rewrite L. split.
      * intros [(b & n & c & -> & H1 & H2)|[H1 H2]]; [left; exists (f :: b), n, c; auto|]. right. split; [|exact H2].
        intros f' [<-|I]; [now apply not_gives|auto].
      * intros [(b & n & c & E & H1 & H2)|[H1 H2]].
        -- destruct b as [|f' b]; cbn [app] in E; injection E as -> ->; [exfalso; now apply (not_gives _ M a)|left; exists b, n, c; auto].
        -- right. split; [intros f' I; apply H1; now right|exact H2].
Qed.

Lemma f_read files : file_names files -> exists dm, load_demographics (Some files) [] = Ok dm /\ NoDup (map fst dm) /\
  forall a fr, dict_get a dm = Some fr <-> last_of files a fr.
Proof.
  intro F. destruct (reads files F []) as (dm & R & N & L). exists dm. split; [exact R|]. split; [apply N; constructor|].
  intros a fr. rewrite L. split; [intros [H|[_ H]]; [exact H|discriminate]|now left].
Qed.

Lemma f_clear files : file_names files -> NoDup (map fst files) ->
  (forall f, In f files -> exists x, fst f = file_of x /\ free "." x /\ free "_" x) ->
  exists dm, load_demographics (Some files) [] = Ok dm /\ NoDup (map fst dm) /\
    forall a fr, dict_get a dm = Some fr <-> In (file_of a, fr) files.
Proof.
  intros F N P. destruct (f_read files F) as (dm & R & ND & L). exists dm. split; [exact R|]. split; [exact ND|].
  assert (W : forall f a, In f files -> gives a f <-> fst f = file_of a).
  { intros f a I. destruct (P f I) as (x & E & D & U). split.
    - intros (y & E' & A & B & rest & -> & C). rewrite E in E'. apply file_inj in E'. subst x. rewrite E.
      destruct C as [->|(r & [-> | ->])]; [now rewrite app_empty|..].
      + apply free_app in D as [_ D]. apply free_cons in D as [D _]. contradiction.
      + apply free_app in U as [_ U]. apply free_cons in U as [U _]. contradiction.
    - intro E'. rewrite E in E'. apply file_inj in E'. subst a. exists x. split; [exact E|]. split; [exact D|]. split; [exact U|].
      exists "". rewrite app_empty. auto. }
  intros a fr. rewrite L. split.
  - intros (b & f & c & -> & G & _). assert (I : In (f, fr) (b ++ (f, fr) :: c)) by (apply in_or_app; right; now left).
    apply (W _ _ I) in G. cbn [fst] in G. rewrite <- G. exact I.
  - intro I. pose proof I as I0. apply in_split in I as (b & c & ->). exists b, (file_of a), c. split; [reflexivity|].
    split; [now apply (W _ _ I0)|]. intros f' I G. apply W in G; [|apply in_or_app; right; now right].
    rewrite map_app in N. apply NoDup_remove_2 in N. apply N. apply in_or_app. right. cbn [fst]. rewrite <- G. now apply in_map.
Qed.

Lemma f_once folder dm : dm <> [] -> load_demographics folder dm = Ok dm.
Proof. destruct dm; [contradiction|reflexivity]. Qed.

Lemma f_run folder : demographics_of_run folder [] = Ok [] /\
  forall c cs, demographics_of_run folder (c :: cs) = read_demographics folder [].
Proof.
  split; [reflexivity|]. intros c cs. unfold demographics_of_run. cbn [foldM load_demographics].
  destruct (read_demographics folder []) as [dm|err] eqn:R; [|reflexivity]. cbn [bind]. induction cs as [|c' cs IH]; [reflexivity|].
  cbn [foldM]. replace (load_demographics folder dm) with (@Ok demos dm); [exact IH|]. destruct dm; [symmetry; exact R|reflexivity].
Qed.

(** ** Drawing *)

Lemma weights_iff col w : mapM weight_of col = Ok w <-> Forall2 (fun c q => match c with None => q = 0%Q | Some v => py_float v = Ok q end) col w.
Proof.
  split.
  - intro H. apply mapM_Forall2 in H. induction H as [|c q l m E F IH]; constructor; [|exact IH]. destruct c; cbn in E; congruence.
  - intro F. induction F as [|c q l m E F IH]; [reflexivity|]. cbn [mapM].
    replace (weight_of c) with (@Ok Q q) by (destruct c; cbn; congruence). cbn [bind]. rewrite IH. reflexivity.
Qed.
Lemma place_iff fr place w : place_weights fr place w <->
  exists col, (match dict_get place fr with Some c => Ok c | None => of_option KeyError (dict_get "Default" fr) end) = Ok col /\ mapM weight_of col = Ok w.
Proof.
  unfold place_weights. split; intros (col & A & B); exists col; apply weights_iff in B; (split; [|exact B]).
  - destruct A as [A|[A A']]; rewrite A; [reflexivity|]. now rewrite A'.
  - destruct (dict_get place fr) as [c|]; [left; congruence|right]. split; [reflexivity|]. now apply of_option_ok in A.
Qed.

Lemma sample_share n w g : rng_ok g -> Forall (fun q => 0 <= q)%Q w -> (0 < sumQ w)%Q -> List.length w = n ->
  exists k, sample_index n w g = Ok (k, snd (rng_nu g)) /\ (k < n)%nat /\ share w k (fst (rng_nu g)).
Proof.
  intros [_ G] F T L. unfold sample_index.
  assert (X : existsb (fun q => Qltb q 0) w = false).
  { clear - F. induction F; [reflexivity|]. cbn. destruct (Qltb x 0) eqn:E; qb; [lra|exact IHF]. }
  rewrite X. apply Qltb_true in T as TB. rewrite TB, L, Nat.eqb_refl. cbn [negb].
  assert (NE : w <> []) by (intros ->; cbn in T; lra).
  pose proof (cdf_shape w (sumQ w) ltac:(lra) ltac:(reflexivity) NE) as C. cbv zeta in *.
  set (cdf := map _ _) in *. clearbody cdf. set (u := fst (rng_nu g)).
  assert (U : (0 <= u /\ u < 1)%Q) by (unfold u, rng_nu; cbn; apply G).
  replace (rng_nu g) with (u, snd (rng_nu g)) by (unfold u; now destruct (rng_nu g)). cbv iota beta.
  rewrite (bisect_compat cdf (accumulate 0 w) u (u * sumQ w) (sumQ w)) by (auto; reflexivity).
  destruct (bisect_all 0 w (u * sumQ w) F) as (A & B & D).
  - apply Qmult_le_0_compat; lra.
  - setoid_replace (0 + sumQ w)%Q with (1 * sumQ w)%Q by ring. apply Qmult_lt_compat_r; lra.
  - set (i := bisect_right _ _) in *. exists i. split; [reflexivity|]. split; [lia|]. unfold share, SpecChoice.before. clearbody i.
    split; lra.
Qed.

Lemma f_share fr a place vs w g : rng_ok g -> dict_get a fr = Some vs -> place_weights fr place w -> List.length w = List.length vs ->
  Forall (fun q => 0 <= q)%Q w -> (0 < sumQ w)%Q ->
  exists k c, draw_from_frame fr a place g = Ok (cell_value fr c, snd (rng_nu g)) /\ nth_error vs k = Some c /\ share w k (fst (rng_nu g)).
Proof.
  intros G V W L F T. apply place_iff in W as (col & A & B). unfold draw_from_frame. rewrite A. cbn [bind]. rewrite B. cbn [bind].
  assert (LC := mapM_ok_length _ _ _ B). destruct (sample_share (List.length col) w g G F T ltac:(lia)) as (k & E & K & Sh).
  rewrite E. cbn [bind]. rewrite V. cbn [of_option bind]. destruct (nth_error vs k) as [c|] eqn:N.
  - exists k, c. auto.
  - apply nth_error_None in N. lia.
Qed.

Lemma f_bad fr a place w g : place_weights fr place w -> ((exists q, In q w /\ (q < 0)%Q) \/ (sumQ w <= 0)%Q) ->
  draw_from_frame fr a place g = Err ValueError.
Proof.
  intros W B. apply place_iff in W as (col & A & C). unfold draw_from_frame. rewrite A. cbn [bind]. rewrite C. cbn [bind].
  unfold sample_index. destruct B as [(q & I & N)|N].
  - replace (existsb (fun x => Qltb x 0) w) with true; [reflexivity|]. symmetry. apply existsb_exists. exists q. split; [exact I|now apply Qltb_true].
  - destruct (existsb _ w); [reflexivity|]. apply Qltb_false in N. now rewrite N.
Qed.
Lemma f_no_default fr a place g : dict_get place fr = None -> dict_get "Default" fr = None -> draw_from_frame fr a place g = Err KeyError.
Proof. intros A B. unfold draw_from_frame. now rewrite A, B. Qed.
Lemma f_no_values fr a place w g : rng_ok g -> dict_get a fr = None -> place_weights fr place w -> Forall (fun q => 0 <= q)%Q w -> (0 < sumQ w)%Q ->
  draw_from_frame fr a place g = Err KeyError.
Proof.
  intros G V W F T. apply place_iff in W as (col & A & B). unfold draw_from_frame. rewrite A. cbn [bind]. rewrite B. cbn [bind].
  assert (LC := mapM_ok_length _ _ _ B). destruct (sample_share (List.length col) w g G F T ltac:(lia)) as (k & E & _).
  rewrite E. cbn [bind]. now rewrite V.
Qed.

(** ** Tables of Spawning.v *)

Lemma get_cols a h : h <> a -> forall fr : frame, (forall h col, In (h, col) fr -> h <> a -> exists w, mapM weight_of col = Ok w) ->
  dict_get h (flat_map (fun c => match mapM weight_of (snd c) with Ok w => [(fst c, w)] | Err _ => [] end) fr) =
  match dict_get h fr with Some col => match mapM weight_of col with Ok w => Some w | Err _ => None end | None => None end /\
  forall col, dict_get h fr = Some col -> exists w, mapM weight_of col = Ok w.
Proof.
  intros NE fr. induction fr as [|[k c] fr IH]; intro P; [split; [reflexivity|discriminate]|].
  destruct IH as [IH1 IH2]; [intros; eapply P; [right; eassumption|assumption]|]. cbn [flat_map dict_get fst snd].
  destruct (String.eqb_spec h k) as [<-|N].
  - destruct (P h c (or_introl eq_refl) NE) as (w & W). rewrite W. cbn [app dict_get fst snd]. rewrite String.eqb_refl. split; [reflexivity|].
    intros col X. injection X as <-. eauto.
  - split; [|exact IH2]. destruct (mapM weight_of c) as [w|]; [|exact IH1]. cbn [app dict_get]. apply String.eqb_neq in N. rewrite N. exact IH1.
Qed.

Lemma f_table a fr place g : proper a fr -> place <> a -> a <> "Default" -> draw_from_frame fr a place g = draw_sample (as_table a fr) place g.
Proof.
  intros (vs & V & P) N D. unfold draw_from_frame, draw_sample, as_table. cbn [t_values t_columns]. rewrite V.
  destruct (get_cols a place N fr) as [C1 C1']; [intros; eapply P; eassumption|]. rewrite C1. clear C1.
  destruct (get_cols a "Default" (not_eq_sym D) fr) as [C2 C2']; [intros; eapply P; eassumption|]. rewrite C2. clear C2.
  assert (Rest : forall h col w, dict_get h fr = Some col -> mapM weight_of col = Ok w ->
    ('(n, g1) <- sample_index (List.length col) w g ;; vs0 <- of_option KeyError (Some vs) ;; c <- of_option IndexError (nth_error vs0 n) ;; Ok (cell_value fr c, g1)) =
    sample_row (map (cell_value fr) vs) w g).
  { intros h col w H W. unfold sample_index, sample_row. destruct (existsb _ w); [reflexivity|]. destruct (negb (Qltb 0 (sumQ w))); [reflexivity|].
    assert (L := mapM_ok_length _ _ _ W). apply dict_in_get in H. destruct (P _ _ H) as [LV _].
    rewrite map_length, <- LV, <- L, Nat.eqb_refl. cbn [negb]. destruct (rng_nu g) as [u g1]. cbn [bind of_option]. rewrite nth_error_map.
    destruct (nth_error vs _); reflexivity. }
  destruct (dict_get place fr) as [col|] eqn:E.
  - destruct (C1' col eq_refl) as (w & W). cbn [bind]. rewrite W. cbn [bind]. now apply (Rest place col w).
  - destruct (dict_get "Default" fr) as [col|] eqn:E2; [|reflexivity]. cbn [of_option bind].
    destruct (C2' col eq_refl) as (w & W). rewrite W. cbn [of_option bind]. now apply (Rest "Default" col w).
Qed.

Lemma f_tables place dm : Forall (fun p => proper (fst p) (snd p) /\ place <> fst p /\ fst p <> "Default") dm ->
  forall g, draw_from_frames dm place g = draw_samples (as_tables dm) place g.
Proof.
  intro F. induction F as [|[a fr] dm (P & N & D) F IH]; intro g; [reflexivity|]. cbn [draw_from_frames as_tables map draw_samples fst snd] in *.
  rewrite (f_table a fr place g P N D). destruct (draw_sample _ place g) as [[v g1]|]; [|reflexivity]. cbn [bind]. now rewrite IH.
Qed.

Lemma f_interval fr a place vs w g k c q : rng_ok g -> dict_get a fr = Some vs -> place_weights fr place w -> List.length w = List.length vs ->
  Forall (fun q => 0 <= q)%Q w -> (0 < sumQ w)%Q -> nth_error vs k = Some c -> nth_error w k = Some q ->
  (sumQ (firstn k w) / sumQ w <= fst (rng_nu g))%Q -> (fst (rng_nu g) < sumQ (firstn k w) / sumQ w + q / sumQ w)%Q ->
  draw_from_frame fr a place g = Ok (cell_value fr c, snd (rng_nu g)).
Proof.
  intros G V W L F T C Wk U0 U1. destruct (f_share fr a place vs w g G V W L F T) as (k' & c' & E & C' & Sh).
  assert (Sh' : share w k (fst (rng_nu g))) by (apply (share_interval w k q (fst (rng_nu g)) F T Wk); split; assumption).
  rewrite (share_unique w k' k _ F Sh Sh') in C'. congruence.
Qed.

Lemma f_no_folder dm : load_demographics None dm = Ok dm.
Proof. now destruct dm. Qed.

Lemma all_floats_iff fr : all_floats fr = true <-> only_numbers fr /\ some_float fr.
Proof.
  unfold all_floats. rewrite andb_true_iff, forallb_forall, existsb_exists. split.
  - intros [A ([h col] & I & B)]. split.
    + intros h' col' c I' Ic. specialize (A (h', col') I'). cbn [snd] in A. apply negb_true_iff in A.
      assert (T : is_text c = false).
      { destruct (is_text c) eqn:E; [|reflexivity]. assert (existsb is_text col' = true) by (apply existsb_exists; eauto). congruence. }
      destruct c as [[]|]; try discriminate; [right; left; eauto|right; right; eauto|now left].
    + apply existsb_exists in B as (c & Ic & B). exists h, col, c. split; [exact I|]. split; [exact Ic|].
      destruct c as [[]|]; try discriminate; [right; eauto|now left].
  - intros [A (h & col & c & I & Ic & B)]. split.
    + intros [h' col'] I'. cbn [snd]. apply negb_true_iff. destruct (existsb is_text col') eqn:E; [|reflexivity].
      apply existsb_exists in E as (c' & Ic' & E). destruct (A h' col' c' I' Ic') as [-> |[(z & ->)|(q & ->)]]; discriminate.
    + exists (h, col). split; [exact I|]. apply existsb_exists. exists c. split; [exact Ic|]. destruct B as [-> |(q & ->)]; reflexivity.
Qed.
Lemma f_values fr :
  (forall s, cell_value fr (Some (VStr s)) = VStr s) /\ (forall q, cell_value fr (Some (VFloat q)) = VFloat q) /\
  (forall z, (cell_value fr (Some (VInt z)) = VInt z /\ ~ (only_numbers fr /\ some_float fr)) \/
             (cell_value fr (Some (VInt z)) = VFloat (inject_Z z) /\ only_numbers fr /\ some_float fr)).
Proof.
  split; [reflexivity|]. split; [reflexivity|]. intro z. cbn [cell_value]. destruct (all_floats fr) eqn:E.
  - right. split; [reflexivity|]. now apply all_floats_iff.
  - left. split; [reflexivity|]. rewrite <- all_floats_iff. congruence.
Qed.
