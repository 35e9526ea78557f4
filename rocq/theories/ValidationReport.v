(** * ValidationReport: the numbers of the report *)

From Coq Require Import Lia Lqa Qabs.
From Verif Require Import Base Lemmas Analysis AgentLog RunScript Validation SpecRun SpecCoupling AnalysisProofs SpecValidation ValidationProofs.
Local Open Scope string_scope.
Local Open Scope Q_scope.
Local Open Scope list_scope.

Lemma Forall2_length {A B} (P : A -> B -> Prop) l l' : Forall2 P l l' -> List.length l = List.length l'.
Proof. induction 1; cbn; congruence. Qed.

(** ** Arrays that are made from the lines *)

Lemma zip_sub_map {A} (f g : A -> Q) l : zip_sub (map f l) (map g l) = map (fun x => f x - g x) l.
Proof. induction l as [|x l IH]; [reflexivity|]. cbn. now rewrite IH. Qed.
Lemma zip_add_map {A} (f g : A -> Q) l : zip_add (map f l) (map g l) = map (fun x => f x + g x) l.
Proof. induction l as [|x l IH]; [reflexivity|]. cbn. now rewrite IH. Qed.
Lemma rescale_map {A} (f g h : A -> Q) l : rescale (map f l) (map g l) (map h l) = map (fun x => if Qltb 0 (h x) then f x * g x / h x else 0) l.
Proof. induction l as [|x l IH]; [reflexivity|]. cbn [map rescale]. now rewrite IH. Qed.
Lemma over_map {A} (f g : A -> Q) l : over_total (map f l) (map g l) = map (fun x => f x / Qmaxb (g x) 1) l.
Proof. induction l as [|x l IH]; [reflexivity|]. cbn [map over_total]. now rewrite IH. Qed.
Lemma abs_diffs_map {A} (f g : A -> Q) l : abs_diffs (map f l) (map g l) = Ok (map (fun x => round4 (Qabs (f x - g x))) l).
Proof. unfold abs_diffs. rewrite sub_same by now rewrite !map_length. cbn [bind]. now rewrite zip_sub_map, map_map. Qed.

Lemma Qltb_inject z : Qltb 0 (inject_Z z) = (0 <? z)%Z.
Proof.
  destruct (Z.ltb_spec 0 z) as [H|H].
  - apply Qltb_true. change 0 with (inject_Z 0). now rewrite <- Zlt_Qlt.
  - apply Qltb_false. change 0 with (inject_Z 0). now rewrite <- Zle_Qle.
Qed.
Lemma max_people r : Qmaxb (inject_Z (r_data r)) 1 = people r.
Proof.
  unfold Qmaxb, people. destruct (Qltb (inject_Z (r_data r)) 1) eqn:E.
  - apply Qltb_true in E. change 1 with (inject_Z 1) in E. rewrite <- Zlt_Qlt in E. rewrite Z.max_l by lia. reflexivity.
  - apply Qltb_false in E. change 1 with (inject_Z 1) in E. rewrite <- Zle_Qle in E. now rewrite Z.max_r by lia.
Qed.
Lemma people_pos r : 1 <= people r.
Proof. unfold people. change 1 with (inject_Z 1) at 1. rewrite <- Zle_Qle. lia. Qed.
Lemma rescale_in lines i : rescale (map (fun r => sim_in r i) lines) (map (fun r => inject_Z (r_data r)) lines) (map (fun r => inject_Z (r_in_camps r)) lines) =
  map (fun r => rescaled_in r i) lines.
Proof. rewrite rescale_map. apply map_ext. intro r. unfold rescaled_in. now rewrite Qltb_inject. Qed.

Lemma value_nth (f : report -> Q) lines k : (k < List.length lines)%nat -> nth_error (map f lines) k = Some (nth k (map f lines) 0).
Proof. intro H. apply nth_error_nth'. now rewrite map_length. Qed.

(** ** One camp *)

Definition naive_line (lines : list report) (i : nat) (n : naive) (t : training) : res (list Q) :=
  let y2 := map (fun r => data_in r i) lines in
  match n with
  | Flat => Ok (flat_line y2 (value_on lines i (training_day t)))
  | Sloped => sloped_line y2 (value_on lines i 7) (value_on lines i (training_day t))
  | Ratio => ratio_line (map (fun r => inject_Z (r_data r)) lines) (value_on lines i (training_day t)) (total_on_line lines (training_day t))
  end.
Definition errors_of (lines : list report) (i : nat) : loc_errors :=
  let ds := map (fun r => round4 (Qabs (sim_in r i - data_in r i))) lines in
  let dr := map (fun r => round4 (Qabs (rescaled_in r i - data_in r i))) lines in
  let rs := map (fun r => round4 (Qabs (sim_in r i - data_in r i)) / people r) lines in
  LocErrors ds (np_mean ds) dr (np_mean dr) rs (np_mean rs) (sumQ (map (fun r => data_in r i) lines))
    (fun n t => line <- naive_line lines i n t ;;
                calculate_mase (map (fun r => rescaled_in r i) lines) (map (fun r => data_in r i) lines) line (Z.of_nat (training_day t))).

(** The same camp: the same numbers, and the same scaled errors *)
Definition alike (a b : loc_errors) : Prop :=
  le_abs a = le_abs b /\ le_abs_ave a = le_abs_ave b /\ le_resc a = le_resc b /\ le_resc_ave a = le_resc_ave b /\
  le_ratio a = le_ratio b /\ le_ratio_ave a = le_ratio_ave b /\ le_N a = le_N b /\ forall n t, le_mase a n t = le_mase b n t.

Section Table.
Variables (idp : bool) (camps : list string) (lines : list report).
Hypothesis ND : NoDup camps.
Hypothesis FULL : Forall (fun r => List.length (r_camps r) = List.length camps) lines.

Lemma plot_ok i c : nth_error camps i = Some c -> (30 < List.length lines)%nat ->
  exists le, plotme (output_table idp camps lines) c = Ok le /\ alike le (errors_of lines i).
Proof.
  intros H L. destruct (column_totals idp camps lines) as (U & _ & _ & Sm). unfold plotme.
  rewrite (column_sim idp camps lines ND FULL i c H), (column_data idp camps lines ND FULL i c H), U, Sm. cbn [bind].
  rewrite rescale_in. unfold training_day at 1 2 3 4. rewrite !value_nth by lia. cbn [of_option bind].
  rewrite !abs_diffs_map. cbn [bind]. eexists. split; [reflexivity|]. unfold alike. cbn [le_abs le_abs_ave le_resc le_resc_ave le_ratio le_ratio_ave le_N le_mase errors_of].
  repeat split.
  - rewrite over_map. apply map_ext. intro r. now rewrite max_people.
  - f_equal. rewrite over_map. apply map_ext. intro r. now rewrite max_people.
  - intros n t. destruct n, t; reflexivity.
Qed.
Lemma plot_short i c : nth_error camps i = Some c -> (List.length lines <= 30)%nat -> plotme (output_table idp camps lines) c = Err IndexError.
Proof.
  intros H L. destruct (column_totals idp camps lines) as (U & _ & _ & Sm). unfold plotme.
  rewrite (column_sim idp camps lines ND FULL i c H), (column_data idp camps lines ND FULL i c H), U, Sm. cbn [bind].
  destruct (nth_error (map (fun r => data_in r i) lines) (training_day Early)); cbn [of_option bind]; [|reflexivity].
  assert (nth_error (map (fun r => data_in r i) lines) (training_day Late) = None) as ->; [|reflexivity].
  apply nth_error_None. rewrite map_length. cbn. lia.
Qed.
End Table.

(** ** All camps *)

Definition dist (rescaled : bool) (r : report) (i : nat) : Q :=
  round4 (Qabs ((if rescaled then rescaled_in r i else sim_in r i) - data_in r i)).

Lemma abs_diff_ok b lines n errs : Forall2 alike errs (map (errors_of lines) (seq 0 n)) -> (0 < n)%nat ->
  exists ds, abs_diff b errs = Ok ds /\ Forall2 (fun r d => d == sumQ (map (dist b r) (seq 0 n))) lines ds.
Proof.
  intros F N. destruct n as [|n]; [lia|]. cbn [seq map] in F. inversion F as [|e x errs' y E F' X1 X2]; subst. cbn [abs_diff].
  eexists. split; [reflexivity|].
  assert (G : forall k errs acc m, Forall2 alike errs (map (errors_of lines) (seq k m)) ->
    forall f : report -> Q, acc = map f lines ->
    exists g : report -> Q, fold_left (fun tmp e' => zip_add tmp (if b then le_resc e' else le_abs e')) errs acc = map g lines /\
      forall r, g r == f r + sumQ (map (dist b r) (seq k m))).
  { clear. intros k errs acc m. revert k errs acc. induction m as [|m IH]; intros k errs acc F f Ef; cbn [seq map] in F.
    - inversion F; subst. exists f. split; [reflexivity|]. intro r. cbn. ring.
    - inversion F as [|e x errs' y E F' X1 X2]; subst. cbn [fold_left].
      assert ((if b then le_resc e else le_abs e) = map (fun r => dist b r k) lines) as ->.
      { destruct E as (A & _ & B & _). rewrite A, B. destruct b; reflexivity. }
      rewrite zip_add_map. destruct (IH (Datatypes.S k) errs' _ F' (fun r => f r + dist b r k) eq_refl) as (g & G1 & G2).
      exists g. split; [exact G1|]. intro r. rewrite (G2 r). cbn [seq map sumQ]. ring. }
  destruct (G 1%nat errs' (if b then le_resc e else le_abs e) n F' (fun r => dist b r 0%nat)) as (g & G1 & G2).
  { destruct E as (A & _ & B & _). rewrite A, B. destruct b; reflexivity. }
  rewrite G1. clear - G2. induction lines as [|r lines IH]; [constructor|]. cbn [map]. constructor; [|exact IH].
  rewrite (G2 r). reflexivity.
Qed.

Lemma over_total_ok n b lines ds : Forall2 (fun r d => d == sumQ (map (dist b r) (seq 0 n))) lines ds ->
  Forall2 (fun r x => x == sumQ (map (dist b r) (seq 0 n)) / people r) lines (over_total ds (map (fun r => inject_Z (r_data r)) lines)).
Proof.
  induction 1 as [|r d lines ds E F IH]; [constructor|]. cbn [map over_total]. constructor; [|exact IH]. now rewrite max_people, E.
Qed.
Lemma mean_forall lines (f : report -> Q) xs : lines <> [] -> Forall2 (fun r x => x == f r) lines xs ->
  exists m, np_mean xs = Ok m /\ m == mean (map f lines).
Proof.
  intros N F. assert (L : List.length lines = List.length xs) by (now apply Forall2_length in F).
  assert (S : sumQ xs == sumQ (map f lines)).
  { clear N L. induction F as [|r x lines xs E F IH]; [reflexivity|]. cbn [map sumQ]. now rewrite E, IH. }
  unfold np_mean. assert (P : ~ inject_Z (Z.of_nat (List.length xs)) == 0) by (rewrite <- L; pose proof (len_pos lines N); lra).
  eexists. split; [apply fdiv_ok; split; [exact P|reflexivity]|]. unfold mean. rewrite map_length, L, S. reflexivity.
Qed.

Lemma plots_ok idp camps lines : good_table camps lines -> (30 < List.length lines)%nat ->
  exists errs, mapM (plotme (output_table idp camps lines)) camps = Ok errs /\ Forall2 alike errs (map (errors_of lines) (seq 0 (List.length camps))).
Proof.
  intros (ND & _ & FULL) L.
  assert (G : forall k l, (forall i c, nth_error l i = Some c -> nth_error camps (k + i) = Some c) ->
    exists errs, mapM (plotme (output_table idp camps lines)) l = Ok errs /\ Forall2 alike errs (map (errors_of lines) (seq k (List.length l)))).
  { intros k l. revert k. induction l as [|c l IH]; intros k H; [exists []; split; [reflexivity|constructor]|].
    destruct (plot_ok idp camps lines ND FULL k c) as (le & P & A).
    { rewrite <- (H 0%nat c eq_refl). f_equal. lia. }
    { exact L. }
    destruct (IH (Datatypes.S k)) as (errs & M & F).
    { intros i c' Hi. rewrite <- (H (Datatypes.S i) c' Hi). f_equal. lia. }
    exists (le :: errs). cbn [mapM]. rewrite P, M. split; [reflexivity|]. cbn [List.length seq map]. now constructor. }
  apply (G 0%nat camps). auto.
Qed.

Record shape (camps : list string) (lines : list report) (v : validation) : Prop := {
  sh_camps : exists errs, v_camps v = combine camps errs /\ Forall2 alike errs (map (errors_of lines) (seq 0 (List.length camps))) /\
               (forall n t, v_mase v n t = get_error errs (fun e => le_mase e n t));
  sh_normal : exists m, v_normal v = Ok m /\ m == mean (map (fun r => sumQ (map (dist false r) (seq 0 (List.length camps))) / people r) lines);
  sh_resc : exists m, v_rescaled v = Ok m /\ m == mean (map (fun r => sumQ (map (dist true r) (seq 0 (List.length camps))) / people r) lines);
  sh_period : v_period v = List.length lines }.

Lemma validate_ok idp camps lines : good_table camps lines -> camps <> [] -> (30 < List.length lines)%nat ->
  exists v, validate (output_table idp camps lines) = Ok v /\ shape camps lines v.
Proof.
  intros G N L. destruct (column_totals idp camps lines) as (U & T & R & Sm). unfold validate. destruct G as (ND & GN & FULL).
  rewrite (names_ok idp camps lines GN), U, T, R, Sm. cbn [bind].
  destruct (plots_ok idp camps lines (conj ND (conj GN FULL)) L) as (errs & M & F). rewrite M. cbn [bind].
  assert (P : (0 < List.length camps)%nat) by (destruct camps; [easy|cbn; lia]).
  assert (NL : lines <> []) by (destruct lines; [cbn in L; lia|easy]).
  destruct (abs_diff_ok false lines _ errs F P) as (d1 & -> & D1). destruct (abs_diff_ok true lines _ errs F P) as (d2 & -> & D2). cbn [bind].
  apply over_total_ok in D1. apply over_total_ok in D2. eexists. split; [reflexivity|]. constructor; cbn [v_camps v_mase v_normal v_rescaled v_period].
  - exists errs. auto.
  - now apply mean_forall.
  - now apply mean_forall.
  - symmetry. now apply Forall2_length in D1.
Qed.

Lemma validate_short idp camps lines : good_table camps lines -> camps = [] \/ (List.length lines <= 30)%nat ->
  validate (output_table idp camps lines) = Err IndexError.
Proof.
  intros (ND & GN & FULL) H. destruct (column_totals idp camps lines) as (U & T & R & Sm). unfold validate.
  rewrite (names_ok idp camps lines GN), U, T, R, Sm. cbn [bind]. destruct camps as [|c camps']; [reflexivity|].
  destruct H as [H|H]; [discriminate|]. cbn [mapM]. rewrite (plot_short idp _ lines ND FULL 0%nat c eq_refl H). reflexivity.
Qed.
