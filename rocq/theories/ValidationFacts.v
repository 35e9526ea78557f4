(** * ValidationFacts: what the numbers of the report mean *)

From Coq Require Import Lia Lqa Qabs.
From Verif Require Import Base Lemmas Analysis AgentLog RunScript Validation SpecRun SpecCoupling AnalysisProofs SpecValidation ValidationProofs ValidationReport RunProofs.
Local Open Scope string_scope.
Local Open Scope Q_scope.
Local Open Scope list_scope.

Lemma sum_ext {A} (f g : A -> Q) l : (forall x, In x l -> f x == g x) -> sumQ (map f l) == sumQ (map g l).
Proof.
  induction l as [|x l IH]; intro H; [reflexivity|]. cbn [map sumQ]. rewrite (H x) by now left. rewrite IH; [reflexivity|].
  intros y Y. apply H. now right.
Qed.
Lemma mean_ext {A} (f g : A -> Q) l : (forall x, In x l -> f x == g x) -> mean (map f l) == mean (map g l).
Proof. intro H. unfold mean. now rewrite !map_length, (sum_ext f g l H). Qed.
Lemma sum_near {A} (f g : A -> Q) b l : (forall x, In x l -> Qabs (f x - g x) <= b) ->
  Qabs (sumQ (map f l) - sumQ (map g l)) <= inject_Z (Z.of_nat (List.length l)) * b.
Proof.
  induction l as [|x l IH]; intro H; [change (0 <= 0 * b); lra|]. cbn [map sumQ].
  assert (H1 := H x (or_introl eq_refl)). assert (H2 : Qabs (sumQ (map f l) - sumQ (map g l)) <= inject_Z (Z.of_nat (List.length l)) * b).
  { apply IH. intros y Y. apply H. now right. }
  replace (Z.of_nat (List.length (x :: l))) with (Z.of_nat (List.length l) + 1)%Z by (cbn [List.length]; lia). rewrite inject_Z_plus.
  apply Qabs_Qle_condition in H1 as [A1 A2]. apply Qabs_Qle_condition in H2 as [B1 B2]. apply Qabs_Qle_condition.
  change (inject_Z 1) with 1. set (n := inject_Z _) in *. split; lra.
Qed.
Lemma mean_near {A} (f g : A -> Q) b l : l <> [] -> (forall x, In x l -> Qabs (f x - g x) <= b) -> Qabs (mean (map f l) - mean (map g l)) <= b.
Proof.
  intros N H. unfold mean. rewrite !map_length. pose proof (len_pos l N) as P. set (n := inject_Z (Z.of_nat (List.length l))) in *.
  pose proof (sum_near f g b l H) as S. fold n in S.
  assert (E : sumQ (map f l) / n - sumQ (map g l) / n == (sumQ (map f l) - sumQ (map g l)) / n) by (field; lra).
  rewrite E. unfold Qdiv. rewrite Qabs_Qmult. rewrite (Qabs_pos (/ n)) by (apply Qlt_le_weak; now apply Qinv_lt_0_compat).
  apply Qle_shift_div_r; [exact P|]. lra.
Qed.

Lemma dist_whole r i : dist false r i == Qabs (sim_in r i - data_in r i).
Proof.
  unfold dist. assert (Z0 : exists a b, sim_in r i = inject_Z a /\ data_in r i = inject_Z b).
  { unfold sim_in, data_in. destruct (nth_error (r_camps r) i) as [[[s d] x]|]; [exists s, d; auto|exists 0%Z, 0%Z; auto]. }
  destruct Z0 as (a & b & -> & ->).
  assert (E : Qabs (inject_Z a - inject_Z b) == inject_Z (Z.abs (a - b))).
  { assert (inject_Z a - inject_Z b == inject_Z (a - b)) as ->; [|reflexivity].
    unfold Z.sub. rewrite inject_Z_plus, inject_Z_opp. reflexivity. }
  rewrite (round4_comp _ _ E), round4_int. now rewrite E.
Qed.
Lemma dist_near r i : Qabs (dist true r i - Qabs (rescaled_in r i - data_in r i)) <= 1 # 20000.
Proof. unfold dist. rewrite Qabs_Qminus. apply round4_spec. Qed.

Lemma people_div r x b : Qabs x <= b -> 0 <= b -> Qabs (x / people r) <= b.
Proof.
  intros H B. pose proof (people_pos r) as P. unfold Qdiv. rewrite Qabs_Qmult.
  rewrite (Qabs_pos (/ people r)) by (apply Qlt_le_weak, Qinv_lt_0_compat; lra).
  apply Qle_shift_div_r; [lra|]. nra.
Qed.

(** Cleaner statements about [good_table] for the report *)
Lemma report_errors idp camps lines : good_table camps lines -> camps <> [] -> (31 <= List.length lines)%nat ->
  exists v, validate (output_table idp camps lines) = Ok v /\ map fst (v_camps v) = camps /\ v_period v = List.length lines /\
    (exists m, v_normal v = Ok m /\ m == mean (map (day_error sim_in (List.length camps)) lines)) /\
    (exists m, v_rescaled v = Ok m /\
       Qabs (m - mean (map (day_error rescaled_in (List.length camps)) lines)) <= inject_Z (Z.of_nat (List.length camps)) * (1 # 20000)).
Proof.
  intros G N L. destruct (validate_ok idp camps lines G N) as (v & V & [(errs & C & F & _) (m1 & M1 & E1) (m2 & M2 & E2) P]); [lia|].
  exists v. split; [exact V|]. split.
  { rewrite C. assert (LE : List.length camps = List.length errs).
    { apply Forall2_length in F. now rewrite map_length, seq_length in F. }
    clear - LE. revert errs LE. induction camps as [|c camps IH]; intros [|e errs] LE; try discriminate; [reflexivity|].
    injection LE as LE. cbn. now rewrite IH. }
  split; [exact P|]. split.
  - exists m1. split; [exact M1|]. rewrite E1. apply mean_ext. intros r _. unfold day_error.
    rewrite (sum_ext (dist false r) (fun i => Qabs (sim_in r i - data_in r i))) by (intros; apply dist_whole). reflexivity.
  - exists m2. split; [exact M2|]. rewrite E2. apply mean_near; [destruct lines; [cbn in L; lia|easy]|].
    intros r _. unfold day_error. set (a := sumQ (map (dist true r) _)). set (b := sumQ _).
    assert (X : Qabs (a - b) <= inject_Z (Z.of_nat (List.length camps)) * (1 # 20000)).
    { unfold a, b. eapply Qle_trans; [apply (sum_near _ _ (1 # 20000)); intros; apply dist_near|]. rewrite seq_length. lra. }
    assert (E : a / people r - b / people r == (a - b) / people r) by (pose proof (people_pos r); field; lra).
    rewrite E. apply people_div; [exact X|]. pose proof (Qabs_nonneg (a - b)). lra.
Qed.

(** ** Each camp *)

Lemma camp_entry (camps : list string) (errs : list loc_errors) lines i c le : Forall2 alike errs (map (errors_of lines) (seq 0 (List.length camps))) ->
  nth_error (combine camps errs) i = Some (c, le) -> alike le (errors_of lines i) /\ nth_error camps i = Some c.
Proof.
  intros F H.
  assert (G : forall k (camps : list string) errs i, Forall2 alike errs (map (errors_of lines) (seq k (List.length camps))) ->
    nth_error (combine camps errs) i = Some (c, le) -> alike le (errors_of lines (k + i)) /\ nth_error camps i = Some c).
  { clear. intros k camps. revert k. induction camps as [|d camps IH]; intros k errs i F H; cbn [List.length seq map] in F.
    - destruct i; discriminate.
    - inversion F as [|e x errs' y E F' X1 X2]; subst. cbn [combine] in H. destruct i as [|i]; cbn [nth_error] in *.
      + injection H as -> ->. rewrite Nat.add_0_r. auto.
      + rewrite Nat.add_succ_r. exact (IH (Datatypes.S k) errs' i F' H). }
  exact (G 0%nat camps errs i F H).
Qed.

Lemma report_camp idp camps lines v : good_table camps lines -> camps <> [] -> (31 <= List.length lines)%nat ->
  validate (output_table idp camps lines) = Ok v ->
  forall i c le, nth_error (v_camps v) i = Some (c, le) ->
    nth_error camps i = Some c /\
    (exists m, le_abs_ave le = Ok m /\ m == mean (map (fun r => Qabs (sim_in r i - data_in r i)) lines)) /\
    (exists m, le_resc_ave le = Ok m /\ Qabs (m - mean (map (fun r => Qabs (rescaled_in r i - data_in r i)) lines)) <= 1 # 20000) /\
    (exists m, le_ratio_ave le = Ok m /\ m == mean (map (fun r => Qabs (sim_in r i - data_in r i) / people r) lines)) /\
    le_N le = sumQ (map (fun r => data_in r i) lines).
Proof.
  intros G N L V i c le H. destruct (validate_ok idp camps lines G N) as (v' & V' & [(errs & C & F & _) _ _ _]); [lia|].
  rewrite V in V'. injection V' as <-. rewrite C in H. destruct (camp_entry camps errs lines i c le F H) as [A B].
  split; [exact B|]. destruct A as (_ & A1 & _ & A2 & _ & A3 & A4 & _). rewrite A1, A2, A3, A4.
  assert (NL : lines <> []) by (destruct lines; [cbn in L; lia|easy]).
  assert (X : forall f : report -> Q, exists m, np_mean (map f lines) = Ok m /\ m == mean (map f lines)).
  { intro f. apply mean_forall; [exact NL|]. clear. induction lines; constructor; [reflexivity|assumption]. }
  split; [|split; [|split; [|reflexivity]]].
  - destruct (X (fun r => round4 (Qabs (sim_in r i - data_in r i)))) as (m & M & E). exists m. split; [exact M|].
    rewrite E. apply mean_ext. intros r _. apply dist_whole.
  - destruct (X (fun r => round4 (Qabs (rescaled_in r i - data_in r i)))) as (m & M & E). exists m. split; [exact M|].
    rewrite E. apply mean_near; [exact NL|]. intros r _. apply dist_near.
  - destruct (X (fun r => round4 (Qabs (sim_in r i - data_in r i)) / people r)) as (m & M & E). exists m. split; [exact M|].
    rewrite E. apply mean_ext. intros r _. pose proof (dist_whole r i) as D. unfold dist in D. now rewrite D.
Qed.

(** ** Scaled errors *)

Lemma mapM_total {A B} (f : A -> res B) (g : A -> B) l : (forall x, In x l -> f x = Ok (g x)) -> mapM f l = Ok (map g l).
Proof.
  induction l as [|x l IH]; intro H; [reflexivity|]. cbn [mapM map]. rewrite (H x) by now left. rewrite IH; [reflexivity|].
  intros y Y. apply H. now right.
Qed.
Lemma seq_nth_error k n i : (i < n)%nat -> nth_error (seq k n) i = Some (k + i)%nat.
Proof. intro H. rewrite (nth_error_nth' _ 0%nat) by now rewrite seq_length. now rewrite seq_nth. Qed.

Lemma naive_line_ok lines i n t : naive_exists lines i n t -> (30 < List.length lines)%nat ->
  exists line, naive_line lines i n t = Ok line /\ List.length line = List.length lines /\
    forall day x, nth_error line day = Some x -> x == naive_value lines i n t day.
Proof.
  intros H L. destruct n; cbn [naive_exists] in H; unfold naive_line.
  - eexists. split; [reflexivity|]. unfold flat_line. rewrite !map_length. split; [reflexivity|].
    intros day x Hx. rewrite nth_error_map in Hx. destruct (nth_error _ day); [|discriminate]. injection Hx as <-. reflexivity.
  - unfold sloped_line. set (e := value_on lines i 7) in *. set (v := value_on lines i (training_day t)) in *.
    exists (map (fun k => if Qltb 0 e then v * (inject_Z (Z.of_nat k) * v / v) else 0) (seq 0 (List.length (map (fun r => data_in r i) lines)))).
    split; [|split].
    + apply mapM_total. intros k _. destruct (Qltb 0 e) eqn:E; [|reflexivity]. apply Qltb_true in E.
      assert (fdiv (inject_Z (Z.of_nat k) * v) v = Ok (inject_Z (Z.of_nat k) * v / v)) as -> by (apply fdiv_ok; auto). reflexivity.
    + now rewrite map_length, seq_length, map_length.
    + intros day x Hx. rewrite nth_error_map in Hx. destruct (Nat.lt_ge_cases day (List.length (map (fun r => data_in r i) lines))) as [D|D].
      * rewrite seq_nth_error in Hx by exact D. cbn in Hx. injection Hx as <-. unfold naive_value. fold e v.
        destruct (Qltb 0 e) eqn:E; [|reflexivity]. apply Qltb_true in E. specialize (H E). field. exact H.
      * assert (nth_error (seq 0 (List.length (map (fun r => data_in r i) lines))) day = None) as Y by (apply nth_error_None; now rewrite seq_length).
        rewrite Y in Hx. discriminate.
  - unfold ratio_line. set (v := value_on lines i (training_day t)). set (u := total_on_line lines (training_day t)) in *.
    exists (map (fun w => w * (v / u)) (map (fun r => inject_Z (r_data r)) lines)). split; [|split].
    + apply mapM_total. intros w _. assert (fdiv v u = Ok (v / u)) as -> by (apply fdiv_ok; auto). reflexivity.
    + now rewrite !map_length.
    + intros day x Hx. rewrite nth_error_map in Hx. destruct (nth_error _ day) as [w|] eqn:E; [|discriminate]. injection Hx as <-.
      unfold naive_value. fold v u. unfold total_on_line. now rewrite (nth_error_nth _ _ _ E).
Qed.
Lemma naive_line_none lines i n t : ~ naive_exists lines i n t -> (30 < List.length lines)%nat -> naive_line lines i n t = Err ZeroDivisionError.
Proof.
  intros H L. destruct n; cbn [naive_exists] in H; unfold naive_line.
  - exfalso. now apply H.
  - unfold sloped_line. set (e := value_on lines i 7) in *. set (v := value_on lines i (training_day t)) in *.
    rewrite map_length. destruct (List.length lines) as [|m] eqn:E; [lia|]. cbn [seq mapM].
    assert (Qltb 0 e = true) as ->.
    { apply Qltb_true. destruct (Qlt_le_dec 0 e) as [A|A]; [exact A|]. exfalso. apply H. intro B. lra. }
    assert (v == 0) as V. { destruct (Qeq_dec v 0) as [A|A]; [exact A|]. exfalso. now apply H. }
    assert (fdiv (inject_Z (Z.of_nat 0) * v) v = Err ZeroDivisionError) as ->; [|reflexivity].
    unfold fdiv. assert (Qeqb v 0 = true) as -> by now apply Qeqb_true. reflexivity.
  - unfold ratio_line. set (v := value_on lines i (training_day t)). set (u := total_on_line lines (training_day t)) in *.
    destruct lines as [|r lines']; [cbn in L; lia|]. cbn [map mapM].
    assert (u == 0) as U. { destruct (Qeq_dec u 0) as [A|A]; [exact A|]. exfalso. now apply H. }
    assert (fdiv v u = Err ZeroDivisionError) as ->; [|reflexivity].
    unfold fdiv. assert (Qeqb u 0 = true) as -> by now apply Qeqb_true. reflexivity.
Qed.
Lemma naive_dec lines i n t : naive_exists lines i n t \/ ~ naive_exists lines i n t.
Proof.
  destruct n; cbn [naive_exists].
  - now left.
  - destruct (Qeq_dec (value_on lines i (training_day t)) 0) as [A|A]; [|left; auto].
    destruct (Qlt_le_dec 0 (value_on lines i 7)) as [B|B]; [right; intro C; now apply C|left; intro C; lra].
  - destruct (Qeq_dec (total_on_line lines (training_day t)) 0) as [A|A]; [right; auto|now left].
Qed.

Lemma gap_seq a : forall b k f g, List.length a = List.length b -> (forall i x, nth_error a i = Some x -> x == f (k + i)%nat) ->
  (forall i x, nth_error b i = Some x -> x == g (k + i)%nat) -> sum_abs a b == sumQ (map (fun i => Qabs (f i - g i)) (seq k (List.length a))).
Proof.
  induction a as [|x a IH]; intros [|y b] k f g L A B; try discriminate; [reflexivity|]. injection L as L. cbn [sum_abs List.length seq map sumQ].
  rewrite (IH b (Datatypes.S k) f g L).
  - pose proof (A 0%nat x eq_refl) as A0. pose proof (B 0%nat y eq_refl) as B0. rewrite Nat.add_0_r in A0, B0. now rewrite A0, B0.
  - intros i z Hz. rewrite Nat.add_succ_comm. now apply A.
  - intros i z Hz. rewrite Nat.add_succ_comm. now apply B.
Qed.
Lemma gap_map {A} (f g : A -> Q) l : sum_abs (map f l) (map g l) == sumQ (map (fun x => Qabs (f x - g x)) l).
Proof. induction l as [|x l IH]; [reflexivity|]. cbn [map sum_abs sumQ]. now rewrite IH. Qed.
Lemma nth_skipn {A} k : forall (l : list A) i, nth_error (skipn k l) i = nth_error l (k + i).
Proof. induction k as [|k IH]; intros l i; [reflexivity|]. destruct l as [|x l]; [now destruct i|]. cbn. apply IH. Qed.

Lemma mase_meaning lines i n t : (30 < List.length lines)%nat ->
  ((exists x, le_mase (errors_of lines i) n t = Ok x) <-> naive_exists lines i n t /\ naive_wrong lines i n t) /\
  forall x, le_mase (errors_of lines i) n t = Ok x -> rounded4 (scaled_error lines i n t) x.
Proof.
  intro L. cbn [le_mase errors_of]. set (T := training_day t). set (y2 := map (fun r => data_in r i) lines). set (y1 := map (fun r => rescaled_in r i) lines).
  destruct (naive_dec lines i n t) as [X|X].
  2:{ rewrite (naive_line_none _ _ _ _ X L). cbn [bind]. split; [|discriminate]. split; [intros (x & H); discriminate|intros [H _]; contradiction]. }
  destruct (naive_line_ok lines i n t X L) as (line & -> & LL & V). cbn [bind].
  assert (L1 : List.length y1 = List.length y2) by (unfold y1, y2; now rewrite !map_length).
  assert (L2 : List.length line = List.length y2) by (unfold y2; now rewrite map_length).
  assert (V2 : forall day x, nth_error y2 day = Some x -> x == value_on lines i day).
  { intros day x Hx. unfold value_on. fold y2. now rewrite (nth_error_nth _ _ _ Hx). }
  assert (W : naive_wrong lines i n t <-> exists j x y, nth_error (skipn (T + 1) y2) j = Some x /\ nth_error (skipn (T + 1) line) j = Some y /\ ~ x == y).
  { split.
    - intros (day & D & Nq). unfold later in D. fold T in D. apply in_seq in D. exists (day - (T + 1))%nat.
      assert (Hy : exists x, nth_error y2 day = Some x).
      { destruct (nth_error y2 day) eqn:E; [eauto|]. apply nth_error_None in E. unfold y2 in E. rewrite map_length in E. lia. }
      assert (Hl : exists y, nth_error line day = Some y).
      { destruct (nth_error line day) eqn:E; [eauto|]. apply nth_error_None in E. lia. }
      destruct Hy as (x & Hx). destruct Hl as (y & Hy). exists x, y. rewrite !nth_skipn. replace (T + 1 + (day - (T + 1)))%nat with day by lia.
      split; [exact Hx|]. split; [exact Hy|]. intro E. apply Nq. rewrite <- (V day y Hy), <- (V2 day x Hx). now symmetry.
    - intros (j & x & y & Hx & Hy & Nq). rewrite nth_skipn in Hx, Hy. exists (T + 1 + j)%nat. split.
      + unfold later. fold T. apply in_seq. assert (T + 1 + j < List.length y2)%nat by (apply nth_error_Some; congruence).
        unfold y2 in H. rewrite map_length in H. lia.
      + intro E. apply Nq. now rewrite (V2 _ _ Hx), (V _ _ Hy). }
  split.
  - split.
    + intros (x & H). split; [exact X|]. apply W. destruct (mase_iff y1 y2 line T x L1 L2 H) as (_ & D & _). exact D.
    + intros [_ D]. apply W in D. now apply mase_defined.
  - intros x H. destruct (mase_iff y1 y2 line T x L1 L2 H) as (_ & _ & R). eapply rounded4_comp; [|exact R].
    unfold scaled_error, mean. rewrite !map_length.
    assert (E1 : sum_abs y1 y2 == sumQ (map (fun r => Qabs (rescaled_in r i - data_in r i)) lines)) by apply gap_map.
    assert (E2 : sum_abs (skipn (T + 1) line) (skipn (T + 1) y2) ==
                 sumQ (map (fun day => Qabs (naive_value lines i n t day - value_on lines i day)) (later lines t))).
    { unfold later. fold T. rewrite (gap_seq _ _ (T + 1) (naive_value lines i n t) (value_on lines i)).
      - rewrite skipn_length, LL. reflexivity.
      - rewrite !skipn_length. lia.
      - intros j z Hz. rewrite nth_skipn in Hz. now apply V.
      - intros j z Hz. rewrite nth_skipn in Hz. now apply V2. }
    rewrite E1, E2. unfold later. fold T. rewrite skipn_length, seq_length. unfold y2. rewrite map_length. reflexivity.
Qed.

Lemma report_scaled idp camps lines v : good_table camps lines -> camps <> [] -> (31 <= List.length lines)%nat ->
  validate (output_table idp camps lines) = Ok v ->
  forall i c le n t, nth_error (v_camps v) i = Some (c, le) ->
    ((exists x, le_mase le n t = Ok x) <-> naive_exists lines i n t /\ naive_wrong lines i n t) /\
    forall x, le_mase le n t = Ok x -> rounded4 (scaled_error lines i n t) x.
Proof.
  intros G N L V i c le n t H. destruct (validate_ok idp camps lines G N) as (v' & V' & [(errs & C & F & _) _ _ _]); [lia|].
  rewrite V in V'. injection V' as <-. rewrite C in H. destruct (camp_entry camps errs lines i c le F H) as [(_ & _ & _ & _ & _ & _ & _ & A) B].
  rewrite A. apply mase_meaning. lia.
Qed.

(** ** The totals are means over the camps, weighted by the number of observations. *)

Lemma get_error_ok errs (f : loc_errors -> res Q) m : get_error errs f = Ok m <->
  exists xs, Forall2 (fun e x => f e = Ok x) errs xs /\ errs <> [] /\ ~ sumQ (map le_N errs) == 0 /\
    get_error errs f = Ok m.
Proof.
  split; [|intros (xs & _ & _ & _ & H); exact H]. intro H. destruct errs as [|e errs]; [discriminate|]. cbn [get_error] in H.
  destruct (f e) as [x|] eqn:E; [|discriminate]. cbn [bind] in H.
  assert (G : forall errs a b tmp M, foldM (fun (st : Q * Q) e' => let '(tmp, N) := st in y <- f e' ;; Ok (tmp + y * le_N e', N + le_N e')) errs (a, b) = Ok (tmp, M) ->
    exists xs, Forall2 (fun e x => f e = Ok x) errs xs /\ M == b + sumQ (map le_N errs)).
  { clear. induction errs as [|e errs IH]; intros a b tmp M H.
    - cbn in H. injection H as <- <-. exists []. split; [constructor|cbn; ring].
    - cbn [foldM] in H. destruct (f e) as [y|] eqn:E; [|discriminate]. cbn [bind] in H. destruct (IH _ _ _ _ H) as (xs & F & A).
      exists (y :: xs). split; [now constructor|]. rewrite A. cbn [map sumQ]. ring. }
  destruct (foldM _ errs _) as [[tmp M]|] eqn:FM; [|discriminate]. cbn [bind] in H. destruct (G _ _ _ _ _ FM) as (xs & F & A).
  exists (x :: xs). split; [now constructor|]. split; [discriminate|]. split.
  - apply fdiv_ok in H as [H _]. cbn [map sumQ]. now rewrite <- A.
  - cbn [get_error]. rewrite E. cbn [bind]. rewrite FM. cbn [bind]. exact H.
Qed.
Lemma get_error_value errs f xs : Forall2 (fun e x => f e = Ok x) errs xs -> errs <> [] -> ~ sumQ (map le_N errs) == 0 ->
  exists m, get_error errs f = Ok m /\ m == weighted (combine (map le_N errs) xs) / sumQ (map le_N errs).
Proof.
  intros F N S. destruct F as [|e x errs xs E F]; [easy|]. cbn [get_error]. rewrite E. cbn [bind].
  assert (G : forall errs xs, Forall2 (fun e x => f e = Ok x) errs xs -> forall a b, exists tmp M,
    foldM (fun (st : Q * Q) e' => let '(tmp, N) := st in y <- f e' ;; Ok (tmp + y * le_N e', N + le_N e')) errs (a, b) = Ok (tmp, M) /\
    tmp == a + weighted (combine (map le_N errs) xs) /\ M == b + sumQ (map le_N errs)).
  { clear. induction 1 as [|e x errs xs E F IH]; intros a b.
    - exists a, b. split; [reflexivity|]. cbn. split; ring.
    - cbn [foldM]. rewrite E. cbn [bind]. destruct (IH (a + x * le_N e) (b + le_N e)) as (tmp & M & H & A & B).
      exists tmp, M. split; [exact H|]. cbn [map combine weighted sumQ]. rewrite A, B. split; ring. }
  destruct (G errs xs F (x * le_N e) (le_N e)) as (tmp & M & H & A & B). rewrite H. cbn [bind map combine weighted sumQ] in *.
  exists (tmp / M). split; [apply fdiv_ok; split; [now rewrite B|reflexivity]|]. rewrite A, B. rewrite (Qmult_comm x (le_N e)). reflexivity.
Qed.

Lemma weighted_bounds lo hi l : (forall n x, In (n, x) l -> 0 <= n /\ lo <= x <= hi) ->
  lo * sumQ (map fst l) <= weighted l <= hi * sumQ (map fst l).
Proof.
  induction l as [|[n x] l IH]; intro H; [cbn; lra|]. cbn [weighted map sumQ fst].
  destruct (H n x (or_introl eq_refl)) as (A & B1 & B2). destruct IH as [I1 I2]; [intros; apply H; now right|].
  split; nra.
Qed.

Lemma report_totals idp camps lines v : good_table camps lines -> camps <> [] -> (31 <= List.length lines)%nat ->
  validate (output_table idp camps lines) = Ok v ->
  forall n t, let total := sumQ (map (fun p => le_N (snd p)) (v_camps v)) in
    ((exists m, v_mase v n t = Ok m) <-> ~ total == 0 /\ forall c le, In (c, le) (v_camps v) -> exists x, le_mase le n t = Ok x) /\
    (forall m, v_mase v n t = Ok m -> exists xs, Forall2 (fun p x => le_mase (snd p) n t = Ok x) (v_camps v) xs /\
       m == weighted (combine (map (fun p => le_N (snd p)) (v_camps v)) xs) / total) /\
    (forall m lo hi, v_mase v n t = Ok m -> (forall c le, In (c, le) (v_camps v) -> 0 <= le_N le) ->
       (forall c le x, In (c, le) (v_camps v) -> le_mase le n t = Ok x -> lo <= x <= hi) -> lo <= m <= hi).
Proof.
  intros G N L V n t. destruct (validate_ok idp camps lines G N) as (v' & V' & [(errs & C & F & M) _ _ _]); [lia|].
  rewrite V in V'. injection V' as <-. rewrite C, M. cbv zeta.
  assert (LE : List.length camps = List.length errs). { apply Forall2_length in F. now rewrite map_length, seq_length in F. }
  assert (NE : errs <> []) by (intro X; subst errs; destruct camps; [now apply N|discriminate]).
  assert (SN : forall {A} (f : loc_errors -> A), map (fun p : string * loc_errors => f (snd p)) (combine camps errs) = map f errs).
  { clear - LE. intros A f. revert errs LE. induction camps as [|c camps IH]; intros [|e errs] LE; try discriminate; [reflexivity|].
    injection LE as LE. cbn. now rewrite IH. }
  rewrite (SN _ le_N). set (total := sumQ (map le_N errs)).
  assert (IN : forall le, In le errs -> exists c, In (c, le) (combine camps errs)).
  { clear - LE. revert errs LE. induction camps as [|c camps IH]; intros [|e errs] LE le H; try discriminate; [destruct H|].
    injection LE as LE. destruct H as [<-|H]; [exists c; now left|]. destruct (IH errs LE le H) as (d & D). exists d. now right. }
  assert (F2 : forall xs, Forall2 (fun p x => le_mase (snd p) n t = Ok x) (combine camps errs) xs <-> Forall2 (fun e x => le_mase e n t = Ok x) errs xs).
  { clear - LE. revert errs LE. induction camps as [|c camps IH]; intros [|e errs] LE xs; try discriminate; [cbn; split; intro X; inversion X; constructor|].
    injection LE as LE. cbn [combine]. split; intro X; inversion X; subst; constructor; auto; now apply (IH errs LE). }
  assert (VAL : forall m, get_error errs (fun e => le_mase e n t) = Ok m -> exists xs, Forall2 (fun e x => le_mase e n t = Ok x) errs xs /\
     ~ total == 0 /\ m == weighted (combine (map le_N errs) xs) / total).
  { intros m H. apply get_error_ok in H as (xs & X & _ & S & H). exists xs. split; [exact X|]. split; [exact S|].
    destruct (get_error_value errs _ xs X NE S) as (m' & H' & E). rewrite H in H'. injection H' as <-. exact E. }
  split; [|split].
  - split.
    + intros (m & H). destruct (VAL m H) as (xs & X & S & _). split; [exact S|]. intros c le I. apply in_combine_r in I.
      clear - X I. induction X as [|e x errs xs E X IH]; [destruct I|]. destruct I as [<-|I]; eauto.
    + intros (S & H). assert (exists xs, Forall2 (fun e x => le_mase e n t = Ok x) errs xs) as (xs & X).
      { assert (forall le, In le errs -> exists x, le_mase le n t = Ok x) as H'.
        { intros le I. destruct (IN le I) as (c & I'). eauto. }
        clear - H'. induction errs as [|e errs IH]; [exists []; constructor|]. destruct IH as (xs & X); [intros; apply H'; now right|].
        destruct (H' e (or_introl eq_refl)) as (x & E). exists (x :: xs). now constructor. }
      destruct (get_error_value errs _ xs X NE S) as (m & H' & _). eauto.
  - intros m H. destruct (VAL m H) as (xs & X & S & E). exists xs. split; [now apply F2|exact E].
  - intros m lo hi H P B. destruct (VAL m H) as (xs & X & S & E).
    assert (Q1 : forall k x, In (k, x) (combine (map le_N errs) xs) -> 0 <= k /\ lo <= x <= hi).
    { assert (P' : forall le, In le errs -> 0 <= le_N le) by (intros le I; destruct (IN le I) as (c & I'); eauto).
      assert (B' : forall le x, In le errs -> le_mase le n t = Ok x -> lo <= x <= hi) by (intros le x I; destruct (IN le I) as (c & I'); eauto).
      clear - X P' B'. induction X as [|e x errs xs E X IH]; intros k y I; [destruct I|]. cbn [map combine] in I. destruct I as [I|I].
      - injection I as <- <-. split; [apply P'; now left|]. apply (B' e); [now left|exact E].
      - apply IH; [intros; apply P'; now right|intros; eapply B'; [right; eassumption|eassumption]|exact I]. }
    apply weighted_bounds in Q1.
    assert (FS : map fst (combine (map le_N errs) xs) = map le_N errs).
    { clear - X. induction X as [|e x errs xs E X IH]; [reflexivity|]. cbn. now rewrite IH. }
    rewrite FS in Q1. fold total in Q1. set (w := weighted _) in *.
    assert (TP : 0 < total).
    { assert (0 <= total).
      { assert (P' : forall le, In le errs -> 0 <= le_N le) by (intros le I; destruct (IN le I) as (c & I'); eauto).
        unfold total. clear - P'. induction errs as [|e errs IH]; [cbn; lra|]. cbn [map sumQ].
        assert (0 <= le_N e) by (apply P'; now left). assert (0 <= sumQ (map le_N errs)) by (apply IH; intros; apply P'; now right). lra. }
      apply Qle_lteq in H0 as [H0|H0]; [exact H0|]. exfalso. apply S. now symmetry. }
    rewrite E. destruct Q1 as [Q1 Q2]. split; [apply Qle_shift_div_l|apply Qle_shift_div_r]; assumption.
Qed.

(** ** Simulations that are right *)

Lemma mean_zero {A} (f : A -> Q) l : (forall x, In x l -> f x == 0) -> mean (map f l) == 0.
Proof.
  intro H. unfold mean. assert (sumQ (map f l) == 0) as ->; [|unfold Qdiv; ring].
  induction l as [|x l IH]; [reflexivity|]. cbn [map sumQ]. rewrite (H x) by now left. rewrite IH; [ring|]. intros y Y. apply H. now right.
Qed.
Lemma sum_zeros {A} (l : list A) : sumQ (map (fun _ => 0) l) == 0.
Proof. induction l as [|x l IH]; [reflexivity|]. cbn [map sumQ]. rewrite IH. ring. Qed.
Lemma round_zero : forall x, x == 0 -> round4 x == 0.
Proof. intros x E. rewrite (round4_comp _ _ E). reflexivity. Qed.
Lemma mase_right lines i n t x : (forall r, In r lines -> rescaled_in r i == data_in r i) ->
  le_mase (errors_of lines i) n t = Ok x -> x == 0.
Proof.
  intros H M. cbn [le_mase errors_of] in M. destruct (naive_line lines i n t) as [line|]; [|discriminate]. cbn [bind] in M.
  unfold calculate_mase in M. destruct (np_sub _ _) as [u|] eqn:E1 in M; [|discriminate]. cbn [bind] in M.
  destruct (fdiv _ _) as [mn|] eqn:E2 in M; [|discriminate]. cbn [bind] in M.
  rewrite sub_same in M by now rewrite !map_length. cbn [bind] in M. rewrite zip_sub_map, map_map in M.
  destruct (fdiv _ _) as [mf|] eqn:E3 in M; [|discriminate]. cbn [bind] in M.
  destruct (fdiv _ _) as [q|] eqn:E4 in M; [|discriminate]. cbn [bind] in M. injection M as <-.
  apply fdiv_ok in E3 as [_ ->]. apply fdiv_ok in E4 as [_ ->]. apply round_zero.
  assert (S : sumQ (map (fun r => Qabs (data_in r i - rescaled_in r i)) lines) == 0).
  { clear - H. induction lines as [|r lines IH]; [reflexivity|]. cbn [map sumQ]. rewrite IH by (intros; apply H; now right).
    assert (data_in r i - rescaled_in r i == 0) as -> by (rewrite (H r) by (now left); ring). reflexivity. }
  rewrite S. unfold Qdiv. ring.
Qed.
Lemma get_error_zero errs f m : (forall e x, In e errs -> f e = Ok x -> x == 0) -> get_error errs f = Ok m -> m == 0.
Proof.
  intros H G. pose proof G as G'. apply get_error_ok in G' as (xs & X & NE & S & _).
  destruct (get_error_value errs f xs X NE S) as (m' & G' & E). rewrite G in G'. injection G' as <-. rewrite E.
  assert (W : weighted (combine (map le_N errs) xs) == 0).
  { clear - X H. induction X as [|e x errs xs E X IH]; [reflexivity|]. cbn [map combine weighted].
    rewrite IH by (intros; eapply H; [right; eassumption|eassumption]). assert (x == 0) as -> by (apply (H e x); [now left|exact E]). ring. }
  rewrite W. unfold Qdiv. ring.
Qed.

Lemma report_right idp camps lines v : good_table camps lines -> camps <> [] -> (31 <= List.length lines)%nat ->
  validate (output_table idp camps lines) = Ok v ->
  (forall r i, In r lines -> (i < List.length camps)%nat -> rescaled_in r i == data_in r i) ->
  (exists m, v_rescaled v = Ok m /\ m == 0) /\
  (forall n t m, v_mase v n t = Ok m -> m == 0) /\
  forall c le n t x, In (c, le) (v_camps v) -> le_mase le n t = Ok x -> x == 0.
Proof.
  intros G N L V H. destruct (validate_ok idp camps lines G N) as (v' & V' & [(errs & C & F & M) _ (m2 & M2 & E2) _]); [lia|].
  rewrite V in V'. injection V' as <-.
  assert (Z0 : forall le, In le errs -> forall n t x, le_mase le n t = Ok x -> x == 0).
  { assert (K : forall i, In i (seq 0 (List.length camps)) -> (i < List.length camps)%nat) by (intros i I; apply in_seq in I; lia).
    revert K. generalize dependent (seq 0 (List.length camps)). intros s F _ K le I n t x A. clear - F H K I A.
    remember (map (errors_of lines) s) as ys eqn:Ey. revert s Ey K. induction F as [|e y errs ys E F IH]; intros s Ey K; [destruct I|].
    destruct s as [|i s]; [discriminate|]. injection Ey as -> ->. destruct I as [<-|I].
    - destruct E as (_ & _ & _ & _ & _ & _ & _ & E). rewrite E in A. eapply mase_right; [|exact A].
      intros r Hr. apply H; [exact Hr|]. apply K. now left.
    - eapply IH; [exact I|reflexivity|]. intros j J. apply K. now right. }
  split; [|split].
  - exists m2. split; [exact M2|]. rewrite E2. apply mean_zero. intros r Hr.
    assert (sumQ (map (dist true r) (seq 0 (List.length camps))) == 0) as ->; [|unfold Qdiv; ring].
    rewrite (sum_ext _ (fun _ => 0)).
    + apply sum_zeros.
    + intros i I. apply in_seq in I. unfold dist. apply round_zero.
      assert (rescaled_in r i - data_in r i == 0) as -> by (rewrite (H r i Hr) by lia; ring). reflexivity.
  - intros n t m A. rewrite M in A. eapply get_error_zero; [|exact A]. intros e x I. cbn. now apply Z0.
  - intros c le n t x I. rewrite C in I. apply in_combine_r in I. now apply Z0.
Qed.

Lemma report_shares idp camps lines v : good_table camps lines -> camps <> [] -> (31 <= List.length lines)%nat ->
  validate (output_table idp camps lines) = Ok v -> Forall (right_shares (List.length camps)) lines ->
  (exists m, v_rescaled v = Ok m /\ m == 0) /\
  (forall n t m, v_mase v n t = Ok m -> m == 0) /\
  forall c le n t x, In (c, le) (v_camps v) -> le_mase le n t = Ok x -> x == 0.
Proof.
  intros G N L V R. apply (report_right idp camps lines v G N L V). intros r i Hr Hi. rewrite Forall_forall in R.
  destruct (R r Hr) as [P E]. specialize (E i Hi). unfold rescaled_in. apply Z.ltb_lt in P as P'. rewrite P'.
  assert (0 < inject_Z (r_in_camps r)) as P2 by (change 0 with (inject_Z 0); now rewrite <- Zlt_Qlt).
  rewrite E. field. lra.
Qed.

Lemma report_numbers idp camps lines v : good_table camps lines -> camps <> [] -> (31 <= List.length lines)%nat ->
  validate (output_table idp camps lines) = Ok v -> Forall (right_numbers (List.length camps)) lines ->
  exists m, v_normal v = Ok m /\ m == 0.
Proof.
  intros G N L V R. destruct (report_errors idp camps lines G N L) as (v' & V' & _ & _ & (m & M & E) & _).
  rewrite V in V'. injection V' as <-. exists m. split; [exact M|]. rewrite E. apply mean_zero. intros r Hr. rewrite Forall_forall in R.
  destruct (R r Hr) as [_ Q1]. unfold day_error. rewrite (sum_ext _ (fun _ => 0)).
  - assert (sumQ (map (fun _ : nat => 0) (seq 0 (List.length camps))) == 0) as ->; [|unfold Qdiv; ring].
    apply sum_zeros.
  - intros i I. apply in_seq in I. assert (sim_in r i - data_in r i == 0) as -> by (rewrite (Q1 i) by lia; ring). reflexivity.
Qed.

(** ** The number of agents does not matter for the rescaled errors. *)

Lemma times_sim k r i : sim_in (times k r) i == inject_Z k * sim_in r i.
Proof.
  unfold sim_in. cbn [times r_camps]. rewrite nth_error_map. destruct (nth_error (r_camps r) i) as [[[s d] x]|]; cbn [option_map].
  - now rewrite inject_Z_mult.
  - ring.
Qed.
Lemma times_data k r i : data_in (times k r) i = data_in r i.
Proof. unfold data_in. cbn [times r_camps]. rewrite nth_error_map. now destruct (nth_error (r_camps r) i) as [[[s d] x]|]. Qed.
Lemma times_rescaled k r i : (0 < k)%Z -> rescaled_in (times k r) i == rescaled_in r i.
Proof.
  intro K. unfold rescaled_in. cbn [times r_in_camps r_data].
  assert ((0 <? k * r_in_camps r)%Z = (0 <? r_in_camps r)%Z) as ->.
  { destruct (Z.ltb_spec 0 (r_in_camps r)); [apply Z.ltb_lt|apply Z.ltb_ge]; nia. }
  destruct (Z.ltb_spec 0 (r_in_camps r)) as [P|P]; [|reflexivity]. rewrite times_sim, inject_Z_mult.
  assert (0 < inject_Z k) by (change 0 with (inject_Z 0); now rewrite <- Zlt_Qlt).
  assert (0 < inject_Z (r_in_camps r)) by (change 0 with (inject_Z 0); now rewrite <- Zlt_Qlt).
  field. split; lra.
Qed.
Lemma good_times k camps lines : good_table camps lines -> good_table camps (map (times k) lines).
Proof.
  intros (A & B & C). split; [exact A|]. split; [exact B|]. rewrite Forall_forall in *. intros r Hr. apply in_map_iff in Hr as (s & <- & Hs).
  cbn [times r_camps]. rewrite map_length. now apply C.
Qed.

Lemma calculate_comp f f' a line s : Forall2 Qeq f f' -> calculate_mase f a line s = calculate_mase f' a line s.
Proof.
  intro F. unfold calculate_mase. destruct (np_sub (slice_from a (s + 1)) _) as [u|]; [|reflexivity]. cbn [bind].
  destruct (fdiv (sumQ (map Qabs u)) _) as [mn|] eqn:E1; [|reflexivity]. cbn [bind].
  assert (LF : List.length f = List.length f') by (now apply Forall2_length in F).
  assert (X : match np_sub a f, np_sub a f' with Ok d, Ok d' => sumQ (map Qabs d) == sumQ (map Qabs d') | Err e, Err e' => e = e' | _, _ => False end).
  { unfold np_sub. rewrite <- LF. destruct (Nat.eqb (List.length a) (List.length f)) eqn:E.
    - apply Nat.eqb_eq in E. clear - F. revert a. induction F as [|x x' f f' Ex F IH]; intros [|y a]; try reflexivity.
      cbn [zip_sub map sumQ]. now rewrite IH, Ex.
    - apply Nat.eqb_neq in E. destruct a as [|y [|y' a]].
      + destruct F as [|x x' f f' Ex F]; [reflexivity|]. destruct F; reflexivity.
      + clear - F. induction F as [|x x' f f' Ex F IH]; [reflexivity|]. cbn [map sumQ]. now rewrite IH, Ex.
      + destruct F as [|x x' f f' Ex F]; [reflexivity|]. destruct F; [|reflexivity].
        cbn [map sumQ]. rewrite Ex. assert (Z0 : sumQ (map Qabs (map (fun x0 => x0 - x) a)) == sumQ (map Qabs (map (fun x0 => x0 - x') a))).
        { clear - Ex. induction a as [|z a IH]; [reflexivity|]. cbn [map sumQ]. now rewrite IH, Ex. }
        rewrite Z0. reflexivity. }
  destruct (np_sub a f) as [d|e], (np_sub a f') as [d'|e']; try contradiction; [|now subst]. cbn [bind]. unfold fdiv.
  destruct (Qeqb (inject_Z (Z.of_nat (List.length a))) 0); [reflexivity|]. cbn [bind].
  destruct (Qeqb mn 0); [reflexivity|]. cbn [bind]. f_equal. apply round4_comp. now rewrite X.
Qed.
Lemma naive_line_times k lines i n t : naive_line (map (times k) lines) i n t = naive_line lines i n t.
Proof.
  assert (E : map (fun r => data_in r i) (map (times k) lines) = map (fun r => data_in r i) lines).
  { rewrite map_map. apply map_ext. intro r. apply times_data. }
  unfold naive_line, value_on, total_on_line. rewrite E. rewrite map_map. cbn [times r_data]. reflexivity.
Qed.
Lemma errors_times k lines i : (0 < k)%Z ->
  le_resc (errors_of (map (times k) lines) i) = le_resc (errors_of lines i) /\ le_N (errors_of (map (times k) lines) i) = le_N (errors_of lines i) /\
  forall n t, le_mase (errors_of (map (times k) lines) i) n t = le_mase (errors_of lines i) n t.
Proof.
  intro K. cbn [errors_of le_resc le_N le_mase]. 
  assert (E : map (fun r => data_in r i) (map (times k) lines) = map (fun r => data_in r i) lines).
  { rewrite map_map. apply map_ext. intro r. apply times_data. }
  split; [|split].
  - rewrite map_map. apply map_ext. intro r. apply round4_comp. now rewrite times_rescaled, times_data.
  - now rewrite E.
  - intros n t. rewrite naive_line_times, E. destruct (naive_line lines i n t); [|reflexivity]. cbn [bind]. apply calculate_comp.
    rewrite map_map. clear - K. induction lines as [|r lines IH]; [constructor|]. cbn [map]. constructor; [now apply times_rescaled|exact IH].
Qed.

Lemma get_error_comp errs errs' f : Forall2 (fun a b => f a = f b /\ le_N a = le_N b) errs errs' -> get_error errs f = get_error errs' f.
Proof.
  intro F. destruct F as [|a b errs errs' [A B] F]; [reflexivity|]. cbn [get_error]. rewrite A, B. destruct (f b) as [x|]; [|reflexivity]. cbn [bind].
  assert (G : forall st, foldM (fun (st : Q * Q) e' => let '(tmp, N) := st in y <- f e' ;; Ok (tmp + y * le_N e', N + le_N e')) errs st =
                         foldM (fun (st : Q * Q) e' => let '(tmp, N) := st in y <- f e' ;; Ok (tmp + y * le_N e', N + le_N e')) errs' st).
  { clear - F. induction F as [|a b errs errs' [A B] F IH]; intros [tmp M]; [reflexivity|]. cbn [foldM]. rewrite A, B.
    destruct (f b) as [y|]; [|reflexivity]. cbn [bind]. apply IH. }
  now rewrite G.
Qed.
Lemma np_mean_comp l l' : Forall2 Qeq l l' -> l <> [] -> forall m m', np_mean l = Ok m -> np_mean l' = Ok m' -> m == m'.
Proof.
  intros F N m m' A B. apply fdiv_ok in A as [_ ->]. apply fdiv_ok in B as [_ ->].
  assert (List.length l = List.length l') as -> by now apply Forall2_length in F.
  assert (sumQ l == sumQ l') as ->; [|reflexivity]. clear N. induction F as [|x y l l' E F IH]; [reflexivity|]. cbn. now rewrite E, IH.
Qed.

Lemma report_times idp camps lines k v v' : good_table camps lines -> camps <> [] -> (31 <= List.length lines)%nat -> (0 < k)%Z ->
  validate (output_table idp camps lines) = Ok v -> validate (output_table idp camps (map (times k) lines)) = Ok v' ->
  (exists m m', v_rescaled v = Ok m /\ v_rescaled v' = Ok m' /\ m == m') /\
  (forall n t, v_mase v' n t = v_mase v n t) /\
  Forall2 (fun p p' => fst p' = fst p /\ le_resc (snd p') = le_resc (snd p) /\ forall n t, le_mase (snd p') n t = le_mase (snd p) n t) (v_camps v) (v_camps v').
Proof.
  intros G N L K V V'. destruct (validate_ok idp camps lines G N) as (w & W & [(errs & C & F & M) _ (m & R & E) _]); [lia|].
  destruct (validate_ok idp camps (map (times k) lines) (good_times k camps lines G) N) as (w' & W' & [(errs' & C' & F' & M') _ (m' & R' & E') _]).
  { rewrite map_length. lia. }
  rewrite V in W. injection W as <-. rewrite V' in W'. injection W' as <-.
  assert (A : Forall2 (fun a b => le_resc b = le_resc a /\ le_N a = le_N b /\ forall n t, le_mase b n t = le_mase a n t) errs errs').
  { clear - F F' K. revert errs errs' F F'. induction (seq 0 (List.length camps)) as [|i s IH]; intros errs errs' F F'; cbn [map] in F, F'.
    - inversion F; inversion F'; constructor.
    - inversion F as [|e x es y A F1 X1 X2]; subst. inversion F' as [|e' x' es' y' A' F1' X1' X2']; subst. constructor; [|now apply IH].
      destruct A as (_ & _ & A1 & _ & _ & _ & A2 & A3). destruct A' as (_ & _ & A1' & _ & _ & _ & A2' & A3').
      destruct (errors_times k lines i K) as (B1 & B2 & B3). split; [congruence|]. split; [congruence|]. intros n t. rewrite A3', A3. apply B3. }
  split; [|split].
  - exists m, m'. split; [exact R|]. split; [exact R'|]. rewrite E, E', map_map. apply mean_ext. intros r _. cbn [times].
    assert (people (times k r) = people r) as Ep by reflexivity. change (Report _ _ _ _ _ _ _ _ _ _) with (times k r). rewrite Ep.
    assert (map (dist true (times k r)) (seq 0 (List.length camps)) = map (dist true r) (seq 0 (List.length camps))) as ->; [|reflexivity].
    apply map_ext. intro i. unfold dist. apply round4_comp. now rewrite times_rescaled, times_data.
  - intros n t. rewrite M, M'. symmetry. apply get_error_comp. clear - A. induction A as [|a b errs errs' (A1 & A2 & A3) A IH]; constructor; [|exact IH].
    split; [symmetry; apply A3|exact A2].
  - rewrite C, C'. assert (LE : List.length camps = List.length errs). { apply Forall2_length in F. now rewrite map_length, seq_length in F. }
    clear - A LE. revert camps LE. induction A as [|a b errs errs' (A1 & A2 & A3) A IH]; intros [|c camps] LE; try discriminate; [constructor|].
    injection LE as LE. cbn [combine]. constructor; [auto|now apply IH].
Qed.

(** ** The table of the main program *)

Lemma run_table fuel S o inp g camps lines : run_script fuel S o inp g = Ok (camps, lines) -> NoDup camps -> Forall good_name camps ->
  good_table camps lines.
Proof.
  intros H ND GN. apply script_lines in H as (w & _ & -> & _ & Ls). split; [exact ND|]. split; [exact GN|]. apply Forall_forall. intros r Hr.
  apply In_nth_error in Hr as (t & Hr). destruct (Ls t r Hr) as (sp & d & e & g' & _ & _ & _ & Lo). symmetry. eapply Forall2_length. exact (lo_camps _ _ _ _ _ _ _ _ Lo).
Qed.
Lemma sum_sims (l : list (Z * Z * Q)) : sumQ (map (fun i => match nth_error l i with Some (s, _, _) => inject_Z s | None => 0 end) (seq 0 (List.length l))) ==
  inject_Z (sumZ (map (fun x => fst (fst x)) l)).
Proof.
  induction l as [|[[s d] x] l IH]; [reflexivity|]. cbn [List.length seq map sumQ sumZ nth_error fst]. rewrite inject_Z_plus, <- IH.
  rewrite <- seq_shift, map_map. reflexivity.
Qed.
Lemma run_rescaled fuel S o inp g camps lines : run_script fuel S o inp g = Ok (camps, lines) ->
  forall r, In r lines -> (0 < r_in_camps r)%Z -> sumQ (map (rescaled_in r) (seq 0 (List.length camps))) == inject_Z (r_data r).
Proof.
  intros H r Hr P. apply script_lines in H as (w & _ & -> & _ & Ls). apply In_nth_error in Hr as (t & Hr).
  destruct (Ls t r Hr) as (sp & d & e & g' & _ & _ & _ & Lo). pose proof (lo_camps _ _ _ _ _ _ _ _ Lo) as F. apply Forall2_length in F. rewrite F.
  pose proof (lo_in_camps _ _ _ _ _ _ _ _ Lo) as C. pose proof (sum_sims (r_camps r)) as X. rewrite <- C in X.
  assert (P2 : 0 < inject_Z (r_in_camps r)) by (change 0 with (inject_Z 0); now rewrite <- Zlt_Qlt).
  apply Z.ltb_lt in P. unfold rescaled_in. rewrite P. set (s := sim_in r).
  assert (Y : sumQ (map (fun i => s i * inject_Z (r_data r) / inject_Z (r_in_camps r)) (seq 0 (List.length (r_camps r)))) ==
              sumQ (map s (seq 0 (List.length (r_camps r)))) * inject_Z (r_data r) / inject_Z (r_in_camps r)).
  { clear - P2. induction (seq 0 (List.length (r_camps r))) as [|i l IH]; cbn [map sumQ]; [field; lra|]. rewrite IH. field. lra. }
  rewrite Y. change (sumQ (map s (seq 0 (List.length (r_camps r)))) == inject_Z (r_in_camps r)) in X. rewrite X. field. lra.
Qed.
