(** * DataWitness: concrete cases for the properties of dates and data files *)

From Coq Require Import ZArith Lia Lqa.
From Verif Require Import Base Lemmas Dates SpecDates DateProofs DataTable SpecData DataProofs DataFiles SpecFiles FileProofs AddProofs TableProofs.
Local Open Scope string_scope.
Local Open Scope Q_scope.
Local Open Scope list_scope.

(** ** Dates *)

Lemma civil_ok : forall s d, strptime s = Ok d -> civil d /\ written s d.
Proof. intros s d H. apply read_iff. exact H. Qed.

Lemma dates_case : exists d1 d2, civil d1 /\ written "2012-2-28" d1 /\ civil d2 /\ written "2016-03- 1" d2 /\ days_apart d1 1463 d2 /\
  subtract_dates "2016-03- 1" "2012-2-28" = Ok 1463%Z /\ steps_to_date 1463 "2012-02-28" = Ok d2 /\ show_date d2 = "2016-03-01".
Proof.
  assert (subtract_dates "2016-03- 1" "2012-2-28" = Ok 1463%Z) as E by (vm_compute; reflexivity).
  assert (strptime "2012-2-28" = Ok (Date 2012 2 28)) as E1 by (vm_compute; reflexivity).
  assert (strptime "2016-03- 1" = Ok (Date 2016 3 1)) as E2 by (vm_compute; reflexivity).
  pose proof E as E0. apply subtract_iff in E0. destruct E0 as [d2 [d1 [C2 [W2 [C1 [W1 A]]]]]].
  apply civil_ok in E1, E2. exists d1, d2. repeat (split; [assumption|]).
  assert (d1 = Date 2012 2 28) as -> by (eapply written_once; [exact C1|apply E1|exact W1|apply E1]).
  assert (d2 = Date 2016 3 1) as -> by (eapply written_once; [exact C2|apply E2|exact W2|apply E2]).
  split; vm_compute; reflexivity.
Qed.

Definition period_rows : csv := [["Parameter"; "Value"]; ["StartDate"; "2012-01-01"]; ["Length"; "300"]; ["startdate"; "2012-02-29"]].
Lemma period_case : read_sim_period period_rows = Ok ("2012-02-29", 300%Z).
Proof. vm_compute. reflexivity. Qed.

(** ** Files *)

Definition ex_files : directory := fun f =>
  if String.eqb f "total.csv" then Some [["Date"; "Count"]; ["2012-02-28"; "100"]; ["#"; "no data"]; ["2012-03-01"; ""]; ["2012-03-02"; "300"]; ["end"]]
  else if String.eqb f "a1.csv" then Some [["2012-03-01"; "20"]; ["2012-03-03"; "40"]]
  else if String.eqb f "a2.csv" then Some [["2012-03-01"; "1"; "x"]; ["2012-03-02"; "2"]]
  else None.
Definition ex_layout : csv := [["total"; "total.csv"]; ["#B"; "b.csv"]; ["C"]; ["A"; "a1.csv"; "a2.csv"]].

Lemma table_case : exists ns ts d, columns ex_files "2012-02-29" 10 ex_layout ns ts /\
  new_table ex_files ex_layout "2012-02-29" 10 false = Ok d /\ d = DTable ns ts 0 [] /\ ns = ["total"; "A"] /\
  get_field d "A" 2 true = Ok 4%Z /\ get_field d "total" 1 true = Ok 23%Z.
Proof.
  destruct (new_table ex_files ex_layout "2012-02-29" 10 false) as [d|] eqn:E; [|vm_compute in E; discriminate].
  pose proof E as E'. apply table_iff in E'. destruct E' as [ns [ts [Hc ->]]]. exists ns, ts, (DTable ns ts 0 []).
  split; [exact Hc|]. split; [reflexivity|]. split; [reflexivity|]. vm_compute in E. injection E as <- <-. repeat split; vm_compute; reflexivity.
Qed.

(** ** Sums *)

Definition one : series := [(0, 10); (10, 20)].
Definition two : series := [(0, 1); (5, 2); (10, 3)].

Lemma incr_check : forall (t : series),
  (fix ok l := match l with a :: (b :: _) as r => (Qltb (fst a) (fst b) && ok r)%bool | _ => true end) t = true -> increasing t.
Proof.
  induction t as [|a t IH]; intros H; [intros [|i] j ri rj Hi; discriminate|].
  destruct t as [|b t]; [apply incr_one|]. apply andb_prop in H. destruct H as [H1 H2]. apply Qltb_true in H1. specialize (IH H2).
  intros [|i] [|j] ri rj Hi Hj Hl; try lia.
  - cbn in Hi. injection Hi as <-. destruct j as [|j]; [cbn in Hj; injection Hj as <-; exact H1|].
    pose proof (IH 0%nat (S j) b rj eq_refl Hj ltac:(lia)). lra.
  - apply (IH i j); auto. lia.
Qed.

Lemma add_case : increasing one /\ increasing two /\
  (forall x y, nth_error one 0 = Some x -> nth_error two 0 = Some y -> fst y <= fst x) /\
  (forall y, In y two -> exists x, In x one /\ fst y <= fst x) /\
  add_csv_tables one two = Ok [(0, 1 + 10); (5, 2 + 20); (10, 3 + 20)].
Proof.
  split; [apply incr_check; reflexivity|]. split; [apply incr_check; reflexivity|].
  split; [intros x y H1 H2; injection H1 as <-; injection H2 as <-; cbn; lra|]. split.
  - intros y [<-|[<-|[<-|[]]]]; exists (10, 20); (split; [right; left; reflexivity|cbn; lra]).
  - reflexivity.
Qed.

Lemma sum_refuted : exists t1 t2 t day v v1 v2, increasing t1 /\ increasing t2 /\ add_csv_tables t1 t2 = Ok t /\ In (day, v) t /\
  on_line t1 day v1 /\ on_line t2 day v2 /\ v1 + v2 < v.
Proof.
  destruct add_case as [H1 [H2 [_ [_ E]]]].
  exists one, two, [(0, 1 + 10); (5, 2 + 20); (10, 3 + 20)], 5, (2 + 20), 15, 2. split; [exact H1|]. split; [exact H2|]. split; [exact E|].
  split; [right; left; reflexivity|]. split; [|split; [|reflexivity]].
  - apply (Between one 5 15 0 (0, 10) (10, 20)); try reflexivity; cbn; lra.
  - apply (Between two 5 2 1 (5, 2) (10, 3)); try reflexivity; cbn; lra.
Qed.

Lemma end_refuted : exists t1 t2 t day v v1 v2, increasing t1 /\ increasing t2 /\ add_csv_tables t1 t2 = Ok t /\
  on_line t1 day v1 /\ on_line t2 day v2 /\ interpolate t 10 = Ok v /\ day = inject_Z 10 /\ inject_Z v < v1 + v2.
Proof.
  exists one, [(0, 1)], [(0, 11)], 10, 11%Z, 20, 1. split; [apply incr_check; reflexivity|]. split; [apply incr_one|]. split; [reflexivity|].
  split; [|split; [|repeat split]].
  - apply (After one 10 20 1 (10, 20)); try reflexivity; cbn; lra.
  - apply (After [(0, 1)] 10 1 0 (0, 1)); try reflexivity; cbn; lra.
Qed.

Lemma twice_refuted : exists t1 t2 t, increasing t1 /\ increasing t2 /\ add_csv_tables t1 t2 = Ok t /\ ~ increasing t.
Proof.
  exists [(0, 10)], two, [(0, 1 + 10); (0, 1 + 10); (0, 1 + 10)]. split; [apply incr_one|]. split; [apply incr_check; reflexivity|].
  split; [reflexivity|]. intros H. pose proof (H 0%nat 1%nat _ _ eq_refl eq_refl ltac:(lia)) as K. cbn in K. lra.
Qed.

(** ** Corrections *)

Definition camps : dtable := DTable ["total"; "A"; "B"] [[(0, 100); (30, 400)]; [(0, 40); (10, 80); (20, 60); (30, 90)]; [(0, 1)]] 0 [].

Lemma camps_ok : days_ok camps /\ first_column camps "A" 1 /\ registered_day0 camps "A" 0 /\ NoDup (d_header camps).
Proof.
  split; [|split; [|split]].
  - split; [reflexivity|].
    assert (forall (t : series) l, t = map (fun p => (inject_Z (fst p), snd p)) l -> whole_days t) as W.
    { intros t l -> r Hr. apply in_map_iff in Hr. destruct Hr as [p [<- _]]. exists (fst p). reflexivity. }
    repeat constructor; try (apply incr_check; reflexivity).
    + apply (W _ [(0%Z, 100); (30%Z, 400)]); reflexivity.
    + apply (W _ [(0%Z, 40); (10%Z, 80); (20%Z, 60); (30%Z, 90)]); reflexivity.
    + apply (W _ [(0%Z, 1)]); reflexivity.
  - split; [reflexivity|]. intros [|j] Hj; [discriminate|lia].
  - right. split; reflexivity.
  - repeat (constructor; [cbn; intuition discriminate|]). constructor.
Qed.

Lemma correction_case : exists d' q, corrected "2012-02-29" "A" "2012-03-20" camps d' q /\ q == 3 # 4 /\
  nth_error (d_tables d') 1 = Some [(0, 40 * q); (10, 80 * q); (20, 60); (30, 90)].
Proof.
  destruct (correct_level1_text "2012-02-29" camps "A" "2012-03-20") as [[d' q]|] eqn:E; [|vm_compute in E; discriminate].
  exists d', q. split; [apply corrected_iff; [apply camps_ok|exact E]|].
  vm_compute in E. injection E as <- <-. split; vm_compute; reflexivity.
Qed.

Lemma corrections_case : exists d', corrections "2012-02-29" [["A"; "2012-03-20"]; []; ["total"; "2011-12-31"]] camps d' /\
  d_tables d' <> d_tables camps.
Proof.
  destruct (read_corrections "2012-02-29" (Some [["A"; "2012-03-20"]; []; ["total"; "2011-12-31"]]) camps) as [d'|] eqn:E; [|vm_compute in E; discriminate].
  exists d'. split; [apply corrections_iff; [apply camps_ok|exact E]|]. vm_compute in E. injection E as <-. vm_compute. discriminate.
Qed.

Lemma no_row_refuted : exists d name date, days_ok d /\ In name (d_header d) /\
  correct_level1_text "2012-02-29" d name date = Err UnboundLocalError.
Proof. exists camps, "A", "2012-03-21". split; [apply camps_ok|]. split; [right; left; reflexivity|]. vm_compute. reflexivity. Qed.

(** ** Largest value *)

Lemma max_case : get_max_from_data camps "A" 20 = Ok 80%Z /\ is_interpolated camps "A" 20 = Ok false /\ is_interpolated camps "A" 21 = Ok true /\
  nth_error (d_tables camps) 1 = Some [(0, 40); (10, 80); (20, 60); (30, 90)] /\ counted [(0, 40); (10, 80); (20, 60); (30, 90)] 20 2.
Proof.
  repeat (split; [vm_compute; reflexivity|]). intros [|[|j]] r Hj Hr; try lia; injection Hr as <-; reflexivity.
Qed.

Lemma max_refuted : exists d name days i t m, days_ok d /\ first_column d name i /\ nth_error (d_tables d) i = Some t /\
  get_max_from_data d name days = Ok m /\ forall r, In r t -> fst r <= inject_Z days -> snd r < inject_Z m.
Proof.
  exists camps, "A", 25%Z, 1%nat, [(0, 40); (10, 80); (20, 60); (30, 90)], 90%Z. split; [apply camps_ok|]. split; [apply camps_ok|].
  split; [reflexivity|]. split; [vm_compute; reflexivity|]. intros r Hr H. cbn in Hr.
  destruct Hr as [<-|[<-|[<-|[<-|[]]]]]; try (vm_compute; reflexivity). exfalso. apply H. vm_compute. reflexivity.
Qed.
