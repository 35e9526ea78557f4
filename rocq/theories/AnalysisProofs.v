(** * AnalysisProofs: the error measures *)

From Coq Require Import Lia Lqa Qabs Qround.
From Verif Require Import Base Lemmas Analysis Coupling CouplingMean RunScript SpecRun.
Local Open Scope Q_scope.
Local Open Scope list_scope.

Lemma re_same x : Qround_even x = round_even x.
Proof.
  unfold Qround_even, round_even. change (Z.div (Qnum x) (Zpos (Qden x))) with (Qnum x / QDen x)%Z.
  assert (F : Qfloor x = (Qnum x / QDen x)%Z) by (destruct x; reflexivity). rewrite F. set (f := (Qnum x / QDen x)%Z). cbv zeta.
  destruct (Qcompare (x - inject_Z f) (1 # 2)) eqn:C.
  - apply Qeq_alt in C. assert (Qltb (x - inject_Z f) (1 # 2) = false) as -> by (apply Qltb_false; lra).
    assert (Qltb (1 # 2) (x - inject_Z f) = false) as -> by (apply Qltb_false; lra). reflexivity.
  - apply Qlt_alt in C. assert (Qltb (x - inject_Z f) (1 # 2) = true) as -> by (now apply Qltb_true). reflexivity.
  - apply Qgt_alt in C. assert (Qltb (x - inject_Z f) (1 # 2) = false) as -> by (apply Qltb_false; lra).
    assert (Qltb (1 # 2) (x - inject_Z f) = true) as -> by (now apply Qltb_true). reflexivity.
Qed.

Lemma round4_spec x : rounded4 x (round4 x).
Proof.
  unfold round4. split; [|now exists (Qround_even (x * 10000))].
  pose proof (round_even_spec (x * 10000)) as H. rewrite <- re_same in H. apply Qabs_Qle_condition in H as [H1 H2].
  apply Qabs_Qle_condition. assert (E : inject_Z (Qround_even (x * 10000)) / 10000 == inject_Z (Qround_even (x * 10000)) * (1 # 10000)) by (unfold Qdiv; reflexivity).
  split; lra.
Qed.
Lemma round4_comp x y : x == y -> round4 x = round4 y.
Proof. intro E. unfold round4. rewrite !re_same. rewrite (round_even_comp (x * 10000) (y * 10000)); [reflexivity|now rewrite E]. Qed.
Lemma round4_exact n : round4 (inject_Z n / 10000) == inject_Z n / 10000.
Proof.
  unfold round4. rewrite re_same, (round_even_comp _ (inject_Z n)), round_even_int; [reflexivity|]. field.
Qed.
Lemma round4_int z : round4 (inject_Z z) == inject_Z z.
Proof.
  rewrite (round4_comp _ (inject_Z (z * 10000) / 10000)), round4_exact; rewrite inject_Z_mult; change (inject_Z 10000) with 10000; field.
Qed.

Lemma rounded_rel val correct : 1 # 100000 <= correct -> rounded4 (Qabs ((val - correct) / correct)) (rel_error val correct).
Proof.
  intro P. unfold rel_error. assert (Qltb correct (1 # 100000) = false) as -> by (now apply Qltb_false).
  rewrite (round4_comp _ (Qabs ((val - correct) / correct))); [apply round4_spec|].
  apply Qabs_wd. field. lra.
Qed.

Lemma rel_small val correct : correct < 1 # 100000 -> rel_error val correct = 0.
Proof. intro P. unfold rel_error. apply Qltb_true in P. now rewrite P. Qed.

Lemma round4_zero x : round4 x == 0 <-> Qabs x <= 1 # 20000.
Proof.
  split.
  - intro E. destruct (round4_spec x) as [A _]. assert (B : x - round4 x == x) by (rewrite E; ring). now rewrite B in A.
  - intro A. apply Qabs_Qle_condition in A as [A1 A2]. unfold round4. rewrite re_same.
    assert (round_even (x * 10000) = 0%Z) as ->.
    { destruct (Qlt_le_dec (Qabs (inject_Z 0 - x * 10000)) (1 # 2)) as [L|L]; [now apply round_even_nearest|].
      change (inject_Z 0) with 0 in L. destruct (Qlt_le_dec x 0) as [N|N].
      - assert (x * 10000 == - (1 # 2)) as E.
        { rewrite Qabs_pos in L by lra. lra. }
        rewrite (round_even_comp _ _ E). reflexivity.
      - assert (x * 10000 == 1 # 2) as E.
        { rewrite Qabs_neg in L by lra. lra. }
        rewrite (round_even_comp _ _ E). reflexivity. }
    reflexivity.
Qed.

Lemma rel_zero val correct : 1 # 100000 <= correct -> (rel_error val correct == 0 <-> Qabs (val - correct) <= correct * (1 # 20000)).
Proof.
  intro P. unfold rel_error. assert (Qltb correct (1 # 100000) = false) as -> by (now apply Qltb_false).
  rewrite round4_zero. rewrite Qabs_pos by apply Qabs_nonneg.
  assert (E : val / correct - 1 == (val - correct) * / correct) by (field; lra). rewrite E, Qabs_Qmult.
  assert (0 < / correct) as I by (apply Qinv_lt_0_compat; lra). rewrite (Qabs_pos (/ correct)) by lra.
  assert (X : Qabs (val - correct) * / correct * correct == Qabs (val - correct)) by (field; lra).
  split; intro H.
  - assert (Y : Qabs (val - correct) * / correct * correct <= (1 # 20000) * correct) by (apply Qmult_le_compat_r; [exact H|lra]). rewrite X in Y. lra.
  - apply Qmult_lt_0_le_reg_r with correct; [lra|]. rewrite X. lra.
Qed.

Lemma abs_rounded val correct : rounded4 (Qabs (val - correct)) (abs_error val correct).
Proof. apply round4_spec. Qed.
Lemma abs_int v c : abs_error (inject_Z v) (inject_Z c) == inject_Z (Z.abs (v - c)).
Proof.
  unfold abs_error. rewrite (round4_comp _ (inject_Z (Z.abs (v - c)))), round4_int; [reflexivity|].
  unfold Qminus. rewrite <- inject_Z_opp, <- inject_Z_plus. change (v + - c)%Z with (v - c)%Z.
  unfold inject_Z, Qabs. reflexivity.
Qed.

(** ** Arrays *)

(** Distance of two arrays of numbers, number by number *)
Lemma zip_length a : forall b, List.length a = List.length b -> List.length (zip_sub a b) = List.length a.
Proof. induction a as [|x a IH]; intros [|y b] H; try discriminate; [reflexivity|]. cbn. injection H as H. now rewrite IH. Qed.
Lemma zip_nth a : forall b i x y, nth_error a i = Some x -> nth_error b i = Some y -> nth_error (zip_sub a b) i = Some (x - y).
Proof.
  induction a as [|u a IH]; intros [|v b] [|i] x y Hx Hy; try discriminate; cbn in *.
  - now injection Hx as ->; injection Hy as ->.
  - now apply IH.
Qed.
Lemma sub_same a b : List.length a = List.length b -> np_sub a b = Ok (zip_sub a b).
Proof. intro H. unfold np_sub. rewrite H, Nat.eqb_refl. reflexivity. Qed.

Lemma diffs_ok f c : List.length f = List.length c -> exists ds, abs_diffs f c = Ok ds /\ List.length ds = List.length f /\
  forall i x y, nth_error f i = Some x -> nth_error c i = Some y -> exists d, nth_error ds i = Some d /\ rounded4 (Qabs (x - y)) d.
Proof.
  intro H. exists (map (fun x => round4 (Qabs x)) (zip_sub f c)). unfold abs_diffs. rewrite sub_same by exact H. cbn [bind].
  split; [reflexivity|]. split; [rewrite map_length; now apply zip_length|].
  intros i x y Hx Hy. exists (round4 (Qabs (x - y))). split; [|apply round4_spec].
  rewrite nth_error_map, (zip_nth _ _ _ _ _ Hx Hy). reflexivity.
Qed.
Lemma diffs_fail f c : (1 < List.length f)%nat -> (1 < List.length c)%nat -> List.length f <> List.length c -> abs_diffs f c = Err ValueError.
Proof.
  intros F C N. unfold abs_diffs, np_sub. apply Nat.eqb_neq in N. rewrite N.
  destruct f as [|x [|x' f]]; cbn in F; try lia. destruct c as [|y [|y' c]]; cbn in C; try lia. reflexivity.
Qed.

Lemma sum_gap a : forall b, List.length a = List.length b -> sumQ (map Qabs (zip_sub a b)) == sum_abs a b.
Proof.
  induction a as [|x a IH]; intros [|y b] H; try discriminate; [reflexivity|]. injection H as H. cbn [zip_sub map sumQ sum_abs]. now rewrite IH.
Qed.
Lemma gap_nonneg a : forall b, 0 <= sum_abs a b.
Proof.
  induction a as [|x a IH]; intros [|y b]; cbn [sum_abs]; try lra. specialize (IH b). pose proof (Qabs_nonneg (x - y)). lra.
Qed.
Lemma gap_zero a : forall b, List.length a = List.length b ->
  (sum_abs a b == 0 <-> forall i x y, nth_error a i = Some x -> nth_error b i = Some y -> x == y).
Proof.
  induction a as [|x a IH]; intros [|y b] H; try discriminate; cbn [sum_abs].
  - split; [|reflexivity]. intros _ [|i]; discriminate.
  - injection H as H. specialize (IH b H). pose proof (Qabs_nonneg (x - y)) as P. pose proof (gap_nonneg a b) as P'. split.
    + intro E. assert (A : Qabs (x - y) == 0) by lra. assert (B : sum_abs a b == 0) by lra. rewrite IH in B.
      intros [|i] x' y' Hx Hy; cbn in Hx, Hy; [|eauto]. injection Hx as <-. injection Hy as <-.
      assert (Qabs (x - y) <= 0) as C by lra. apply Qabs_Qle_condition in C as [C1 C2]. lra.
    + intro E. assert (x == y) as A by (apply (E 0%nat x y); reflexivity). assert (B : sum_abs a b == 0) by (apply IH; intros i; apply (E (Datatypes.S i))).
      rewrite B. assert (x - y == 0) as -> by lra. reflexivity.
Qed.
Lemma gap_sym a : forall b, sum_abs a b == sum_abs b a.
Proof. induction a as [|x a IH]; intros [|y b]; cbn [sum_abs]; try reflexivity. rewrite IH, Qabs_Qminus. reflexivity. Qed.

Lemma len_pos {A} (l : list A) : l <> [] -> 0 < inject_Z (Z.of_nat (List.length l)).
Proof. destruct l; [easy|]. intros _. change 0 with (inject_Z 0). rewrite <- Zlt_Qlt. cbn [List.length]. lia. Qed.
Lemma fdiv_ok x y q : fdiv x y = Ok q <-> ~ y == 0 /\ q = x / y.
Proof.
  unfold fdiv. destruct (Qeqb y 0) eqn:E.
  - apply Qeqb_true in E. split; [discriminate|]. intros [N _]. contradiction.
  - apply Qeqb_false in E. split; [|now intros [_ ->]]. intro H. injection H as <-. auto.
Qed.
Lemma rounded4_comp x x' y : x == x' -> rounded4 x y -> rounded4 x' y.
Proof. intros E [A B]. split; [now rewrite <- E|exact B]. Qed.

Lemma mean_ok f c : List.length f = List.length c -> f <> [] -> exists m, mean_abs_diffs f c = Ok m /\
  rounded4 (sum_abs f c / inject_Z (Z.of_nat (List.length f))) m.
Proof.
  intros H N. pose proof (len_pos f N) as P. unfold mean_abs_diffs. rewrite sub_same by exact H. cbn [bind]. unfold np_mean.
  rewrite map_length, zip_length by exact H.
  destruct (fdiv _ _) as [m|] eqn:E; cbn [bind].
  - apply fdiv_ok in E as [_ ->]. eexists. split; [reflexivity|]. eapply rounded4_comp; [|apply round4_spec]. now rewrite sum_gap.
  - exfalso. unfold fdiv in E. destruct (Qeqb _ _) eqn:Q in E; [|discriminate]. unfold Qeqb in Q. apply Qeq_bool_iff in Q. lra.
Qed.

Lemma slice_nat {A} (l : list A) n : slice_from l (Z.of_nat n + 1) = skipn (n + 1) l.
Proof. unfold slice_from. assert ((Z.of_nat n + 1 <? 0)%Z = false) as -> by (apply Z.ltb_ge; lia). f_equal. lia. Qed.

Lemma mase_iff forecast actual naive start r : List.length forecast = List.length actual -> List.length naive = List.length actual ->
  calculate_mase forecast actual naive (Z.of_nat start) = Ok r ->
  let late_actual := skipn (start + 1) actual in let late_naive := skipn (start + 1) naive in
  late_actual <> [] /\ (exists i x y, nth_error late_actual i = Some x /\ nth_error late_naive i = Some y /\ ~ x == y) /\
  rounded4 ((sum_abs forecast actual / inject_Z (Z.of_nat (List.length actual))) /
            (sum_abs late_naive late_actual / inject_Z (Z.of_nat (List.length late_actual)))) r.
Proof.
  intros F N H la ln. unfold calculate_mase in H. rewrite !slice_nat in H. fold la ln in H.
  assert (L : List.length la = List.length ln) by (unfold la, ln; rewrite !skipn_length; lia).
  rewrite sub_same in H by exact L. cbn [bind] in H.
  destruct (fdiv _ _) as [mn|] eqn:E1 in H; [|discriminate]. cbn [bind] in H. apply fdiv_ok in E1 as [A1 ->].
  rewrite sub_same in H by (symmetry; exact F). cbn [bind] in H.
  destruct (fdiv _ _) as [mf|] eqn:E2 in H; [|discriminate]. cbn [bind] in H. apply fdiv_ok in E2 as [A2 ->].
  destruct (fdiv _ _) as [q|] eqn:E3 in H; [|discriminate]. cbn [bind] in H. apply fdiv_ok in E3 as [A3 ->]. injection H as <-.
  assert (NE : la <> []) by (intro X; rewrite X in A1; now apply A1).
  split; [exact NE|]. rewrite sum_gap in A3 by exact L. split.
  - assert (Z0 : ~ sum_abs la ln == 0).
    { intro X. apply A3. rewrite X. unfold Qdiv. ring. }
    clear - L Z0. assert (D : forall a b : list Q, List.length a = List.length b -> ~ sum_abs a b == 0 ->
       exists i x y, nth_error a i = Some x /\ nth_error b i = Some y /\ ~ x == y).
    { clear. induction a as [|x a IH]; intros [|y b] L Z0; try discriminate; [exfalso; now apply Z0|]. injection L as L.
      destruct (Qeq_dec x y) as [E|E]; [|exists 0%nat, x, y; auto].
      destruct (IH b L) as (i & u & v & U & V & D).
      { intro X. apply Z0. cbn [sum_abs]. rewrite X. assert (x - y == 0) as -> by lra. reflexivity. }
      exists (Datatypes.S i), u, v. auto. }
    now apply D.
  - eapply rounded4_comp; [|apply round4_spec]. rewrite !sum_gap by congruence. rewrite (gap_sym actual), (gap_sym la). reflexivity.
Qed.
Lemma mase_defined forecast actual naive start : List.length forecast = List.length actual -> List.length naive = List.length actual ->
  (exists i x y, nth_error (skipn (start + 1) actual) i = Some x /\ nth_error (skipn (start + 1) naive) i = Some y /\ ~ x == y) ->
  exists r, calculate_mase forecast actual naive (Z.of_nat start) = Ok r.
Proof.
  intros F N D. unfold calculate_mase. rewrite !slice_nat. set (la := skipn (start + 1) actual) in *. set (ln := skipn (start + 1) naive) in *.
  assert (L : List.length la = List.length ln) by (unfold la, ln; rewrite !skipn_length; lia).
  assert (NE : la <> []) by (intro X; destruct D as (i & x & y & A & _); rewrite X in A; destruct i; discriminate).
  assert (NA : actual <> []) by (intro X; apply NE; unfold la; rewrite X; apply skipn_nil).
  pose proof (len_pos _ NE) as P1. pose proof (len_pos _ NA) as P2.
  assert (G : 0 < sum_abs la ln).
  { pose proof (gap_nonneg la ln). apply Qle_lteq in H as [H|H]; [exact H|]. symmetry in H. rewrite (gap_zero la ln L) in H.
    destruct D as (i & x & y & A & B & C). exfalso. apply C. eapply H; eauto. }
  assert (X : forall a b, ~ b == 0 -> fdiv a b = Ok (a / b)) by (intros; now apply fdiv_ok).
  rewrite sub_same by exact L. cbn [bind]. rewrite X by (intro Y; rewrite Y in P1; apply (Qlt_irrefl 0 P1)). cbn [bind].
  rewrite sub_same by (symmetry; exact F). cbn [bind]. rewrite X by (intro Y; rewrite Y in P2; apply (Qlt_irrefl 0 P2)). cbn [bind].
  rewrite X; [cbn [bind]; eauto|]. rewrite sum_gap by exact L. intro Y.
  assert (Z : 0 < sum_abs la ln / inject_Z (Z.of_nat (List.length la))).
  { unfold Qdiv. apply Qmult_lt_0_compat; [exact G|]. now apply Qinv_lt_0_compat. }
  lra.
Qed.

Lemma mase_naive_false : ~ (forall actual naive start r, List.length naive = List.length actual ->
  calculate_mase naive actual naive (Z.of_nat start) = Ok r -> rounded4 1 r).
Proof.
  intro H. specialize (H [0; 0] [2; 1] 0%nat (15000 # 10000) eq_refl eq_refl). destruct H as [H _]. apply Qabs_Qle_condition in H. lra.
Qed.

Lemma rel_spec val correct :
  (1 # 100000 <= correct -> rounded4 (Qabs ((val - correct) / correct)) (rel_error val correct)) /\
  (correct < 1 # 100000 -> rel_error val correct = 0).
Proof. split; [apply rounded_rel|apply rel_small]. Qed.
