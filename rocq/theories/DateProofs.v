(** * DateProofs: the dates of the code are those of the civil calendar *)

From Coq Require Import ZArith Lia.
From Verif Require Import Base Lemmas Dates SpecDates.
Local Open Scope Z_scope.

(** ** Months and years *)

Lemma leap_iff : forall y, leap y = true <-> leap_year y.
Proof.
  intros y. unfold leap, leap_year. rewrite andb_true_iff, orb_true_iff, negb_true_iff, Z.eqb_neq, !Z.eqb_eq.
  rewrite !Z.mod_divide by lia. reflexivity.
Qed.

Lemma months_iff : forall y m n, month_days y m n <-> (1 <= m <= 12 /\ n = days_in_month y m).
Proof.
  intros y m n. split.
  - intros [HL|HL|m' Hm|m' Hm].
    + split; [lia|]. unfold days_in_month. cbn. apply leap_iff in HL. rewrite HL. reflexivity.
    + split; [lia|]. unfold days_in_month. cbn. destruct (leap y) eqn:E; [|reflexivity]. apply leap_iff in E. contradiction.
    + cbn in Hm. repeat (destruct Hm as [<-|Hm]; [split; [lia|reflexivity]|]). destruct Hm.
    + cbn in Hm. repeat (destruct Hm as [<-|Hm]; [split; [lia|reflexivity]|]). destruct Hm.
  - intros [Hm ->]. assert (m = 1 \/ m = 2 \/ m = 3 \/ m = 4 \/ m = 5 \/ m = 6 \/ m = 7 \/ m = 8 \/ m = 9 \/ m = 10 \/ m = 11 \/ m = 12)
      as C by lia.
    repeat match type of C with _ \/ _ => destruct C as [->|C] end; try subst m; unfold days_in_month; cbn -[leap];
      try (apply Long_month; cbn; tauto); try (apply Short_month; cbn; tauto).
    destruct (leap y) eqn:E.
    + apply February_long, leap_iff, E.
    + apply February_short. intros HL. apply leap_iff in HL. congruence.
Qed.

Definition real (d : date) : bool :=
  ((1 <=? dt_month d) && (dt_month d <=? 12) && (1 <=? dt_day d) && (dt_day d <=? days_in_month (dt_year d) (dt_month d)))%bool.

Lemma real_iff : forall d, real d = true <-> (1 <= dt_month d <= 12 /\ 1 <= dt_day d <= days_in_month (dt_year d) (dt_month d)).
Proof. intros d. unfold real. rewrite !andb_true_iff, !Z.leb_le. tauto. Qed.

Lemma civil_iff : forall d, civil d <-> (1 <= dt_year d <= 9999 /\ real d = true).
Proof.
  intros d. unfold civil. rewrite real_iff. split.
  - intros [Hy [n [Hn Hd]]]. apply months_iff in Hn. destruct Hn as [Hm ->]. tauto.
  - intros [Hy [Hm Hd]]. split; [exact Hy|]. exists (days_in_month (dt_year d) (dt_month d)). split; [apply months_iff; auto|exact Hd].
Qed.

Lemma make_iff : forall y m d r, make_date y m d = Ok r <-> (r = Date y m d /\ civil r).
Proof.
  intros y m d r. unfold make_date.
  set (b := (_ && _)%bool). assert (b = true <-> civil (Date y m d)) as Hb.
  { rewrite civil_iff, real_iff. unfold b. rewrite !andb_true_iff, !Z.leb_le. cbn. tauto. }
  destruct b; split.
  - intros H. injection H as <-. split; [reflexivity|]. apply Hb. reflexivity.
  - intros [-> _]. reflexivity.
  - discriminate.
  - intros [-> H]. apply Hb in H. discriminate.
Qed.

(** ** Day numbers *)

Lemma step_year : forall y, before_year (y + 1) = before_year y + 365 + if leap y then 1 else 0.
Proof.
  intros y. unfold before_year, leap. replace (y + 1 - 1) with y by lia.
  destruct (y mod 4 =? 0) eqn:E4; cbn [andb]; [apply Z.eqb_eq in E4|apply Z.eqb_neq in E4];
  destruct (y mod 100 =? 0) eqn:E1; cbn [negb orb]; [apply Z.eqb_eq in E1|apply Z.eqb_neq in E1|apply Z.eqb_eq in E1|apply Z.eqb_neq in E1];
  destruct (y mod 400 =? 0) eqn:E5; [apply Z.eqb_eq in E5|apply Z.eqb_neq in E5|apply Z.eqb_eq in E5|apply Z.eqb_neq in E5
    |apply Z.eqb_eq in E5|apply Z.eqb_neq in E5|apply Z.eqb_eq in E5|apply Z.eqb_neq in E5];
  Z.div_mod_to_equations; lia.
Qed.

Lemma month_cases : forall m, 1 <= m <= 12 -> m = 1 \/ m = 2 \/ m = 3 \/ m = 4 \/ m = 5 \/ m = 6 \/ m = 7 \/ m = 8 \/ m = 9 \/ m = 10 \/ m = 11 \/ m = 12.
Proof. intros; lia. Qed.

Ltac months H := apply month_cases in H;
  repeat match type of H with _ \/ _ => destruct H as [->|H] end; [..|subst].

Lemma step_month : forall y m, 1 <= m < 12 -> before_month (leap y) (m + 1) = before_month (leap y) m + days_in_month y m.
Proof.
  intros y m H. assert (1 <= m <= 12) as H' by lia. apply month_cases in H'. unfold days_in_month.
  repeat match type of H' with _ \/ _ => destruct H' as [->|H'] end; try subst m; try lia; destruct (leap y); reflexivity.
Qed.

Lemma last_month : forall y, before_month (leap y) 12 + 31 = 365 + if leap y then 1 else 0.
Proof. intros y. destruct (leap y); reflexivity. Qed.

Lemma before_mono : forall n y, before_year y <= before_year (y + Z.of_nat n).
Proof.
  induction n as [|n IH]; intros y; [cbn; rewrite Z.add_0_r; lia|].
  replace (y + Z.of_nat (S n)) with ((y + Z.of_nat n) + 1) by lia. rewrite step_year.
  specialize (IH y). destruct (leap _); lia.
Qed.

Lemma month_le : forall lp m, 1 <= m <= 12 -> 0 <= before_month lp m <= 335.
Proof.
  intros lp m H. apply month_cases in H. repeat match type of H with _ \/ _ => destruct H as [->|H] end; try subst m; destruct lp; split; vm_compute; discriminate.
Qed.

Lemma month_end : forall y m, 1 <= m <= 12 -> before_month (leap y) m + days_in_month y m <= 365 + if leap y then 1 else 0.
Proof.
  intros y m H. apply month_cases in H. unfold days_in_month.
  repeat match type of H with _ \/ _ => destruct H as [->|H] end; try subst m; destruct (leap y); vm_compute; discriminate.
Qed.

Lemma in_year : forall d, real d = true -> before_year (dt_year d) < ordinal d <= before_year (dt_year d + 1).
Proof.
  intros [y m d] H. apply real_iff in H. cbn in H. destruct H as [Hm Hd]. unfold ordinal. cbn [dt_year dt_month dt_day].
  rewrite step_year. pose proof (month_le (leap y) m Hm). pose proof (month_end y m Hm). lia.
Qed.

Lemma month_order : forall y m m', 1 <= m -> m < m' <= 12 -> before_month (leap y) m + days_in_month y m <= before_month (leap y) m'.
Proof.
  intros y m m' H1 H2. assert (1 <= m <= 12) as Hm by lia. assert (1 <= m' <= 12) as Hm' by lia.
  apply month_cases in Hm. apply month_cases in Hm'. unfold days_in_month.
  repeat match type of Hm with _ \/ _ => destruct Hm as [->|Hm] end; try subst m;
  repeat match type of Hm' with _ \/ _ => destruct Hm' as [->|Hm'] end; try subst m'; try lia; destruct (leap y); vm_compute; discriminate.
Qed.

Lemma ordinal_inj : forall a b, real a = true -> real b = true -> ordinal a = ordinal b -> a = b.
Proof.
  intros a b Ha Hb H. pose proof (in_year a Ha) as Ia. pose proof (in_year b Hb) as Ib.
  assert (forall y z, y < z -> before_year (y + 1) <= before_year z) as Hmono.
  { intros y z Hyz. pose proof (before_mono (Z.to_nat (z - y - 1)) (y + 1)) as Hb'. replace (y + 1 + Z.of_nat (Z.to_nat (z - y - 1))) with z in Hb' by lia. exact Hb'. }
  assert (dt_year a = dt_year b) as Hy.
  { destruct (Z.lt_trichotomy (dt_year a) (dt_year b)) as [L|[E|L]]; [|exact E|]; apply Hmono in L; lia. }
  apply real_iff in Ha. apply real_iff in Hb. destruct a as [y m d], b as [y' m' d']. cbn in *. subst y'.
  unfold ordinal in H. cbn in H.
  assert (m = m') as Hm.
  { destruct (Z.lt_trichotomy m m') as [L|[E|L]]; [|exact E|].
    - pose proof (month_order y m m'). lia.
    - pose proof (month_order y m' m). lia. }
  subst m'. f_equal. lia.
Qed.

(** ** The day after *)

Lemma next_real : forall a b, next_day a b -> real a = true -> real b = true /\ ordinal b = ordinal a + 1.
Proof.
  intros a b [y m d n Hn Hd|y m d Hn Hm|y] Ha.
  - apply months_iff in Hn. destruct Hn as [Hm ->]. apply real_iff in Ha. cbn in Ha. split.
    + apply real_iff. cbn. lia.
    + unfold ordinal. cbn. lia.
  - apply months_iff in Hn. destruct Hn as [Hm' Hd]. split.
    + apply real_iff. cbn -[days_in_month]. assert (1 <= m + 1 <= 12) as H by lia. split; [exact H|].
      apply month_cases in H. unfold days_in_month.
      repeat match type of H with _ \/ _ => destruct H as [H|H] end; rewrite H; destruct (leap y); split; vm_compute; discriminate.
    + unfold ordinal. cbn [dt_year dt_month dt_day]. rewrite step_month by lia. lia.
  - split; [apply real_iff; cbn; lia|]. unfold ordinal. cbn [dt_year dt_month dt_day]. rewrite step_year.
    pose proof (last_month y). assert (before_month (leap (y + 1)) 1 = 0) by (destruct (leap (y + 1)); reflexivity). lia.
Qed.

Lemma next_exists : forall a, real a = true -> exists b, next_day a b.
Proof.
  intros [y m d] H. apply real_iff in H. cbn in H. destruct H as [Hm Hd].
  destruct (Z.eq_dec d (days_in_month y m)) as [E|E].
  - destruct (Z.eq_dec m 12) as [Em|Em].
    + subst m. exists (Date (y + 1) 1 1). cbn in E. subst d. apply Next_year.
    + exists (Date y (m + 1) 1). apply Next_month; [apply months_iff; split; [lia|exact E]|lia].
  - exists (Date y m (d + 1)). apply (Same_month y m d (days_in_month y m)); [apply months_iff; auto|lia].
Qed.

Lemma later_real : forall n a b, days_later n a b -> real a = true -> real b = true /\ ordinal b = ordinal a + Z.of_nat n.
Proof.
  induction 1 as [a|n a b c H IH Hn]; intros Ha; [split; [exact Ha|lia]|].
  destruct (IH Ha) as [Hb Ho]. destruct (next_real _ _ Hn Hb) as [Hc Hoc]. split; [exact Hc|lia].
Qed.

Lemma later_exists : forall n a, real a = true -> exists b, days_later n a b.
Proof.
  induction n as [|n IH]; intros a Ha; [exists a; constructor|].
  destruct (IH a Ha) as [b Hb]. destruct (later_real _ _ _ Hb Ha) as [Hr _]. destruct (next_exists b Hr) as [c Hc].
  exists c. econstructor; eauto.
Qed.

Lemma apart_iff : forall a b n, real a = true -> real b = true -> (days_apart a n b <-> n = ordinal b - ordinal a).
Proof.
  intros a b n Ha Hb. unfold days_apart. split.
  - intros [[Hn H]|[Hn H]].
    + destruct (later_real _ _ _ H Ha) as [_ Ho]. lia.
    + destruct (later_real _ _ _ H Hb) as [_ Ho]. lia.
  - intros ->. destruct (Z.le_ge_cases (ordinal a) (ordinal b)) as [L|L].
    + left. split; [lia|]. destruct (later_exists (Z.to_nat (ordinal b - ordinal a)) a Ha) as [c Hc].
      destruct (later_real _ _ _ Hc Ha) as [Hr Ho]. assert (c = b) as E by (apply ordinal_inj; auto; lia). rewrite E in Hc. exact Hc.
    + right. split; [lia|]. destruct (later_exists (Z.to_nat (- (ordinal b - ordinal a))) b Hb) as [c Hc].
      destruct (later_real _ _ _ Hc Hb) as [Hr Ho]. assert (c = a) as E by (apply ordinal_inj; auto; lia). rewrite E in Hc. exact Hc.
Qed.

(** ** From day numbers to dates *)

Definition day_ok (lp : bool) (n : Z) : bool :=
  let '(m, d) := day_of_year lp n in
  let len := if m =? 2 then if lp then 29 else 28
    else if ((m =? 4) || (m =? 6) || (m =? 9) || (m =? 11))%bool then 30 else 31 in
  ((1 <=? m) && (m <=? 12) && (1 <=? d) && (d <=? len) && (before_month lp m + d =? n + 1))%bool.

Lemma all_days : forallb (fun k => (day_ok false (Z.of_nat k) && day_ok true (Z.of_nat k))%bool) (seq 0 365) = true.
Proof. vm_compute. reflexivity. Qed.

Lemma day_found : forall y n, 0 <= n < 365 -> let '(m, d) := day_of_year (leap y) n in
  real (Date y m d) = true /\ before_month (leap y) m + d = n + 1.
Proof.
  intros y n Hn. pose proof all_days as H. rewrite forallb_forall in H.
  specialize (H (Z.to_nat n)). rewrite in_seq in H. specialize (H ltac:(lia)). rewrite Z2Nat.id in H by lia.
  apply andb_true_iff in H. destruct H as [H0 H1].
  assert (day_ok (leap y) n = true) as H by (destruct (leap y); assumption). clear H0 H1.
  unfold day_ok in H. destruct (day_of_year (leap y) n) as [m d]. rewrite !andb_true_iff, !Z.leb_le, Z.eqb_eq in H.
  split; [|tauto]. apply real_iff. cbn -[days_in_month]. unfold days_in_month. tauto.
Qed.

Lemma back : forall n, real (from_ordinal n) = true /\ ordinal (from_ordinal n) = n.
Proof.
  intros n. unfold from_ordinal. cbv zeta.
  set (n0 := n - 1). set (a := n0 / 146097). set (ra := n0 mod 146097).
  set (b := ra / 36524). set (rb := ra mod 36524). set (c := rb / 1461). set (rc := rb mod 1461).
  set (d := rc / 365). set (r := rc mod 365).
  assert (n0 = 146097 * a + ra /\ 0 <= ra < 146097) as [Ea Ra] by (unfold a, ra; Z.div_mod_to_equations; lia).
  assert (ra = 36524 * b + rb /\ 0 <= rb < 36524) as [Eb Rb] by (unfold b, rb; Z.div_mod_to_equations; lia).
  assert (rb = 1461 * c + rc /\ 0 <= rc < 1461) as [Ec Rc] by (unfold c, rc; Z.div_mod_to_equations; lia).
  assert (rc = 365 * d + r /\ 0 <= r < 365) as [Ed Rd] by (unfold d, r; Z.div_mod_to_equations; lia).
  assert (n = n0 + 1) as En by (unfold n0; lia).
  clearbody a ra b rb c rc d r n0.
  assert (0 <= b <= 4 /\ 0 <= c <= 24 /\ 0 <= d <= 4) as [Hb [Hc Hd]] by lia.
  set (y := a * 400 + b * 100 + c * 4 + d + 1).
  destruct ((d =? 4) || (b =? 4))%bool eqn:E4.
  - (* the last day of a leap year *)
    assert (leap (y - 1) = true /\ before_year (y - 1) + 366 = n) as [HL HB].
    { apply orb_true_iff in E4. rewrite !Z.eqb_eq in E4. unfold leap, before_year, y. destruct E4 as [E4|E4].
      - subst d. assert (r = 0) by lia. assert (~ (c = 24 /\ b < 3) /\ b < 4) as Hcb by lia.
        split.
        + replace ((a * 400 + b * 100 + c * 4 + 4 + 1 - 1) mod 4) with 0 by (Z.div_mod_to_equations; lia). cbn [Z.eqb andb].
          destruct (Z.eqb_spec ((a * 400 + b * 100 + c * 4 + 4 + 1 - 1) mod 100) 0) as [E|E]; cbn [negb orb]; [|reflexivity].
          apply Z.eqb_eq. assert (c = 24) by (Z.div_mod_to_equations; lia). assert (b = 3) by lia. subst. Z.div_mod_to_equations; lia.
        + Z.div_mod_to_equations; lia.
      - subst b. assert (rb = 0) by lia. assert (c = 0 /\ d = 0 /\ r = 0) as [-> [-> ->]] by lia. split.
        + replace (a * 400 + 4 * 100 + 0 * 4 + 0 + 1 - 1) with ((a + 1) * 400) by lia.
          replace ((a + 1) * 400 mod 400) with 0 by (symmetry; apply Z.mod_mul; lia).
          replace ((a + 1) * 400 mod 4) with 0 by (Z.div_mod_to_equations; lia). rewrite Z.eqb_refl. cbn. apply orb_true_r.
        + Z.div_mod_to_equations; lia. }
    split; [apply real_iff; cbn; lia|]. unfold ordinal. cbn [dt_year dt_month dt_day].
    pose proof (last_month (y - 1)) as Hl. rewrite HL in *. lia.
  - apply orb_false_iff in E4. rewrite !Z.eqb_neq in E4. pose proof (day_found y r ltac:(lia)) as Hf.
    destruct (day_of_year (leap y) r) as [m dd]. destruct Hf as [Hr Ho]. split; [exact Hr|].
    unfold ordinal. cbn [dt_year dt_month dt_day].
    assert (before_year y = n0 - r) by (unfold before_year, y; Z.div_mod_to_equations; lia). lia.
Qed.

Lemma year_bounds : forall d, real d = true -> (1 <= dt_year d <= 9999 <-> 1 <= ordinal d <= max_ordinal).
Proof.
  intros d H. pose proof (in_year d H) as Hi.
  assert (forall y z, y <= z -> before_year y <= before_year z) as Hmono.
  { intros y z Hyz. pose proof (before_mono (Z.to_nat (z - y)) y) as Hb. replace (y + Z.of_nat (Z.to_nat (z - y))) with z in Hb by lia. exact Hb. }
  assert (before_year 1 = 0) as B1 by reflexivity. assert (before_year 10000 = max_ordinal) as B2 by reflexivity.
  split.
  - intros [L U]. apply Hmono in L. assert (dt_year d + 1 <= 10000) as U' by lia. apply Hmono in U'. lia.
  - intros [L U]. destruct (Z_le_gt_dec 1 (dt_year d)) as [G|G]; destruct (Z_le_gt_dec (dt_year d) 9999) as [G'|G']; [lia| | |].
    + assert (10000 <= dt_year d) as K by lia. apply Hmono in K. lia.
    + assert (dt_year d + 1 <= 1) as K by lia. apply Hmono in K. lia.
    + assert (dt_year d + 1 <= 1) as K by lia. apply Hmono in K. lia.
Qed.

Lemma add_iff : forall n d d', civil d -> (add_days n d = Ok d' <-> (civil d' /\ days_apart d n d')).
Proof.
  intros n d d' Hd. apply civil_iff in Hd. destruct Hd as [Hy Hr]. unfold add_days.
  destruct ((1 <=? ordinal d + n) && (ordinal d + n <=? max_ordinal))%bool eqn:E.
  - apply andb_true_iff in E. rewrite !Z.leb_le in E. destruct (back (ordinal d + n)) as [Br Bo]. split.
    + intros H. injection H as <-. assert (civil (from_ordinal (ordinal d + n))) as Hc.
      { apply civil_iff. split; [|exact Br]. apply year_bounds; [exact Br|]. rewrite Bo. lia. }
      split; [exact Hc|]. apply apart_iff; auto. lia.
    + intros [Hc Ha]. apply civil_iff in Hc. destruct Hc as [_ Hc]. apply apart_iff in Ha; auto. f_equal.
      apply ordinal_inj; auto. lia.
  - split; [discriminate|]. intros [Hc Ha]. apply civil_iff in Hc. destruct Hc as [Hy' Hc]. apply apart_iff in Ha; auto.
    apply year_bounds in Hy'; [|exact Hc]. apply andb_false_iff in E. rewrite !Z.leb_gt in E. lia.
Qed.

(** ** Reading *)

Lemma digit_iff : forall c d, digit_of c = Some d <-> (0 <= d <= 9 /\ c = ascii_of_nat (48 + Z.to_nat d)).
Proof.
  intros c d. unfold digit_of. split.
  - destruct (Nat.leb 48 (nat_of_ascii c) && Nat.leb (nat_of_ascii c) 57)%bool eqn:E; [|discriminate].
    apply andb_true_iff in E. rewrite !Nat.leb_le in E. intros H. injection H as <-. split; [lia|].
    replace (48 + Z.to_nat (Z.of_nat (nat_of_ascii c - 48)))%nat with (nat_of_ascii c) by lia.
    symmetry. apply ascii_nat_embedding.
  - intros [Hd ->]. rewrite nat_ascii_embedding by lia.
    replace (48 <=? 48 + Z.to_nat d)%nat with true by (symmetry; apply Nat.leb_le; lia).
    replace (48 + Z.to_nat d <=? 57)%nat with true by (symmetry; apply Nat.leb_le; lia).
    cbn [andb]. f_equal. lia.
Qed.

Lemma range_iff : forall lo hi c d, in_range lo hi c = Some d <-> (digit_of c = Some d /\ lo <= d <= hi).
Proof.
  intros lo hi c d. unfold in_range. destruct (digit_of c) as [x|]; [|split; [discriminate|intros [H _]; discriminate]].
  destruct ((lo <=? x) && (x <=? hi))%bool eqn:E.
  - apply andb_true_iff in E. rewrite !Z.leb_le in E. split; [intros H; injection H as <-; auto|intros [H _]; exact H].
  - apply andb_false_iff in E. rewrite !Z.leb_gt in E. split; [discriminate|]. intros [H Hd]. injection H as ->. lia.
Qed.

Lemma app_last : forall (s : string) c, exists a r, (s ++ String c "")%string = String a r /\ String.length (s ++ String c "")%string = S (String.length s).
Proof.
  induction s as [|b s IH]; intros c; [exists c, EmptyString; split; reflexivity|].
  exists b, (s ++ String c "")%string. split; [reflexivity|]. cbn. f_equal. destruct (IH c) as [a [r [_ H]]]. exact H.
Qed.

Lemma last_digit : forall s v, digits_value s v -> s = ""%string /\ v = 0 \/
  exists t c w d, s = (t ++ String c "")%string /\ digits_value t w /\ digit_of c = Some d /\ v = 10 * w + d /\ String.length s = S (String.length t).
Proof.
  intros s v [|t c w d H Hd Hc]; [left; auto|]. right. exists t, c, w, d. split; [reflexivity|]. split; [exact H|].
  split; [apply digit_iff; auto|]. split; [reflexivity|]. destruct (app_last t c) as [a [r [_ Hl]]]. exact Hl.
Qed.

Lemma digits0 : forall s v, digits_value s v -> String.length s = 0%nat -> s = ""%string /\ v = 0.
Proof.
  intros s v H Hl. destruct (last_digit s v H) as [H'|[t [c [w [d [_ [_ [_ [_ Hl']]]]]]]]]; [exact H'|lia].
Qed.
Lemma digits1 : forall s v, digits_value s v -> String.length s = 1%nat -> exists a, s = String a "" /\ digit_of a = Some v.
Proof.
  intros s v H Hl. destruct (last_digit s v H) as [[-> _]|[t [c [w [d [-> [Ht [Hc [-> Hl']]]]]]]]]; [discriminate|].
  destruct (digits0 t w Ht ltac:(lia)) as [-> ->]. exists c. split; [reflexivity|exact Hc].
Qed.
Lemma digits2 : forall s v, digits_value s v -> String.length s = 2%nat ->
  exists a b x y, s = String a (String b "") /\ digit_of a = Some x /\ digit_of b = Some y /\ v = 10 * x + y.
Proof.
  intros s v H Hl. destruct (last_digit s v H) as [[-> _]|[t [c [w [d [-> [Ht [Hc [-> Hl']]]]]]]]]; [discriminate|].
  destruct (digits1 t w Ht ltac:(lia)) as [a [-> Ha]]. exists a, c, w, d. split; [reflexivity|auto].
Qed.
Lemma digits3 : forall s v, digits_value s v -> String.length s = 3%nat ->
  exists a b c x y z, s = String a (String b (String c "")) /\ digit_of a = Some x /\ digit_of b = Some y /\ digit_of c = Some z /\ v = 100 * x + 10 * y + z.
Proof.
  intros s v H Hl. destruct (last_digit s v H) as [[-> _]|[t [c [w [d [-> [Ht [Hc [-> Hl']]]]]]]]]; [discriminate|].
  destruct (digits2 t w Ht ltac:(lia)) as [a [b [x [y [-> [Ha [Hb ->]]]]]]]. exists a, b, c, x, y, d. repeat split; auto. lia.
Qed.
Lemma digits4 : forall s v, digits_value s v -> String.length s = 4%nat ->
  exists a b c d w x y z, s = String a (String b (String c (String d ""))) /\ digit_of a = Some w /\ digit_of b = Some x /\
    digit_of c = Some y /\ digit_of d = Some z /\ v = 1000 * w + 100 * x + 10 * y + z.
Proof.
  intros s v H Hl. destruct (last_digit s v H) as [[-> _]|[t [c [w [d [-> [Ht [Hc [-> Hl']]]]]]]]]; [discriminate|].
  destruct (digits3 t w Ht ltac:(lia)) as [a [b [c' [x [y [z [-> [Ha [Hb [Hc' ->]]]]]]]]]]. exists a, b, c', c, x, y, z, d.
  repeat split; auto. lia.
Qed.

Lemma make1 : forall a x, digit_of a = Some x -> digits_value (String a "") x.
Proof.
  intros a x H. apply digit_iff in H. destruct H as [Hx ->].
  exact (More_digits "" _ 0 x No_digit Hx eq_refl).
Qed.
Lemma make2 : forall a b x y, digit_of a = Some x -> digit_of b = Some y -> digits_value (String a (String b "")) (10 * x + y).
Proof.
  intros a b x y Ha Hb. apply digit_iff in Hb. destruct Hb as [Hy ->]. exact (More_digits _ _ x y (make1 a x Ha) Hy eq_refl).
Qed.
Lemma make4 : forall a b c d w x y z, digit_of a = Some w -> digit_of b = Some x -> digit_of c = Some y -> digit_of d = Some z ->
  digits_value (String a (String b (String c (String d "")))) (1000 * w + 100 * x + 10 * y + z).
Proof.
  intros a b c d w x y z Ha Hb Hc Hd. apply digit_iff in Hc. destruct Hc as [Hy ->]. apply digit_iff in Hd. destruct Hd as [Hz ->].
  pose proof (More_digits _ _ _ y (make2 a b w x Ha Hb) Hy eq_refl) as H3.
  pose proof (More_digits _ _ _ z H3 Hz eq_refl) as H4. cbn in H4.
  replace (1000 * w + 100 * x + 10 * y + z) with (10 * (10 * (10 * w + x) + y) + z) by lia. exact H4.
Qed.

Lemma range_some : forall lo hi c d, in_range lo hi c = Some d -> digit_of c = Some d /\ lo <= d <= hi.
Proof. intros. apply range_iff. assumption. Qed.
Lemma range_ok : forall lo hi c d, digit_of c = Some d -> lo <= d <= hi -> in_range lo hi c = Some d.
Proof. intros. apply range_iff. auto. Qed.
Lemma range_no : forall lo hi c d, digit_of c = Some d -> (d < lo \/ hi < d) -> in_range lo hi c = None.
Proof.
  intros lo hi c d H Hd. destruct (in_range lo hi c) eqn:E; [|reflexivity]. apply range_some in E. destruct E as [E Hr].
  rewrite H in E. injection E as ->. lia.
Qed.

Lemma some_pair : forall (A B : Type) (a c : A) (b d : B), Some (a, b) = Some (c, d) -> a = c /\ b = d.
Proof. intros A B a c b d H. split; congruence. Qed.

Lemma read_month_sound : forall s m r, read_month s = Some (m, r) ->
  exists t, s = (t ++ r)%string /\ (String.length t = 1 \/ String.length t = 2)%nat /\ digits_value t m.
Proof.
  intros s m r H. destruct s as [|a [|b r']]; cbn [read_month] in H; [discriminate| |].
  - destruct (in_range 1 9 a) eqn:E; [|discriminate]. apply some_pair in H; destruct H as [<- <-]. apply range_some in E.
    exists (String a ""). split; [reflexivity|]. split; [left; reflexivity|]. apply make1, E.
  - assert (match in_range 1 9 a with Some x => Some (x, String b r') | None => None end = Some (m, r) ->
            exists t, String a (String b r') = (t ++ r)%string /\ (String.length t = 1 \/ String.length t = 2)%nat /\ digits_value t m) as Hone.
    { intros K. destruct (in_range 1 9 a) eqn:E; [|discriminate]. apply some_pair in K; destruct K as [<- <-]. apply range_some in E.
      exists (String a ""). split; [reflexivity|]. split; [left; reflexivity|]. apply make1, E. }
    destruct (in_range 1 1 a) as [x|] eqn:E1; [destruct (in_range 0 2 b) as [y|] eqn:E2|].
    + apply some_pair in H; destruct H as [<- <-]. apply range_some in E1. apply range_some in E2. exists (String a (String b "")).
      split; [reflexivity|]. split; [right; reflexivity|]. replace (10 + y) with (10 * x + y) by lia. apply make2; tauto.
    + rewrite (range_no 0 0 a x) in H; [auto|apply range_some in E1; tauto|apply range_some in E1; lia].
    + destruct (in_range 0 0 a) as [x|] eqn:E2; [destruct (in_range 1 9 b) as [y|] eqn:E3|]; auto.
      apply some_pair in H; destruct H as [<- <-]. apply range_some in E2. apply range_some in E3. exists (String a (String b "")).
      split; [reflexivity|]. split; [right; reflexivity|]. replace y with (10 * x + y) at 1 by lia. apply make2; tauto.
Qed.

Lemma read_day_sound : forall s d r, read_day s = Some (d, r) ->
  exists b t, s = (b ++ t ++ r)%string /\ (String.length t = 1 \/ String.length t = 2)%nat /\ (b = "" \/ b = " " /\ String.length t = 1%nat)%string /\ digits_value t d.
Proof.
  intros s d r H.
  assert (forall a r0, match in_range 1 9 a with Some x => Some (x, r0) | None => None end = Some (d, r) ->
            exists b t, String a r0 = (b ++ t ++ r)%string /\ (String.length t = 1 \/ String.length t = 2)%nat /\ (b = "" \/ b = " " /\ String.length t = 1%nat)%string /\ digits_value t d) as Hone.
  { intros a r0 K. destruct (in_range 1 9 a) eqn:E; [|discriminate]. apply some_pair in K; destruct K as [<- <-]. apply range_some in E.
    exists EmptyString, (String a ""). split; [reflexivity|]. split; [left; reflexivity|]. split; [left; reflexivity|]. apply make1, E. }
  assert (forall a b0 r0 x y, digit_of a = Some x -> digit_of b0 = Some y -> 
            exists b t, String a (String b0 r0) = (b ++ t ++ r0)%string /\ (String.length t = 1 \/ String.length t = 2)%nat /\ (b = "" \/ b = " " /\ String.length t = 1%nat)%string /\ digits_value t (10 * x + y)) as Htwo.
  { intros a b0 r0 x y Ha Hb. exists EmptyString, (String a (String b0 "")). split; [reflexivity|]. split; [right; reflexivity|].
    split; [left; reflexivity|]. apply make2; auto. }
  destruct s as [|a [|b r']]; cbn [read_day] in H; [discriminate|apply (Hone a EmptyString H)|].
  destruct (in_range 3 3 a) as [x|] eqn:E1; [destruct (in_range 0 1 b) as [y|] eqn:E2|].
  - apply some_pair in H; destruct H as [<- <-]. apply range_some in E1. apply range_some in E2. replace (30 + y) with (10 * x + y) by lia. apply Htwo; tauto.
  - apply range_some in E1. rewrite (range_no 1 2 a x), (range_no 0 0 a x), (range_ok 1 9 a x) in H by (tauto || lia).
    apply Hone. rewrite (range_ok 1 9 a x) by (tauto || lia). exact H.
  - destruct (in_range 1 2 a) as [x|] eqn:E2; [destruct (in_range 0 9 b) as [y|] eqn:E3|].
    + apply some_pair in H; destruct H as [<- <-]. apply range_some in E2. apply range_some in E3. apply Htwo; tauto.
    + apply range_some in E2. rewrite (range_no 0 0 a x), (range_ok 1 9 a x) in H by (tauto || lia).
      apply Hone. rewrite (range_ok 1 9 a x) by (tauto || lia). exact H.
    + assert (match match in_range 1 9 a with Some x => Some (x, String b r') | None => None end with
              | Some p => Some p
              | None => if Ascii.eqb a " " then match in_range 1 9 b with Some y => Some (y, r') | None => None end else None
              end = Some (d, r) -> 
            exists b0 t, String a (String b r') = (b0 ++ t ++ r)%string /\ (String.length t = 1 \/ String.length t = 2)%nat /\ (b0 = "" \/ b0 = " " /\ String.length t = 1%nat)%string /\ digits_value t d) as Hrest.
      { intros K. destruct (in_range 1 9 a) as [x|] eqn:E4.
        - apply Hone. rewrite E4. exact K.
        - destruct (Ascii.eqb a " ") eqn:Ea; [|discriminate]. apply Ascii.eqb_eq in Ea. subst a.
          destruct (in_range 1 9 b) as [y|] eqn:E5; [|discriminate]. apply some_pair in K; destruct K as [<- <-]. apply range_some in E5.
          exists " "%string, (String b ""). split; [reflexivity|]. split; [left; reflexivity|]. split; [right; split; reflexivity|].
          apply make1, E5. }
      destruct (in_range 0 0 a) as [x|] eqn:E3; [destruct (in_range 1 9 b) as [y|] eqn:E5|]; auto.
      apply some_pair in H; destruct H as [<- <-]. apply range_some in E3. apply range_some in E5. pose proof (Htwo a b r' x y ltac:(tauto) ltac:(tauto)) as K.
      replace (10 * x + y) with y in K by lia. exact K.
Qed.

Lemma skip_iff : forall c s r, skip c s = Some r -> s = String c r.
Proof.
  intros c [|a s] r H; cbn in H; [discriminate|]. destruct (Ascii.eqb a c) eqn:E; [|discriminate].
  apply Ascii.eqb_eq in E. injection H as <-. congruence.
Qed.

Lemma fields_sound : forall s y m d, read_fields s = Some (y, m, d) -> written s (Date y m d).
Proof.
  intros s y m d H. unfold read_fields in H.
  destruct (read_year s) as [[y' r]|] eqn:Ey; [|discriminate].
  destruct (skip "-" r) as [r1|] eqn:E1; [|discriminate]. destruct (read_month r1) as [[m' r2]|] eqn:Em; [|discriminate].
  destruct (skip "-" r2) as [r3|] eqn:E3; [|discriminate]. destruct (read_day r3) as [[d' [|? ?]]|] eqn:Ed; try discriminate.
  injection H as <- <- <-. apply skip_iff in E1. apply skip_iff in E3. apply read_month_sound in Em. apply read_day_sound in Ed.
  destruct Em as [tm [Em [Lm Vm]]]. destruct Ed as [b [td [Ed [Ld [Lb Vd]]]]].
  assert (exists ty, s = (ty ++ r)%string /\ String.length ty = 4%nat /\ digits_value ty y') as [ty [Es [Ly Vy]]].
  { destruct s as [|a1 [|a2 [|a3 [|a4 s']]]]; cbn [read_year] in Ey; try discriminate.
    destruct (in_range 0 9 a1) as [w|] eqn:F1; [|discriminate]. destruct (in_range 0 9 a2) as [x|] eqn:F2; [|discriminate].
    destruct (in_range 0 9 a3) as [v|] eqn:F3; [|discriminate]. destruct (in_range 0 9 a4) as [z|] eqn:F4; [|discriminate].
    apply some_pair in Ey; destruct Ey as [<- <-]. apply range_some in F1, F2, F3, F4.
    exists (String a1 (String a2 (String a3 (String a4 "")))). split; [reflexivity|]. split; [reflexivity|]. apply make4; tauto. }
  exists ty, tm, b, td. split; [|cbn; auto 10].
  rewrite Es, E1, Em, E3, Ed. cbn. f_equal. f_equal. f_equal.
  clear. assert (forall t : string, (t ++ "")%string = t) as H by (induction t as [|c t IH]; cbn; [reflexivity|f_equal; exact IH]).
  rewrite H. reflexivity.
Qed.

Lemma month_len : forall y m, days_in_month y m <= 31.
Proof. intros y m. unfold days_in_month. destruct (m =? 2); [destruct (leap y); lia|]. destruct (orb _ _); lia. Qed.

Lemma minus_no_digit : forall lo hi, in_range lo hi "-" = None.
Proof. reflexivity. Qed.
Lemma blank_no_digit : forall lo hi, in_range lo hi " " = None.
Proof. reflexivity. Qed.

Lemma digit_pos : forall c d, digit_of c = Some d -> 0 <= d <= 9.
Proof. intros c d H. apply digit_iff in H. tauto. Qed.

Lemma fields_complete : forall s d, written s d -> civil d -> read_fields s = Some (dt_year d, dt_month d, dt_day d).
Proof.
  intros s [y m d] [ty [tm [b [td [-> [Ly [Lm [Ld [Lb [Vy [Vm Vd]]]]]]]]]]] Hc. cbn in *.
  apply civil_iff in Hc. destruct Hc as [Hy Hr]. apply real_iff in Hr. cbn [dt_year dt_month dt_day] in Hy, Hr. destruct Hr as [Hm Hd].
  assert (d <= 31) as Hd31 by (pose proof (month_len y m); lia).
  destruct (digits4 _ _ Vy Ly) as [a1 [a2 [a3 [a4 [w [x [v [z [-> [F1 [F2 [F3 [F4 ->]]]]]]]]]]]]].
  unfold read_fields. cbn [append read_year].
  rewrite (range_ok 0 9 a1 w), (range_ok 0 9 a2 x), (range_ok 0 9 a3 v), (range_ok 0 9 a4 z)
    by (assumption || eapply digit_pos; eassumption).
  assert (forall c r, skip c (String c r) = Some r) as Hskip by (intros c r; cbn; rewrite Ascii.eqb_refl; reflexivity).
  rewrite Hskip.
  assert (forall r, read_month (tm ++ String "-" r) = Some (m, String "-" r)) as Hmonth.
  { intros r. destruct Lm as [Lm|Lm].
    - destruct (digits1 _ _ Vm Lm) as [a [-> Ha]]. cbn [append read_month]. rewrite !minus_no_digit, (range_ok 1 9 a m) by (assumption || (pose proof (digit_pos _ _ Ha); lia)).
      destruct (in_range 1 1 a), (in_range 0 0 a); reflexivity.
    - destruct (digits2 _ _ Vm Lm) as [a [a' [p [q [-> [Ha [Ha' ->]]]]]]]. cbn [append read_month].
      pose proof (digit_pos _ _ Ha). pose proof (digit_pos _ _ Ha').
      destruct (Z.eq_dec p 1) as [->|N].
      + rewrite (range_ok 1 1 a 1), (range_ok 0 2 a' q) by (assumption || lia). do 2 f_equal; lia.
      + assert (p = 0) as -> by lia. rewrite (range_no 1 1 a 0), (range_ok 0 0 a 0), (range_ok 1 9 a' q) by (assumption || lia).
        do 2 f_equal; lia. }
  rewrite Hmonth, Hskip.
  assert (read_day (b ++ td) = Some (d, ""%string)) as ->; [|cbn; reflexivity].
  destruct Lb as [->|[-> L1]].
  - destruct Ld as [Ld|Ld].
    + destruct (digits1 _ _ Vd Ld) as [a [-> Ha]]. cbn [append read_day]. rewrite (range_ok 1 9 a d) by (assumption || (pose proof (digit_pos _ _ Ha); lia)). reflexivity.
    + destruct (digits2 _ _ Vd Ld) as [a [a' [p [q [-> [Ha [Ha' ->]]]]]]]. cbn [append read_day].
      pose proof (digit_pos _ _ Ha). pose proof (digit_pos _ _ Ha').
      destruct (Z.eq_dec p 3) as [->|N3].
      * rewrite (range_ok 3 3 a 3), (range_ok 0 1 a' q) by (assumption || lia). do 2 f_equal; lia.
      * rewrite (range_no 3 3 a p) by (assumption || lia). destruct (Z.eq_dec p 0) as [->|N0].
        -- rewrite (range_no 1 2 a 0), (range_ok 0 0 a 0), (range_ok 1 9 a' q) by (assumption || lia). do 2 f_equal; lia.
        -- rewrite (range_ok 1 2 a p), (range_ok 0 9 a' q) by (assumption || lia). do 2 f_equal; lia.
  - destruct (digits1 _ _ Vd L1) as [a [-> Ha]]. cbn [append read_day]. rewrite !blank_no_digit, (range_ok 1 9 a d) by (assumption || (pose proof (digit_pos _ _ Ha); lia)).
    reflexivity.
Qed.

Lemma read_iff : forall s d, strptime s = Ok d <-> (civil d /\ written s d).
Proof.
  intros s d. unfold strptime. split.
  - destruct (read_fields s) as [[[y m] dd]|] eqn:E; [|discriminate]. intros H. apply make_iff in H. destruct H as [-> Hc].
    split; [exact Hc|]. apply fields_sound, E.
  - intros [Hc Hw]. rewrite (fields_complete s d Hw Hc). apply make_iff. split; [destruct d; reflexivity|exact Hc].
Qed.

Lemma subtract_iff : forall s1 s2 n, subtract_dates s1 s2 = Ok n <->
  exists d1 d2, civil d1 /\ written s1 d1 /\ civil d2 /\ written s2 d2 /\ days_apart d2 n d1.
Proof.
  intros s1 s2 n. unfold subtract_dates. split.
  - destruct (strptime s1) as [d1|] eqn:E1; [|discriminate]. destruct (strptime s2) as [d2|] eqn:E2; [|discriminate].
    cbn. intros H. injection H as <-. apply read_iff in E1. apply read_iff in E2. exists d1, d2.
    split; [tauto|]. split; [tauto|]. split; [tauto|]. split; [tauto|].
    destruct E1 as [C1 _], E2 as [C2 _]. apply civil_iff in C1. apply civil_iff in C2. apply apart_iff; tauto.
  - intros [d1 [d2 [C1 [W1 [C2 [W2 A]]]]]]. rewrite (proj2 (read_iff s1 d1) (conj C1 W1)), (proj2 (read_iff s2 d2) (conj C2 W2)).
    cbn. apply civil_iff in C1. apply civil_iff in C2. apply apart_iff in A; [|tauto|tauto]. congruence.
Qed.

Lemma steps_iff : forall n s d', steps_to_date n s = Ok d' <->
  exists d, civil d /\ written s d /\ civil d' /\ days_apart d n d'.
Proof.
  intros n s d'. unfold steps_to_date. split.
  - destruct (strptime s) as [d|] eqn:E; [|discriminate]. cbn. intros H. apply read_iff in E. apply add_iff in H; [|tauto].
    exists d. tauto.
  - intros [d [C [W [C' A]]]]. rewrite (proj2 (read_iff s d) (conj C W)). cbn. apply add_iff; auto.
Qed.

Lemma show_written : forall d, civil d -> written (show_date d) d.
Proof.
  intros [y m d] Hc. apply civil_iff in Hc. destruct Hc as [Hy Hr]. apply real_iff in Hr. cbn [dt_year dt_month dt_day] in Hy, Hr. destruct Hr as [Hm Hd].
  assert (d <= 31) as Hd31 by (pose proof (month_len y m); lia).
  assert (forall n, 0 <= n <= 9 -> digit_of (digit_char n) = Some n) as Hdig by (intros n Hn; apply digit_iff; auto).
  unfold show_date. cbn [dt_year dt_month dt_day].
  exists (String (digit_char (y / 1000)) (String (digit_char (y / 100 mod 10)) (String (digit_char (y / 10 mod 10)) (String (digit_char (y mod 10)) "")))),
    (String (digit_char (m / 10)) (String (digit_char (m mod 10)) "")), EmptyString, (String (digit_char (d / 10)) (String (digit_char (d mod 10)) "")).
  split; [reflexivity|]. split; [reflexivity|]. split; [right; reflexivity|]. split; [right; reflexivity|]. split; [left; reflexivity|].
  cbn [dt_year dt_month dt_day]. repeat split.
  - replace y with (1000 * (y / 1000) + 100 * (y / 100 mod 10) + 10 * (y / 10 mod 10) + y mod 10) at 5 by (Z.div_mod_to_equations; lia).
    apply make4; apply Hdig; Z.div_mod_to_equations; lia.
  - replace m with (10 * (m / 10) + m mod 10) at 3 by (Z.div_mod_to_equations; lia). apply make2; apply Hdig; Z.div_mod_to_equations; lia.
  - replace d with (10 * (d / 10) + d mod 10) at 3 by (Z.div_mod_to_equations; lia). apply make2; apply Hdig; Z.div_mod_to_equations; lia.
Qed.

Lemma written_once : forall s d d', civil d -> civil d' -> written s d -> written s d' -> d = d'.
Proof.
  intros s d d' C C' W W'. pose proof (proj2 (read_iff s d) (conj C W)) as E. pose proof (proj2 (read_iff s d') (conj C' W')) as E'. congruence.
Qed.
