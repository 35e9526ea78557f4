(** * DataProofs: interpolation and daily differences *)

From Coq Require Import Lia Lqa.
From Verif Require Import Base DataTable SpecData Lemmas.
Local Open Scope Q_scope.

(** ** Truncation *)

Lemma Qtrunc_whole y : whole y (Qtrunc y).
Proof.
  unfold whole, Qtrunc. destruct y as [n d]. cbn [Qnum Qden].
  unfold Qle, Qlt, inject_Z, Qplus, Qminus, Qopp. cbn [Qnum Qden].
  assert (D : (0 < Z.pos d)%Z) by lia. destruct (Z.le_gt_cases 0 n) as [P|N].
  - left. rewrite Z.quot_div_nonneg by lia. pose proof (Z.mul_div_le n (Z.pos d) D). pose proof (Z.mul_succ_div_gt n (Z.pos d) D). nia.
  - right. rewrite <- (Z.opp_involutive n). rewrite Z.quot_opp_l by lia. rewrite Z.quot_div_nonneg by lia.
    pose proof (Z.mul_div_le (- n) (Z.pos d) D). pose proof (Z.mul_succ_div_gt (- n) (Z.pos d) D).
    set (q := (- n / Z.pos d)%Z) in *. clearbody q. unfold Qplus. cbn [Qnum Qden]. repeat split; nia.
Qed.
Lemma Z_of_Q_le a b : inject_Z a < inject_Z b + 1 -> (a <= b)%Z.
Proof. intro H. unfold Qlt, Qplus, inject_Z in H. cbn in H. lia. Qed.
Lemma whole_mono y y' z z' : whole y z -> whole y' z' -> y <= y' -> (z <= z')%Z.
Proof.
  unfold whole. intros A B L. apply Z_of_Q_le.
  destruct A as [(A1 & A2 & A3)|(A1 & A2 & A3)], B as [(B1 & B2 & B3)|(B1 & B2 & B3)]; try lra.
  destruct (Z.le_gt_cases z 0) as [P|P]; [|assert (X : inject_Z 1 <= inject_Z z) by (rewrite <- Zle_Qle; lia); change (inject_Z 1) with 1 in X; lra].
  destruct (Z.le_gt_cases 0 z') as [P'|P']; [|assert (X : inject_Z z' <= inject_Z (-1)) by (rewrite <- Zle_Qle; lia); change (inject_Z (-1)) with (-(1)) in X; lra].
  assert (X : inject_Z z <= 0) by (change 0 with (inject_Z 0); rewrite <- Zle_Qle; lia).
  assert (X' : 0 <= inject_Z z') by (change 0 with (inject_Z 0); rewrite <- Zle_Qle; lia). lra.
Qed.
Lemma whole_unique y z z' : whole y z -> whole y z' -> z = z'.
Proof.
  intros A B. pose proof (whole_mono _ _ _ _ A B (Qle_refl _)). pose proof (whole_mono _ _ _ _ B A (Qle_refl _)). lia.
Qed.
Lemma whole_eq y y' z : y == y' -> whole y z -> whole y' z.
Proof. unfold whole. intros E H. rewrite <- !E. exact H. Qed.
Lemma Qtrunc_compat y y' : y == y' -> Qtrunc y = Qtrunc y'.
Proof. intro E. eapply whole_unique; [apply Qtrunc_whole|]. eapply whole_eq; [symmetry; exact E|]. apply Qtrunc_whole. Qed.
Lemma Qtrunc_mono y y' : y <= y' -> (Qtrunc y <= Qtrunc y')%Z.
Proof. apply whole_mono; apply Qtrunc_whole. Qed.
Lemma Qtrunc_nonneg y : 0 <= y -> (0 <= Qtrunc y)%Z.
Proof. intro H. change 0%Z with (Qtrunc 0). now apply Qtrunc_mono. Qed.

(** ** Interpolation *)

Lemma incr_tail r t : increasing (r :: t) -> increasing t.
Proof. intros I i j ri rj Hi Hj L. apply (I (S i) (S j)); auto. lia. Qed.

Lemma fdiv_ok a b : ~ b == 0 -> fdiv a b = Ok (a / b).
Proof. intro H. unfold fdiv. destruct (Qeqb b 0) eqn:E; [|reflexivity]. apply Qeqb_true in E. contradiction. Qed.

Lemma Qdiv_01 a b : 0 <= a -> a <= b -> 0 < b -> 0 <= a / b /\ a / b <= 1.
Proof.
  intros A B C. split.
  - apply Qle_shift_div_l; [exact C|lra].
  - apply Qle_shift_div_r; [exact C|lra].
Qed.

Lemma interp_loop_spec day : forall rest prev, increasing (prev :: rest) -> fst prev < inject_Z day ->
  exists z y, interp_loop day prev rest = Ok z /\ on_line (prev :: rest) (inject_Z day) y /\ whole y z.
Proof.
  induction rest as [|row rest IH]; intros prev I L; cbn [interp_loop].
  - exists (Qtrunc (snd prev)), (snd prev). split; [reflexivity|]. split; [|apply Qtrunc_whole].
    eapply (After _ _ _ 0); [reflexivity|reflexivity|lra|reflexivity].
  - destruct (Qltb (inject_Z day) (fst row)) eqn:B; qb.
    + rewrite fdiv_ok by lra. cbn [bind]. destruct (Qdiv_01 (inject_Z day - fst prev) (fst row - fst prev)) as [F0 F1]; try lra.
      destruct (Qltb 1 _) eqn:C; qb; [lra|]. eexists. eexists. split; [reflexivity|]. split; [|apply Qtrunc_whole].
      eapply (Between _ _ _ 0); [reflexivity|reflexivity|lra|lra|reflexivity].
    + destruct (Qlt_le_dec (fst row) (inject_Z day)) as [L'|L'].
      * destruct (IH row (incr_tail _ _ I) L') as (z & y & E & O & W). exists z, y. split; [exact E|]. split; [|exact W].
        destruct O as [r Hr A Y|i r Hr Le A Y|i a b Ha Hb A1 A2 Y].
        -- cbn in Hr. injection Hr as <-. lra.
        -- eapply (After _ _ _ (S i)); [exact Hr|cbn in *; lia|exact A|exact Y].
        -- eapply (Between _ _ _ (S i)); eauto.
      * (* the day is exactly that of [row] *)
        assert (Eq : inject_Z day == fst row) by lra.
        destruct rest as [|row2 rest].
        -- cbn [interp_loop]. exists (Qtrunc (snd row)), (snd row). split; [reflexivity|]. split; [|apply Qtrunc_whole].
           eapply (After _ _ _ 1); [reflexivity|reflexivity|lra|reflexivity].
        -- cbn [interp_loop]. assert (R2 : fst row < fst row2) by (apply (I 1%nat 2%nat); auto).
           assert (X : Qltb (inject_Z day) (fst row2) = true) by (apply Qltb_true; lra). rewrite X.
           rewrite fdiv_ok by lra. cbn [bind]. destruct (Qdiv_01 (inject_Z day - fst row) (fst row2 - fst row)) as [F0 F1]; try lra.
           destruct (Qltb 1 _) eqn:C; qb; [lra|]. eexists. eexists. split; [reflexivity|]. split; [|apply Qtrunc_whole].
           eapply (Between _ _ _ 1); [reflexivity|reflexivity|lra|lra|reflexivity].
Qed.

Theorem interpolate_line t day : t <> [] -> increasing t ->
  exists z y, interpolate t day = Ok z /\ on_line t (inject_Z day) y /\ whole y z.
Proof.
  intros N I. destruct t as [|r0 rest]; [congruence|]. cbn [interpolate]. destruct (Qleb (inject_Z day) (fst r0)) eqn:B; qb.
  - exists (Qtrunc (snd r0)), (snd r0). split; [reflexivity|]. split; [|apply Qtrunc_whole].
    eapply Before; [reflexivity|exact B|reflexivity].
  - apply interp_loop_spec; assumption.
Qed.

(** The line is a function, and a growing one if the values grow. *)

Lemma lin_mono d1 d2 v1 v2 x x' : d1 < d2 -> v1 <= v2 -> x <= x' ->
  v1 + (x - d1) / (d2 - d1) * (v2 - v1) <= v1 + (x' - d1) / (d2 - d1) * (v2 - v1).
Proof.
  intros D V X. assert (H : (x - d1) / (d2 - d1) <= (x' - d1) / (d2 - d1)).
  { unfold Qdiv. apply Qmult_le_compat_r; [lra|]. apply Qinv_le_0_compat. lra. }
  nra.
Qed.
Lemma lin_at d1 d2 v1 v2 : d1 < d2 -> v1 + (d1 - d1) / (d2 - d1) * (v2 - v1) == v1.
Proof. intro D. field. lra. Qed.
Lemma lin_end d1 d2 v1 v2 : d1 < d2 -> v1 + (d2 - d1) / (d2 - d1) * (v2 - v1) == v2.
Proof. intro D. field. lra. Qed.
Lemma lin_compat d1 d2 v1 v2 x x' : x == x' -> v1 + (x - d1) / (d2 - d1) * (v2 - v1) == v1 + (x' - d1) / (d2 - d1) * (v2 - v1).
Proof. intros ->. reflexivity. Qed.
Lemma lin_lo d1 d2 v1 v2 x : d1 < d2 -> v1 <= v2 -> d1 <= x -> v1 <= v1 + (x - d1) / (d2 - d1) * (v2 - v1).
Proof. intros D V X. eapply Qle_trans; [|apply lin_mono; eauto]. apply Qle_lteq. right. symmetry. now apply lin_at. Qed.
Lemma lin_hi d1 d2 v1 v2 x : d1 < d2 -> v1 <= v2 -> x <= d2 -> v1 + (x - d1) / (d2 - d1) * (v2 - v1) <= v2.
Proof. intros D V X. eapply Qle_trans; [apply lin_mono; eauto|]. apply Qle_lteq. right. now apply lin_end. Qed.

(** At a given row the line has that row's value. *)
Lemma line_at t x y i r : increasing t -> on_line t x y -> nth_error t i = Some r -> x == fst r -> y == snd r.
Proof.
  intros I O H X. destruct O as [r0 Hr A Y|k r0 Hr Le A Y|k a b Ha Hb A1 A2 Y].
  - destruct i as [|i]; [congruence|]. assert (fst r0 < fst r) by (apply (I 0%nat (S i)); auto; lia). lra.
  - pose proof (nth_error_lt _ _ _ H). destruct (Nat.eq_dec i k) as [->|N]; [congruence|].
    assert (fst r < fst r0) by (apply (I i k); auto; lia). lra.
  - assert (D : fst a < fst b) by (apply (I k (S k)); auto).
    destruct (Nat.lt_trichotomy i k) as [L|[->|L]].
    + assert (fst r < fst a) by (apply (I i k); auto). lra.
    + assert (r = a) as -> by congruence. rewrite Y, (lin_compat _ _ _ _ _ _ X). now apply lin_at.
    + destruct (Nat.eq_dec i (S k)) as [->|N2].
      * assert (r = b) as -> by congruence. rewrite Y, (lin_compat _ _ _ _ _ _ X). now apply lin_end.
      * assert (fst b < fst r) by (apply (I (S k) i); auto; lia). lra.
Qed.

Theorem line_unique t x x' y y' : increasing t -> x == x' -> on_line t x y -> on_line t x' y' -> y == y'.
Proof.
  intros I E O O'.
  destruct O as [r0 Hr A Y|k r0 Hr Le A Y|k a b Ha Hb A1 A2 Y].
  - destruct O' as [r0' Hr' A' Y'|k' r0' Hr' Le' A' Y'|k' a' b' Ha' Hb' A1' A2' Y'].
    + rewrite Y, Y'. assert (r0 = r0') as -> by congruence. reflexivity.
    + destruct k' as [|k']; [assert (r0 = r0') as -> by congruence; now rewrite Y, Y'|].
      assert (fst r0 < fst r0') by (apply (I 0%nat (S k')); auto; lia). lra.
    + assert (D : fst a' < fst b') by (apply (I k' (S k')); auto). destruct k' as [|k'].
      * assert (r0 = a') as -> by congruence. rewrite Y, Y'. assert (X : x' == fst a') by lra. rewrite (lin_compat _ _ _ _ _ _ X). symmetry. now apply lin_at.
      * assert (fst r0 < fst a') by (apply (I 0%nat (S k')); auto; lia). lra.
  - destruct O' as [r0' Hr' A' Y'|k' r0' Hr' Le' A' Y'|k' a' b' Ha' Hb' A1' A2' Y'].
    + destruct k as [|k]; [assert (r0 = r0') as -> by congruence; now rewrite Y, Y'|].
      assert (fst r0' < fst r0) by (apply (I 0%nat (S k)); auto; lia). lra.
    + assert (k = k') as -> by lia. assert (r0 = r0') as -> by congruence. now rewrite Y, Y'.
    + assert (D : fst a' < fst b') by (apply (I k' (S k')); auto). pose proof (nth_error_lt _ _ _ Hb').
      destruct (Nat.eq_dec k (S k')) as [->|N].
      * assert (r0 = b') as -> by congruence. rewrite Y, Y'. assert (X : x' == fst b') by lra. rewrite (lin_compat _ _ _ _ _ _ X). symmetry. now apply lin_end.
      * assert (fst b' < fst r0) by (apply (I (S k') k); auto; lia). lra.
  - assert (D : fst a < fst b) by (apply (I k (S k)); auto).
    destruct O' as [r0' Hr' A' Y'|k' r0' Hr' Le' A' Y'|k' a' b' Ha' Hb' A1' A2' Y'].
    + destruct k as [|k].
      * assert (r0' = a) as -> by congruence. rewrite Y, Y'. assert (X : x == fst a) by lra. rewrite (lin_compat _ _ _ _ _ _ X). now apply lin_at.
      * assert (fst r0' < fst a) by (apply (I 0%nat (S k)); auto; lia). lra.
    + pose proof (nth_error_lt _ _ _ Hb). destruct (Nat.eq_dec k' (S k)) as [->|N].
      * assert (r0' = b) as -> by congruence. rewrite Y, Y'. assert (X : x == fst b) by lra. rewrite (lin_compat _ _ _ _ _ _ X). now apply lin_end.
      * assert (fst b < fst r0') by (apply (I (S k) k'); auto; lia). lra.
    + assert (D' : fst a' < fst b') by (apply (I k' (S k')); auto).
      destruct (Nat.lt_trichotomy k k') as [L|[->|L]].
      * assert (fst b <= fst a') by (destruct (Nat.eq_dec (S k) k') as [<-|N]; [assert (a' = b) as -> by congruence; lra|apply Qlt_le_weak, (I (S k) k'); auto; lia]).
        assert (Xa : x' == fst a') by lra. assert (Xb : x == fst b) by lra.
        rewrite (line_at t x y (S k) b I (Between _ _ _ _ _ _ Ha Hb A1 A2 Y) Hb Xb).
        rewrite (line_at t x' y' k' a' I (Between _ _ _ _ _ _ Ha' Hb' A1' A2' Y') Ha' Xa).
        assert (Heq : fst b == fst a') by lra. destruct (Nat.eq_dec (S k) k') as [<-|N]; [assert (a' = b) as -> by congruence; reflexivity|].
        assert (fst b < fst a') by (apply (I (S k) k'); auto; lia). lra.
      * assert (a = a') as -> by congruence. assert (b = b') as -> by congruence. rewrite Y, Y'. now apply lin_compat.
      * assert (fst b' <= fst a) by (destruct (Nat.eq_dec (S k') k) as [<-|N]; [assert (a = b') as -> by congruence; lra|apply Qlt_le_weak, (I (S k') k); auto; lia]).
        assert (Xa : x == fst a) by lra. assert (Xb : x' == fst b') by lra.
        rewrite (line_at t x' y' (S k') b' I (Between _ _ _ _ _ _ Ha' Hb' A1' A2' Y') Hb' Xb).
        rewrite (line_at t x y k a I (Between _ _ _ _ _ _ Ha Hb A1 A2 Y) Ha Xa).
        destruct (Nat.eq_dec (S k') k) as [<-|N]; [assert (a = b') as -> by congruence; reflexivity|].
        assert (fst b' < fst a) by (apply (I (S k') k); auto; lia). lra.
Qed.

Theorem line_grows t x x' y y' : increasing t -> growing t -> x <= x' -> on_line t x y -> on_line t x' y' -> y <= y'.
Proof.
  intros I G E O O'. destruct (Qlt_le_dec x x') as [L|L].
  2:{ assert (Eq : x == x') by lra. pose proof (line_unique t x x' y y' I Eq O O'). lra. }
  destruct O as [r0 Hr A Y|k r0 Hr Le A Y|k a b Ha Hb A1 A2 Y];
  destruct O' as [r0' Hr' A' Y'|k' r0' Hr' Le' A' Y'|k' a' b' Ha' Hb' A1' A2' Y']; rewrite Y, Y'.
  - assert (r0 = r0') as -> by congruence. lra.
  - apply (G 0%nat k'); auto; lia.
  - assert (D : fst a' < fst b') by (apply (I k' (S k')); auto). assert (snd a' <= snd b') by (apply (G k' (S k')); auto).
    assert (snd r0 <= snd a') by (apply (G 0%nat k'); auto; lia). pose proof (lin_lo (fst a') (fst b') (snd a') (snd b') x' D H A1'). lra.
  - assert (k = 0%nat) as -> by (destruct k as [|k]; [reflexivity|]; assert (fst r0' < fst r0) by (apply (I 0%nat (S k)); auto; lia); lra).
    assert (r0 = r0') as -> by congruence. lra.
  - assert (k = k') as -> by lia. assert (r0 = r0') as -> by congruence. lra.
  - pose proof (nth_error_lt _ _ _ Hb'). assert (fst b' <= fst r0) by (destruct (Nat.eq_dec k (S k')) as [->|N]; [assert (r0 = b') as -> by congruence; lra|apply Qlt_le_weak, (I (S k') k); auto; lia]). lra.
  - assert (fst r0' <= fst a) by (destruct k as [|k]; [assert (a = r0') as -> by congruence; lra|apply Qlt_le_weak, (I 0%nat (S k)); auto; lia]). lra.
  - assert (D : fst a < fst b) by (apply (I k (S k)); auto). assert (snd a <= snd b) by (apply (G k (S k)); auto).
    pose proof (nth_error_lt _ _ _ Hb). assert (snd b <= snd r0') by (apply (G (S k) k'); auto; lia). pose proof (lin_hi (fst a) (fst b) (snd a) (snd b) x D H A2). lra.
  - assert (D : fst a < fst b) by (apply (I k (S k)); auto). assert (V : snd a <= snd b) by (apply (G k (S k)); auto).
    assert (D' : fst a' < fst b') by (apply (I k' (S k')); auto). assert (V' : snd a' <= snd b') by (apply (G k' (S k')); auto).
    destruct (Nat.lt_trichotomy k k') as [K|[->|K]].
    + assert (snd b <= snd a') by (apply (G (S k) k'); auto).
      pose proof (lin_hi (fst a) (fst b) (snd a) (snd b) x D V A2). pose proof (lin_lo (fst a') (fst b') (snd a') (snd b') x' D' V' A1'). lra.
    + assert (a = a') as -> by congruence. assert (b = b') as -> by congruence. apply lin_mono; lra.
    + assert (fst b' <= fst a) by (destruct (Nat.eq_dec (S k') k) as [<-|N]; [assert (a = b') as -> by congruence; lra|apply Qlt_le_weak, (I (S k') k); auto; lia]). lra.
Qed.

(** ** What a user sees *)

Theorem interpolate_exact t day i r : increasing t -> nth_error t i = Some r -> fst r == inject_Z day ->
  exists z, interpolate t day = Ok z /\ whole (snd r) z.
Proof.
  intros I H E. assert (N : t <> []) by (intros ->; destruct i; discriminate).
  destruct (interpolate_line t day N I) as (z & y & Z1 & O & W). exists z. split; [exact Z1|].
  eapply whole_eq; [|exact W]. eapply line_at; eauto. now symmetry.
Qed.
Theorem interpolate_between t day i a b : increasing t -> nth_error t i = Some a -> nth_error t (S i) = Some b ->
  fst a <= inject_Z day -> inject_Z day <= fst b ->
  exists z za zb, interpolate t day = Ok z /\ whole (snd a) za /\ whole (snd b) zb /\
    (Z.min za zb <= z <= Z.max za zb)%Z.
Proof.
  intros I Ha Hb A B. assert (N : t <> []) by (intros ->; destruct i; discriminate).
  destruct (interpolate_line t day N I) as (z & y & Z1 & O & W). exists z, (Qtrunc (snd a)), (Qtrunc (snd b)).
  split; [exact Z1|]. split; [apply Qtrunc_whole|]. split; [apply Qtrunc_whole|].
  assert (D : fst a < fst b) by (apply (I i (S i)); auto).
  assert (Y : y == snd a + (inject_Z day - fst a) / (fst b - fst a) * (snd b - snd a)).
  { eapply (line_unique t); [exact I|reflexivity|exact O|]. eapply (Between _ _ _ i a b); auto. reflexivity. }
  destruct (Qdiv_01 (inject_Z day - fst a) (fst b - fst a)) as [F0 F1]; try lra.
  assert (Wa := Qtrunc_whole (snd a)). assert (Wb := Qtrunc_whole (snd b)).
  destruct (Qlt_le_dec (snd a) (snd b)) as [L|L].
  - assert (snd a <= y /\ y <= snd b) as [L1 L2] by (rewrite Y; split; nra).
    pose proof (whole_mono _ _ _ _ Wa W L1). pose proof (whole_mono _ _ _ _ W Wb L2). lia.
  - assert (snd b <= y /\ y <= snd a) as [L1 L2] by (rewrite Y; split; nra).
    pose proof (whole_mono _ _ _ _ Wb W L1). pose proof (whole_mono _ _ _ _ W Wa L2). lia.
Qed.
Theorem interpolate_grows t d1 d2 z1 z2 : increasing t -> growing t -> (d1 <= d2)%Z ->
  interpolate t d1 = Ok z1 -> interpolate t d2 = Ok z2 -> (z1 <= z2)%Z.
Proof.
  intros I G L H1 H2. assert (N : t <> []) by (intros ->; discriminate).
  destruct (interpolate_line t d1 N I) as (z1' & y1 & E1 & O1 & W1). destruct (interpolate_line t d2 N I) as (z2' & y2 & E2 & O2 & W2).
  assert (z1' = z1) as -> by congruence. assert (z2' = z2) as -> by congruence.
  eapply whole_mono; [exact W1|exact W2|]. eapply line_grows; [exact I|exact G| |exact O1|exact O2]. now rewrite <- Zle_Qle.
Qed.
Theorem interpolate_before t day r : nth_error t 0 = Some r -> inject_Z day <= fst r ->
  interpolate t day = Ok (Qtrunc (snd r)).
Proof. destruct t as [|r0 t]; [discriminate|]. intros E L. injection E as ->. cbn. apply Qleb_true in L. now rewrite L. Qed.
Theorem interpolate_after t day r i : increasing t -> nth_error t i = Some r -> Datatypes.S i = List.length t -> fst r <= inject_Z day ->
  exists z, interpolate t day = Ok z /\ whole (snd r) z.
Proof.
  intros I H L D. assert (N : t <> []) by (intros ->; destruct i; discriminate).
  destruct (interpolate_line t day N I) as (z & y & Z1 & O & W). exists z. split; [exact Z1|].
  eapply whole_eq; [|exact W]. eapply (line_unique t); [exact I|reflexivity|exact O|]. eapply After; eauto. reflexivity.
Qed.

(** ** Fields *)

Lemma find_header_spec name h : forall k, In name h ->
  exists i, find_header name h k = Ok (k + i)%nat /\ nth_error h i = Some name /\ (forall j, (j < i)%nat -> nth_error h j <> Some name).
Proof.
  induction h as [|n h IH]; intros k H; [destruct H|]. cbn [find_header]. destruct (String.eqb_spec n name) as [->|N].
  - exists 0%nat. rewrite Nat.add_0_r. repeat split; intros; lia.
  - destruct H as [H|H]; [congruence|]. destruct (IH (S k) H) as (i & E & A & B). exists (S i). split; [rewrite E; f_equal; lia|].
    split; [exact A|]. intros [|j] L; cbn; [congruence|]. apply B. lia.
Qed.

Lemma find_header_some name h k i : find_header name h k = Ok i -> In name h.
Proof.
  revert k. induction h as [|n h IH]; intros k H; [discriminate|]. cbn in H. destruct (String.eqb_spec n name) as [->|N].
  - now left. - right. eauto.
Qed.

Lemma get_field_ok d name day : table_ok d -> In name (d_header d) ->
  exists t i v, nth_error (d_header d) i = Some name /\ nth_error (d_tables d) i = Some t /\
    interpolate t day = Ok v /\ get_field d name day true = Ok (v - day0_get name d * d_start_empty d)%Z.
Proof.
  intros (_ & L & F) H. destruct (find_header_spec name (d_header d) 0 H) as (i & E & A & _). cbn in E.
  destruct (nth_error_ex (d_tables d) i) as [t Ht]; [rewrite L; eapply nth_error_lt; eauto|].
  rewrite Forall_forall in F. destruct (F t (nth_error_In _ _ Ht)) as [N I].
  destruct (interpolate_line t day N I) as (z & _ & Z1 & _). exists t, i, z. repeat split; auto.
  unfold get_field. rewrite E. cbn [bind]. rewrite Ht. cbn [of_option bind]. rewrite Z1. reflexivity.
Qed.

Lemma get_field_some d name day : table_ok d -> In name (d_header d) -> exists v, get_field d name day true = Ok v.
Proof. intros T H. destruct (get_field_ok d name day T H) as (t & i & v & _ & _ & _ & E). eauto. Qed.

Lemma sum_fields_ok d day names : table_ok d -> (forall n, In n names -> In n (d_header d)) ->
  exists v, sum_fields d day true names = Ok v.
Proof.
  intros T. induction names as [|n ns IH]; intro H; [eexists; reflexivity|]. cbn.
  destruct (get_field_some d n day T (H n (or_introl eq_refl))) as [v ->].
  destruct IH as [s ->]; [intros; apply H; now right|]. eexists; reflexivity.
Qed.
Lemma tl_In {A} (x : A) l : In x (tl l) -> In x l.
Proof. destruct l; [auto|]. now right. Qed.
Lemma total_on_ok d day sc : table_ok d -> exists v, total_on d day true sc = Ok v.
Proof.
  intros T. unfold total_on. destruct sc; [apply sum_fields_ok; [exact T|intros; now apply tl_In]|]. apply get_field_some; [exact T|apply T].
Qed.

Lemma diff_loop d day full names : forall acc n,
  foldM (fun acc name => v1 <- get_field d name day full ;; v0 <- get_field d name (day - 1)%Z full ;; Ok (acc + (v1 - v0))%Z) names acc = Ok n ->
  exists s1 s0, sum_fields d day full names = Ok s1 /\ sum_fields d (day - 1) full names = Ok s0 /\ n = (acc + (s1 - s0))%Z.
Proof.
  induction names as [|m ms IH]; intros acc n H; cbn [foldM] in H.
  - injection H as <-. exists 0%Z, 0%Z. repeat split. lia.
  - destruct (get_field d m day full) as [v1|] eqn:E1; [|discriminate]. cbn [bind] in H.
    destruct (get_field d m (day - 1) full) as [v0|] eqn:E0; [|discriminate]. cbn [bind] in H.
    destruct (IH _ _ H) as (s1 & s0 & A & B & ->). cbn. rewrite E1, E0, A, B. cbn. eexists. eexists. repeat split. lia.
Qed.

Theorem difference_spec d day full sc n d' : day <> 0%Z -> get_daily_difference d day full sc = Ok (n, d') ->
  d' = d /\ exists v1 v0, total_on d day full sc = Ok v1 /\ total_on d (day - 1) full sc = Ok v0 /\ n = (v1 - v0)%Z.
Proof.
  intros D H. unfold get_daily_difference in H. replace (day =? 0)%Z with false in H by lia. unfold total_on. destruct sc.
  - destruct (foldM _ _ _) as [x|] eqn:E in H; [|discriminate]. cbn [bind] in H. injection H as -> <-. split; [reflexivity|].
    apply diff_loop in E as (s1 & s0 & A & B & ->). eexists. eexists. repeat split; eauto.
  - destruct (get_field d "total" day full) as [v1|]; [|discriminate]. cbn [bind] in H.
    destruct (get_field d "total" (day - 1) full) as [v0|]; [|discriminate]. cbn [bind] in H. injection H as <- <-. eauto 6.
Qed.

Lemma diff_loop_ok d day names acc : table_ok d -> (forall n, In n names -> In n (d_header d)) ->
  exists n, foldM (fun acc name => v1 <- get_field d name day true ;; v0 <- get_field d name (day - 1)%Z true ;; Ok (acc + (v1 - v0))%Z) names acc = Ok n.
Proof.
  intros T. revert acc. induction names as [|n ns IH]; intros acc H; [eexists; reflexivity|]. cbn [foldM].
  destruct (get_field_some d n day T (H n (or_introl eq_refl))) as [v1 ->].
  destruct (get_field_some d n (day - 1) T (H n (or_introl eq_refl))) as [v0 ->]. cbn [bind].
  apply IH. intros; apply H; now right.
Qed.
Theorem difference_ok d day sc : table_ok d -> day <> 0%Z -> exists n, get_daily_difference d day true sc = Ok (n, d).
Proof.
  intros T D. unfold get_daily_difference. replace (day =? 0)%Z with false by lia. destruct sc.
  - destruct (diff_loop_ok d day (tl (d_header d)) 0 T) as [n ->]; [intros; now apply tl_In|]. eexists; reflexivity.
  - destruct (get_field_some d "total" day T) as [v1 ->]; [apply T|]. destruct (get_field_some d "total" (day - 1) T) as [v0 ->]; [apply T|].
    eexists; reflexivity.
Qed.




Theorem telescope d full sc f n v0 vn :
  (forall k, (1 <= k <= n)%nat -> exists d', get_daily_difference d (Z.of_nat k) full sc = Ok (f k, d')) ->
  total_on d 0 full sc = Ok v0 -> total_on d (Z.of_nat n) full sc = Ok vn -> sum_days f n = (vn - v0)%Z.
Proof.
  revert vn. induction n as [|n IH]; intros vn H H0 Hn; cbn [sum_days].
  - change (Z.of_nat 0) with 0%Z in Hn. assert (v0 = vn) as -> by congruence. lia.
  - destruct (H (S n) ltac:(lia)) as [d' E]. apply difference_spec in E as (_ & v1 & w & A & B & C); [|lia].
    rewrite Nat2Z.inj_succ in *. replace (Z.succ (Z.of_nat n) - 1)%Z with (Z.of_nat n) in B by lia.
    rewrite (IH w); auto; [|intros; apply H; lia]. assert (v1 = vn) by congruence. lia.
Qed.

(** ** Raw data: the last registered value *)

Lemma raw_loop_spec day : forall t old, increasing t ->
  (exists i r, nth_error t i = Some r /\ fst r <= inject_Z day /\ raw_loop day old t = snd r /\
     forall j rj, (i < j)%nat -> nth_error t j = Some rj -> inject_Z day < fst rj) \/
  (raw_loop day old t = old /\ forall j rj, nth_error t j = Some rj -> inject_Z day < fst rj).
Proof.
  induction t as [|r t IH]; intros old I; cbn [raw_loop]; [right; split; [reflexivity|intros [|]; discriminate]|].
  destruct (Qleb (fst r) (inject_Z day)) eqn:B; qb.
  - left. destruct (IH (snd r) (incr_tail _ _ I)) as [(i & ri & A & C & D & E)|(A & C)].
    + exists (S i), ri. repeat split; auto. intros [|j] rj L; [lia|]. cbn. apply E. lia.
    + exists 0%nat, r. repeat split; auto. intros [|j] rj L; [lia|]. cbn. apply C.
  - right. split; [reflexivity|]. intros [|j] rj H; cbn in H; [injection H as <-; exact B|].
    assert (fst r < fst rj) by (apply (I 0%nat (S j)); auto; lia). lra.
Qed.

Theorem raw_spec t day i r : increasing t -> nth_error t i = Some r ->
  (i = 0%nat \/ fst r <= inject_Z day) -> (forall r', nth_error t (S i) = Some r' -> inject_Z day < fst r') ->
  raw_data t day = Ok (Qtrunc (snd r)).
Proof.
  intros I H A B. destruct t as [|r0 t0] eqn:Et; [destruct i; discriminate|]. cbn [raw_data]. rewrite <- Et in *. f_equal. f_equal.
  assert (H0 : nth_error t 0 = Some r0) by (rewrite Et; reflexivity).
  assert (N : forall j rj, (i < j)%nat -> nth_error t j = Some rj -> inject_Z day < fst rj).
  { intros j rj L Hj. destruct (Nat.eq_dec j (S i)) as [->|Nj]; [now apply B|].
    destruct (nth_error_ex t (S i)) as [r' Hr']; [apply nth_error_lt in Hj; lia|].
    assert (fst r' < fst rj) by (apply (I (S i) j); auto; lia). specialize (B r' Hr'). lra. }
  destruct (raw_loop_spec day t (snd r0) I) as [(k & rk & C & D & E & F)|(C & D)].
  - rewrite E. destruct (Nat.lt_trichotomy i k) as [L|[->|L]].
    + specialize (N k rk L C). lra.
    + congruence.
    + specialize (F i r L H). destruct A as [->|A]; [lia|]. lra.
  - rewrite C. destruct A as [->|A]; [congruence|]. specialize (D i r H). lra.
Qed.

(** ** The largest value up to a day *)

Lemma max_loop_ge days : forall t m, (m <= max_loop days m t)%Z.
Proof.
  induction t as [|r t IH]; intro m; cbn; [lia|]. destruct (m <? Qtrunc (snd r))%Z eqn:B; destruct (days <=? Qtrunc (fst r))%Z; try lia;
    eapply Z.le_trans; [|apply IH| |apply IH]; lia.
Qed.
Theorem max_loop_spec days : forall t m, increasing t ->
  (forall i r, nth_error t i = Some r -> (forall j rj, (j < i)%nat -> nth_error t j = Some rj -> (Qtrunc (fst rj) < days)%Z) ->
     (Qtrunc (snd r) <= max_loop days m t)%Z) /\
  (max_loop days m t = m \/ exists i r, nth_error t i = Some r /\ max_loop days m t = Qtrunc (snd r) /\
     forall j rj, (j < i)%nat -> nth_error t j = Some rj -> (Qtrunc (fst rj) < days)%Z).
Proof.
  induction t as [|r t IH]; intros m I; cbn [max_loop]; [split; [intros [|]; discriminate|now left]|].
  cbv zeta. set (m' := if (m <? Qtrunc (snd r))%Z then Qtrunc (snd r) else m).
  assert (M : (m' = m \/ m' = Qtrunc (snd r)) /\ (Qtrunc (snd r) <= m')%Z) by (unfold m'; destruct (m <? Qtrunc (snd r))%Z eqn:B; lia).
  clearbody m'. destruct M as [M1 M2]. destruct (days <=? Qtrunc (fst r))%Z eqn:D.
  - split.
    + intros [|i] ri H P; cbn in H; [injection H as <-; lia|]. specialize (P 0%nat r ltac:(lia) eq_refl). lia.
    + destruct M1 as [->| ->]; [now left|]. right. exists 0%nat, r. repeat split; auto. intros; lia.
  - destruct (IH m' (incr_tail _ _ I)) as [A B]. split.
    + intros [|i] ri H P; cbn in H.
      * injection H as <-. pose proof (max_loop_ge days t m'). lia.
      * apply (A i); auto. intros j rj L Hj. apply (P (S j)); auto. lia.
    + destruct B as [B|(i & ri & B1 & B2 & B3)].
      * rewrite B. destruct M1 as [->| ->]; [now left|]. right. exists 0%nat, r. repeat split; auto. intros; lia.
      * right. exists (S i), ri. repeat split; auto. intros [|j] rj L Hj; cbn in Hj; [injection Hj as <-; lia|]. apply (B3 j); auto. lia.
Qed.
