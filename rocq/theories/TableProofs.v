(** * TableProofs: sums on common days, corrections, largest values and interpolated days *)

From Coq Require Import ZArith Lia Lqa.
From Verif Require Import Base Lemmas Dates SpecDates DateProofs DataTable SpecData DataProofs DataFiles SpecFiles FileProofs AddProofs.
Local Open Scope Q_scope.
Local Open Scope list_scope.

(** ** Sums *)

Lemma same_fold : forall (s2 s1 p1 out : series) (last : option (Q * Q)), List.length s1 = List.length s2 ->
  (forall i r1 r2, nth_error s1 i = Some r1 -> nth_error s2 i = Some r2 -> fst r1 == fst r2) ->
  exists off l, foldM (add_step (p1 ++ s1)) s2 (out, List.length p1, last) =
    Ok (out ++ map (fun x => (fst (snd x), snd (snd x) + snd (fst x))) (combine s1 s2), off, l).
Proof.
  intros s2. induction s2 as [|c s2 IH]; intros [|r s1] p1 out last Hl Hd; try discriminate; cbn [foldM combine map].
  - rewrite !app_nil_r. eauto.
  - assert (fst r == fst c) as E by (apply (Hd 0%nat); reflexivity).
    assert (nth_error (p1 ++ r :: s1) (List.length p1) = Some r) as Hn.
    { rewrite nth_error_app2 by lia. rewrite Nat.sub_diag. reflexivity. }
    unfold add_step at 1. cbn [add_while]. unfold table_row. rewrite Hn. cbn [of_option bind].
    assert (Qltb (fst r) (fst c) = false) as -> by (apply Qltb_false; lra). cbn [bind]. rewrite Hn. cbn [of_option bind].
    assert (Qeqb (fst c) (fst r) = true) as -> by (apply Qeqb_true; lra). cbn [bind fst snd].
    assert (forall i r1 r2, nth_error s1 i = Some r1 -> nth_error s2 i = Some r2 -> fst r1 == fst r2) as Hd'.
    { intros i r1 r2 H1 H2. apply (Hd (S i)); assumption. }
    destruct (Nat.ltb_spec (S (List.length p1)) (List.length (p1 ++ r :: s1))) as [H|H].
    + destruct (IH s1 (p1 ++ [r]) (out ++ [(fst c, snd c + snd r)]) (Some c) ltac:(injection Hl; auto) Hd') as [off [l E']].
      rewrite app_length in E'. cbn [List.length] in E'. rewrite Nat.add_1_r in E'. rewrite <- !app_assoc in E'. cbn [app] in E'.
      exists off, l. exact E'.
    + rewrite app_length in H. cbn in H. destruct s1; cbn in H; [|lia]. destruct s2; [|discriminate]. cbn [foldM combine map]. eauto.
Qed.

Theorem same_sums : forall t1 t2, same_days t1 t2 -> exists t, add_csv_tables t1 t2 = Ok t /\ same_days t1 t /\
  forall i r1 r2 r, nth_error t1 i = Some r1 -> nth_error t2 i = Some r2 -> nth_error t i = Some r -> snd r == snd r1 + snd r2.
Proof.
  intros t1 t2 [Hl Hd]. unfold add_csv_tables. destruct (same_fold t2 t1 [] [] None Hl Hd) as [off [l E]]. cbn [app List.length] in E.
  unfold series in *. rewrite E. cbn [bind]. eexists. split; [reflexivity|].
  assert (forall i r1 r2 r, nth_error t1 i = Some r1 -> nth_error t2 i = Some r2 ->
    nth_error (map (fun x => (fst (snd x), snd (snd x) + snd (fst x))) (combine t1 t2)) i = Some r -> r = (fst r2, snd r2 + snd r1)) as G.
  { intros i r1 r2 r H1 H2 H. rewrite nth_error_map in H. assert (nth_error (combine t1 t2) i = Some (r1, r2)) as C.
    { clear - H1 H2. revert t1 t2 H1 H2. induction i as [|i IH]; intros [|a t1] [|b t2] H1 H2; cbn in *; try discriminate; [congruence|auto]. }
    rewrite C in H. cbn in H. congruence. }
  split.
  - split; [rewrite map_length, combine_length; lia|]. intros i r1 r H1 H. destruct (nth_error t2 i) as [r2|] eqn:E2.
    + rewrite (G i r1 r2 r H1 E2 H). cbn. apply (Hd i); assumption.
    + apply nth_error_None in E2. assert (i < List.length t1)%nat by (apply nth_error_Some; congruence). lia.
  - intros i r1 r2 r H1 H2 H. rewrite (G i r1 r2 r H1 H2 H). cbn. lra.
Qed.

Theorem earlier_start : forall t1 t2 x y, nth_error t1 0 = Some x -> nth_error t2 0 = Some y -> fst x < fst y ->
  add_csv_tables t1 t2 = Err IndexError.
Proof.
  intros [|x t1] [|y t2] x' y' H1 H2 H; try discriminate. injection H1 as ->. injection H2 as ->.
  unfold add_csv_tables. cbn [foldM]. unfold add_step at 1. cbn [add_while]. unfold table_row at 1. cbn [nth_error of_option bind].
  apply Qltb_true in H. rewrite H. reflexivity.
Qed.

(** ** Corrections *)

Lemma trunc_whole : forall q z, q == inject_Z z -> Qtrunc q = z.
Proof.
  intros q z H. rewrite (Qtrunc_compat _ _ H). apply (whole_unique (inject_Z z)); [apply Qtrunc_whole|].
  unfold whole. destruct (Z.le_ge_cases 0 z) as [L|L]; rewrite Zle_Qle in L; change (inject_Z 0) with 0 in L; [left|right]; lra.
Qed.

Lemma scale_spec : forall t k q, (k <= List.length t)%nat -> scaled_before k q t (scale_before k q t).
Proof.
  intros t k q Hk. unfold scale_before, scaled_before. split.
  - rewrite app_length, map_length, firstn_length, skipn_length. lia.
  - intros i r Hr. assert (i < List.length t)%nat by (apply nth_error_Some; congruence). destruct (Nat.ltb_spec i k) as [H'|H'].
    + rewrite nth_error_app1 by (rewrite map_length, firstn_length; lia). rewrite nth_error_map.
      assert (nth_error (firstn k t) i = Some r) as ->; [|reflexivity].
      clear - Hr H'. revert i t Hr H'. induction k as [|k IH]; intros [|i] [|y t] Hr H'; cbn in *; try discriminate; try lia; auto. apply IH; [exact Hr|lia].
    + rewrite nth_error_app2 by (rewrite map_length, firstn_length; lia). rewrite map_length, firstn_length, nth_skipn.
      replace (k + (i - Nat.min k (List.length t)))%nat with i by lia. exact Hr.
Qed.
Lemma nth_all : forall (A : Type) (l l' : list A), (forall i, nth_error l i = nth_error l' i) -> l = l'.
Proof.
  intros A l. induction l as [|x l IH]; intros [|y l'] H; try reflexivity; try (specialize (H 0%nat); discriminate).
  f_equal; [specialize (H 0%nat); cbn in H; congruence|]. apply IH. intros i. apply (H (S i)).
Qed.
Lemma scaled_det : forall k q t t1 t2, scaled_before k q t t1 -> scaled_before k q t t2 -> t1 = t2.
Proof.
  intros k q t t1 t2 [L1 H1] [L2 H2]. apply nth_all. intros i. destruct (nth_error t i) as [r|] eqn:E.
  - rewrite (H1 i r E), (H2 i r E). reflexivity.
  - apply nth_error_None in E. rewrite (proj2 (nth_error_None t1 i)) by lia. rewrite (proj2 (nth_error_None t2 i)) by lia. reflexivity.
Qed.
Lemma upd_nth : forall (A : Type) (f : A -> A) l i j, nth_error (upd i f l) j = if Nat.eqb j i then option_map f (nth_error l j) else nth_error l j.
Proof. intros A f l. induction l as [|x l IH]; intros [|i] [|j]; cbn; try reflexivity; try (destruct (Nat.eqb j i); reflexivity). apply IH. Qed.
Lemma upd_len : forall (A : Type) (f : A -> A) l i, List.length (upd i f l) = List.length l.
Proof. intros A f l. induction l as [|x l IH]; intros [|i]; cbn; auto. Qed.
Lemma with_column_iff : forall i t t' d d', nth_error (d_tables d) i = Some t ->
  (with_column i t' d d' <-> d' = DTable (d_header d) (upd i (fun _ => t') (d_tables d)) (d_start_empty d) (d_day0 d)).
Proof.
  intros i t t' d d' Ht. split.
  - intros [H1 [H2 [H3 [H4 H5]]]]. destruct d' as [h ts e z]. cbn in *. subst. f_equal. apply nth_all. intros j. rewrite H5, upd_nth.
    destruct (Nat.eqb_spec j i) as [->|N]; [rewrite Ht|]; reflexivity.
  - intros ->. unfold with_column. cbn. repeat split; [apply upd_len|]. intros j. rewrite upd_nth. destruct (Nat.eqb_spec j i) as [->|N]; [rewrite Ht|]; reflexivity.
Qed.

Definition right_row (days : Z) (t : series) (i : nat) : Prop := exists r, nth_error t i = Some r /\ fst r == inject_Z days.

Lemma loop_none : forall days pop0 is_ t ratio, whole_days t -> (forall i, In i is_ -> (i < List.length t)%nat) ->
  (forall i, In i is_ -> ~ right_row days t i) ->
  level1_loop days pop0 is_ t ratio = (q <- of_option UnboundLocalError ratio ;; Ok (t, q)).
Proof.
  intros days pop0 is_. induction is_ as [|i is_ IH]; intros t ratio Hw Hb Hn; cbn [level1_loop]; [reflexivity|].
  destruct (nth_error t i) as [r|] eqn:E; [|apply nth_error_None in E; specialize (Hb i (or_introl eq_refl)); lia].
  unfold table_row at 1. rewrite E. cbn [of_option bind].
  assert ((Qtrunc (fst r) =? days)%Z = false) as ->.
  { apply Z.eqb_neq. intros K. apply (Hn i (or_introl eq_refl)). exists r. split; [exact E|].
    destruct (Hw r (nth_error_In _ _ E)) as [n Hr]. rewrite (trunc_whole _ _ Hr) in K. subst. exact Hr. }
  apply IH; [exact Hw| |]; intros j Hj; [apply Hb|apply Hn]; right; exact Hj.
Qed.

Lemma loop_app : forall days pop0 a b t ratio,
  whole_days t -> (forall i, In i a -> (i < List.length t)%nat) -> (forall i, In i a -> ~ right_row days t i) ->
  level1_loop days pop0 (a ++ b) t ratio = level1_loop days pop0 b t ratio.
Proof.
  intros days pop0 a. induction a as [|i a IH]; intros b t ratio Hw Hb Hn; [reflexivity|]. cbn [app level1_loop].
  destruct (nth_error t i) as [r|] eqn:E; [|apply nth_error_None in E; specialize (Hb i (or_introl eq_refl)); lia].
  unfold table_row at 1. rewrite E. cbn [of_option bind].
  assert ((Qtrunc (fst r) =? days)%Z = false) as ->.
  { apply Z.eqb_neq. intros K. apply (Hn i (or_introl eq_refl)). exists r. split; [exact E|].
    destruct (Hw r (nth_error_In _ _ E)) as [n Hr]. rewrite (trunc_whole _ _ Hr) in K. subst. exact Hr. }
  apply IH; [exact Hw| |]; intros j Hj; [apply Hb|apply Hn]; right; exact Hj.
Qed.

Lemma right_unique : forall days t i j, increasing t -> right_row days t i -> right_row days t j -> i = j.
Proof.
  intros days t i j Hi [a [Ha Ea]] [b [Hb Eb]]. destruct (Nat.lt_trichotomy i j) as [H|[H|H]]; [|exact H|].
  - pose proof (Hi i j a b Ha Hb H). lra.
  - pose proof (Hi j i b a Hb Ha H). lra.
Qed.

Lemma scaled_days : forall k q t i, (k <= List.length t)%nat -> option_map fst (nth_error (scale_before k q t) i) = option_map fst (nth_error t i).
Proof.
  intros k q t i Hk. destruct (scale_spec t k q Hk) as [L H]. destruct (nth_error t i) as [r|] eqn:E.
  - rewrite (H i r E). destruct (i <? k)%nat; reflexivity.
  - apply nth_error_None in E. rewrite (proj2 (nth_error_None _ i)) by lia. reflexivity.
Qed.

Lemma days_kept : forall t t', (forall i, option_map fst (nth_error t' i) = option_map fst (nth_error t i)) ->
  (increasing t -> increasing t') /\ (whole_days t -> whole_days t').
Proof.
  intros t t' H. split.
  - intros Hi i j ri rj H1 H2 Hl. pose proof (H i) as Ei. pose proof (H j) as Ej. rewrite H1 in Ei. rewrite H2 in Ej.
    destruct (nth_error t i) as [a|] eqn:Ea; [|discriminate]. destruct (nth_error t j) as [b|] eqn:Eb; [|discriminate].
    cbn in *. injection Ei as ->. injection Ej as ->. apply (Hi i j); assumption.
  - intros Hw r Hr. apply In_nth_error in Hr. destruct Hr as [i Hi]. pose proof (H i) as Ei. rewrite Hi in Ei.
    destruct (nth_error t i) as [a|] eqn:Ea; [|discriminate]. cbn in Ei. injection Ei as ->. apply Hw, (nth_error_In _ _ Ea).
Qed.

Lemma in_row : forall (t : series) i, In i (seq 0 (List.length t)) -> (i < List.length t)%nat.
Proof. intros t i H. apply in_seq in H. lia. Qed.

Lemma row_dec : forall days t, {i | (i < List.length t)%nat /\ right_row days t i} + {forall i, (i < List.length t)%nat -> ~ right_row days t i}.
Proof.
  intros days t. induction t as [|r t IH].
  - right. intros i H. cbn in H. lia.
  - destruct (Qeq_dec (fst r) (inject_Z days)) as [E|N].
    + left. exists 0%nat. split; [cbn; lia|]. exists r. auto.
    + destruct IH as [[i [Hi Hr]]|Hn].
      * left. exists (S i). split; [cbn; lia|]. exact Hr.
      * right. intros [|i] Hi [x [Hx Ex]]; cbn in *; [congruence|]. apply (Hn i ltac:(lia)). exists x. auto.
Qed.

Lemma loop_iff : forall days p t t' q, increasing t -> whole_days t ->
  (level1_loop days p (seq 0 (List.length t)) t None = Ok (t', q) <->
   exists k a b, nth_error t k = Some a /\ nth_error t (S k) = Some b /\ fst b == inject_Z days /\ 1 <= snd a + p /\
     q = (snd b + p) / (snd a + p) /\ scaled_before (S k) q t t').
Proof.
  intros days p t t' q Hi Hw. destruct (row_dec days t) as [[i [Hl Hr]]|Hn].
  - replace (seq 0 (List.length t)) with (seq 0 i ++ i :: seq (S i) (List.length t - S i)).
    2: { replace (i :: seq (S i) (List.length t - S i)) with (seq i (S (List.length t - S i))) by reflexivity.
         rewrite <- seq_app with (start := 0%nat). f_equal. lia. }
    rewrite loop_app; [|exact Hw|intros j Hj; apply in_seq in Hj; lia|].
    2: { intros j Hj K. apply in_seq in Hj. pose proof (right_unique days t i j Hi Hr K). lia. }
    pose proof Hr as [r [Er Dr]]. cbn [level1_loop]. unfold table_row at 1. rewrite Er. cbn [of_option bind].
    rewrite (trunc_whole _ _ Dr), Z.eqb_refl. destruct i as [|k].
    + rewrite loop_none; [|exact Hw|intros j Hj; apply in_seq in Hj; lia|].
      2: { intros j Hj K. apply in_seq in Hj. pose proof (right_unique days t 0%nat j Hi Hr K). lia. }
      cbn [of_option bind]. split; [discriminate|]. intros [k [a [b [Ha [Hb [Db _]]]]]].
      assert (right_row days t (S k)) as K by (exists b; auto). pose proof (right_unique days t 0%nat (S k) Hi Hr K). discriminate.
    + destruct (nth_error t k) as [a|] eqn:Ea; [|apply nth_error_None in Ea; lia]. unfold table_row. rewrite Ea. cbn [of_option bind].
      destruct (Qltb (snd a + p) 1) eqn:Eq.
      * apply Qltb_true in Eq. split; [discriminate|]. intros [k' [a' [b' [Ha [Hb [Db [Hge _]]]]]]].
        assert (right_row days t (S k')) as K by (exists b'; auto). pose proof (right_unique days t (S k) (S k') Hi Hr K) as E. injection E as <-.
        assert (a' = a) by congruence. subst. lra.
      * apply Qltb_false in Eq. pose proof (scaled_days (S k) ((snd r + p) / (snd a + p)) t) as Hs.
        destruct (days_kept t (scale_before (S k) ((snd r + p) / (snd a + p)) t) (fun j => Hs j ltac:(lia))) as [Hi' Hw'].
        rewrite loop_none; [|auto| |].
        2: { intros j Hj. apply in_seq in Hj. rewrite (proj1 (scale_spec t (S k) _ ltac:(lia))). lia. }
        2: { intros j Hj [x [Hx Dx]]. apply in_seq in Hj. pose proof (Hs j ltac:(lia)) as Ej. rewrite Hx in Ej.
             destruct (nth_error t j) as [y|] eqn:Ey; [|discriminate]. cbn in Ej. injection Ej as Ej.
             assert (right_row days t j) as K by (exists y; split; [exact Ey|rewrite <- Ej; exact Dx]).
             pose proof (right_unique days t (S k) j Hi Hr K). lia. }
        cbn [of_option bind]. split.
        -- intros H. injection H as <- <-. exists k, a, r. repeat (split; [assumption || reflexivity|]). apply scale_spec. lia.
        -- intros [k' [a' [b' [Ha [Hb [Db [Hge [-> Hs']]]]]]]].
           assert (right_row days t (S k')) as K by (exists b'; auto). pose proof (right_unique days t (S k) (S k') Hi Hr K) as E. injection E as <-.
           assert (a' = a) by congruence. assert (b' = r) by congruence. subst. f_equal. f_equal. apply (scaled_det _ _ _ _ _ (scale_spec t (S k) _ ltac:(lia)) Hs').
  - rewrite loop_none; [|exact Hw|apply in_row|].
    2: { intros j Hj. apply Hn, in_row, Hj. }
    cbn [of_option bind]. split; [discriminate|]. intros [k [a [b [Ha [Hb [Db _]]]]]]. exfalso. apply (Hn (S k)).
    + apply nth_error_Some. congruence.
    + exists b. auto.
Qed.

Lemma day0_reg : forall d name p, registered_day0 d name p <-> p = day0_get name d.
Proof.
  intros d name p. unfold registered_day0, day0_get. destruct (dict_get name (d_day0 d)) as [z|].
  - split; [intros [H|[H _]]; congruence|intros ->; auto].
  - split; [intros [H|[_ H]]; [discriminate|exact H]|intros ->; auto].
Qed.

Theorem corrected_iff : forall start name date d d' q, days_ok d ->
  (correct_level1_text start d name date = Ok (d', q) <-> corrected start name date d d' q).
Proof.
  intros start name date d d' q [Hl Hok]. unfold correct_level1_text, correct_level1, corrected. split.
  - intros H. destruct (find_header name (d_header d) 0) as [i|] eqn:Eh; [|discriminate]. cbn [bind] in H.
    destruct (subtract_dates date start) as [n|] eqn:Es; [|discriminate]. cbn [bind] in H.
    destruct (nth_error (d_tables d) i) as [t|] eqn:Et; [|discriminate]. cbn [of_option bind] in H.
    apply header_first in Eh. apply subtract_iff in Es. destruct Es as [d1 [d0 [C1 [W1 [C0 [W0 A]]]]]].
    assert (increasing t /\ whole_days t) as [Hi Hw] by (rewrite Forall_forall in Hok; apply Hok, (nth_error_In _ _ Et)).
    exists i, t, d0, d1, n, (day0_get name d). repeat (split; [assumption || (apply day0_reg; reflexivity)|]).
    destruct (Z.ltb_spec n 0) as [Hn|Hn].
    + left. injection H as <- <-. auto.
    + right. split; [exact Hn|]. destruct (level1_loop _ _ _ _ _) as [[t' q']|] eqn:E; [|discriminate]. cbn [bind] in H. injection H as <- <-.
      apply (loop_iff _ _ _ _ _ Hi Hw) in E. destruct E as [k [a [b [Ha [Hb [Db [Hge [Hq Hs]]]]]]]].
      exists k, a, b, t'. repeat (split; [assumption|]). apply (with_column_iff i t t' d); [exact Et|reflexivity].
  - intros [i [t [d0 [d1 [n [p [Hf [Et [Hp [C0 [W0 [C1 [W1 [A H]]]]]]]]]]]]]]. apply day0_reg in Hp. subst p.
    rewrite (proj2 (header_first d name i) Hf). cbn [bind].
    rewrite (proj2 (subtract_iff date start n)) by (exists d1, d0; tauto). cbn [bind]. rewrite Et. cbn [of_option bind].
    assert (increasing t /\ whole_days t) as [Hi Hw] by (rewrite Forall_forall in Hok; apply Hok, (nth_error_In _ _ Et)).
    destruct H as [[Hn [-> ->]]|[Hn [k [a [b [t' [Ha [Hb [Db [Hge [Hq [Hs Hc]]]]]]]]]]]].
    + apply Z.ltb_lt in Hn. rewrite Hn. reflexivity.
    + apply Z.ltb_ge in Hn. rewrite Hn.
      rewrite (proj2 (loop_iff n (inject_Z (day0_get name d)) t t' q Hi Hw)) by (exists k, a, b; auto 10). cbn [bind].
      apply (with_column_iff i t t' d d' Et) in Hc. rewrite Hc. reflexivity.
Qed.

Lemma corrected_days : forall start name date d d' q, days_ok d -> corrected start name date d d' q -> days_ok d'.
Proof.
  intros start name date d d' q [Hl Hok] [i [t [d0 [d1 [n [p [Hf [Et [Hp [C0 [W0 [C1 [W1 [A H]]]]]]]]]]]]]].
  destruct H as [[_ [-> _]]|[_ [k [a [b [t' [Ha [Hb [_ [_ [_ [Hs [H1 [_ [_ [H4 H5]]]]]]]]]]]]]]]]; [split; assumption|].
  split; [congruence|]. rewrite Forall_forall in *. intros x Hx. apply In_nth_error in Hx. destruct Hx as [j Hj]. rewrite H5 in Hj.
  destruct (Nat.eqb_spec j i) as [Eji|N]; [|apply Hok, (nth_error_In _ _ Hj)]. injection Hj as <-. clear Eji j.
  destruct (Hok t (nth_error_In _ _ Et)) as [Hi Hw]. destruct Hs as [L Hs]. destruct (days_kept t t') as [G1 G2]; [|auto].
  intros j. destruct (nth_error t j) as [r|] eqn:E.
  - rewrite (Hs j r E). destruct (j <? S k)%nat; reflexivity.
  - apply nth_error_None in E. rewrite (proj2 (nth_error_None _ j)) by lia. reflexivity.
Qed.

Theorem corrections_iff : forall start rows d d', days_ok d ->
  (read_corrections start (Some rows) d = Ok d' <-> corrections start rows d d').
Proof.
  intros start rows. unfold read_corrections. induction rows as [|r rs IH]; intros d d' Hok; cbn [foldM].
  - split; [intros H; injection H as <-; constructor|intros H; inversion H; reflexivity].
  - unfold correction_row at 1. destruct (Nat.ltb_spec 1 (List.length r)) as [Hl|Hl].
    + destruct r as [|name [|date more]]; cbn in Hl; try lia. cbn [nth_error of_option bind]. split.
      * intros H. destruct (correct_level1_text start d name date) as [[d1 q]|] eqn:E; [|discriminate]. cbn [bind] in H.
        apply (corrected_iff start name date d d1 q Hok) in E. econstructor; [exact E|]. apply IH; [|exact H]. eapply corrected_days; eauto.
      * intros H. inversion H; subst; [cbn in *; lia|].
        match goal with C : corrected _ _ _ _ _ _ |- _ => rewrite (proj2 (corrected_iff start name date d d1 q Hok) C); pose proof (corrected_days _ _ _ _ _ _ Hok C) end.
        cbn [bind]. apply IH; assumption.
    + cbn [bind]. rewrite (IH d d' Hok). split; [intros H; apply Short_row; [lia|exact H]|]. intros H. inversion H; subst; [assumption|]. cbn in Hl. lia.
Qed.

Theorem continuous : forall start name date d d' q t k a b a' i,
  corrected start name date d d' q -> registered_day0 d name 0 -> first_column d name i -> nth_error (d_tables d) i = Some t ->
  increasing t -> nth_error t k = Some a -> nth_error t (S k) = Some b ->
  (exists d0 d1 n, (0 <= n)%Z /\ civil d0 /\ written start d0 /\ civil d1 /\ written date d1 /\ days_apart d0 n d1 /\ fst b == inject_Z n) ->
  (exists t', nth_error (d_tables d') i = Some t' /\ nth_error t' k = Some a') -> snd a' == snd b.
Proof.
  intros start name date d d' q t k a b a' i [j [u [e0 [e1 [m [p [Hf [Et [Hp [C0 [W0 [C1 [W1 [A H]]]]]]]]]]]]]] Hp0 Hfi Eti Hi Ha Hb
    [d0 [d1 [n [Hn [D0 [V0 [D1 [V1 [B Db]]]]]]]]] [t' [Et' Ha']].
  apply day0_reg in Hp, Hp0. assert (p = 0%Z) by congruence. clear Hp Hp0. subst p.
  apply header_first in Hf, Hfi. assert (j = i) by congruence. subst j. assert (u = t) by congruence. subst u.
  assert (e0 = d0) by (eapply written_once; eauto). assert (e1 = d1) by (eapply written_once; eauto). subst.
  assert (m = n) as ->.
  { assert (subtract_dates date start = Ok m) as E1 by (apply subtract_iff; exists d1, d0; tauto).
    assert (subtract_dates date start = Ok n) as E2 by (apply subtract_iff; exists d1, d0; tauto). congruence. }
  destruct H as [[Hm _]|[_ [k' [x [y [v [Hx [Hy [Dy [Hge [-> [[_ Hs] [_ [_ [_ [_ Hc]]]]]]]]]]]]]]]]; [lia|].
  assert (S k' = S k) as E. { apply (right_unique n t (S k') (S k) Hi); [exists y|exists b]; auto. } injection E as ->.
  assert (x = a) by congruence. assert (y = b) by congruence. subst. rewrite Hc, Nat.eqb_refl in Et'. injection Et' as ->.
  rewrite (Hs k a Ha) in Ha'. rewrite (proj2 (Nat.ltb_lt k (S k))) in Ha' by lia. injection Ha' as <-. cbn [snd].
  change (inject_Z 0) with 0 in *. rewrite !Qplus_0_r in *. field. lra.
Qed.

(** ** Largest value *)

Lemma max_spec : forall days t m, whole_days t ->
  (m <= max_loop days m t)%Z /\
  (forall k r, nth_error t k = Some r -> counted t days k -> (Qtrunc (snd r) <= max_loop days m t)%Z) /\
  (max_loop days m t = m \/ exists k r, nth_error t k = Some r /\ counted t days k /\ max_loop days m t = Qtrunc (snd r)).
Proof.
  intros days t. induction t as [|r t IH]; intros m Hw; cbn [max_loop].
  - split; [lia|]. split; [intros [|k] r H; discriminate|auto].
  - set (m' := if (m <? Qtrunc (snd r))%Z then Qtrunc (snd r) else m).
    assert (m <= m' /\ Qtrunc (snd r) <= m' /\ (m' = m \/ m' = Qtrunc (snd r)))%Z as [Hm [Hr Hor]].
    { unfold m'. destruct (Z.ltb_spec m (Qtrunc (snd r))); lia. }
    assert (counted (r :: t) days 0) as H0 by (intros j x Hj; lia).
    destruct (Hw r (or_introl eq_refl)) as [n Hn]. rewrite (trunc_whole _ _ Hn).
    destruct (Z.leb_spec days n) as [Hd|Hd].
    + split; [exact Hm|]. split.
      * intros [|k] x Hx Hc; [injection Hx as <-; exact Hr|]. pose proof (Hc 0%nat r ltac:(lia) eq_refl) as K. rewrite Hn in K. rewrite <- Zlt_Qlt in K. lia.
      * destruct Hor as [H|H]; [left; exact H|]. right. exists 0%nat, r. auto.
    + assert (whole_days t) as Hw' by (intros x Hx; apply Hw; right; exact Hx). destruct (IH m' Hw') as [I1 [I2 I3]].
      split; [lia|]. split.
      * intros [|k] x Hx Hc; [injection Hx as <-; lia|]. apply (I2 k x Hx). intros j y Hj Hy. apply (Hc (S j) y); [lia|exact Hy].
      * assert (fst r < inject_Z days) as Hlt by (rewrite Hn, <- Zlt_Qlt; exact Hd).
        destruct I3 as [I3|[k [x [Hx [Hc I3]]]]].
        -- destruct Hor as [H|H]; [left; congruence|]. right. exists 0%nat, r. split; [reflexivity|]. split; [exact H0|congruence].
        -- right. exists (S k), x. split; [exact Hx|]. split; [|exact I3]. intros [|j] y Hj Hy; [injection Hy as <-; exact Hlt|]. apply (Hc j y); [lia|exact Hy].
Qed.

Theorem max_ok : forall d name days i t, days_ok d -> first_column d name i -> nth_error (d_tables d) i = Some t ->
  exists m, get_max_from_data d name days = Ok m /\ (0 <= m)%Z /\
    (forall k r z, nth_error t k = Some r -> counted t days k -> whole (snd r) z -> (z <= m)%Z) /\
    (m = 0%Z \/ exists k r, nth_error t k = Some r /\ counted t days k /\ whole (snd r) m).
Proof.
  intros d name days i t [_ Hok] Hf Et. unfold get_max_from_data. rewrite (proj2 (header_first d name i) Hf). cbn [bind]. rewrite Et. cbn [of_option bind].
  rewrite Forall_forall in Hok. destruct (Hok t (nth_error_In _ _ Et)) as [_ Hw]. destruct (max_spec days t 0 Hw) as [H1 [H2 H3]].
  eexists. split; [reflexivity|]. split; [exact H1|]. split.
  - intros k r z Hk Hc Hz. rewrite (whole_unique _ _ _ Hz (Qtrunc_whole (snd r))). apply (H2 k r Hk Hc).
  - destruct H3 as [H3|[k [r [Hk [Hc H3]]]]]; [left; exact H3|]. right. exists k, r. split; [exact Hk|]. split; [exact Hc|]. rewrite H3. apply Qtrunc_whole.
Qed.

(** ** Interpolated days *)

Lemma series_found : forall t day, increasing t -> whole_days t ->
  match series_interpolated t day with
  | Some false => exists r, In r t /\ fst r == inject_Z day
  | _ => forall r, In r t -> ~ fst r == inject_Z day
  end.
Proof.
  intros t day. induction t as [|r t IH]; intros Hi Hw; cbn [series_interpolated]; [intros r []|].
  destruct (Hw r (or_introl eq_refl)) as [n Hn]. rewrite (trunc_whole _ _ Hn).
  destruct (Z.eqb_spec day n) as [->|N]; [exists r; split; [left; reflexivity|exact Hn]|].
  destruct (Z.ltb_spec day n) as [Hl|Hl].
  - intros x Hx E. destruct Hx as [<-|Hx].
    + rewrite Hn in E. apply (proj1 (inject_Z_injective _ _)) in E. congruence.
    + apply In_nth_error in Hx. destruct Hx as [i Hx]. pose proof (Hi 0%nat (S i) r x eq_refl Hx ltac:(lia)) as K.
      rewrite E, Hn, <- Zlt_Qlt in K. lia.
  - specialize (IH (incr_tail _ _ Hi) ltac:(intros x Hx; apply Hw; right; exact Hx)).
    assert (~ fst r == inject_Z day) as Hr by (intros E; rewrite Hn in E; apply (proj1 (inject_Z_injective _ _)) in E; congruence).
    destruct (series_interpolated t day) as [[|]|].
    + intros x [<-|Hx]; [exact Hr|apply IH, Hx].
    + destruct IH as [x [Hx E]]. exists x. split; [right; exact Hx|exact E].
    + intros x [<-|Hx]; [exact Hr|apply IH, Hx].
Qed.

Lemma interp_none : forall h ts name day, ~ In name h -> is_interpolated_loop h ts name day = Ok true.
Proof.
  induction h as [|n h IH]; intros ts name day Hn; cbn; [reflexivity|].
  destruct (String.eqb_spec n name) as [->|N]; [exfalso; apply Hn; left; reflexivity|]. apply IH. intros K. apply Hn. right. exact K.
Qed.

Theorem interpolated_iff : forall d name day i t, days_ok d -> NoDup (d_header d) -> first_column d name i -> nth_error (d_tables d) i = Some t ->
  exists b, is_interpolated d name day = Ok b /\ (b = false <-> exists r, In r t /\ fst r == inject_Z day).
Proof.
  intros d name day i t [_ Hok] Hnd [Hn _] Et. unfold is_interpolated. rewrite Forall_forall in Hok.
  destruct (Hok t (nth_error_In _ _ Et)) as [Hi Hw]. clear Hok. revert i Hn Et Hnd. generalize (d_tables d) as ts. induction (d_header d) as [|n h IH]; intros ts i Hn Et Hnd; [destruct i; discriminate|].
  inversion Hnd; subst. cbn [is_interpolated_loop]. destruct (String.eqb_spec n name) as [->|N].
  - destruct i as [|i]; [|exfalso; apply H1; apply (nth_error_In h i Hn)]. destruct ts as [|t0 ts]; [discriminate|]. injection Et as ->.
    pose proof (series_found t day Hi Hw) as Hs. destruct (series_interpolated t day) as [[|]|].
    + exists true. split; [reflexivity|]. split; [discriminate|]. intros [r [Hr E]]. exfalso. apply (Hs r Hr E).
    + exists false. split; [reflexivity|]. split; [auto|reflexivity].
    + rewrite interp_none by assumption. exists true. split; [reflexivity|]. split; [discriminate|]. intros [r [Hr E]]. exfalso. apply (Hs r Hr E).
  - destruct i as [|i]; [injection Hn as ->; congruence|]. destruct ts as [|t0 ts]; [discriminate|]. apply (IH ts i); assumption.
Qed.

Theorem interpolated_unknown : forall d name day, ~ In name (d_header d) -> is_interpolated d name day = Ok true.
Proof. intros d name day H. apply interp_none, H. Qed.
