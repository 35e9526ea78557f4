(** * PeriodProofs: the simulation period *)

From Coq Require Import ZArith Lia.
From Verif Require Import Base Lemmas Dates SpecDates.
Local Open Scope string_scope.
Local Open Scope list_scope.

Lemma setting_cons_other : forall key r rows v0 v, (forall k, nth_error r 0 = Some k -> lower k <> key) ->
  last_setting key rows v0 v -> last_setting key (r :: rows) v0 v.
Proof.
  intros key r rows v0 v Hr H. destruct H as [H|a k v more b -> Hk H].
  - apply Not_set. intros r' k [<-|Hin] Hn; [apply Hr, Hn|eapply H; eauto].
  - apply (Set_last key _ v0 (r :: a) k v more b); auto.
Qed.
Lemma setting_cons_here : forall key k w more rows v0 v, lower k = key ->
  last_setting key rows w v -> last_setting key ((k :: w :: more) :: rows) v0 v.
Proof.
  intros key k w more rows v0 v Hk H. destruct H as [H|a k' v more' b -> Hk' H].
  - apply (Set_last key _ v0 [] k w more rows); auto.
  - apply (Set_last key _ v0 ((k :: w :: more) :: a) k' v more' b); auto.
Qed.

Lemma period_fold : forall rows s0 n0 s n, foldM read_period_row rows (s0, n0) = Ok (s, n) ->
  last_setting "startdate" rows s0 s /\
  (last_setting "length" rows "" "" /\ n = n0 /\ (forall r k, In r rows -> nth_error r 0 = Some k -> lower k <> "length") \/
   exists v, last_setting "length" rows "" v /\ parse_Z v = Some n).
Proof.
  induction rows as [|r rows IH]; intros s0 n0 s n H; cbn [foldM] in H.
  - injection H as <- <-. split; [apply Not_set; intros r k []|]. left. split; [apply Not_set; intros r k []|]. split; [reflexivity|]. intros r k [].
  - unfold read_period_row at 1 in H. destruct (nth_error r 0) as [k|] eqn:Ek; [|discriminate]. cbn [of_option bind] in H.
    destruct r as [|k0 r]; [discriminate|]. injection Ek as ->.
    destruct (String.eqb_spec (lower k) "startdate") as [E1|N1].
    + destruct (nth_error (k :: r) 1) as [v|] eqn:Ev; [|discriminate]. cbn [of_option bind snd] in H.
      destruct r as [|v0 r]; [discriminate|]. injection Ev as ->.
      assert (lower k <> "length") as N2 by congruence. destruct (String.eqb_spec (lower k) "length") as [E2|_]; [contradiction|].
      cbn [bind] in H. apply IH in H. destruct H as [H1 H2]. split; [apply setting_cons_here; assumption|].
      assert (forall k', nth_error (k :: v :: r) 0 = Some k' -> lower k' <> "length") as Ho by (intros k' K; injection K as <-; exact N2).
      destruct H2 as [[H2 [-> H3]]|[w [H2 H3]]]; [left|right].
      * split; [apply setting_cons_other; assumption|]. split; [reflexivity|]. intros r' k' [<-|Hin] Hn; [apply Ho, Hn|eapply H3; eauto].
      * exists w. split; [apply setting_cons_other; assumption|exact H3].
    + cbn [bind] in H. assert (forall k', nth_error (k :: r) 0 = Some k' -> lower k' <> "startdate") as Ho1 by (intros k' K; injection K as <-; exact N1).
      destruct (String.eqb_spec (lower k) "length") as [E2|N2].
      * destruct (nth_error (k :: r) 1) as [v|] eqn:Ev; [|discriminate]. cbn [of_option bind fst] in H.
        destruct r as [|v0 r]; [discriminate|]. injection Ev as ->. destruct (parse_Z v) as [m|] eqn:Em; [|discriminate]. cbn [of_option bind] in H.
        apply IH in H. destruct H as [H1 H2]. split; [apply setting_cons_other; assumption|]. right.
        destruct H2 as [[_ [-> H3]]|[w [H2 H3]]].
        -- exists v. split; [|exact Em]. apply (Set_last "length" _ "" [] k v r rows); auto.
        -- exists w. split; [|exact H3]. apply setting_cons_here; [exact E2|]. destruct H2 as [H2|a k' w more' b -> Hk' H2].
           ++ exfalso. cbn in H3. discriminate.
           ++ apply (Set_last "length" _ v a k' w more' b); auto.
      * cbn [bind] in H. apply IH in H. destruct H as [H1 H2]. split; [apply setting_cons_other; assumption|].
        assert (forall k', nth_error (k :: r) 0 = Some k' -> lower k' <> "length") as Ho by (intros k' K; injection K as <-; exact N2).
        destruct H2 as [[H2 [-> H3]]|[w [H2 H3]]]; [left|right].
        -- split; [apply setting_cons_other; assumption|]. split; [reflexivity|]. intros r' k' [<-|Hin] Hn; [apply Ho, Hn|eapply H3; eauto].
        -- exists w. split; [apply setting_cons_other; assumption|exact H3].
Qed.

Theorem period_ok : forall rows s n, read_sim_period rows = Ok (s, n) ->
  last_setting "startdate" rows "" s /\ exists v, last_setting "length" rows "0" v /\ parse_Z v = Some n.
Proof.
  intros rows s n H. apply period_fold in H. destruct H as [H1 H2]. split; [exact H1|].
  destruct H2 as [[_ [-> H]]|[v [H H']]].
  - exists "0". split; [apply Not_set; exact H|reflexivity].
  - exists v. split; [|exact H']. destruct H as [H|a k v more b -> Hk H]; [discriminate|]. apply (Set_last "length" _ "0" a k v more b); auto.
Qed.
