(** * DueProofs: lemmas for C76 *)

From Verif Require Import Base State Moving Crawling Flee InputGeography Api Lemmas SpecNetwork SpecColumns NetworkProofs ColumnProofs.
Local Open Scope string_scope.
Local Open Scope list_scope.

Lemma run_nil o e g : run o [] e g = Ok (e, g).
Proof. reflexivity. Qed.
Lemma run_cons' o S c h e g : run o ((S, c) :: h) e g = (st <- step o S c e g ;; run o h (fst st) (snd st)).
Proof. unfold run. cbn [foldM fst snd]. destruct (step o S c e g) as [[e1 g1]|]; reflexivity. Qed.

Lemma changes_due o S t g : forall rows e e',
  apply_changes S t rows e = Ok e' <-> exists calls, ordered S t rows calls /\ run o calls e g = Ok (e', g).
Proof.
  unfold apply_changes. induction rows as [|r rows IH]; intros e e'; cbn [foldM].
  - split.
    + intro H. injection H as <-. exists []. split; [constructor|reflexivity].
    + intros (calls & Hc & H). inversion Hc; subst. rewrite run_nil in H. now injection H as <-.
  - destruct r as [|a [|b [|day more]]]; cbn [cellv cell nth_error of_option bind].
    1-3: split; [discriminate|intros (calls & Hc & _); inversion Hc].
    destruct (parse_Z (sval day)) as [d|] eqn:Ed; cbn [of_option bind].
    2: split; [discriminate|intros (calls & Hc & _); inversion Hc; congruence].
    destruct (Z.eqb_spec d t) as [->|N].
    + split.
      * intro H. destruct (change_location_type S a (sval b) e) as [e1|] eqn:Ec; [|discriminate]. cbn [bind] in H.
        apply IH in H. destruct H as (calls & Hc & H). exists ((S, OChangeLocationType a (sval b)) :: calls).
        split; [now constructor|]. rewrite run_cons'. cbn [step]. rewrite Ec. cbn [bind fst snd]. exact H.
      * intros (calls & Hc & H). inversion Hc; subst; [|congruence]. rewrite run_cons' in H. cbn [step] in H.
        destruct (change_location_type S a (sval b) e) as [e1|] eqn:Ec; [|discriminate]. cbn [bind fst snd] in *. apply IH. eauto.
    + cbn [bind]. rewrite IH. split; intros (calls & Hc & H).
      * exists calls. split; [econstructor 3; eauto|exact H].
      * inversion Hc; subst; [congruence|]. eauto.
Qed.

Lemma changes_first o S f ig t e g e' g' :
  step o S (OAddNewConflictZones f ig t) e g = Ok (e', g') <->
  exists rows calls e1, ig_location_changes ig = Some rows /\ ordered S t rows calls /\ run o calls e g = Ok (e1, g) /\
    step o S (OAddNewConflictZones f (with_changes ig []) t) e1 g = Ok (e', g').
Proof.
  cbn [step]. unfold add_new_conflict_zones. cbn [with_changes ig_location_changes ig_locations ig_conflicts of_option bind].
  destruct (ig_location_changes ig) as [rows|]; cbn [of_option bind].
  2: split; [discriminate|intros (rows & calls & e1 & H & _); discriminate].
  assert (D : forall e1, apply_changes S t rows e = Ok e1 <-> exists calls, ordered S t rows calls /\ run o calls e g = Ok (e1, g)) by (intro; apply changes_due). split.
  - intro H. destruct (apply_changes S t rows e) as [e1|] eqn:Ea; [|discriminate]. clear Ea. destruct (proj1 (D e1) eq_refl) as (calls & O & R).
    exists rows, calls, e1. split; [reflexivity|]. split; [exact O|]. split; [exact R|]. cbn [apply_changes foldM bind]. exact H.
  - intros (rows' & calls & e1 & E & O & R & H). injection E as <-.
    assert (Ea : apply_changes S t rows e = Ok e1) by (apply D; eauto). rewrite Ea. exact H.
Qed.

(** The code looks at columns 4 and 5. *)
Lemma from_locations_none S t : forall locs, (forall r, In r locs -> exists c4, nth_error r 4 = Some c4 /\ str_in "conflict" (lower (sval c4)) = false) ->
  forall e, conflicts_from_locations S t locs e = Ok e.
Proof.
  unfold conflicts_from_locations. induction locs as [|r locs IH]; intros H e; [reflexivity|]. cbn [foldM].
  destruct (H r (or_introl eq_refl)) as (c4 & E & N). unfold cellv at 1, cell. rewrite E. cbn [of_option bind]. rewrite N. cbn [bind].
  apply IH. intros r' Hr. apply H. now right.
Qed.

Lemma dates_ignored o e g0 S factor ig changes g e1 g1 ig1 S' days :
  reachable o e g0 -> store_input S o factor ig changes e g = Ok (e1, g1, ig1) -> s_FloodRulesEnabled S' = false ->
  (forall rows t, ig_location_changes ig1 = Some rows -> In t days -> ordered S' t rows []) ->
  run o (map (fun t => (S', OAddNewConflictZones false ig1 t)) days) e1 g1 = Ok (e1, g1) /\
  forall n r, nth_error (ig_locations ig) n = Some r -> later_zone r ->
    exists l, nth_error (e_locations e1) (List.length (e_locations e) + n) = Some l /\ sval (l_name l) = sval (hd (PS "" 0) r) /\
      l_conflict l = (-1)%Q.
Proof.
  intros Hr H Fl Nc. destruct (network_stored _ _ _ _ _ _ _ _ _ _ _ Hr H) as
    (first & home & rss & links & rows & _ & _ & _ & _ & L & _ & _ & _ & _ & _ & _ & _ & Lc).
  assert (Hl : ig_locations ig1 = ig_locations ig).
  { unfold store_input in H. repeat rstep H. injection H as <- <- <-. reflexivity. }
  split.
  - clear L. assert (Q4 : forall r, In r (ig_locations ig) -> exists c4, nth_error r 4 = Some c4 /\ str_in "conflict" (lower (sval c4)) = false).
    { intros r Hin. apply In_nth_error in Hin. destruct Hin as [n Hn].
      destruct (network_stored _ _ _ _ _ _ _ _ _ _ _ Hr H) as (? & ? & ? & ? & ? & _ & _ & _ & _ & L & _).
      destruct (L n r Hn) as (l & attrs & _ & _ & F & _). destruct F as (c0 & c1 & c2 & c3 & c4 & c5 & c6 & c7 & more & t & p & -> & _ & _ & _ & _ & _ & Y & _).
      exists c4. split; [reflexivity|]. eapply cell_no_conflict; eauto. }
    induction days as [|t days IH]; [reflexivity|]. cbn [map]. rewrite run_cons'.
    assert (E : step o S' (OAddNewConflictZones false ig1 t) e1 g1 = Ok (e1, g1)).
    { apply changes_first. exists (filter (fun r => negb (skipped r)) changes), [], e1. split; [exact Lc|]. split; [apply Nc; [exact Lc|now left]|].
      split; [reflexivity|]. cbn [step]. unfold add_new_conflict_zones. cbn [with_changes ig_location_changes ig_locations of_option bind apply_changes foldM].
      rewrite Fl, Hl. rewrite (from_locations_none S' t _ Q4). reflexivity. }
    rewrite E. cbn [bind fst snd]. apply IH. intros rows' t' X Y. apply Nc; [exact X|now right].
  - intros n r Hn (d5 & d6 & day & E5 & E6 & Sc & Ed & Pd).
    destruct (L n r Hn) as (l & attrs & El & _ & F & _). exists l. split; [exact El|].
    destruct F as (c0 & c1 & c2 & c3 & c4 & c5 & c6 & c7 & more & t & p & -> & N0 & _ & _ & _ & _ & _ & T & Ty & _).
    cbn [nth_error] in E5, E6. injection E5 as <-. injection E6 as <-. split; [now rewrite N0|].
    unfold type_asked in T. cbn [says] in T. rewrite Sc in T. destruct T as (d & X & ->). assert (d = day) by congruence. subst d.
    apply Z.ltb_lt in Pd. rewrite Pd in Ty. apply (ty_peace _ _ _ _ _ Ty). discriminate.
Qed.
