(** * CombinedProofs: what the combined output is, for C89 *)

From Coq Require Import Lia Lqa.
From Verif Require Import Base Lemmas CombinedOutput SpecCombined.
Local Open Scope string_scope.
Local Open Scope list_scope.

Lemma last_some {A} (l : list A) : forall x, last (map Some (l ++ [x])) None = Some x.
Proof. intro x. rewrite map_app. cbn [map]. apply last_last. Qed.
Lemma split_last {A} (l : list A) : l <> [] -> exists l' x, l = l' ++ [x].
Proof. intro H. destruct (exists_last H) as (l' & x & E). eauto. Qed.

Theorem sum_is_last fs f : sum_output fs = Ok f -> exists before, fs = before ++ [f].
Proof.
  unfold sum_output. intro H. rstep H. rstep H. apply of_option_ok in H. destruct fs as [|f0 fs]; [discriminate|].
  destruct (split_last (f0 :: fs)) as (l & x & Ex); [discriminate|]. rewrite Ex, last_some in H. injection H as ->. eauto.
Qed.

Lemma position_in c cols : In c cols -> exists i, position c cols = Some i /\ (i < List.length cols)%nat.
Proof.
  induction cols as [|x cols IH]; [intros []|]. intro I. cbn [position List.length]. destruct (String.eqb_spec x c) as [->|N].
  - exists 0%nat. split; [reflexivity|lia].
  - destruct I as [I|I]; [contradiction|]. destruct (IH I) as (i & -> & L). exists (Datatypes.S i). split; [reflexivity|lia].
Qed.
Lemma cell_some cols f r c : well_formed cols f -> In r (f_rows f) -> In c cols -> exists q, cell f c r = Some q.
Proof.
  intros (Ec & _ & F) R C. rewrite Forall_forall in F. specialize (F r R). unfold cell. rewrite Ec.
  destruct (position_in c cols C) as (i & -> & L). destruct (nth_error r i) as [q|] eqn:E; [eauto|].
  apply nth_error_None in E. lia.
Qed.
Lemma lines_some cols fs line c : Forall (well_formed cols) fs -> In line (all_lines fs) -> In c cols -> exists q, line c = Some q.
Proof.
  intros F L C. apply in_flat_map in L as (f & Hf & L). apply in_map_iff in L as (r & <- & R).
  rewrite Forall_forall in F. eapply cell_some; eauto.
Qed.
Lemma columns_same cols fs : Forall (well_formed cols) fs -> forall c, In c (all_columns fs) -> In c cols.
Proof.
  intros F c H. apply nodup_In, in_flat_map in H as (f & Hf & H). rewrite Forall_forall in F. destruct (F f Hf) as (<- & _). exact H.
Qed.
Lemma somes_in l q : In q (somes l) <-> In (Some q) l.
Proof.
  unfold somes. rewrite in_flat_map. split.
  - intros ([x|] & H & I); [destruct I as [->|[]]; exact H|destruct I].
  - intro H. exists (Some q). split; [exact H|now left].
Qed.
Lemma mapM_unit {A} (f : A -> res unit) l : (forall a, In a l -> f a = Ok tt) -> exists us, mapM f l = Ok us.
Proof.
  induction l as [|a l IH]; intro H; [eexists; reflexivity|]. cbn [mapM]. rewrite (H a) by now left. cbn [bind].
  destruct IH as [us ->]; [intros; apply H; now right|]. eexists. reflexivity.
Qed.

Theorem sum_succeeds cols fs : fs <> [] -> Forall (well_formed cols) fs -> exists f, sum_output fs = Ok f.
Proof.
  intros N F. unfold sum_output, group_means. destruct fs as [|f0 fs0]; [contradiction|]. remember (f0 :: fs0) as fs eqn:Efs.
  assert (D : existsb (String.eqb "Day") (all_columns fs) = true).
  { apply existsb_exists. exists "Day". split; [|reflexivity]. apply nodup_In, in_flat_map. exists f0. subst fs. split; [now left|].
    inversion F as [|? ? (E & I & _) _]; subst. exact I. }
  rewrite D. cbn [bind].
  match goal with |- context[mapM to_int ?l] => destruct (mapM_unit to_int l) as [us ->] end.
  - intros [c ms] H. apply in_map_iff in H as (c' & E & H). injection E as -> <-. apply filter_In in H as [H _].
    unfold to_int. cbn [fst snd]. destruct (str_in "error" (lower c)); [reflexivity|].
    replace (forallb _ _) with true; [reflexivity|]. symmetry. apply forallb_forall. intros m Hm.
    apply in_map_iff in Hm as (d & <- & Hd). apply somes_in, in_map_iff in Hd as (line & Ed & Hl).
    unfold group_mean. destruct (lines_some cols fs line c F Hl (columns_same _ _ F c H)) as [q Eq].
    destruct (somes (map (fun line0 => line0 c) (filter (is_day d) (all_lines fs)))) as [|v vs] eqn:Es; [|reflexivity].
    assert (X : In q (somes (map (fun line0 => line0 c) (filter (is_day d) (all_lines fs))))).
    { apply somes_in, in_map_iff. exists line. split; [exact Eq|]. apply filter_In. split; [exact Hl|].
      unfold is_day. rewrite Ed. apply Qeqb_true. reflexivity. }
    rewrite Es in X. destruct X.
  - cbn [bind]. destruct (split_last fs N) as (l & x & ->). rewrite last_some. eexists. reflexivity.
Qed.

Theorem sum_writes_last cols before f : Forall (well_formed cols) (before ++ [f]) -> sum_output (before ++ [f]) = Ok f.
Proof.
  intro F. destruct (sum_succeeds cols (before ++ [f])) as [g G]; [destruct before; discriminate|exact F|].
  rewrite G. destruct (sum_is_last _ _ G) as (b & E). apply app_inj_tail in E as [_ ->]. reflexivity.
Qed.

Theorem sum_of_agreeing fs f d c v : sum_output fs = Ok f -> (forall f', In f' fs -> f' = f) ->
  value_on f d c v -> is_mean fs d c v.
Proof.
  intros _ A V. exists (map (fun _ => v) fs). split.
  - induction fs as [|f' fs IH]; [constructor|]. cbn [map]. constructor; [|apply IH; intros; apply A; now right].
    rewrite (A f') by now left. exact V.
  - clear A. rewrite map_length. induction fs as [|f' fs IH]; [cbn [map List.length sumQ]; change (inject_Z (Z.of_nat 0)) with 0%Q; ring|]. cbn [map List.length sumQ].
    rewrite <- IH, Nat2Z.inj_succ. unfold Z.succ. rewrite inject_Z_plus. change (inject_Z 1) with 1%Q. ring.
Qed.
Theorem mean_unique fs d c m n : Forall one_per_day fs -> fs <> [] -> is_mean fs d c m -> is_mean fs d c n -> (m == n)%Q.
Proof.
  intros O N (vs & V & M) (ws & W & K).
  assert (E : (sumQ vs == sumQ ws)%Q /\ List.length vs = List.length ws /\ List.length vs = List.length fs).
  { clear M K N. revert vs ws V W. induction fs as [|f fs IH]; intros vs ws V W; inversion V; inversion W; subst; [repeat split; reflexivity|].
    inversion O as [|? ? O1 O2]; subst.
    match goal with A : value_on f d c ?x, B : value_on f d c ?y, C : Forall2 _ fs ?l, D : Forall2 _ fs ?l' |- _ =>
      destruct (IH O2 _ _ C D) as (E1 & E2 & E3); pose proof (O1 _ _ _ _ A B) as E4 end.
    cbn [sumQ List.length]. repeat split; [rewrite E1, E4; reflexivity|lia|lia]. }
  destruct E as (E1 & E2 & E3). rewrite <- E2, <- E1, <- M in K.
  assert (P : (0 < inject_Z (Z.of_nat (List.length vs)))%Q).
  { rewrite E3. destruct fs; [contradiction|]. cbn [List.length]. rewrite Nat2Z.inj_succ. change 0%Q with (inject_Z 0). rewrite <- Zlt_Qlt. lia. }
  symmetry. apply (Qmult_inj_r n m (inject_Z (Z.of_nat (List.length vs)))); [lra|exact K].
Qed.

Lemma so_far_well cols tk : well_formed cols (fst tk) -> well_formed cols (so_far tk).
Proof.
  intros (E & D & F). split; [exact E|]. split; [exact D|]. cbn [so_far f_rows]. apply Forall_forall. intros r R.
  rewrite Forall_forall in F. apply F. rewrite <- (firstn_skipn (snd tk) (f_rows (fst tk))). apply in_or_app. now left.
Qed.
Theorem sum_early cols before t k : Forall (fun tk => well_formed cols (fst tk)) (before ++ [(t, k)]) ->
  sum_output (map so_far (before ++ [(t, k)])) = Ok (Frame (f_columns t) (firstn k (f_rows t))).
Proof.
  intro F. rewrite map_app. cbn [map]. change (so_far (t, k)) with (Frame (f_columns t) (firstn k (f_rows t))).
  apply (sum_writes_last cols). apply Forall_app in F as [F1 F2]. apply Forall_app. split.
  - apply Forall_map. eapply Forall_impl; [|exact F1]. intros a Ha. now apply so_far_well.
  - inversion F2 as [|? ? F3 _]; subst. constructor; [|constructor]. exact (so_far_well cols (t, k) F3).
Qed.
