(** * MapProofs: the lists for drawing a map, for C90 *)

From Coq Require Import Lia.
From Verif Require Import Base State InputGeography Lemmas Schedule MapLists SpecMap.
Local Open Scope string_scope.
Local Open Scope list_scope.

Lemma cellv_some l i s : cellv l i = Ok s <-> option_map sval (nth_error l i) = Some s.
Proof. unfold cellv, cell. destruct (nth_error l i) as [c|]; cbn; split; intro H; congruence. Qed.
Lemma set_new {A} k (v : A) d : ~ In k (map fst d) -> dict_set k v d = d ++ [(k, v)].
Proof.
  induction d as [|[k' v'] d IH]; [reflexivity|]. cbn [map fst dict_set]. intro N. destruct (String.eqb_spec k k') as [->|].
  - exfalso; apply N; now left.
  - cbn [app]. rewrite IH; [reflexivity|]. intro H. apply N. now right.
Qed.

Definition place_step (d : list (string * (Q * Q))) (l : row) : res (list (string * (Q * Q))) :=
  n <- cellv l 0 ;; c3 <- cellv l 3 ;; x <- of_option ValueError (parse_Q c3) ;;
  c4 <- cellv l 4 ;; y <- of_option ValueError (parse_Q c4) ;; Ok (dict_set n (x, y) d).
Lemma place_step_says d l d' : place_step d l = Ok d' -> exists n x y, says_place l n x y /\ d' = dict_set n (x, y) d.
Proof.
  unfold place_step. intro H. rstep H. rstep H. rstep H. rstep H. rstep H. injection H as <-.
  apply of_option_ok in E1, E3. apply cellv_some in E, E0, E2. exists v, v1, v3. split; [|reflexivity].
  split; [exact E|]. split; eexists; split; eassumption.
Qed.
Lemma says_step d l n x y : says_place l n x y -> place_step d l = Ok (dict_set n (x, y) d).
Proof.
  intros (A & (sx & B & C) & (sy & D & E)). unfold place_step.
  rewrite (proj2 (cellv_some _ _ _) A), (proj2 (cellv_some _ _ _) B), (proj2 (cellv_some _ _ _) D). cbn [bind].
  rewrite C, E. reflexivity.
Qed.

Definition entry (l : row) (p : string * (Q * Q)) : Prop := says_place l (fst p) (fst (snd p)) (snd (snd p)).
Lemma places_loop ls : forall d d', foldM place_step ls d = Ok d' -> names_differ ls ->
  (forall l, In l ls -> forall n, option_map sval (nth_error l 0) = Some n -> ~ In n (map fst d)) ->
  exists new, d' = d ++ new /\ Forall2 entry ls new.
Proof.
  induction ls as [|l ls IH]; intros d d' H N F; [injection H as <-; exists []; rewrite app_nil_r; split; [reflexivity|constructor]|].
  cbn [foldM] in H. rstep H. apply place_step_says in E as (n & x & y & Sy & ->). inversion N as [|? ? N1 N2]; subst.
  assert (Fr : ~ In n (map fst d)) by (apply (F l (or_introl eq_refl)); apply Sy). rewrite (set_new n (x, y) d Fr) in H.
  destruct (IH _ _ H N2) as (new & -> & B).
  - intros l' L' n' E' I. rewrite map_app in I. apply in_app_or in I as [I|[I|[]]].
    + exact (F l' (or_intror L') n' E' I).
    + cbn [fst] in I. subst n'. apply N1, in_map_iff. exists l'. split; [|exact L']. destruct Sy as (E0 & _). transitivity (Some n); [exact E'|symmetry; exact E0].
  - exists ((n, (x, y)) :: new). rewrite <- app_assoc. split; [reflexivity|]. constructor; [exact Sy|exact B].
Qed.
Theorem location_list ig d : make_location_list ig = Ok d -> names_differ (ig_locations ig) -> Forall2 entry (ig_locations ig) d.
Proof.
  intros H N. change (foldM place_step (ig_locations ig) [] = Ok d) in H.
  destruct (places_loop _ _ _ H N) as (new & -> & B); [intros l _ n _ []|exact B].
Qed.
Theorem location_list_exists ig : (exists d, make_location_list ig = Ok d) <-> Forall (fun l => exists n x y, says_place l n x y) (ig_locations ig).
Proof.
  change (make_location_list ig) with (foldM place_step (ig_locations ig) []). generalize (@nil (string * (Q * Q))) as d0.
  induction (ig_locations ig) as [|l ls IH]; intro d0; [split; [constructor|intros _; exists d0; reflexivity]|].
  cbn [foldM]. split.
  - intros [d H]. rstep H. apply place_step_says in E as (n & x & y & Sy & ->). constructor; [eauto|]. eapply IH. eauto.
  - intro F. inversion F as [|? ? (n & x & y & Sy) F']; subst. rewrite (says_step d0 _ _ _ _ Sy). cbn [bind]. apply IH, F'.
Qed.
Theorem colours ig cs : make_location_colors ig = Ok cs -> Forall2 (fun l c => exists t, says_type l t /\ c = colour t) (ig_locations ig) cs.
Proof.
  unfold make_location_colors. intro H. apply mapM_Forall2 in H. clear -H. induction H as [|l c ls cs E _ IH]; constructor; [|exact IH]. rstep E. injection E as <-.
  apply cellv_some in E0. exists v. split; [exact E0|reflexivity].
Qed.
Theorem colour_row t c : In (t, c) colour_table -> forall s, lower s = t -> colour s = c.
Proof.
  intros I s E. unfold colour. rewrite E. cbn in I.
  repeat (destruct I as [I|I]; [injection I as <- <-; reflexivity|]). destruct I.
Qed.
Theorem colour_conflict s : str_in "conflict" (lower s) = true -> colour s = "red".
Proof.
  intro C. unfold colour. destruct (String.eqb_spec (lower s) "camp") as [E|_]; [rewrite E in C; discriminate|]. rewrite C. reflexivity.
Qed.
Theorem colour_other s : str_in "conflict" (lower s) = false -> ~ In (lower s) (map fst colour_table) -> colour s = "black".
Proof.
  intros C N. unfold colour. rewrite C.
  repeat (match goal with |- context[String.eqb ?a ?b] => destruct (String.eqb_spec a b) as [E|_]; [exfalso; apply N; rewrite E; cbn; tauto|] end).
  reflexivity.
Qed.

Lemma two_lengths {A B} (R : A -> B -> Prop) l l' : Forall2 R l l' -> List.length l = List.length l'.
Proof. induction 1; cbn [List.length]; congruence. Qed.

Theorem same_order ig d cs : make_location_list ig = Ok d -> make_location_colors ig = Ok cs -> names_differ (ig_locations ig) ->
  List.length d = List.length (ig_locations ig) /\ List.length cs = List.length (ig_locations ig) /\
  forall i l, nth_error (ig_locations ig) i = Some l -> exists n x y t, says_place l n x y /\ says_type l t /\
    nth_error d i = Some (n, (x, y)) /\ nth_error cs i = Some (colour t).
Proof.
  intros H K N. pose proof (location_list _ _ H N) as A. pose proof (colours _ _ K) as B.
  split; [symmetry; eapply two_lengths; exact A|]. split; [symmetry; eapply two_lengths; exact B|].
  clear H K N. revert d cs A B. induction (ig_locations ig) as [|l0 ls IH]; intros d cs A B [|i] l L; try discriminate;
    inversion A; inversion B; subst.
  - injection L as <-. destruct y as [n [x y]].
    match goal with E : entry _ _, X : exists t, _ |- _ => destruct X as (t & X & ->); exists n, x, y, t; repeat split; try exact X; try reflexivity; apply E end.
  - cbn [nth_error] in *. eapply IH; eassumption.
Qed.
