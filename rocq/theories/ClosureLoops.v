(** * ClosureLoops: closing and reopening borders and locations *)

From Coq Require Import Lia Permutation.
From Verif Require Import Base State Moving Crawling Flee SpecAgents SpecRoutes SpecClosures Lemmas Inv InvMoves InvStruct Closures.

(** ** Closing and reopening are the same movement between two stores *)

Definition froms (m : chmode) (e : eco) (i : nat) : list link := match m with MClose => opens e i | MReopen => closeds e i end.
Definition tos (m : chmode) (e : eco) (i : nat) : list link := match m with MClose => closeds e i | MReopen => opens e i end.
Definition ids (m : chmode) (l : location) : list nat := match m with MClose => l_links l | MReopen => l_closed_links l end.
Definition act (m : chmode) (s t : pystr) (e : eco) : res (eco * bool) :=
  match m with MClose => close_link s t false e | MReopen => reopen_link s t false e end.

Lemma froms_ids m e i l : nth_error (e_locations e) i = Some l -> froms m e i = roads e (ids m l).
Proof. intro H. destruct m; unfold froms, opens, closeds, ids; now rewrite H. Qed.
Lemma valid_ids m e i l : Inv e -> nth_error (e_locations e) i = Some l -> valid e (ids m l).
Proof. intros I H. destruct m; [eapply inv_valid_links|eapply inv_valid_store]; eauto using i_struct. Qed.
Lemma froms_end m e i k : Inv e -> In k (froms m e i) -> (k_endpoint k < List.length (e_locations e))%nat.
Proof. intros I. destruct m; [apply opens_end|apply closeds_end]; now apply i_struct. Qed.

Lemma froms_id m e i l ki : Inv e -> nth_error (e_locations e) i = Some l -> In ki (ids m l) ->
  exists k, nth_error (e_links e) ki = Some k /\ In (norm k) (froms m e i).
Proof.
  intros I H Hin. destruct (nth_error_ex _ _ (valid_ids m e i l I H ki Hin)) as [k K]. exists k. split; [assumption|].
  rewrite (froms_ids _ _ _ _ H). unfold roads. apply in_flat_map. exists ki. split; [assumption|]. rewrite K. now left.
Qed.

(** Location [x] has given the roads [f] from one store to the other. *)
Record Moved (m : chmode) (e e' : eco) (x : nat) (f : link -> bool) : Prop := {
  mv_rest : same_but_links e e';
  mv_froms : froms m e' x = filter (not f) (froms m e x);
  mv_tos : Permutation (tos m e' x) (tos m e x ++ filter f (froms m e x));
  mv_others : forall j, j <> x -> froms m e' j = froms m e j /\ tos m e' j = tos m e j }.

Lemma act_ok m s t e : Inv e -> e_locations e <> [] -> exists e' b, act m s t e = Ok (e', b).
Proof. intros I N. destruct m; [apply remove_ok|apply reopen_ok]; auto using i_struct. Qed.

Lemma act_inv m s t e e' b : Inv e -> act m s t e = Ok (e', b) -> Inv e'.
Proof. intros I H. destruct m; [exact (inv_close_link _ _ _ _ _ _ I H)|exact (inv_reopen_link _ _ _ _ _ _ I H)]. Qed.

Lemma act_spec m s t e e' b : Inv e -> act m s t e = Ok (e', b) ->
  Moved m e e' (convert_name e s) (to_object e t) /\ b = existsb (to_object e t) (froms m e (convert_name e s)) /\
  tos m e' (convert_name e s) = tos m e (convert_name e s) ++ filter (to_object e t) (froms m e (convert_name e s)).
Proof.
  intros I H. destruct m; cbn [act froms tos] in *.
  - destruct (remove_spec _ _ _ _ _ _ (i_struct _ I) H) as [[A B C D] E]. split; [|now split].
    split; cbn [froms tos]; auto. now rewrite C.
  - destruct (reopen_spec _ _ _ _ _ (i_struct _ I) H) as [[A B C D] E]. split; [|now split].
    split; cbn [froms tos]; auto; [now rewrite B|]. intros j Hj. destruct (D j Hj); auto.
Qed.

Lemma filter_ext_in' {A} (f g : A -> bool) l : (forall a, In a l -> f a = g a) -> filter f l = filter g l.
Proof.
  induction l as [|a l IH]; intro H; [reflexivity|]. cbn. rewrite (H a) by now left.
  rewrite IH by (intros; apply H; now right). reflexivity.
Qed.
Lemma existsb_ext_in {A} (f g : A -> bool) l : (forall a, In a l -> f a = g a) -> existsb f l = existsb g l.
Proof.
  induction l as [|a l IH]; intro H; [reflexivity|]. cbn. rewrite (H a) by now left.
  rewrite IH by (intros; apply H; now right). reflexivity.
Qed.
Lemma filter_filter {A} (f g : A -> bool) l : filter f (filter g l) = filter (fun a => (g a && f a)%bool) l.
Proof. induction l as [|a l IH]; [reflexivity|]. cbn. destruct (g a); cbn; [destruct (f a)|]; now rewrite IH. Qed.
Lemma filter_all {A} (f : A -> bool) l : (forall a, In a l -> f a = true) -> filter f l = l.
Proof. induction l as [|a l IH]; intro H; [reflexivity|]. cbn. rewrite (H a) by now left. f_equal. apply IH. intros; apply H; now right. Qed.
Lemma filter_none {A} (f : A -> bool) l : (forall a, In a l -> f a = false) -> filter f l = [].
Proof. induction l as [|a l IH]; intro H; [reflexivity|]. cbn. rewrite (H a) by now left. apply IH. intros; apply H; now right. Qed.
Lemma filter_split {A} (f : A -> bool) l : Permutation l (filter (not f) l ++ filter f l).
Proof.
  induction l as [|a l IH]; [apply perm_nil|]. cbn. unfold not at 1. destruct (f a); cbn.
  - transitivity (a :: (filter (not f) l ++ filter f l)); [now constructor|apply Permutation_middle].
  - now constructor.
Qed.

Lemma perm_filter {A} (f : A -> bool) l l' : Permutation l l' -> Permutation (filter f l) (filter f l').
Proof.
  induction 1; cbn; auto.
  - destruct (f x); auto.
  - destruct (f x), (f y); auto. apply perm_swap.
  - etransitivity; eauto.
Qed.
Lemma filter_split2 {A} (f g : A -> bool) l : (forall a, g a = true -> f a = true) ->
  Permutation (filter f l) (filter g l ++ filter f (filter (not g) l)).
Proof.
  intro GF. transitivity (filter f (filter (not g) l ++ filter g l)); [apply perm_filter, filter_split|].
  rewrite filter_app, Permutation_app_comm. apply Permutation_app_tail.
  rewrite filter_filter. erewrite filter_ext; [reflexivity|]. intro a. cbn. specialize (GF a). destruct (g a); cbn; auto.
Qed.

(** Same as [act_spec] for a location and its own name object, under distinct names *)
Lemma act_place m e e' b i li p lp : Inv e -> distinct_names e ->
  nth_error (e_locations e) i = Some li -> nth_error (e_locations e) p = Some lp ->
  act m (l_name li) (l_name lp) e = Ok (e', b) ->
  Moved m e e' i (to_place p) /\ b = existsb (to_place p) (froms m e i) /\
  tos m e' i = tos m e i ++ filter (to_place p) (froms m e i).
Proof.
  intros I D Hi Hp H. destruct (act_spec _ _ _ _ _ _ I H) as ([A B C E] & F & G).
  rewrite (convert_own _ _ _ D Hi) in *.
  assert (X : forall k, In k (froms m e i) -> to_object e (l_name lp) k = to_place p k).
  { intros k Hk. apply object_place; auto. eapply froms_end; eauto. }
  assert (Y : forall k, In k (froms m e i) -> not (to_object e (l_name lp)) k = not (to_place p) k).
  { intros k Hk. unfold not. now rewrite X. }
  rewrite (filter_ext_in' _ _ _ X) in *. rewrite (filter_ext_in' _ _ _ Y) in B. rewrite (existsb_ext_in _ _ _ X) in F.
  split; [now split|]. now split.
Qed.

Lemma moved_join m a b c x f g : (forall k, g k = true -> f k = true) ->
  Moved m a b x g -> Moved m b c x f -> Moved m a c x f.
Proof.
  intros GF [A1 A2 A3 A4] [B1 B2 B3 B4]. split.
  - eapply sbl_trans; eauto.
  - rewrite B2, A2, filter_filter. apply filter_ext. intro k. unfold not. specialize (GF k).
    destruct (g k), (f k); cbn; auto.
  - rewrite B3, A3, A2, <- app_assoc. apply Permutation_app_head. symmetry. now apply filter_split2.
  - intros j Hj. destruct (A4 j Hj), (B4 j Hj). split; congruence.
Qed.

Lemma moved_refl m e x f : (forall k, In k (froms m e x) -> f k = false) -> Moved m e e x f.
Proof.
  intro H. split; [apply sbl_refl| | |auto].
  - rewrite filter_all; [reflexivity|]. intros k Hk. unfold not. now rewrite H.
  - rewrite filter_none by assumption. now rewrite app_nil_r.
Qed.

Lemma moved_ext m e e' x f g : (forall k, In k (froms m e x) -> f k = g k) -> Moved m e e' x f -> Moved m e e' x g.
Proof.
  intros H [A B C D]. split; auto.
  - rewrite B. apply filter_ext_in'. intros k Hk. unfold not. now rewrite H.
  - now rewrite C, (filter_ext_in' _ _ _ H).
Qed.

(** ** One location of a border *)

Lemma to_country_ext e e' c : same_but_links e e' -> forall k, to_country e' c k = to_country e c k.
Proof. intros H k. unfold to_country. now rewrite (sbl_country _ _ _ H). Qed.

Lemma firstn_filter_keep {A} (f : A -> bool) j l : (forall a, In a (firstn j l) -> f a = true) ->
  firstn j (filter f l) = firstn j l.
Proof.
  revert j. induction l as [|a l IH]; intros j H; [reflexivity|]. destruct j as [|j]; [reflexivity|].
  cbn [firstn] in *. rewrite filter_true by (apply H; now left). cbn [firstn]. f_equal. apply IH. intros; apply H; now right.
Qed.

Lemma In_firstn_S {A} (l : list A) j a x : nth_error l j = Some x -> In a (firstn (Datatypes.S j) l) -> In a (firstn j l) \/ a = x.
Proof.
  revert j. induction l as [|b l IH]; intros j H Hin; [destruct j; discriminate|].
  destruct j as [|j]; cbn in *.
  - injection H as ->. destruct Hin as [<-|[]]. now right.
  - destruct Hin as [<-|Hin]; [left; now left|]. destruct (IH j H Hin); auto.
Qed.

Lemma border_loop_spec fuel dest m i : forall j e e' l,
  Inv e -> distinct_names e -> nth_error (e_locations e) i = Some l ->
  (forall k, In k (firstn j (froms m e i)) -> to_country e dest k = false) ->
  change_border_loop fuel dest m i (l_name l) (ids m l) j e = Ok e' ->
  Inv e' /\ Moved m e e' i (to_country e dest).
Proof.
  induction fuel as [|fuel IH]; intros j e e' l I D Hl Hj H; cbn [change_border_loop] in H;
    (destruct (nth_error (ids m l) j) as [ki|] eqn:Ej;
     [|injection H as <-; split; [assumption|]; apply moved_refl; intros k Hk; apply Hj; rewrite firstn_all2; [exact Hk|];
       rewrite (froms_ids _ _ _ _ Hl), roads_length by (eapply valid_ids; eauto); now apply nth_error_None]); [discriminate|].
  rstep H. rename v into k. unfold link_of in E. apply of_option_ok in E. rstep H. rename v into ep.
  unfold endpoint_of, loc_of in E0. apply of_option_ok in E0.
  assert (Kj : nth_error (froms m e i) j = Some (norm k)).
  { rewrite (froms_ids _ _ _ _ Hl), roads_nth by (eapply valid_ids; eauto). now rewrite Ej, E. }
  assert (Ct : to_country e dest (norm k) = String.eqb (l_country ep) dest).
  { unfold to_country, country_at. rewrite norm_endpoint, E0. reflexivity. }
  destruct (String.eqb (l_country ep) dest) eqn:Ed.
  - rstep H. destruct v as [e1 hit]. assert (Ha : act m (l_name l) (l_name ep) e = Ok (e1, hit)) by (destruct m; exact E1).
    clear E1. pose proof (act_inv _ _ _ _ _ _ I Ha) as I1.
    destruct (act_place _ _ _ _ _ _ _ _ I D Hl E0 Ha) as (Mv & Hh & _).
    assert (hit = true) as ->.
    { rewrite Hh. apply existsb_exists. exists (norm k). split; [eapply nth_error_In; eauto|]. unfold to_place. apply Nat.eqb_refl. }
    rstep H. rename v into l1. unfold loc_of in E1. apply of_option_ok in E1.
    pose proof (mv_rest _ _ _ _ _ Mv) as Sb.
    assert (Nm : l_name l1 = l_name l).
    { pose proof (sbl_view l_name e e1 i (fun l => eq_refl) Sb) as V. rewrite E1, Hl in V. cbn in V. congruence. }
    assert (GF : forall q, to_place (k_endpoint k) q = true -> to_country e dest q = true).
    { intros q Hq. unfold to_place in Hq. apply Nat.eqb_eq in Hq. unfold to_country, country_at in *. rewrite norm_endpoint, E0 in Ct.
      rewrite Hq, E0. exact Ed. }
    rewrite <- Nm in H. change (match m with MClose => l_links l1 | MReopen => l_closed_links l1 end) with (ids m l1) in H.
    destruct (IH j e1 e' l1 I1 (sbl_distinct _ _ Sb D) E1) as [I' Mv'].
    + intros q Hq. rewrite (to_country_ext _ _ _ Sb). rewrite (mv_froms _ _ _ _ _ Mv), firstn_filter_keep in Hq; [auto|].
      intros q' Hq'. unfold not. specialize (Hj q' Hq'). destruct (to_place (k_endpoint k) q') eqn:Eq; [|reflexivity].
      apply GF in Eq. congruence.
    + exact H.
    + split; [assumption|]. eapply moved_join; [|exact Mv|].
      * exact GF.
      * eapply moved_ext; [|exact Mv']. intros q _. apply (to_country_ext _ _ _ Sb).
  - destruct (IH (Datatypes.S j) e e' l I D Hl) as [I' Mv']; [|exact H|split; assumption].
    intros q Hq. destruct (In_firstn_S _ _ _ _ Kj Hq) as [ | -> ]; [now apply Hj|exact Ct].
Qed.

(** ** All locations of a border *)

(** Each location [i] has given the roads [f i] from one store to the other. *)
Record AllMoved (m : chmode) (e e' : eco) (f : nat -> link -> bool) : Prop := {
  am_rest : same_but_links e e';
  am_froms : forall i, froms m e' i = filter (not (f i)) (froms m e i);
  am_tos : forall i, Permutation (tos m e' i) (tos m e i ++ filter (f i) (froms m e i)) }.

Lemma all_none m e f : (forall i k, In k (froms m e i) -> f i k = false) -> AllMoved m e e f.
Proof.
  intro H. split; [apply sbl_refl| |]; intro i; destruct (moved_refl m e i (f i) (H i)); auto.
Qed.
Lemma all_join m a b c f g : AllMoved m a b f -> AllMoved m b c g -> AllMoved m a c (fun i k => (f i k || g i k)%bool).
Proof.
  intros [A1 A2 A3] [B1 B2 B3]. split; [eapply sbl_trans; eauto| |]; intro i.
  - rewrite B2, A2, filter_filter. apply filter_ext. intro k. unfold not. now destruct (f i k), (g i k).
  - rewrite B3, A3, A2, <- app_assoc. apply Permutation_app_head. symmetry.
    rewrite (filter_split2 (fun k => (f i k || g i k)%bool) (f i)) by (intros k ->; reflexivity).
    apply Permutation_app_head. rewrite !filter_filter. erewrite filter_ext; [reflexivity|].
    intro k. unfold not. cbn. now destruct (f i k).
Qed.
Lemma all_ext m e e' f g : (forall i k, In k (froms m e i) -> f i k = g i k) -> AllMoved m e e' f -> AllMoved m e e' g.
Proof.
  intros H [A B C]. split; auto; intro i.
  - rewrite B. apply filter_ext_in'. intros k Hk. unfold not. now rewrite (H i k Hk).
  - now rewrite C, (filter_ext_in' _ _ _ (H i)).
Qed.
Lemma moved_all m e e' x f : Moved m e e' x f -> AllMoved m e e' (fun i k => (Nat.eqb i x && f k)%bool).
Proof.
  intros [A B C D]. split; [assumption| |]; intro i; destruct (Nat.eqb_spec i x) as [->|N]; cbn [andb].
  - rewrite B. apply filter_ext. reflexivity.
  - destruct (D i N) as [-> _]. now rewrite filter_all.
  - exact C.
  - destruct (D i N) as [_ ->]. rewrite filter_none by reflexivity. now rewrite app_nil_r.
Qed.

Lemma border1_ext e e' s d : same_but_links e e' -> forall i k, border1 e' s d i k = border1 e s d i k.
Proof. intros H i k. unfold border1. now rewrite (sbl_country _ _ _ H), (to_country_ext _ _ _ H). Qed.

Definition border_body fuel dest m source (e1 : eco) (i : nat) : res eco :=
  l <- loc_of e1 i ;;
  if String.eqb (l_country l) source then
    ni <- of_option IndexError (nth_error (e_locationNames e1) i) ;;
    change_border_loop fuel dest m i ni (ids m l) 0 e1
  else Ok e1.

Lemma border_body_spec fuel dest m source e i e' : Inv e -> distinct_names e ->
  border_body fuel dest m source e i = Ok e' ->
  Inv e' /\ AllMoved m e e' (fun x k => (Nat.eqb x i && border1 e source dest x k)%bool).
Proof.
  intros I D H. unfold border_body, loc_of in H. rstep H. rename v into l. apply of_option_ok in E.
  assert (Ci : country_at e i = l_country l) by (unfold country_at; now rewrite E).
  destruct (String.eqb (l_country l) source) eqn:Es.
  - rstep H. rename v into ni. apply of_option_ok in E0. rewrite (st_names _ (i_struct _ I)), nth_error_map, E in E0.
    cbn in E0. injection E0 as <-. destruct (border_loop_spec fuel dest m i 0 e e' l I D E (fun k F => match F : In k [] with end) H) as [I' M].
    split; [assumption|]. eapply all_ext; [|apply moved_all; exact M]. intros x k _. cbn.
    destruct (Nat.eqb_spec x i) as [->|]; [|reflexivity]. unfold border1. now rewrite Ci, Es.
  - injection H as <-. split; [assumption|]. apply all_none. intros x k _. destruct (Nat.eqb_spec x i) as [->|]; [|reflexivity].
    unfold border1. now rewrite Ci, Es.
Qed.

Lemma border_fold_spec fuel dest m source js : forall e e', Inv e -> distinct_names e ->
  foldM (border_body fuel dest m source) js e = Ok e' ->
  Inv e' /\ AllMoved m e e' (fun x k => (existsb (Nat.eqb x) js && border1 e source dest x k)%bool).
Proof.
  induction js as [|j js IH]; intros e e' I D H; cbn [foldM] in H.
  - injection H as <-. split; [assumption|]. apply all_none. reflexivity.
  - rstep H. rename v into e1. destruct (border_body_spec _ _ _ _ _ _ _ I D E) as [I1 M1].
    pose proof (am_rest _ _ _ _ M1) as Sb. destruct (IH e1 e' I1 (sbl_distinct _ _ Sb D) H) as [I' M'].
    split; [assumption|]. eapply all_ext; [|eapply all_join; [exact M1|exact M']]. intros x k _. cbn.
    rewrite (border1_ext _ _ _ _ Sb). destruct (Nat.eqb x j), (existsb (Nat.eqb x) js), (border1 e source dest x k); reflexivity.
Qed.

Lemma border1_spec fuel s d m e e' : Inv e -> distinct_names e -> change_border_1way fuel s d m e = Ok e' ->
  Inv e' /\ AllMoved m e e' (border1 e s d).
Proof.
  intros I D H. destruct (border_fold_spec fuel d m s (seq 0 (List.length (e_locationNames e))) e e' I D H) as [I' M].
  split; [assumption|]. eapply all_ext; [|exact M]. intros x k Hk. cbn.
  assert (existsb (Nat.eqb x) (seq 0 (List.length (e_locationNames e))) = true) as ->; [|reflexivity].
  apply existsb_exists. exists x. split; [|apply Nat.eqb_refl]. apply in_seq. rewrite (st_names _ (i_struct _ I)), map_length.
  assert (x < List.length (e_locations e))%nat; [|lia]. apply nth_error_Some. intro N.
  destruct m; unfold froms, opens, closeds in Hk; rewrite N in Hk; destruct Hk.
Qed.

Lemma border_spec fuel s d tw m e e' : Inv e -> distinct_names e -> change_border fuel s d tw m e = Ok e' ->
  Inv e' /\ AllMoved m e e' (crosses e s d tw).
Proof.
  intros I D H. unfold change_border in H. rstep H. rename v into e1.
  destruct (border1_spec _ _ _ _ _ _ I D E) as [I1 M1]. pose proof (am_rest _ _ _ _ M1) as Sb. destruct tw.
  - destruct (border1_spec _ _ _ _ _ _ I1 (sbl_distinct _ _ Sb D) H) as [I' M']. split; [assumption|].
    eapply all_ext; [|eapply all_join; [exact M1|exact M']]. intros x k _. cbn. unfold crosses.
    now rewrite (border1_ext _ _ _ _ Sb).
  - injection H as <-. split; [assumption|]. eapply all_ext; [|exact M1]. intros x k _. unfold crosses. cbn.
    now rewrite Bool.orb_false_r.
Qed.
