(** * ClosureEnd: closing and reopening a border comes to an end *)

From Coq Require Import Lia Permutation.
From Verif Require Import Base State Moving Crawling Flee SpecAgents SpecRoutes SpecClosures Lemmas Inv InvMoves InvStruct
  Closures ClosureLoops.

Definition total (m : chmode) (e : eco) : nat :=
  list_sum (map (fun i => List.length (froms m e i)) (seq 0 (List.length (e_locations e)))).

Lemma filter_le {A} (f : A -> bool) l : (List.length (filter f l) <= List.length l)%nat.
Proof. induction l as [|a l IH]; cbn; [lia|]. destruct (f a); cbn; lia. Qed.
Lemma filter_lt {A} (f : A -> bool) l : existsb f l = true -> (List.length (filter (not f) l) < List.length l)%nat.
Proof.
  induction l as [|a l IH]; cbn; [discriminate|]. unfold not at 1. destruct (f a); cbn.
  - intros _. pose proof (filter_le (not f) l). lia.
  - intro H. specialize (IH H). lia.
Qed.

Lemma sum_le {A} (f g : A -> nat) l : (forall a, In a l -> (f a <= g a)%nat) -> (list_sum (map f l) <= list_sum (map g l))%nat.
Proof.
  induction l as [|a l IH]; intro H; cbn; [lia|]. specialize (IH (fun b Hb => H b (or_intror Hb))).
  specialize (H a (or_introl eq_refl)). cbn in *. unfold list_sum in *. lia.
Qed.
Lemma sum_lt {A} (f g : A -> nat) l x : (forall a, In a l -> (f a <= g a)%nat) -> In x l -> (f x < g x)%nat ->
  (list_sum (map f l) < list_sum (map g l))%nat.
Proof.
  induction l as [|a l IH]; intros H Hx L; cbn; [destruct Hx|].
  pose proof (sum_le f g l (fun b Hb => H b (or_intror Hb))) as R. pose proof (H a (or_introl eq_refl)).
  destruct Hx as [->|Hx]; [|specialize (IH (fun b Hb => H b (or_intror Hb)) Hx L)]; unfold list_sum in *; cbn in *; lia.
Qed.

Lemma moved_total m e e' x f : Moved m e e' x f ->
  (total m e' + (if existsb f (froms m e x) then 1 else 0) <= total m e)%nat.
Proof.
  intros [A B C D]. unfold total. rewrite (sbl_len _ _ A).
  assert (L : forall j, (List.length (froms m e' j) <= List.length (froms m e j))%nat).
  { intro j. destruct (Nat.eq_dec j x) as [->|N]; [rewrite B; apply filter_le|destruct (D j N) as [-> _]; lia]. }
  destruct (existsb f (froms m e x)) eqn:E.
  - cut (list_sum (map (fun i => List.length (froms m e' i)) (seq 0 (List.length (e_locations e)))) <
         list_sum (map (fun i => List.length (froms m e i)) (seq 0 (List.length (e_locations e)))))%nat; [lia|].
    apply (sum_lt _ _ _ x); [auto| |rewrite B; now apply filter_lt].
    apply in_seq. split; [lia|]. apply nth_error_Some. intro N.
    destruct m; unfold froms, opens, closeds in E; rewrite N in E; discriminate.
  - rewrite Nat.add_0_r. apply sum_le. auto.
Qed.

Lemma act_total m s t e e' b : Inv e -> act m s t e = Ok (e', b) -> (total m e' + (if b then 1 else 0) <= total m e)%nat.
Proof. intros I H. destruct (act_spec _ _ _ _ _ _ I H) as (M & -> & _). exact (moved_total _ _ _ _ _ M). Qed.

Lemma act_links m s t e e' b : act m s t e = Ok (e', b) -> (List.length (e_links e) <= List.length (e_links e'))%nat.
Proof.
  assert (R1 : forall x t co ks st st', foldM (remove_step x t co) ks st = Ok st' ->
    (List.length (e_links (fst (fst st))) <= List.length (e_links (fst (fst st'))))%nat).
  { intros x t0 co ks st st' H. eapply (foldM_rel (fun st st' => (List.length (e_links (fst (fst st))) <= List.length (e_links (fst (fst st'))))%nat)) in H;
      [exact H|lia|lia|]. clear. intros [[e l] r] ki [[e' l'] r'] _ H. unfold remove_step in H. cbn [fst].
    rstep H. rstep H. rstep H; [injection H as <- <- <-; lia|]. rstep H; injection H as <- <- <-; [|lia].
    cbn. rewrite app_length, upd_length. lia. }
  assert (R2 : forall x t ks st st', foldM (reopen_step x t) ks st = Ok st' ->
    (List.length (e_links (fst (fst st))) <= List.length (e_links (fst (fst st'))))%nat).
  { intros x t0 ks st st' H. eapply (foldM_rel (fun st st' => (List.length (e_links (fst (fst st))) <= List.length (e_links (fst (fst st'))))%nat)) in H;
      [exact H|lia|lia|]. clear. intros [[e l] r] ki [[e' l'] r'] _ H. unfold reopen_step in H. cbn [fst].
    rstep H. rstep H. rstep H; injection H as <- <- <-; [lia|]. cbn. rewrite upd_length. lia. }
  intro H. destruct m; cbn [act] in H; [unfold close_link, remove_link, remove_link_1way in H|unfold reopen_link, reopen_link_1way in H];
    rstep H; rstep H; destruct v0 as [[e1 n1] r1]; injection H as <- <-.
  - apply R1 in E0. exact E0.
  - apply R2 in E0. exact E0.
Qed.

Lemma ids_total m e i l : Inv e -> nth_error (e_locations e) i = Some l -> (List.length (ids m l) <= total m e)%nat.
Proof.
  intros I H. rewrite <- (roads_length e (ids m l)) by (eapply valid_ids; eauto). rewrite <- (froms_ids m e i l H).
  unfold total. assert (Hi : In i (seq 0 (List.length (e_locations e)))) by (apply in_seq; apply nth_error_lt in H; lia).
  revert Hi. generalize (seq 0 (List.length (e_locations e))). intro L. induction L as [|a L IH]; intros []; cbn.
  - subst a. lia.
  - specialize (IH H0). unfold list_sum in IH. lia.
Qed.

(** ** Borders *)

Lemma border_loop_ends dest m i ni : forall T D e ls j,
  Inv e -> (i < List.length (e_locations e))%nat -> valid e ls -> (total m e <= T)%nat -> (List.length ls - j <= D)%nat ->
  exists F e', (forall fuel, (F <= fuel)%nat -> change_border_loop fuel dest m i ni ls j e = Ok e') /\ Inv e' /\ same_but_links e e'.
Proof.
  induction T as [T IHT] using lt_wf_ind. induction D as [D IHD] using lt_wf_ind. intros e ls j I Hi V HT HD.
  destruct (nth_error ls j) as [ki|] eqn:Ej.
  2:{ exists 0%nat, e. split; [|auto]. intros fuel _. destruct fuel; cbn; now rewrite Ej. }
  destruct (endpoint_ex e ki (i_struct _ I)) as (k & ep & K & Ep); [apply V; eapply nth_error_In; eauto|].
  pose proof (nth_error_lt _ _ _ Ej) as Lj.
  destruct (String.eqb (l_country ep) dest) eqn:Ed.
  - destruct (act_ok m ni (l_name ep) e I) as (e1 & b & Ha); [intro N; rewrite N in Hi; cbn in Hi; lia|].
    pose proof (act_inv _ _ _ _ _ _ I Ha) as I1. pose proof (act_total _ _ _ _ _ _ I Ha) as Tt.
    destruct (act_spec _ _ _ _ _ _ I Ha) as (Mv & _ & _). pose proof (mv_rest _ _ _ _ _ Mv) as Sb.
    assert (Hi1 : (i < List.length (e_locations e1))%nat) by (now rewrite (sbl_len _ _ Sb)).
    destruct (nth_error_ex _ _ Hi1) as [l1 L1].
    destruct b.
    + destruct (IHT (total m e1) ltac:(lia) (List.length (ids m l1) - j)%nat e1 (ids m l1) j I1 Hi1) as (F & e' & HF & I' & Sb');
        [eapply valid_ids; eauto|lia|lia|]. exists (Datatypes.S F), e'. split; [|split; [assumption|eapply sbl_trans; eauto]].
      intros [|fuel] Hf; [lia|]. cbn [change_border_loop]. rewrite Ej. unfold link_of, endpoint_of, loc_of. rewrite K. cbn [of_option bind].
      rewrite Ep. cbn [of_option bind]. rewrite Ed. change (match m with MClose => close_link ni (l_name ep) false e | MReopen => reopen_link ni (l_name ep) false e end) with (act m ni (l_name ep) e). rewrite Ha. cbn [bind]. rewrite L1. cbn [of_option bind].
      apply HF. lia.
    + destruct (IHD (D - 1)%nat ltac:(lia) e1 ls (Datatypes.S j) I1 Hi1) as (F & e' & HF & I' & Sb');
        [intros kj Hj; specialize (V kj Hj); pose proof (act_links _ _ _ _ _ _ Ha); lia|lia|lia|].
      exists (Datatypes.S F), e'. split; [|split; [assumption|eapply sbl_trans; eauto]].
      intros [|fuel] Hf; [lia|]. cbn [change_border_loop]. rewrite Ej. unfold link_of, endpoint_of, loc_of. rewrite K. cbn [of_option bind].
      rewrite Ep. cbn [of_option bind]. rewrite Ed. change (match m with MClose => close_link ni (l_name ep) false e | MReopen => reopen_link ni (l_name ep) false e end) with (act m ni (l_name ep) e). rewrite Ha. cbn [bind]. apply HF. lia.
  - destruct (IHD (D - 1)%nat ltac:(lia) e ls (Datatypes.S j) I Hi V) as (F & e' & HF & I' & Sb'); [lia|lia|].
    exists (Datatypes.S F), e'. split; [|auto].
    intros [|fuel] Hf; [lia|]. cbn [change_border_loop]. rewrite Ej. unfold link_of, endpoint_of, loc_of. rewrite K. cbn [of_option bind].
    rewrite Ep. cbn [of_option bind]. rewrite Ed. apply HF. lia.
Qed.

Lemma border_fold_ends s d m js : forall e, Inv e -> (forall j, In j js -> (j < List.length (e_locations e))%nat) ->
  exists F e', (forall fuel, (F <= fuel)%nat -> foldM (border_body fuel d m s) js e = Ok e') /\ Inv e' /\ same_but_links e e'.
Proof.
  induction js as [|j js IH]; intros e I Hjs.
  - exists 0%nat, e. auto.
  - pose proof (Hjs j (or_introl eq_refl)) as Hj. destruct (nth_error_ex _ _ Hj) as [l Hl].
    assert (X : exists F e', (forall fuel, (F <= fuel)%nat -> border_body fuel d m s e j = Ok e') /\ Inv e' /\ same_but_links e e').
    { unfold border_body, loc_of. rewrite Hl. cbn [of_option bind]. destruct (String.eqb (l_country l) s); [|exists 0%nat, e; auto].
      rewrite (st_names _ (i_struct _ I)), nth_error_map, Hl. cbn [option_map of_option bind].
      eapply border_loop_ends; eauto. eapply valid_ids; eauto. }
    destruct X as (F1 & e1 & H1 & I1 & Sb1).
    destruct (IH e1 I1) as (F2 & e2 & H2 & I2 & Sb2).
    { intros j' Hj'. rewrite (sbl_len _ _ Sb1). apply Hjs. now right. }
    exists (Nat.max F1 F2), e2. split; [|split; [assumption|eapply sbl_trans; eauto]].
    intros fuel Hf. cbn [foldM]. rewrite H1 by lia. cbn [bind]. apply H2. lia.
Qed.

Lemma border1_ends s d m e : Inv e ->
  exists F e', (forall fuel, (F <= fuel)%nat -> change_border_1way fuel s d m e = Ok e') /\ Inv e' /\ same_but_links e e'.
Proof.
  intro I. destruct (border_fold_ends s d m (seq 0 (List.length (e_locationNames e))) e I) as (F & e' & H & R).
  - intros j Hj. apply in_seq in Hj. rewrite (st_names _ (i_struct _ I)), map_length in Hj. lia.
  - exists F, e'. split; [|exact R]. intros fuel Hf. exact (H fuel Hf).
Qed.

Lemma border_ends s d tw m e : Inv e -> exists F e', forall fuel, (F <= fuel)%nat -> change_border fuel s d tw m e = Ok e'.
Proof.
  intro I. destruct (border1_ends s d m e I) as (F & e1 & H & I1 & _). destruct tw.
  - destruct (border1_ends d s m e1 I1) as (F2 & e2 & H2 & _). exists (Nat.max F F2), e2. intros fuel Hf.
    unfold change_border. rewrite H by lia. cbn [bind]. apply H2. lia.
  - exists F, e1. intros fuel Hf. unfold change_border. rewrite H by lia. reflexivity.
Qed.
