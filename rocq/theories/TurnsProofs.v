(** * TurnsProofs: coupled programs end in the same states whatever their speed *)

From Coq Require Import Lia.
From Verif Require Import Base State Lemmas Coupling SpecCoupling CouplingText CouplingFiles SpecTurns.
Local Open Scope nat_scope.
Local Open Scope list_scope.

(** ** File names *)

Lemma chars_app a b : list_ascii_of_string (a ++ b)%string = list_ascii_of_string a ++ list_ascii_of_string b.
Proof. induction a; cbn; congruence. Qed.
Lemma chars_inj a b : list_ascii_of_string a = list_ascii_of_string b -> a = b.
Proof. revert b. induction a as [|c a IH]; intros [|c' b]; cbn; try discriminate; [reflexivity|]. intros [= -> E]. f_equal. auto. Qed.

Lemma last_sep {A} (c : A) a b a' b' : ~ In c b -> ~ In c b' -> a ++ c :: b = a' ++ c :: b' -> a = a' /\ b = b'.
Proof.
  intros N N' E. apply (f_equal (@rev A)) in E. rewrite !rev_app_distr in E. cbn [rev] in E. rewrite <- !app_assoc in E. cbn [app] in E.
  assert (X : forall u u' v v', ~ In c u -> ~ In c u' -> u ++ c :: v = u' ++ c :: v' -> u = u' /\ v = v').
  { induction u as [|x u IH]; intros [|x' u'] v v' I I' H; cbn in *.
    - now injection H as ->.
    - injection H as <- _. tauto.
    - injection H as -> _. tauto.
    - injection H as -> H. destruct (IH u' v v') as [-> ->]; tauto. }
  destruct (X (rev b) (rev b') (rev a) (rev a')) as [B A0]; [now rewrite <- in_rev|now rewrite <- in_rev|exact E|].
  split; [rewrite <- (rev_involutive a), A0; apply rev_involutive|rewrite <- (rev_involutive b), B; apply rev_involutive].
Qed.

Lemma number_inj i j : str_of_Z (Z.of_nat i) = str_of_Z (Z.of_nat j) -> i = j.
Proof. intro E. assert (H : Some (Z.of_nat i) = Some (Z.of_nat j)) by now rewrite <- !parse_str, E. injection H. lia. Qed.

Lemma filename_inj c i t c' i' t' : filename c i t = filename c' i' t' -> c = c' /\ i = i' /\ t = t'.
Proof.
  intro E. apply (f_equal list_ascii_of_string) in E. unfold filename in E. rewrite !chars_app in E.
  change (list_ascii_of_string "].") with (["]"; "."]%char) in E. change (list_ascii_of_string "[") with (["["]%char) in E.
  set (D n := list_ascii_of_string (str_of_Z (Z.of_nat n))) in *.
  change (list_ascii_of_string (str_of_Z (Z.of_nat i))) with (D i) in E. change (list_ascii_of_string (str_of_Z (Z.of_nat i'))) with (D i') in E.
  change (list_ascii_of_string (str_of_Z (Z.of_nat t))) with (D t) in E. change (list_ascii_of_string (str_of_Z (Z.of_nat t'))) with (D t') in E.
  rewrite !app_assoc in E. apply app_inv_tail in E.
  assert (F : forall n ch, ch <> "-"%char -> ~ In ch digits -> ~ In ch (D n)) by (intros; now apply str_free).
  cbn [app] in E. rewrite <- !app_assoc in E.
  set (u := list_ascii_of_string c) in *. set (u' := list_ascii_of_string c') in *.
  assert (E1 : (u ++ "["%char :: D i ++ ["]"%char]) ++ "."%char :: D t = (u' ++ "["%char :: D i' ++ ["]"%char]) ++ "."%char :: D t').
  { rewrite <- !app_assoc. cbn [app] in *. rewrite <- !app_assoc. exact E. }
  apply last_sep in E1 as [E1 E2]; [|apply F; [discriminate|cbn; intuition discriminate]|apply F; [discriminate|cbn; intuition discriminate]].
  rewrite !app_comm_cons, !app_assoc in E1. apply app_inj_tail in E1 as [E1 _].
  apply last_sep in E1 as [E1 E3]; [|apply F; [discriminate|cbn; intuition discriminate]|apply F; [discriminate|cbn; intuition discriminate]].
  split; [now apply chars_inj|]. split; apply number_inj, chars_inj; assumption.
Qed.

Lemma list_ext {A} (l l' : list A) : (forall k, nth_error l k = nth_error l' k) -> l = l'.
Proof.
  revert l'. induction l as [|a l IH]; intros [|b l'] H; [reflexivity|discriminate (H 0)|discriminate (H 0)|].
  f_equal; [injection (H 0) as E; exact E|]. apply IH. intro k. exact (H (S k)).
Qed.

(** ** The invariant *)

(** The text for day [t] has reached the file of the program. *)
Definition past {X} (T t : nat) (ph : phase X) : Prop :=
  match ph with
  | Working u _ | Opened u _ _ => t < u
  | Waiting u _ _ | Reading u _ _ => t <= u
  | Finished _ => t < T
  | Failed _ => False
  end.
Definition opening {X} (t : nat) (ph : phase X) : Prop := match ph with Opened u _ _ => t = u | _ => False end.

Definition from_others {X} (ms : list (member X)) (st : nat -> nat -> X) (m : member X) (t : nat) (texts : list string) : Prop :=
  forall k s, nth_error texts k = Some s ->
    exists j m', nth_error ms j = Some m' /\ m_out m' = m_in m /\ m_index m' = k /\ writes m' t (st t j) s.

Definition busy {X} (T : nat) (st : nat -> nat -> X) (i : nat) (m : member X) (t : nat) (x : X) : Prop :=
  t < T /\ m_now m t = true /\ m_work m t (st t i) = Ok x.
Definition local {X} (T : nat) (ms : list (member X)) (st : nat -> nat -> X) (d : folder) (i : nat) (m : member X) (ph : phase X) : Prop :=
  match ph with
  | Working t x => t <= T /\ x = st t i
  | Opened t x s => busy T st i m t x /\ m_text m t x = Ok s
  | Waiting t x found => busy T st i m t x /\ List.length found = m_num m /\
      forall k, nth_error found k = Some true -> exists_file d (filename (m_in m) k t) = true
  | Reading t x texts => busy T st i m t x /\ List.length texts <= m_num m /\ from_others ms st m t texts /\
      forall k, k < m_num m -> exists_file d (filename (m_in m) k t) = true
  | Finished x => x = st T i
  | Failed _ => False
  end.

Record files {X} (T : nat) (st : nat -> nat -> X) (d : folder) (i : nat) (m : member X) (ph : phase X) : Prop := {
  fi_past : forall t, m_now m t = true -> past T t ph -> exists s, writes m t (st t i) s /\ d (filename (m_out m) (m_index m) t) = Some s;
  fi_open : forall t, opening t ph -> d (filename (m_out m) (m_index m) t) = Some ""%string;
  fi_none : forall t, ~ past T t ph -> ~ opening t ph -> d (filename (m_out m) (m_index m) t) = None }.

Record Safe {X} (T : nat) (ms : list (member X)) (st : nat -> nat -> X) (sys : list (phase X) * folder) : Prop := {
  sa_length : List.length (fst sys) = List.length ms;
  sa_local : forall i m ph, nth_error ms i = Some m -> nth_error (fst sys) i = Some ph -> local T ms st (snd sys) i m ph;
  sa_files : forall i m ph, nth_error ms i = Some m -> nth_error (fst sys) i = Some ph -> files T st (snd sys) i m ph }.

Section System.
Context {X : Type} (T : nat) (ms : list (member X)) (st : nat -> nat -> X).
Hypothesis P : partners ms.
Hypothesis L : side_by_side T ms st.

Lemma start_safe : Safe T ms st (at_start (map (st 0) (seq 0 (List.length ms))), no_files).
Proof.
  unfold at_start. split; cbn [fst snd].
  - now rewrite !map_length, seq_length.
  - intros i m ph I H. rewrite !nth_error_map in H. destruct (nth_error (seq 0 (List.length ms)) i) as [k|] eqn:E; [|discriminate H].
    assert (k = i) as -> .
    { assert (i < List.length ms) by (apply nth_error_Some; congruence). rewrite (nth_error_nth' _ 0) in E by now rewrite seq_length. rewrite seq_nth in E by assumption. injection E. lia. }
    cbn in H. injection H as <-. cbn. split; [lia|reflexivity].
  - intros i m ph I H. rewrite !nth_error_map in H. destruct (nth_error (seq 0 (List.length ms)) i) as [k|] eqn:E; [|discriminate H].
    cbn in H. injection H as <-. split; cbn; intros; [lia|contradiction|reflexivity].
Qed.

(** Files never disappear. *)
Lemma act_exists (m : member X) (ph : phase X) d f : exists_file d f = true -> exists_file (snd (act T m ph d)) f = true.
Proof.
  intro E. destruct ph as [t x|t x s|t x found|t x texts|x|err]; cbn [act]; try exact E.
  - destruct (t <? T); [|exact E]. destruct (m_work m t x) as [x1|]; [|exact E]. destruct (m_now m t); [|exact E].
    destruct (m_text m t x1); [|exact E]. cbn [snd]. unfold exists_file, open_file. destruct (String.eqb f _); [reflexivity|exact E].
  - cbn [snd]. unfold exists_file, append_file. destruct (String.eqb f _); [reflexivity|exact E].
  - destruct (forallb _ _); exact E.
  - destruct (_ <? _); [destruct (d _); exact E|]. destruct (m_take _ _ _ _); exact E.
Qed.

(** A program writes its own files only. *)
Lemma act_frame (m : member X) (ph : phase X) d f : (forall t, f <> filename (m_out m) (m_index m) t) -> snd (act T m ph d) f = d f.
Proof.
  intro N. destruct ph as [t x|t x s|t x found|t x texts|x|err]; cbn [act]; try reflexivity.
  - destruct (t <? T); [|reflexivity]. destruct (m_work m t x) as [x1|]; [|reflexivity]. destruct (m_now m t); [|reflexivity].
    destruct (m_text m t x1); [|reflexivity]. cbn [snd]. unfold open_file. destruct (String.eqb_spec f (filename (m_out m) (m_index m) t)); [now apply N in e|reflexivity].
  - cbn [snd]. unfold append_file. destruct (String.eqb_spec f (filename (m_out m) (m_index m) t)); [now apply N in e|reflexivity].
  - destruct (forallb _ _); reflexivity.
  - destruct (_ <? _); [destruct (d _); reflexivity|]. destruct (m_take _ _ _ _); reflexivity.
Qed.

Lemma local_mono d d' i m ph : (forall f, exists_file d f = true -> exists_file d' f = true) -> local T ms st d i m ph -> local T ms st d' i m ph.
Proof.
  intro E. destruct ph; cbn [local]; auto.
  - intros (A & B & C). split; [exact A|]. split; [exact B|]. auto.
  - intros (A & B & C & D). split; [exact A|]. split; [exact B|]. split; [exact C|]. auto.
Qed.

(** The texts that a program has read are those it is to read. *)
Lemma right_texts i m t texts texts' x : nth_error ms i = Some m ->
  from_others ms st m t texts -> from_others ms st m t texts' -> List.length texts = List.length texts' ->
  m_take m t texts x = m_take m t texts' x.
Proof.
  intros I F F' E. f_equal. apply list_ext. intro k.
  destruct (nth_error texts k) as [s|] eqn:K.
  - destruct (nth_error texts' k) as [s'|] eqn:K'.
    + destruct (F k s K) as (j & m1 & J & A & B & x1 & W & S1). destruct (F' k s' K') as (j' & m2 & J' & A' & B' & x2 & W' & S2).
      assert (j = j') as <- by (eapply (pa_differ _ P); eauto; congruence).
      rewrite J in J'. injection J' as <-. rewrite W in W'. injection W' as <-. congruence.
    + apply nth_error_None in K'. assert (k < List.length texts) by (apply nth_error_Some; congruence). lia.
  - apply nth_error_None in K. symmetry. apply nth_error_None. lia.
Qed.

Lemma all_found (m : member X) t found d : List.length found = m_num m -> 
  (forall k, nth_error found k = Some true -> exists_file d (filename (m_in m) k t) = true) ->
  let found1 := map (fun p => (fst p || exists_file d (snd p))%bool) (combine found (input_files m t)) in
  List.length found1 = m_num m /\ (forall k, nth_error found1 k = Some true -> exists_file d (filename (m_in m) k t) = true).
Proof.
  intros E H found1. unfold found1, input_files. split.
  - rewrite map_length, combine_length, map_length, seq_length. lia.
  - intros k K. rewrite nth_error_map in K. destruct (nth_error (combine found _) k) as [[b f]|] eqn:C; [|discriminate K]. cbn in K.
    assert (B : nth_error found k = Some b /\ f = filename (m_in m) k t).
    { assert (Lk : k < List.length found) by (assert (k < List.length (combine found (map (fun k => filename (m_in m) k t) (seq 0 (m_num m))))) by (apply nth_error_Some; congruence); rewrite combine_length in *; lia).
      assert (Z : nth_error (combine found (map (fun k => filename (m_in m) k t) (seq 0 (m_num m)))) k =
        Some (nth k found false, filename (m_in m) (nth k (seq 0 (m_num m)) 0) t)).
      { rewrite (nth_error_nth' _ (false, filename (m_in m) 0 t)) by (rewrite combine_length, map_length, seq_length; lia).
        rewrite combine_nth by (rewrite map_length, seq_length; lia). f_equal. f_equal. exact (map_nth (fun k => filename (m_in m) k t) _ 0 k). }
      rewrite Z in C. rewrite seq_nth in C by lia. injection C as <- <-. split; [now apply nth_error_nth'|reflexivity]. }
    destruct B as [B ->]. destruct b; [now apply H|]. cbn in K. now injection K.
Qed.

Lemma all_true l k : forallb (fun b : bool => b) l = true -> k < List.length l -> nth_error l k = Some true.
Proof.
  intros F K. rewrite forallb_forall in F. destruct (nth_error l k) as [b|] eqn:E; [|apply nth_error_None in E; lia].
  f_equal. exact (F b (nth_error_In _ _ E)).
Qed.

(** The program that acts *)
Lemma act_self i m ph d : nth_error ms i = Some m -> local T ms st d i m ph -> files T st d i m ph ->
  (forall t x texts, ph = Reading t x texts -> List.length texts < m_num m -> forall k s, k < m_num m -> d (filename (m_in m) k t) = Some s ->
     exists j m', nth_error ms j = Some m' /\ m_out m' = m_in m /\ m_index m' = k /\ writes m' t (st t j) s) ->
  local T ms st (snd (act T m ph d)) i m (fst (act T m ph d)) /\ files T st (snd (act T m ph d)) i m (fst (act T m ph d)).
Proof.
  intros I H F R. set (f t := filename (m_out m) (m_index m) t).
  assert (Same : forall t t', f t = f t' -> t = t') by (intros t t' E; now apply filename_inj in E as (_ & _ & E)).
  destruct ph as [t x|t x s|t x found|t x texts|x|err]; cbn [act].
  - destruct H as [H1 ->]. destruct (Nat.ltb_spec t T) as [Lt|Ge].
    + destruct (L t i m Lt I) as (x1 & W & N). rewrite W. destruct (m_now m t) eqn:Now.
      * destruct N as [(s & S1) _]. rewrite S1. cbn [fst snd]. split; [repeat split; auto|]. destruct F as [F1 F2 F3]. fold (f t).
        assert (N0 : d (f t) = None) by (apply F3; cbn; [lia|tauto]).
        split; cbn [past opening].
        -- intros u Nu Pu. destruct (F1 u Nu Pu) as (s' & W' & D'). exists s'. split; [exact W'|]. unfold open_file.
           destruct (String.eqb_spec (filename (m_out m) (m_index m) u) (f t)) as [E|]; [apply Same in E; lia|exact D'].
        -- intros u ->. unfold open_file. fold (f t). rewrite String.eqb_refl, N0. reflexivity.
        -- intros u Pu Ou. unfold open_file. destruct (String.eqb_spec (filename (m_out m) (m_index m) u) (f t)) as [E|]; [apply Same in E; lia|].
           apply F3; cbn; [lia|tauto].
      * cbn [fst snd local]. split; [split; [lia|now symmetry]|]. destruct F as [F1 F2 F3]. split; cbn [past opening] in *.
        -- intros u Nu Pu. apply F1; [exact Nu|]. assert (u <> t) by congruence. lia.
        -- tauto.
        -- intros u Pu Ou. apply F3; [lia|tauto].
    + cbn [fst snd local]. assert (t = T) as -> by lia. split; [reflexivity|]. destruct F as [F1 F2 F3]. split; cbn [past opening] in *; auto.
  - destruct H as [(H1 & H2 & H3) H4]. cbn [fst snd local]. split.
    + split; [repeat split; auto|]. split; [apply repeat_length|]. intros k K. apply nth_error_In, repeat_spec in K. discriminate K.
    + destruct F as [F1 F2 F3]. fold (f t). assert (O : d (f t) = Some ""%string) by (apply F2; reflexivity). split; cbn [past opening] in *.
      * intros u Nu Pu. unfold append_file. destruct (String.eqb_spec (filename (m_out m) (m_index m) u) (f t)) as [E|E].
        -- apply Same in E. subst u. rewrite O. exists s. split; [exists x; auto|reflexivity].
        -- apply F1; [exact Nu|]. assert (u <> t) by (intros ->; now apply E). lia.
      * tauto.
      * intros u Pu Ou. unfold append_file. destruct (String.eqb_spec (filename (m_out m) (m_index m) u) (f t)) as [E|E]; [apply Same in E; lia|].
        apply F3; [lia|]. intros ->. now apply E.
  - destruct H as (H1 & H2 & H3). destruct (all_found m t found d H2 H3) as [A B].
    destruct (forallb (fun b => b) _) eqn:All; cbn [fst snd local].
    + split; [|destruct F as [F1 F2 F3]; split; auto].
      split; [exact H1|]. split; [cbn; lia|]. split; [intros [|k] s K; discriminate K|]. intros k K. apply B, all_true; [exact All|lia].
    + split; [auto|]. destruct F as [F1 F2 F3]; split; auto.
  - destruct H as (H1 & H2 & H3 & H4). destruct (Nat.ltb_spec (List.length texts) (m_num m)) as [Lt|Ge].
    + pose proof (H4 _ Lt) as E. unfold exists_file in E. destruct (d (filename (m_in m) (List.length texts) t)) as [s|] eqn:D; [|discriminate E].
      cbn [fst snd local]. split; [|destruct F as [F1 F2 F3]; split; auto].
      split; [exact H1|]. split; [rewrite app_length; cbn; lia|]. split; [|exact H4]. intros k s' K.
      destruct (Nat.eq_dec k (List.length texts)) as [->|Ne].
      * rewrite nth_error_app2, Nat.sub_diag in K by lia. cbn in K. injection K as <-. eapply R; eauto.
      * rewrite nth_error_app1 in K; [now apply H3|].
        assert (k < List.length (texts ++ [s])) by (apply nth_error_Some; congruence). rewrite app_length in *. cbn in *. lia.
    + destruct H1 as (Lt & Now & W). destruct (L t i m Lt I) as (x1 & W1 & N). rewrite Now in N. rewrite W in W1. injection W1 as <-.
      destruct N as (_ & texts' & E & Tk & Fo). rewrite (right_texts i m t texts texts' x I H3 Fo) by lia. rewrite Tk. cbn [fst snd local].
      split; [split; [lia|reflexivity]|]. destruct F as [F1 F2 F3]. split; cbn [past opening] in *.
      * intros u Nu Pu. apply F1; [exact Nu|lia].
      * tauto.
      * intros u Pu Ou. apply F3; [lia|tauto].
  - split; [exact H|exact F].
  - destruct H.
Qed.

Lemma turn_safe sys who : Safe T ms st sys ->
  ((exists m ph, nth_error ms who = Some m /\ nth_error (fst sys) who = Some ph /\ about_to_read m ph) -> forall ph, In ph (fst sys) -> ~ is_open ph) ->
  Safe T ms st (turn T ms sys who).
Proof.
  intros [A B C] Care. unfold turn. destruct (nth_error ms who) as [m|] eqn:M; [|split; auto].
  destruct (nth_error (fst sys) who) as [ph|] eqn:Ph; [|split; auto].
  destruct (act_self who m ph (snd sys) M (B _ _ _ M Ph) (C _ _ _ M Ph)) as [S1 S2].
  { intros t x texts -> Few k s K D. destruct (pa_meet _ P who m k M K) as (j & m' & J & O & Ix & Nw).
    exists j, m'. split; [exact J|]. split; [exact O|]. split; [exact Ix|].
    destruct (B _ _ _ M Ph) as ((_ & Now & _) & _). rewrite <- Nw in Now.
    destruct (nth_error (fst sys) j) as [pj|] eqn:Pj.
    2: { apply nth_error_None in Pj. assert (j < List.length ms) by (apply nth_error_Some; congruence). lia. }
    destruct (C _ _ _ J Pj) as [F1 F2 F3]. rewrite O, Ix in F1, F2, F3.
    assert (past T t pj \/ opening t pj \/ (~ past T t pj /\ ~ opening t pj)) as [Y|[Y|[Y Y']]].
    { destruct pj as [u ?|u ? ?|u ? ?|u ? ?|?|?]; cbn; lia. }
    - destruct (F1 t Now Y) as (s' & W & D'). rewrite D in D'. now injection D' as <-.
    - exfalso. destruct pj as [u ?|u x' s'|u ? ?|u ? ?|?|?]; cbn in Y; try contradiction.
      apply (Care (ex_intro _ m (ex_intro _ _ (conj eq_refl (conj eq_refl (ex_intro _ t (ex_intro _ x (ex_intro _ texts (conj eq_refl Few)))))))) (Opened u x' s')).
      + exact (nth_error_In _ _ Pj).
      + now exists u, x', s'.
    - rewrite (F3 t Y Y') in D. discriminate D. }
  destruct (act T m ph (snd sys)) as [ph1 d1] eqn:Act. cbn [fst snd] in *.
  assert (Mono : forall f, exists_file (snd sys) f = true -> exists_file d1 f = true).
  { intros f E. pose proof (act_exists m ph (snd sys) f E) as Y. now rewrite Act in Y. }
  split; cbn [fst snd].
  - now rewrite upd_length.
  - intros i mi pi I Pi. destruct (Nat.eq_dec who i) as [<-|Ne].
    + rewrite nth_upd_same, Ph in Pi. cbn in Pi. injection Pi as <-. rewrite M in I. injection I as <-. exact S1.
    + rewrite nth_upd_other in Pi by exact Ne. eapply local_mono; [exact Mono|]. eapply B; eauto.
  - intros i mi pi I Pi. destruct (Nat.eq_dec who i) as [<-|Ne].
    + rewrite nth_upd_same, Ph in Pi. cbn in Pi. injection Pi as <-. rewrite M in I. injection I as <-. exact S2.
    + rewrite nth_upd_other in Pi by exact Ne. destruct (C _ _ _ I Pi) as [F1 F2 F3].
      assert (Fr : forall t, d1 (filename (m_out mi) (m_index mi) t) = snd sys (filename (m_out mi) (m_index mi) t)).
      { intro t. pose proof (act_frame m ph (snd sys) (filename (m_out mi) (m_index mi) t)) as Y. rewrite Act in Y. apply Y.
        intros u E. apply filename_inj in E as (E1 & E2 & _). apply Ne. eapply (pa_differ _ P); eauto. }
      split; intros; rewrite Fr; auto.
Qed.

Lemma execute_app a b sys : execute T ms (a ++ b) sys = execute T ms b (execute T ms a sys).
Proof. apply fold_left_app. Qed.
Lemma careful_app a b sys : careful T ms (a ++ b) sys -> careful T ms a sys /\ careful T ms b (execute T ms a sys).
Proof.
  intro H. split.
  - intros b1 w b2 -> phs d E R. eapply H; [rewrite <- app_assoc; reflexivity|exact E|exact R].
  - intros b1 w b2 -> phs d E R. eapply (H (a ++ b1) w b2); [now rewrite <- app_assoc|rewrite execute_app; exact E|exact R].
Qed.

Lemma safe_execute sched : forall sys, Safe T ms st sys -> careful T ms sched sys -> Safe T ms st (execute T ms sched sys).
Proof.
  induction sched as [|w sched IH] using rev_ind; intros sys S C; [exact S|].
  apply careful_app in C as [C1 C2]. rewrite execute_app. cbn. apply turn_safe; [now apply IH|].
  destruct (execute T ms sched sys) as [phs d] eqn:E. intros R. eapply (C2 [] w []); [reflexivity|reflexivity|exact R].
Qed.

Notation start := (at_start (map (st 0) (seq 0 (List.length ms))), no_files).

Theorem f_result sched phs d : careful T ms sched start -> execute T ms sched start = (phs, d) ->
  List.length phs = List.length ms /\
  forall i ph, nth_error phs i = Some ph ->
    (forall t x, ph = Working t x -> t <= T /\ x = st t i) /\ (forall x, ph = Finished x -> x = st T i) /\ (forall err, ph <> Failed err).
Proof.
  intros C E. pose proof (safe_execute sched _ start_safe C) as [A B _]. rewrite E in A, B. cbn [fst snd] in A, B. split; [exact A|].
  intros i ph H. destruct (nth_error ms i) as [m|] eqn:M.
  2: { apply nth_error_None in M. assert (i < List.length phs) by (apply nth_error_Some; congruence). lia. }
  specialize (B i m ph M H). split; [|split].
  - intros t x ->. exact B.
  - intros x ->. exact B.
  - intros err ->. exact B.
Qed.

(** ** Nobody runs ahead *)

Definition Behind (sys : list (phase X) * folder) : Prop :=
  forall i m ph k t, nth_error ms i = Some m -> nth_error (fst sys) i = Some ph -> k < m_num m -> t < day_of T ph -> m_now m t = true ->
    exists_file (snd sys) (filename (m_in m) k t) = true.

Lemma behind_turn sys who : Safe T ms st sys -> Behind sys -> Behind (turn T ms sys who).
Proof.
  intros [_ B _] H. unfold turn. destruct (nth_error ms who) as [m|] eqn:M; [|exact H].
  destruct (nth_error (fst sys) who) as [ph|] eqn:Ph; [|exact H].
  pose proof (act_exists m ph (snd sys)) as Mono. specialize (B who m ph M Ph). specialize (H who m ph) as H0.
  assert (Self : forall k t, k < m_num m -> t < day_of T (fst (act T m ph (snd sys))) -> m_now m t = true ->
            exists_file (snd sys) (filename (m_in m) k t) = true).
  { intros k t K D N. specialize (H0 k t M Ph K). destruct ph as [u x|u x s|u x found|u x texts|x|err]; cbn [act day_of local] in *.
    - destruct (u <? T) eqn:Lt; [|apply Nat.ltb_ge in Lt; cbn in D; apply H0; [lia|exact N]].
      destruct (m_work m u x) as [x1|]; [|cbn in D; lia]. destruct (m_now m u) eqn:Nu.
      + destruct (m_text m u x1); cbn in D; [auto|lia].
      + cbn in D. apply H0; [|exact N]. assert (t <> u) by congruence. lia.
    - auto.
    - destruct (forallb _ _); auto.
    - destruct (_ <? _).
      + destruct (snd sys _); cbn in D; [auto|lia].
      + destruct (m_take _ _ _ _); cbn in D; [|lia]. destruct (Nat.eq_dec t u) as [->|Ne]; [now apply B|apply H0; [lia|exact N]].
    - auto.
    - destruct B. }
  destruct (act T m ph (snd sys)) as [ph1 d1]. cbn [fst snd] in *. intros i mi pi k t I Pi K D N. cbn [fst snd] in *. apply Mono.
  destruct (Nat.eq_dec who i) as [<-|Ne].
  - rewrite nth_upd_same, Ph in Pi. cbn in Pi. injection Pi as <-. rewrite M in I. injection I as <-. now apply Self.
  - rewrite nth_upd_other in Pi by exact Ne. eapply H; eauto.
Qed.

Lemma behind_execute sched : forall sys, Safe T ms st sys -> Behind sys -> careful T ms sched sys -> Behind (execute T ms sched sys).
Proof.
  induction sched as [|w sched IH] using rev_ind; intros sys S B C; [exact B|].
  apply careful_app in C as [C1 C2]. rewrite execute_app. cbn. apply behind_turn; [now apply safe_execute|now apply IH].
Qed.

Theorem f_waits sched phs d i j m m' ph ph' t : careful T ms sched start -> execute T ms sched start = (phs, d) ->
  nth_error ms i = Some m -> nth_error ms j = Some m' -> m_out m' = m_in m -> m_index m' < m_num m ->
  nth_error phs i = Some ph -> nth_error phs j = Some ph' -> m_now m t = true -> t < day_of T ph -> t <= day_of T ph'.
Proof.
  intros C E I J O K Pi Pj N D. pose proof (safe_execute sched _ start_safe C) as [_ _ F].
  assert (Z : Behind start).
  { intros i0 m0 ph0 k0 t0 _ H _ D0 _. cbn [fst] in H. unfold at_start in H. rewrite nth_error_map in H. destruct (nth_error (map _ _) i0); [|discriminate H].
    cbn in H. injection H as <-. cbn in D0. lia. }
  pose proof (behind_execute sched _ start_safe Z C) as B. rewrite E in B, F. cbn [fst snd] in F.
  specialize (B i m ph (m_index m') t I Pi K D N). cbn [snd] in B. destruct (F j m' ph' J Pj) as [_ _ F3]. specialize (F3 t). rewrite O in F3.
  destruct (Nat.le_gt_cases t (day_of T ph')) as [Le|Gt]; [exact Le|]. exfalso. unfold exists_file in B. rewrite F3 in B; [discriminate B|..];
    destruct ph' as [u ?|u ? ?|u ? ?|u ? ?|?|?]; cbn in *; lia.
Qed.

(** ** Everybody finishes *)

Definition width : nat := 4 + fold_right Nat.add 0 (map m_num ms).
Definition place (ph : phase X) : nat :=
  match ph with
  | Working t _ => t * width
  | Opened t _ _ => t * width + 1
  | Waiting t _ _ => t * width + 2
  | Reading t _ texts => t * width + 3 + List.length texts
  | Finished _ => T * width + 1
  | Failed _ => 0
  end.

Lemma num_width i m : nth_error ms i = Some m -> 4 + m_num m <= width.
Proof.
  intro H. unfold width. apply nth_error_In in H. clear P L. revert H. induction ms as [|m0 l IH]; [intros []|]. intros [->|H]; cbn [map fold_right]; [lia|].
  specialize (IH H). cbn in IH. lia.
Qed.

Lemma step_width t w : S t * w = t * w + w.
Proof. cbn. lia. Qed.

Lemma place_act i m ph d : nth_error ms i = Some m -> local T ms st d i m ph -> local T ms st (snd (act T m ph d)) i m (fst (act T m ph d)) ->
  place ph <= place (fst (act T m ph d)) /\
  (place ph = place (fst (act T m ph d)) -> (exists x, ph = Finished x) \/
     exists t x found k, ph = Waiting t x found /\ k < m_num m /\ exists_file d (filename (m_in m) k t) = false).
Proof.
  intros I H H'. pose proof (num_width i m I) as Wd. destruct ph as [t x|t x s|t x found|t x texts|x|err]; cbn [act] in *.
  - destruct H as [H1 ->]. destruct (Nat.ltb_spec t T) as [Lt|Ge].
    + destruct (m_work m t (st t i)) as [x1|]; [|destruct H']. destruct (m_now m t).
      * destruct (m_text m t x1) as [s|]; [|destruct H']. cbn [fst place]. split; [lia|]. intro E. lia.
      * cbn [fst place]. rewrite step_width. split; [lia|]. intro E. lia.
    + cbn [fst place]. assert (t = T) as -> by lia. split; [lia|]. intro E. lia.
  - cbn [fst place]. split; [lia|]. intro E. lia.
  - destruct H as (_ & H2 & H3). destruct (forallb (fun b => b) _) eqn:All; cbn [fst place].
    + split; [cbn; lia|]. cbn. intro E. lia.
    + split; [lia|]. intros _. right.
      destruct (Bool.bool_dec (forallb (fun k => exists_file d (filename (m_in m) k t)) (seq 0 (m_num m))) true) as [Y|Y].
      * exfalso. rewrite forallb_forall in Y. assert (Z : forallb (fun b => b) (map (fun p => (fst p || exists_file d (snd p))%bool) (combine found (input_files m t))) = true); [|rewrite Z in All; discriminate All].
        apply forallb_forall. intros b Hb. apply in_map_iff in Hb as ([b0 f] & <- & Hc). apply in_combine_r in Hc. unfold input_files in Hc.
        apply in_map_iff in Hc as (k & <- & Hk). cbn [fst snd]. rewrite (Y k Hk). apply Bool.orb_true_r.
      * apply Bool.not_true_is_false in Y. assert (Z : exists k, In k (seq 0 (m_num m)) /\ exists_file d (filename (m_in m) k t) = false).
        { revert Y. induction (seq 0 (m_num m)) as [|k l IH]; cbn; [discriminate|]. destruct (exists_file d (filename (m_in m) k t)) eqn:Ek.
          - cbn. intro Y. destruct (IH Y) as (k' & A & B). exists k'. auto.
          - intros _. exists k. auto. }
        destruct Z as (k & Hk & Z). apply in_seq in Hk. exists t, x, found, k. split; [reflexivity|]. split; [lia|exact Z].
  - destruct H as (_ & H2 & _ & _). destruct (Nat.ltb_spec (List.length texts) (m_num m)) as [Lt|Ge].
    + destruct (d _); [|destruct H']. cbn [fst place]. rewrite app_length. cbn [List.length]. split; [lia|]. intro E. lia.
    + destruct (m_take m t texts x); [|destruct H']. cbn [fst place]. rewrite step_width. split; [lia|]. intro E. lia.
  - split; [reflexivity|]. intros _. left. eauto.
  - destruct H.
Qed.

Definition total (phs : list (phase X)) : nat := fold_right Nat.add 0 (map place phs).
Lemma total_upd who ph phs : forall old, nth_error phs who = Some old -> place old <= place ph ->
  total (upd who (fun _ => ph) phs) + place old = total phs + place ph.
Proof.
  unfold total. revert who. induction phs as [|p phs IH]; intros [|who] old H Hp; try discriminate H; cbn in *.
  - injection H as ->. lia.
  - specialize (IH who old H Hp). lia.
Qed.

(** A turn moves nobody back. *)
Lemma turn_forward sys who : Safe T ms st sys ->
  Safe T ms st (turn T ms sys who) ->
  total (fst sys) <= total (fst (turn T ms sys who)) /\
  (forall i ph, nth_error (fst sys) i = Some ph -> exists ph', nth_error (fst (turn T ms sys who)) i = Some ph' /\ place ph <= place ph' /\
     (place ph < place ph' -> total (fst sys) < total (fst (turn T ms sys who)))).
Proof.
  intros [A B C] [A' B' C']. unfold turn in *. destruct (nth_error ms who) as [m|] eqn:M; [|split; [lia|]; intros i ph H; exists ph; split; [exact H|]; split; lia].
  destruct (nth_error (fst sys) who) as [ph|] eqn:Ph; [|split; [lia|]; intros i ph H; exists ph; split; [exact H|]; split; lia].
  pose proof (place_act who m ph (snd sys) M (B _ _ _ M Ph)) as Pl. specialize (B' who m (fst (act T m ph (snd sys))) M).
  destruct (act T m ph (snd sys)) as [ph1 d1]. cbn [fst snd] in *. rewrite nth_upd_same, Ph in B'. specialize (B' eq_refl).
  destruct (Pl B') as [Le _]. pose proof (total_upd who ph1 (fst sys) ph Ph Le) as Tt. split; [lia|].
  intros i pi Hi. destruct (Nat.eq_dec who i) as [<-|Ne].
  - rewrite Ph in Hi. injection Hi as <-. exists ph1. rewrite nth_upd_same, Ph. split; [reflexivity|]. split; [exact Le|lia].
  - exists pi. rewrite nth_upd_other by exact Ne. split; [exact Hi|]. split; [lia|lia].
Qed.

Lemma execute_forward sched : forall sys, Safe T ms st sys -> careful T ms sched sys ->
  total (fst sys) <= total (fst (execute T ms sched sys)) /\
  (forall i ph, nth_error (fst sys) i = Some ph -> exists ph', nth_error (fst (execute T ms sched sys)) i = Some ph' /\ place ph <= place ph' /\
     (place ph < place ph' -> total (fst sys) < total (fst (execute T ms sched sys)))).
Proof.
  induction sched as [|w sched IH] using rev_ind; intros sys S C.
  - cbn [execute fold_left]. split; [lia|]. intros i ph H. exists ph. split; [exact H|]. split; lia.
  - pose proof (safe_execute (sched ++ [w]) sys S C) as S2. rewrite execute_app in *. cbn [execute fold_left] in *.
    apply careful_app in C as [C1 C2]. pose proof (safe_execute sched sys S C1) as S1.
    destruct (IH sys S C1) as [Le F]. destruct (turn_forward _ w S1 S2) as [Le' F']. split; [lia|].
    intros i ph H. destruct (F i ph H) as (ph1 & H1 & L1 & G1). destruct (F' i ph1 H1) as (ph2 & H2 & L2 & G2).
    exists ph2. split; [exact H2|]. split; [lia|]. intro Lt. destruct (Nat.eq_dec (place ph) (place ph1)); [|specialize (G1 ltac:(lia)); lia].
    specialize (G2 ltac:(lia)). lia.
Qed.

Lemma smallest (phs : list (phase X)) : phs <> [] -> exists i ph, nth_error phs i = Some ph /\ forall j ph', nth_error phs j = Some ph' -> place ph <= place ph'.
Proof.
  induction phs as [|p phs IH]; [congruence|]. intros _. destruct phs as [|q phs].
  - exists 0, p. split; [reflexivity|]. intros [|[|j]] ph' H; cbn in H; try discriminate H. injection H as <-. lia.
  - destruct IH as (i & ph & H & Min); [discriminate|]. destruct (Nat.le_gt_cases (place p) (place ph)) as [Le|Gt].
    + exists 0, p. split; [reflexivity|]. intros [|j] ph' H'; cbn in H'; [injection H' as <-; lia|]. specialize (Min j ph' H'). lia.
    + exists (S i), ph. split; [exact H|]. intros [|j] ph' H'; cbn in H'; [injection H' as <-; lia|]. exact (Min j ph' H').
Qed.

Definition all_finished (phs : list (phase X)) : Prop := forall ph, In ph phs -> exists x, ph = Finished x.

Lemma place_bound d i m ph : nth_error ms i = Some m -> local T ms st d i m ph -> place ph <= T * width + 1.
Proof.
  intros I H. pose proof (num_width i m I) as Wd.
  assert (B : forall t, t < T -> t * width + width <= T * width) by (intros t Lt; rewrite <- step_width; apply Nat.mul_le_mono_r; lia).
  destruct ph as [t x|t x s|t x found|t x texts|x|err]; cbn [local place] in *.
  - destruct H as [H _]. pose proof (Nat.mul_le_mono_r t T width H). lia.
  - destruct H as [(H & _) _]. specialize (B t H). lia.
  - destruct H as [(H & _) _]. specialize (B t H). lia.
  - destruct H as [(H & _) [H2 _]]. specialize (B t H). lia.
  - lia.
  - destruct H.
Qed.

(** In a round somebody gets on, unless all have finished. *)
Lemma round_forward r sys : Safe T ms st sys -> careful T ms r sys -> a_round ms r -> ms <> [] ->
  (forall ph, In ph (fst sys) -> exists x, ph = Finished x) \/ total (fst sys) < total (fst (execute T ms r sys)).
Proof.
  intros S C R Ne. destruct (smallest (fst sys)) as (i & ph & Pi & Min).
  { destruct S as [A _ _]. intro E. rewrite E in A. destruct ms; [now apply Ne|discriminate A]. }
  assert (Li : i < List.length ms) by (rewrite <- (sa_length _ _ _ _ S); apply nth_error_Some; congruence).
  destruct (nth_error ms i) as [m|] eqn:M; [|apply nth_error_None in M; lia].
  destruct (in_split _ _ (R i Li)) as (r1 & r2 & ->).
  apply careful_app in C as [C1 C2]. change (i :: r2) with ([i] ++ r2) in C2. apply careful_app in C2 as [C2 C3].
  rewrite execute_app. change (i :: r2) with ([i] ++ r2). rewrite execute_app.
  pose proof (safe_execute r1 sys S C1) as S1. pose proof (safe_execute [i] _ S1 C2) as S2.
  destruct (execute_forward r1 sys S C1) as [Le F]. destruct (execute_forward [i] _ S1 C2) as [Le2 F2]. destruct (execute_forward r2 _ S2 C3) as [Le3 _].
  destruct (F i ph Pi) as (p1 & P1 & L1 & G1). destruct (F2 i p1 P1) as (p2 & P2 & L2 & G2).
  destruct (Nat.eq_dec (place ph) (place p1)) as [E1|]; [|right; specialize (G1 ltac:(lia)); lia].
  destruct (Nat.eq_dec (place p1) (place p2)) as [E2|]; [|right; specialize (G2 ltac:(lia)); lia].
  left. set (sys1 := execute T ms r1 sys) in *. pose proof (sa_local _ _ _ _ S1 i m p1 M P1) as Lc.
  assert (Lc' : local T ms st (snd (act T m p1 (snd sys1))) i m (fst (act T m p1 (snd sys1))) /\ p2 = fst (act T m p1 (snd sys1))).
  { pose proof (sa_local _ _ _ _ S2 i m p2 M P2) as Y. cbn [execute fold_left] in Y, P2. unfold turn in Y, P2. rewrite M, P1 in Y, P2.
    destruct (act T m p1 (snd sys1)) as [q d]. cbn [fst snd] in *. rewrite nth_upd_same, P1 in P2. cbn in P2. injection P2 as <-. auto. }
  destruct Lc' as [Lc' ->]. destruct (place_act i m p1 (snd sys1) M Lc Lc') as [_ St]. destruct (St E2) as [[x ->]|(t & x & found & k & -> & K & Nf)].
  - intros q Q. apply In_nth_error in Q as (j & Q). specialize (Min j q Q). cbn [place] in *.
    destruct (nth_error ms j) as [mj|] eqn:Mj.
    2: { apply nth_error_None in Mj. assert (j < List.length (fst sys)) by (apply nth_error_Some; congruence). rewrite (sa_length _ _ _ _ S) in *. lia. }
    pose proof (sa_local _ _ _ _ S j mj q Mj Q) as Lq. pose proof (num_width j mj Mj) as Wd.
    assert (B : forall t, t < T -> t * width + width <= T * width) by (intros t Lt; rewrite <- step_width; apply Nat.mul_le_mono_r; lia).
    destruct q as [t y|t y s|t y fd|t y texts|y|err]; cbn [local place] in *.
    + destruct Lq as [Lq _]. pose proof (Nat.mul_le_mono_r t T width Lq). lia.
    + destruct Lq as [(Lq & _) _]. specialize (B t Lq). lia.
    + destruct Lq as [(Lq & _) _]. specialize (B t Lq). lia.
    + destruct Lq as [(Lq & _) [Lq2 _]]. specialize (B t Lq). lia.
    + eauto.
    + destruct Lq.
  - exfalso. destruct Lc as ((Lt & Now & _) & _). destruct (pa_meet _ P i m k M K) as (j & m' & J & O & Ix & Nw).
    assert (Lj : j < List.length (fst sys)) by (rewrite (sa_length _ _ _ _ S); apply nth_error_Some; congruence).
    destruct (nth_error (fst sys) j) as [q|] eqn:Q; [|apply nth_error_None in Q; lia].
    destruct (F j q Q) as (q1 & Q1 & Lq & _). specialize (Min j q Q). cbn [place] in *.
    pose proof (sa_files _ _ _ _ S1 j m' q1 J Q1) as [F1 _ _]. rewrite O, Ix in F1. rewrite <- Nw in Now.
    pose proof (sa_local _ _ _ _ S1 j m' q1 J Q1) as Lq1.
    assert (Wp : 4 <= width) by (pose proof (num_width i m M); lia).
    assert (Pa : past T t q1).
    { assert (B : forall u, u < t -> u * width + width <= t * width) by (intros u Lu; rewrite <- step_width; apply Nat.mul_le_mono_r; lia).
      pose proof (num_width j m' J) as Wj.
      destruct q1 as [u y|u y s|u y fd|u y texts|y|err]; cbn [past place local] in *.
      - destruct (Nat.lt_ge_cases t u) as [|Ge]; [assumption|]. pose proof (Nat.mul_le_mono_r u t width Ge). lia.
      - destruct (Nat.lt_ge_cases t u) as [|Ge]; [assumption|]. pose proof (Nat.mul_le_mono_r u t width Ge). lia.
      - destruct (Nat.le_gt_cases t u) as [|Gt]; [assumption|]. specialize (B u Gt). lia.
      - destruct (Nat.le_gt_cases t u) as [|Gt]; [assumption|]. specialize (B u Gt). destruct Lq1 as (_ & Lq1 & _). lia.
      - exact Lt.
      - destruct Lq1. }
    destruct (F1 t Now Pa) as (s & _ & D). unfold exists_file in Nf. rewrite D in Nf. discriminate Nf.
Qed.

Lemma finished_stay sched : forall sys, Safe T ms st sys -> (forall ph, In ph (fst sys) -> exists x, ph = Finished x) ->
  execute T ms sched sys = sys.
Proof.
  induction sched as [|w sched IH]; intros sys S F; [reflexivity|]. cbn [execute fold_left].
  assert (E : turn T ms sys w = sys).
  { unfold turn. destruct (nth_error ms w) as [m|]; [|reflexivity]. destruct (nth_error (fst sys) w) as [ph|] eqn:Ph; [|reflexivity].
    destruct (F ph (nth_error_In _ _ Ph)) as (x & ->). cbn [act]. destruct sys as [phs d]. cbn [fst snd] in *. f_equal.
    apply list_ext. intro k. rewrite nth_upd. destruct (Nat.eqb_spec w k) as [<-|]; [|reflexivity]. rewrite Ph. reflexivity. }
  rewrite E. exact (IH sys S F).
Qed.

Lemma rounds_forward rounds : forall sys, Safe T ms st sys -> careful T ms (List.concat rounds) sys -> Forall (a_round ms) rounds -> ms <> [] ->
  (forall ph, In ph (fst (execute T ms (List.concat rounds) sys)) -> exists x, ph = Finished x) \/
  List.length rounds + total (fst sys) <= total (fst (execute T ms (List.concat rounds) sys)).
Proof.
  induction rounds as [|r rounds IH]; intros sys S C R Ne; [right; cbn; lia|].
  inversion R as [|? ? R1 R2]; subst. cbn [List.concat] in *. apply careful_app in C as [C1 C2]. rewrite execute_app.
  pose proof (safe_execute r sys S C1) as S1. destruct (round_forward r sys S C1 R1 Ne) as [F|Lt].
  - left. rewrite (finished_stay r sys S F), (finished_stay _ sys S F). exact F.
  - destruct (IH _ S1 C2 R2 Ne) as [F|Le]; [left; exact F|right]. cbn [List.length]. lia.
Qed.

Lemma total_bound phs d : Safe T ms st (phs, d) -> total phs <= List.length phs * (T * width + 1).
Proof.
  intros [A B _]. cbn [fst snd] in *.
  assert (Bd : forall ph, In ph phs -> place ph <= T * width + 1).
  { intros ph I. apply In_nth_error in I as (i & I). destruct (nth_error ms i) as [m|] eqn:M; [eapply place_bound; eauto|].
    apply nth_error_None in M. assert (i < List.length phs) by (apply nth_error_Some; congruence). lia. }
  clear A B. unfold total. induction phs as [|p phs IH]; [cbn; lia|]. cbn [map fold_right List.length].
  pose proof (Bd p (or_introl eq_refl)). specialize (IH (fun ph I => Bd ph (or_intror I))). lia.
Qed.

Theorem f_finishes before rounds phs d : enough T ms <= List.length rounds -> Forall (a_round ms) rounds ->
  careful T ms (before ++ List.concat rounds) start -> execute T ms (before ++ List.concat rounds) start = (phs, d) ->
  forall i, i < List.length ms -> nth_error phs i = Some (Finished (st T i)).
Proof.
  unfold enough. fold width. intros N R C E i Li.
  assert (Ne : ms <> []) by (intros E0; rewrite E0 in Li; cbn in Li; lia).
  pose proof (f_result _ _ _ C E) as [Len Res]. pose proof (safe_execute _ _ start_safe C) as Sf. rewrite E in Sf.
  apply careful_app in C as [C1 C2]. pose proof (safe_execute before _ start_safe C1) as S1.
  rewrite execute_app in E. destruct (rounds_forward rounds _ S1 C2 R Ne) as [F|Le]; rewrite E in *; cbn [fst] in *.
  - destruct (nth_error phs i) as [ph|] eqn:Pi; [|apply nth_error_None in Pi; lia]. destruct (F ph (nth_error_In _ _ Pi)) as (x & ->).
    destruct (Res i _ Pi) as (_ & Fin & _). now rewrite (Fin x eq_refl).
  - exfalso. pose proof (total_bound _ _ Sf) as Bd. rewrite Len in Bd. lia.
Qed.
End System.

(** ** A file that nobody writes *)

Section Stuck.
Context {X : Type} (T : nat) (ms : list (member X)) (i j k t : nat) (m m' : member X).
Hypothesis I : nth_error ms i = Some m.
Hypothesis K : k < m_num m.
Hypothesis Now : m_now m t = true.
Hypothesis Lt : t < T.
Hypothesis Only : forall j m', nth_error ms j = Some m' -> m_out m' = m_in m -> m_index m' = k -> m_now m' t = false.

Record Stuck (sys : list (phase X) * folder) : Prop := {
  sk_file : snd sys (filename (m_in m) k t) = None;
  sk_open : forall j m' u x s, nth_error ms j = Some m' -> nth_error (fst sys) j = Some (Opened u x s) -> m_now m' u = true;
  sk_here : forall ph, nth_error (fst sys) i = Some ph -> (exists err, ph = Failed err) \/ day_of T ph <= t /\
    match ph with Reading u _ _ => u < t | Waiting u _ found => List.length found = m_num m /\ (u = t -> nth_error found k = Some false) | _ => True end }.

Lemma stuck_turn sys who : Stuck sys -> Stuck (turn T ms sys who).
Proof.
  intros [A B C]. unfold turn. destruct (nth_error ms who) as [mw|] eqn:M; [|now split].
  destruct (nth_error (fst sys) who) as [ph|] eqn:Ph; [|now split].
  assert (F : snd (act T mw ph (snd sys)) (filename (m_in m) k t) = None).
  { destruct ph as [u x|u x s|u x found|u x texts|x|err]; cbn [act]; try exact A.
    - destruct (u <? T); [|exact A]. destruct (m_work mw u x) as [x1|]; [|exact A]. destruct (m_now mw u) eqn:Nu; [|exact A].
      destruct (m_text mw u x1); [|exact A]. cbn [snd]. unfold open_file. destruct (String.eqb_spec (filename (m_in m) k t) (filename (m_out mw) (m_index mw) u)) as [E|]; [|exact A].
      exfalso. apply filename_inj in E as (E1 & E2 & <-). rewrite (Only who mw M (eq_sym E1) (eq_sym E2)) in Nu. discriminate Nu.
    - cbn [snd]. unfold append_file. destruct (String.eqb_spec (filename (m_in m) k t) (filename (m_out mw) (m_index mw) u)) as [E|]; [|exact A].
      exfalso. apply filename_inj in E as (E1 & E2 & <-). pose proof (B who mw t x s M Ph) as Nu. rewrite (Only who mw M (eq_sym E1) (eq_sym E2)) in Nu. discriminate Nu.
    - destruct (forallb _ _); exact A.
    - destruct (_ <? _); [destruct (snd sys (filename (m_in mw) (List.length texts) u)); exact A|]. destruct (m_take _ _ _ _); exact A. }
  assert (O : forall u x s, fst (act T mw ph (snd sys)) = Opened u x s -> m_now mw u = true).
  { intros u x s E. destruct ph as [v y|v y s1|v y found|v y texts|y|err]; cbn [act] in E; try discriminate E.
    - destruct (v <? T); [|discriminate E]. destruct (m_work mw v y) as [x1|]; [|discriminate E]. destruct (m_now mw v) eqn:Nu; [|discriminate E].
      destruct (m_text mw v x1); [|discriminate E]. cbn in E. injection E as <- _ _. exact Nu.
    - destruct (forallb _ _); discriminate E.
    - destruct (_ <? _); [destruct (snd sys (filename (m_in mw) (List.length texts) v)); discriminate E|]. destruct (m_take _ _ _ _); discriminate E. }
  assert (H : who = i -> (exists err, fst (act T mw ph (snd sys)) = Failed err) \/ day_of T (fst (act T mw ph (snd sys))) <= t /\
    match fst (act T mw ph (snd sys)) with Reading u _ _ => u < t | Waiting u _ found => List.length found = m_num m /\ (u = t -> nth_error found k = Some false) | _ => True end).
  { intros ->. rewrite I in M. injection M as <-. destruct (C ph Ph) as [[err ->]|[D R]]; [left; now exists err|].
    destruct ph as [u x|u x s|u x found|u x texts|x|err]; cbn [act day_of] in *.
    - destruct (Nat.ltb_spec u T); [|lia]. destruct (m_work m u x) as [x1|y]; [|left; now exists y]. destruct (m_now m u) eqn:Nu.
      + destruct (m_text m u x1) as [s|y]; [right; cbn; auto|left; now exists y].
      + right. cbn. split; [|auto]. assert (u <> t) by congruence. lia.
    - right. cbn. split; [exact D|]. split; [apply repeat_length|]. intros _. apply nth_error_repeat. exact K.
    - destruct R as [R1 R2]. set (found1 := map (fun p => (fst p || exists_file (snd sys) (snd p))%bool) (combine found (input_files m u))).
      assert (N1 : u = t -> nth_error found1 k = Some false).
      { intros ->. unfold found1, input_files. rewrite nth_error_map.
        assert (Z : nth_error (combine found (map (fun k => filename (m_in m) k t) (seq 0 (m_num m)))) k = Some (false, filename (m_in m) k t)).
        { rewrite (nth_error_nth' _ (false, filename (m_in m) 0 t)) by (rewrite combine_length, map_length, seq_length; lia).
          rewrite combine_nth by (rewrite map_length, seq_length; lia). f_equal. f_equal.
          - apply nth_error_nth. exact (R2 eq_refl).
          - rewrite (map_nth (fun k => filename (m_in m) k t) _ 0 k), seq_nth by lia. reflexivity. }
        rewrite Z. cbn. unfold exists_file. now rewrite A. }
      destruct (forallb (fun b => b) found1) eqn:All; right; cbn [fst day_of].
      + split; [exact D|]. destruct (Nat.eq_dec u t) as [E|Ne]; [|lia]. exfalso. specialize (N1 E). rewrite forallb_forall in All.
        discriminate (All false (nth_error_In _ _ N1)).
      + split; [exact D|]. split; [|exact N1]. unfold found1, input_files. rewrite map_length, combine_length, map_length, seq_length. lia.
    - destruct (_ <? _).
      + destruct (snd sys (filename (m_in m) (List.length texts) u)); [right; cbn; auto|left; eexists; reflexivity].
      + destruct (m_take m u texts x) as [x1|y]; [right; cbn; split; [lia|auto]|left; now exists y].
    - lia.
    - left; eexists; reflexivity. }
  destruct (act T mw ph (snd sys)) as [ph1 d1]. cbn [fst snd] in *. split; cbn [fst snd].
  - exact F.
  - intros j0 m0 u x s J0 H0. destruct (Nat.eq_dec who j0) as [<-|Ne].
    + rewrite nth_upd_same, Ph in H0. cbn in H0. injection H0 as E. rewrite M in J0. injection J0 as <-. eapply O. exact E.
    + rewrite nth_upd_other in H0 by exact Ne. eapply B; eauto.
  - intros p Hp. destruct (Nat.eq_dec who i) as [E|Ne].
    + rewrite E in Ph, Hp. rewrite nth_upd_same, Ph in Hp. cbn in Hp. injection Hp as <-. exact (H E).
    + rewrite nth_upd_other in Hp by exact Ne. exact (C p Hp).
Qed.

Theorem f_stuck xs sched phs d ph : execute T ms sched (at_start xs, no_files) = (phs, d) -> nth_error phs i = Some ph ->
  (exists err, ph = Failed err) \/ day_of T ph <= t.
Proof.
  assert (S0 : Stuck (at_start xs, no_files)).
  { split; cbn [fst snd].
    - reflexivity.
    - intros j0 m0 u x s _ H. unfold at_start in H. rewrite nth_error_map in H. destruct (nth_error xs j0); discriminate H.
    - intros p H. unfold at_start in H. rewrite nth_error_map in H. destruct (nth_error xs i); [|discriminate H]. cbn in H. injection H as <-.
      right. cbn. split; [lia|auto]. }
  assert (S1 : forall sched sys, Stuck sys -> Stuck (execute T ms sched sys)).
  { induction sched0 as [|w l IH]; intros sys S; [exact S|]. cbn. apply IH, stuck_turn, S. }
  intros E H. specialize (S1 sched _ S0). rewrite E in S1. destruct (sk_here _ S1 ph H) as [Y|[Y _]]; auto.
Qed.
End Stuck.
