(** * FileProofs: data files and corrections *)

From Coq Require Import ZArith Lia Lqa.
From Verif Require Import Base Lemmas Dates SpecDates DateProofs DataTable SpecData DataProofs DataFiles SpecFiles.
Local Open Scope string_scope.
Local Open Scope Q_scope.
Local Open Scope list_scope.

(** ** Rows *)

Lemma inject_zero : forall z, inject_Z z == 0 <-> z = 0%Z.
Proof. intros z. unfold Qeq, inject_Z. cbn. split; intros; lia. Qed.

Lemma fdiv_iff : forall a z r, fdiv a (inject_Z z) = Ok r <-> (z <> 0%Z /\ r = a / inject_Z z).
Proof.
  intros a z r. destruct (Z.eq_dec z 0) as [->|N].
  - split; [discriminate|tauto].
  - rewrite fdiv_ok by (rewrite inject_zero; exact N). split; [intros H; injection H as <-; auto|intros [_ ->]; reflexivity].
Qed.

Lemma process_spec : forall start factor t r t',
  process_entry start factor t r = Ok t' <->
  (no_data r /\ t' = t \/ exists x, entry_of start factor r x /\ t' = t ++ [x]).
Proof.
  intros start factor t r t'. unfold process_entry. split.
  - destruct (Nat.ltb_spec (List.length r) 2) as [Hl|Hl].
    + intros H. injection H as <-. left. split; [constructor; exact Hl|reflexivity].
    + destruct r as [|c0 [|c1 r]]; cbn in Hl; try lia. unfold hash_row. cbn [nth_error of_option bind].
      destruct c0 as [|a s]; [discriminate|]. cbn [bind]. destruct (Ascii.eqb_spec a "#") as [->|Na].
      * intros H. injection H as <-. left. split; [apply Comment|reflexivity].
      * destruct (String.eqb_spec c1 "") as [->|Nc].
        -- intros H. injection H as <-. left. split; [apply No_number|reflexivity].
        -- destruct (subtract_dates (String a s) start) as [n|] eqn:Es; [|discriminate]. cbn [bind].
           destruct (parse_Z c1) as [v|] eqn:Ev; [|discriminate]. cbn [of_option bind].
           destruct (fdiv (inject_Z v) (inject_Z factor)) as [q|] eqn:Eq; [|discriminate]. cbn [bind].
           intros H. injection H as <-. right. apply fdiv_iff in Eq. destruct Eq as [Nf ->].
           apply subtract_iff in Es. destruct Es as [d [d0 [C [W [C0 [W0 A]]]]]].
           exists (inject_Z n, inject_Z v / inject_Z factor). split; [|reflexivity]. apply (Entry start factor a s c1 r n v d0 d); auto.
  - intros [[Hn ->]|[x [Hx ->]]].
    + destruct Hn as [r Hl|s c r|a s r].
      * apply Nat.ltb_lt in Hl. rewrite Hl. reflexivity.
      * reflexivity.
      * cbn. destruct (Ascii.eqb a "#"); reflexivity.
    + destruct Hx as [a s c r n v d0 d Na Nc C0 W0 C W A Hv Nf]. cbn [List.length Nat.ltb Nat.leb].
      unfold hash_row. cbn [nth_error of_option bind].
      destruct (Ascii.eqb_spec a "#") as [->|_]; [contradiction|]. destruct (String.eqb_spec c "") as [->|_]; [contradiction|].
      assert (subtract_dates (String a s) start = Ok n) as -> by (apply subtract_iff; exists d, d0; tauto).
      cbn [bind]. rewrite Hv. cbn [of_option bind].
      rewrite (proj2 (fdiv_iff (inject_Z v) factor (inject_Z v / inject_Z factor)) (conj Nf eq_refl)). reflexivity.
Qed.

Lemma fold_entries : forall start factor rows t t',
  foldM (process_entry start factor) rows t = Ok t' <-> exists u, entries start factor rows u /\ t' = t ++ u.
Proof.
  intros start factor rows. induction rows as [|r rs IH]; intros t t'; cbn [foldM].
  - split.
    + intros H. injection H as <-. exists []. split; [constructor|]. rewrite app_nil_r. reflexivity.
    + intros [u [Hu ->]]. inversion Hu; subst. rewrite app_nil_r. reflexivity.
  - split.
    + intros H. destruct (process_entry start factor t r) as [t1|] eqn:E; [|discriminate]. cbn [bind] in H.
      apply IH in H. destruct H as [u [Hu ->]]. apply process_spec in E. destruct E as [[Hn ->]|[x [Hx ->]]].
      * exists u. split; [constructor; auto|reflexivity].
      * exists (x :: u). split; [apply Take; auto|]. rewrite <- app_assoc. reflexivity.
    + intros [u [Hu ->]]. inversion Hu; subst.
      * rewrite (proj2 (process_spec start factor t r t)) by (left; auto). cbn [bind]. apply IH. eauto.
      * rewrite (proj2 (process_spec start factor t r (t ++ [x]))) by (right; eauto). cbn [bind]. apply IH.
        exists t0. split; [auto|]. rewrite <- app_assoc. reflexivity.
Qed.

Lemma header_dec : forall r, {header_row r} + {~ header_row r}.
Proof.
  intros [|c [|c' r]].
  - right. intros [a [b [r [H _]]]]. discriminate.
  - right. intros [a [b [r [H _]]]]. discriminate.
  - destruct (string_dec c "") as [E|N1]; [left; exists c, c', r; auto|].
    destruct (string_dec c "Date") as [E|N2]; [left; exists c, c', r; auto|].
    destruct (string_dec c "DateTime") as [E|N3]; [left; exists c, c', r; auto|].
    right. intros [a [b [r' [H K]]]]. injection H as <- <- <-. tauto.
Qed.

Lemma file_iff : forall start factor rows t, convert_csv start factor rows = Ok t <-> file_entries start factor rows t.
Proof.
  intros start factor rows t. unfold convert_csv, file_entries. destruct rows as [|r rs].
  - split; [discriminate|]. intros [r [rs [H _]]]. discriminate.
  - set (m := if (1 <? List.length r)%nat then _ else _).
    assert (forall t0, m = Ok t0 <-> (header_row r /\ t0 = [] \/ ~ header_row r /\ process_entry start factor [] r = Ok t0)) as Hm.
    { intros t0. unfold m. destruct (Nat.ltb_spec 1 (List.length r)) as [Hl|Hl].
      - destruct r as [|c [|c' r']]; cbn in Hl; try lia. cbn [nth_error of_option bind].
        destruct (header_dec (c :: c' :: r')) as [Hh|Hh].
        + assert (String.eqb c "" || mem_str c ["DateTime"; "Date"] = true)%bool as ->.
          { destruct Hh as [a [b [r'' [H K]]]]. injection H as <- <- <-. destruct K as [-> | [-> | ->]]; reflexivity. }
          split; [intros H; injection H as <-; auto|]. intros [[_ ->]|[H _]]; [reflexivity|contradiction].
        + assert (String.eqb c "" || mem_str c ["DateTime"; "Date"] = false)%bool as ->.
          { destruct (String.eqb_spec c "") as [E|N1]; [exfalso; apply Hh; exists c, c', r'; auto|].
            unfold mem_str. cbn [existsb orb].
            destruct (String.eqb_spec c "DateTime") as [E|N2]; [exfalso; apply Hh; exists c, c', r'; auto|].
            destruct (String.eqb_spec c "Date") as [E|N3]; [exfalso; apply Hh; exists c, c', r'; auto|]. reflexivity. }
          split; [intros H; right; auto|]. intros [[H _]|[_ H]]; [contradiction|exact H].
      - assert (~ header_row r) as Hh. { intros [a [b [r' [-> _]]]]. cbn in Hl. lia. }
        assert (process_entry start factor [] r = Ok []) as Hp.
        { apply process_spec. left. split; [|reflexivity]. constructor. lia. }
        rewrite Hp. split; [intros H; right; auto|]. intros [[H _]|[_ H]]; [contradiction|exact H]. }
    split.
    + intros H. destruct m as [t0|]; [|discriminate]. cbn [bind] in H. apply fold_entries in H. destruct H as [u [Hu ->]].
      exists r, rs. split; [reflexivity|]. destruct (proj1 (Hm t0) eq_refl) as [[Hh ->]|[Hh Hp]].
      * left. split; [exact Hh|exact Hu].
      * right. split; [exact Hh|]. apply process_spec in Hp. destruct Hp as [[Hn ->]|[x [Hx ->]]].
        -- constructor; auto.
        -- apply Take; auto.
    + intros [r' [rs' [H K]]]. injection H as <- <-. destruct K as [[Hh Hu]|[Hh Hu]].
      * rewrite (proj2 (Hm []) (or_introl (conj Hh eq_refl))). cbn [bind]. apply fold_entries. exists t. split; [exact Hu|reflexivity].
      * inversion Hu; subst.
        -- rewrite (proj2 (Hm [])) by (right; split; [exact Hh|apply process_spec; left; auto]). cbn [bind].
           apply fold_entries. exists t. split; [assumption|reflexivity].
        -- rewrite (proj2 (Hm [x])) by (right; split; [exact Hh|apply process_spec; right; exists x; auto]). cbn [bind].
           apply fold_entries. exists t0. split; [assumption|reflexivity].
Qed.

Lemma load_iff : forall files start factor f t,
  load_csv files start factor f = Ok t <-> exists rows, files f = Some rows /\ file_entries start factor rows t.
Proof.
  intros files start factor f t. unfold load_csv, open_csv. destruct (files f) as [rows|]; cbn [of_option bind].
  - rewrite file_iff. split; [eauto|]. intros [rows' [H K]]. injection H as <-. exact K.
  - split; [discriminate|]. intros [rows [H _]]. discriminate.
Qed.

(** ** Layout *)

Lemma combine_iff : forall files start factor more fs t t',
  combined files start factor fs t ->
  (foldM (fun t f => t2 <- load_csv files start factor f ;; add_csv_tables t t2) more t = Ok t' ->
   combined files start factor (fs ++ more) t').
Proof.
  intros files start factor more. induction more as [|f more IH]; intros fs t t' Hc H; cbn [foldM] in H.
  - injection H as <-. rewrite app_nil_r. exact Hc.
  - destruct (load_csv files start factor f) as [t2|] eqn:E; [|discriminate]. cbn [bind] in H.
    destruct (add_csv_tables t t2) as [t1|] eqn:Ea; [|discriminate]. cbn [bind] in H.
    apply load_iff in E. destruct E as [rows [Hf Hr]].
    replace (fs ++ f :: more) with ((fs ++ [f]) ++ more) by (rewrite <- app_assoc; reflexivity).
    apply (IH (fs ++ [f]) t1); [|exact H]. econstructor; eauto.
Qed.

Lemma foldM_last : forall (A S : Type) (f : S -> A -> res S) l x s, foldM f (l ++ [x]) s = (s1 <- foldM f l s ;; f s1 x).
Proof.
  intros A S f l x. induction l as [|y l IH]; intros s; cbn [app foldM].
  - cbn [bind]; destruct (f s x); cbn [bind]; auto.
  - destruct (f s y); cbn [bind]; [apply IH|reflexivity].
Qed.

Lemma combined_head : forall files start factor fs t, combined files start factor fs t ->
  exists f more t0, fs = f :: more /\ load_csv files start factor f = Ok t0 /\
    foldM (fun t f => t2 <- load_csv files start factor f ;; add_csv_tables t t2) more t0 = Ok t.
Proof.
  intros files start factor fs t H. induction H as [f rows t Hf Hr|fs t f rows t2 t' H IH Hf Hr Ha].
  - exists f, [], t. split; [reflexivity|]. split; [apply load_iff; eauto|reflexivity].
  - destruct IH as [f0 [more [t0 [-> [H0 H1]]]]]. exists f0, (more ++ [f]), t0. split; [reflexivity|]. split; [exact H0|].
    rewrite foldM_last, H1. cbn [bind]. rewrite (proj2 (load_iff files start factor f t2)) by eauto. cbn [bind]. exact Ha.
Qed.

Lemma layout_row_iff : forall files start factor st r st',
  layout_row files start factor st r = Ok st' <->
  (((List.length r < 2)%nat \/ (exists s r', r = String "#" s :: r')) /\ st' = st \/
   exists a s fs t, r = String a s :: fs /\ a <> "#"%char /\ combined files start factor fs t /\
     st' = (fst st ++ [String a s], snd st ++ [t])).
Proof.
  intros files start factor st r st'. unfold layout_row. destruct (Nat.ltb_spec 1 (List.length r)) as [Hl|Hl].
  - destruct r as [|c [|f more]]; cbn in Hl; try lia. unfold hash_row. cbn [nth_error of_option bind].
    destruct c as [|a s].
    + cbn [bind]. split; [discriminate|]. intros [[[H|[s [r' H]]] _]|[a [s [fs [t [H _]]]]]]; [cbn in H; lia|discriminate|discriminate].
    + cbn [bind]. destruct (Ascii.eqb_spec a "#") as [->|Na].
      * split.
        -- intros H. injection H as <-. left. split; [right; eauto|reflexivity].
        -- intros [[_ ->]|[a [s' [fs [t [H [Na _]]]]]]]; [reflexivity|]. injection H as <- <- <-. contradiction.
      * cbn [bind skipn]. split.
        -- intros H. destruct (load_csv files start factor f) as [t0|] eqn:E; [|discriminate]. cbn [bind] in H.
           destruct (foldM _ more t0) as [t|] eqn:Ef; [|discriminate]. cbn [bind] in H. injection H as <-.
           right. exists a, s, (f :: more), t. split; [reflexivity|]. split; [exact Na|]. split; [|reflexivity].
           apply load_iff in E. destruct E as [rows [Hf Hr]]. apply (combine_iff files start factor more [f] t0); [|exact Ef].
           econstructor; eauto.
        -- intros [[[H|[s' [r' H]]] _]|[a' [s' [fs [t [H [_ [Hc ->]]]]]]]]; [cbn in H; lia|congruence|].
           injection H as <- <- <-. apply combined_head in Hc. destruct Hc as [f0 [more0 [t0 [H [H0 H1]]]]]. injection H as <- <-.
           rewrite H0. cbn [bind]. rewrite H1. reflexivity.
  - split.
    + intros H. injection H as <-. left. split; [left; lia|reflexivity].
    + intros [[_ ->]|[a [s [fs [t [-> [_ [Hc _]]]]]]]]; [reflexivity|]. apply combined_head in Hc.
      destruct Hc as [f [more [t0 [-> _]]]]. cbn in Hl. lia.
Qed.

Lemma layout_iff : forall files start factor layout st st',
  foldM (layout_row files start factor) layout st = Ok st' <->
  exists ns ts, columns files start factor layout ns ts /\ st' = (fst st ++ ns, snd st ++ ts).
Proof.
  intros files start factor layout. induction layout as [|r rs IH]; intros st st'; cbn [foldM].
  - split.
    + intros H. injection H as <-. exists [], []. split; [constructor|]. rewrite !app_nil_r. destruct st; reflexivity.
    + intros [ns [ts [H ->]]]. inversion H; subst. rewrite !app_nil_r. destruct st; reflexivity.
  - split.
    + intros H. destruct (layout_row files start factor st r) as [st1|] eqn:E; [|discriminate]. cbn [bind] in H.
      apply IH in H. destruct H as [ns [ts [Hc ->]]]. apply layout_row_iff in E.
      destruct E as [[Hs ->]|[a [s [fs [t [-> [Na [Hf ->]]]]]]]].
      * exists ns, ts. split; [apply Skip_row; auto|reflexivity].
      * exists (String a s :: ns), (t :: ts). split; [apply Column; auto|]. cbn [fst snd]. rewrite <- !app_assoc. reflexivity.
    + intros [ns [ts [H ->]]]. inversion H; subst.
      * rewrite (proj2 (layout_row_iff files start factor st r st)) by (left; auto). cbn [bind]. apply IH. eauto.
      * rewrite (proj2 (layout_row_iff files start factor st (String a s :: fs) (fst st ++ [String a s], snd st ++ [t])))
          by (right; exists a, s, fs, t; auto). cbn [bind]. apply IH. exists ns0, ts0. split; [assumption|].
        cbn [fst snd]. rewrite <- !app_assoc. reflexivity.
Qed.

Lemma table_iff : forall files layout start factor empty d,
  new_table files layout start factor empty = Ok d <->
  exists ns ts, columns files start factor layout ns ts /\ d = DTable ns ts (if empty then 1 else 0)%Z [].
Proof.
  intros files layout start factor empty d. unfold new_table. split.
  - destruct (foldM (layout_row files start factor) layout ([], [])) as [[h ts]|] eqn:E; [|discriminate]. cbn [bind].
    intros H. injection H as <-. apply layout_iff in E. destruct E as [ns [ts' [Hc H]]]. injection H as -> ->. eauto.
  - intros [ns [ts [Hc ->]]]. rewrite (proj2 (layout_iff files start factor layout ([], []) (ns, ts))) by eauto. reflexivity.
Qed.

Lemma override_iff : forall files start factor f d d',
  override_input files start factor f d = Ok d' <->
  exists rows t, files f = Some rows /\ file_entries start factor rows t /\
    d' = DTable (d_header d ++ ["total (modified input)"%string]) (d_tables d ++ [t]) (d_start_empty d) (d_day0 d).
Proof.
  intros files start factor f d d'. unfold override_input. split.
  - destruct (load_csv files start factor f) as [t|] eqn:E; [|discriminate]. cbn [bind]. intros H. injection H as <-.
    apply load_iff in E. destruct E as [rows [Hf Hr]]. eauto.
  - intros [rows [t [Hf [Hr ->]]]]. rewrite (proj2 (load_iff files start factor f t)) by eauto. reflexivity.
Qed.

(** The added column is not the one simulations read, if there was a total already. *)
Lemma header_app : forall name h k i h', find_header name h k = Ok i -> find_header name (h ++ h') k = Ok i.
Proof.
  intros name h. induction h as [|n h IH]; intros k i h' H; cbn [find_header app] in *; [discriminate|].
  destruct (String.eqb n name); [exact H|]. apply IH, H.
Qed.
Lemma header_bound : forall name h k i, find_header name h k = Ok i -> (k <= i < k + List.length h)%nat /\ nth_error h (i - k) = Some name /\
  forall j, (j < i - k)%nat -> nth_error h j <> Some name.
Proof.
  intros name h. induction h as [|n h IH]; intros k i H; cbn [find_header] in H; [discriminate|].
  destruct (String.eqb_spec n name) as [->|N].
  - injection H as <-. rewrite Nat.sub_diag. cbn. split; [lia|]. split; [reflexivity|]. intros j Hj. lia.
  - apply IH in H. destruct H as [Hb [Hn Hf]]. cbn [List.length]. split; [lia|].
    replace (i - k)%nat with (S (i - S k)) by lia. split; [exact Hn|]. intros [|j] Hj; cbn; [congruence|]. apply Hf. lia.
Qed.
Lemma header_at : forall name h k i, nth_error h i = Some name -> (forall j, (j < i)%nat -> nth_error h j <> Some name) ->
  find_header name h k = Ok (k + i)%nat.
Proof.
  intros name h. induction h as [|n h IH]; intros k [|i] Hn Hf; cbn in *; try discriminate.
  - injection Hn as ->. rewrite String.eqb_refl, Nat.add_0_r. reflexivity.
  - destruct (String.eqb_spec n name) as [->|N]; [exfalso; apply (Hf 0%nat); [lia|reflexivity]|].
    rewrite (IH (S k) i Hn); [f_equal; lia|]. intros j Hj. apply (Hf (S j)). lia.
Qed.
Lemma header_first : forall d name i, find_header name (d_header d) 0 = Ok i <-> first_column d name i.
Proof.
  intros d name i. unfold first_column. split.
  - intros H. apply header_bound in H. destruct H as [_ [Hn Hf]]. rewrite Nat.sub_0_r in *. auto.
  - intros [Hn Hf]. exact (header_at name (d_header d) 0 i Hn Hf).
Qed.

Lemma override_unread : forall files start factor f d d' name day full v,
  List.length (d_tables d) = List.length (d_header d) ->
  override_input files start factor f d = Ok d' -> get_field d name day full = Ok v -> get_field d' name day full = Ok v.
Proof.
  intros files start factor f d d' name day full v Hl H Hv. apply override_iff in H. destruct H as [rows [t [_ [_ ->]]]].
  unfold get_field in *. cbn [d_header d_tables d_start_empty d_day0].
  destruct (find_header name (d_header d) 0) as [i|] eqn:E; [|discriminate]. rewrite (header_app _ _ _ _ _ E). cbn [bind] in *.
  apply header_bound in E. rewrite nth_error_app1 by lia. unfold day0_get in *. cbn [d_day0]. exact Hv.
Qed.

(** ** A row with an empty first cell *)

Lemma no_blank : forall start factor a c more b t, ~ entries start factor (a ++ (""%string :: c :: more) :: b) t.
Proof.
  intros start factor a. induction a as [|r a IH]; intros c more b t H; cbn [app] in H.
  - inversion H as [|r rs u Hn Hr|r rs x u Hx Hr]; subst; [inversion Hn; subst; cbn in *; lia|inversion Hx].
  - inversion H; subst; eapply IH; eauto.
Qed.
Lemma blank_cell : forall start factor r0 a c more b t, convert_csv start factor (r0 :: a ++ (""%string :: c :: more) :: b) <> Ok t.
Proof.
  intros start factor r0 a c more b t H. apply file_iff in H. destruct H as [r [rs [E [[_ H]|[_ H]]]]]; injection E as <- <-.
  - apply (no_blank _ _ _ _ _ _ _ H).
  - apply (no_blank start factor (r0 :: a) _ _ _ _ H).
Qed.
