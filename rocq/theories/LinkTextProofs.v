(** * LinkTextProofs: reading the file of the link log, for C88 *)

From Coq Require Import Lia.
From Verif Require Import Base State Moving Crawling Scoring Diagnostics Flee DataTable
  Spawning InputGeography Api SpecAgents SpecHistory SpecRoutes SpecTravel SpecReports SpecTraffic Lemmas Inv InvMoves InvStruct Frames ScoreFrames
  CoreProofs ReportProofs Zones LogFrame Coupling SpecCoupling CouplingText AgentLog SpecAgentLog LogHistory LogTextProofs
  LinkLogProofs LinkLogText SpecLinkText.
Local Open Scope string_scope.
Local Open Scope list_scope.

Lemma one_colon : one_cell ":". Proof. split; cbn; intuition discriminate. Qed.
Lemma one_attribute fl r : link_fits fl r -> one_cell (attribute_cell fl r).
Proof.
  intros (_ & _ & A). unfold attribute_cell. destruct (lr_attribute r) as [[a v]|]; [|split; vm_compute; intuition discriminate].
  destruct (A a v eq_refl) as [B C]. apply one_app; [exact B|]. apply one_app; [apply one_colon|exact C].
Qed.
Lemma link_line_cells fl r : link_fits fl r -> split comma (link_line fl r) = link_cells fl r.
Proof.
  intro F. pose proof (one_attribute _ _ F) as O. destruct F as (A & B & _).
  assert (C : forall s t, one_cell s -> split comma (s ++ ("," ++ t))%string = s :: split comma t) by (intros s t X; exact (cell_split s t X)).
  change (link_line fl r) with (str_of_Z (lr_time r) ++ "," ++ lr_start r ++ "," ++ lr_end r ++ "," ++ str_of_Z (lr_count r) ++ "," ++ attribute_cell fl r)%string.
  rewrite (C _ _ (one_Z _)), (C _ _ A), (C _ _ B), (C _ _ (one_Z _)), split_free by apply O. reflexivity.
Qed.
Lemma link_line_line fl r : link_fits fl r -> free newline (link_line fl r).
Proof.
  intro F. pose proof (one_attribute _ _ F) as [_ O]. destruct F as ([_ A] & [_ B] & _).
  assert (X : forall s t, free newline s -> free newline t -> free newline (s ++ ("," ++ t))%string).
  { intros s t C D. apply free_app. split; [exact C|]. intros [Q0|Q0]; [discriminate Q0|exact (D Q0)]. }
  assert (N : forall z, free newline (str_of_Z z)) by (intro z; apply one_Z).
  change (link_line fl r) with (str_of_Z (lr_time r) ++ "," ++ lr_start r ++ "," ++ lr_end r ++ "," ++ str_of_Z (lr_count r) ++ "," ++ attribute_cell fl r)%string.
  repeat apply X; try apply N; assumption.
Qed.

Theorem link_file_read fl rows : Forall (link_fits fl) rows ->
  table_of (link_file fl rows) = link_headings :: map (link_cells fl) rows ++ [[""]].
Proof.
  intro R. unfold table_of, link_file. rewrite split_printed.
  - rewrite map_app. cbn [map]. change (split comma link_header) with link_headings. cbn [app]. f_equal. f_equal.
    rewrite map_map. induction R as [|r rows R1 R IH]; [reflexivity|]. cbn [map]. rewrite link_line_cells, IH; auto.
  - constructor; [vm_compute; intuition discriminate|]. apply Forall_map. eapply Forall_impl; [|exact R]. intros r Hr. now apply link_line_line.
Qed.

Theorem link_file_written fl S e e' old : write_links S e = Ok e' ->
  (e_time e <> 0%Z -> old = link_file fl (e_links_out e)) ->
  write_links_text fl S e old = Ok (link_file fl (e_links_out e')).
Proof.
  unfold write_links, write_links_text. intros H Old.
  destruct (mapM _ _) as [rows|]; [|discriminate]. cbn [bind] in *. injection H as <-. cbn [up_e_links_out e_links_out].
  destruct (Z.eqb_spec (e_time e) 0) as [T|T].
  - reflexivity.
  - rewrite (Old T). f_equal. unfold link_file. rewrite <- printed_app, map_app. reflexivity.
Qed.

(** ** What the last cell says *)
Lemma colon_in a x : In ":"%char (list_ascii_of_string (a ++ ":" ++ x)%string).
Proof. induction a as [|c a IH]; [left; reflexivity|right; exact IH]. Qed.
Theorem link_total_cell fl r : attribute_cell fl r = "total" <-> lr_attribute r = None.
Proof.
  unfold attribute_cell. destruct (lr_attribute r) as [[a v]|]; [|tauto]. split; [|discriminate]. intro E.
  pose proof (colon_in a (val_text fl v)) as C. rewrite E in C. cbn in C. intuition discriminate.
Qed.
Lemma colon_split a b x y : no_colon a -> no_colon b -> (a ++ ":" ++ x)%string = (b ++ ":" ++ y)%string -> a = b /\ x = y.
Proof.
  revert b. induction a as [|c a IH]; intros [|d b] A B E; cbn in E.
  - injection E as ->. auto.
  - injection E as <- _. exfalso. apply B. left. reflexivity.
  - injection E as -> _. exfalso. apply A. left. reflexivity.
  - injection E as -> E. destruct (IH b) as [-> ->]; [..|auto]; try assumption; intro H; [apply A|apply B]; right; exact H.
Qed.
Theorem link_cell_unique fl a v b w : no_colon a -> no_colon b -> same_sort v w ->
  (a ++ ":" ++ val_text fl v)%string = (b ++ ":" ++ val_text fl w)%string -> a = b /\ v = w.
Proof.
  intros A B S0 E. destruct (colon_split _ _ _ _ A B E) as [-> V]. split; [reflexivity|].
  destruct v, w; try destruct S0; cbn in V; [|congruence].
  match goal with |- VInt ?x = VInt ?y => assert (H : Some x = Some y) by now rewrite <- !parse_str, V end. congruence.
Qed.
Lemma str_inj a b : str_of_Z a = str_of_Z b -> a = b.
Proof. intro E. assert (H : Some a = Some b) by now rewrite <- !parse_str, E. congruence. Qed.

(** ** The days of the lines *)
Definition Days (e : eco) : Prop := (0 <= e_time e)%Z /\ forall r, In r (e_links_out e) -> (0 <= lr_time r < e_time e)%Z.

Lemma block_times S e t ki b : link_block S e t ki b -> forall r, In r b -> lr_time r = t.
Proof.
  intros (k & s & d & _ & _ & _ & by_a & -> & A) r [<-|H]; [reflexivity|].
  destruct (s_log_link S <=? 1)%Z; rewrite A in H; [destruct H|].
  apply in_flat_map in H as (sc & _ & H). apply in_map_iff in H as (vn & <- & _). reflexivity.
Qed.
Lemma blocks_times S e t l bs : Forall2 (link_block S e t) l bs -> forall r, In r (List.concat bs) -> lr_time r = t.
Proof.
  induction 1 as [|ki b l bs B _ IH]; [intros r []|]. intros r H. cbn [List.concat] in H. apply in_app_or in H as [H|H]; [|auto].
  eapply block_times; eauto.
Qed.
Lemma days_step o S c e g e' g' : Days e -> step o S c e g = Ok (e', g') -> Days e'.
Proof.
  intros [T D] H. pose proof (step_clock _ _ _ _ _ _ _ H) as C. destruct (is_evolve c) eqn:Ev.
  - destruct c; try discriminate. cbn [step] in H. apply evolve_link_log in H. split; [lia|]. intros r Hr. rewrite C.
    destruct (s_log_link S <=? 0)%Z; [rewrite H in Hr; specialize (D r Hr); lia|].
    destruct H as (bs & O & B). rewrite O in Hr. apply in_app_or in Hr as [Hr|Hr].
    + destruct (e_time e =? 0)%Z; [destruct Hr|]. specialize (D r Hr). lia.
    + pose proof (blocks_times _ _ _ _ _ B r Hr). lia.
  - pose proof (step_logs _ _ _ _ _ _ _ Ev H) as [_ O]. split; [lia|]. rewrite O. intros r Hr. specialize (D r Hr). lia.
Qed.
Lemma days_run o : forall h e g e' g', Days e -> run o h e g = Ok (e', g') -> Days e'.
Proof.
  induction h as [|c h IH]; intros e g e' g' D H; [injection H as <- <-; exact D|].
  apply run_cons in H as (e1 & g1 & H1 & H). eapply IH; [eapply days_step; eauto|exact H].
Qed.
Theorem link_days o e g : reachable o e g -> forall r, In r (e_links_out e) -> (0 <= lr_time r < e_time e)%Z.
Proof. intros (h & g0 & H). eapply (days_run o h empty_eco); [|exact H]. split; [cbn; lia|intros r []]. Qed.

Lemma lines_app t x a b : lines_of t x (a ++ b) = lines_of t x a ++ lines_of t x b.
Proof. apply filter_app. Qed.
Lemma lines_none fl t x rs : (forall r, In r rs -> lr_time r <> t \/ attribute_cell fl r <> x) -> lines_of t x (map (link_cells fl) rs) = [].
Proof.
  induction rs as [|r rs IH]; intro N; [reflexivity|]. cbn [map]. unfold lines_of. cbn [filter]. fold (lines_of t x (map (link_cells fl) rs)).
  rewrite IH by (intros r' H; apply N; right; exact H). unfold link_cells at 1.
  destruct (String.eqb_spec (str_of_Z (lr_time r)) (str_of_Z t)) as [E|E]; [|reflexivity].
  destruct (String.eqb_spec (attribute_cell fl r) x) as [E1|E1]; [|reflexivity].
  destruct (N r (or_introl eq_refl)) as [X|X]; [apply str_inj in E; contradiction|contradiction].
Qed.
Lemma block_totals fl S e t ki b : link_block S e t ki b ->
  exists c, lines_of t "total" (map (link_cells fl) b) = [c] /\ total_line S e t ki c.
Proof.
  intros (k & s & d & K & Hs & Hd & by_a & -> & A). eexists. split.
  - cbn [map]. unfold lines_of. cbn [filter]. fold (lines_of t "total" (map (link_cells fl) by_a)).
    rewrite lines_none.
    + unfold link_cells, attribute_cell. cbn [lr_time lr_attribute]. rewrite !String.eqb_refl. cbn [andb]. reflexivity.
    + intros r Hr. right. rewrite link_total_cell. destruct (s_log_link S <=? 1)%Z; rewrite A in Hr; [destruct Hr|].
      apply in_flat_map in Hr as (sc & _ & Hr). apply in_map_iff in Hr as (vn & <- & _). discriminate.
  - exists k, s, d. auto.
Qed.
Lemma blocks_totals fl S e t l bs : Forall2 (link_block S e t) l bs ->
  Forall2 (total_line S e t) l (lines_of t "total" (map (link_cells fl) (List.concat bs))).
Proof.
  induction 1 as [|ki b l bs B _ IH]; [constructor|]. cbn [List.concat]. rewrite map_app, lines_app.
  destruct (block_totals fl _ _ _ _ _ B) as (c & -> & T). constructor; assumption.
Qed.

Theorem link_day_totals fl o fuel S e g e' g' : reachable o e g -> evolve fuel S o e g = Ok (e', g') -> (0 < s_log_link S)%Z ->
  Forall (link_fits fl) (e_links_out e') ->
  Forall2 (total_line S e' (e_time e)) (flat_map l_links (e_locations e'))
    (lines_of (e_time e) "total" (table_of (link_file fl (e_links_out e')))).
Proof.
  intros R H L F. rewrite link_file_read by exact F.
  change (lines_of (e_time e) "total" (link_headings :: map (link_cells fl) (e_links_out e') ++ [[""]])) with
    (lines_of (e_time e) "total" ([link_headings] ++ map (link_cells fl) (e_links_out e') ++ [[""]])).
  rewrite !lines_app.
  assert (X : lines_of (e_time e) "total" [link_headings] = []).
  { unfold lines_of. cbn [filter]. unfold link_headings. replace (String.eqb "attribute" "total") with false by reflexivity.
    rewrite andb_false_r. reflexivity. }
  rewrite X. change (lines_of (e_time e) "total" [[""]]) with (@nil (list string)). rewrite app_nil_r, app_nil_l.
  apply evolve_link_log in H. destruct (Z.leb_spec (s_log_link S) 0) as [Y|Y]; [lia|]. destruct H as (bs & -> & B).
  rewrite map_app, lines_app, (lines_none fl _ _ (if (e_time e =? 0)%Z then _ else _)); [now apply blocks_totals|].
  intros r Hr. left. destruct (e_time e =? 0)%Z; [destruct Hr|]. pose proof (link_days _ _ _ R r Hr). lia.
Qed.
