(** * LogTextProofs: reading the file of the agent log, for C79 *)

From Coq Require Import Lia.
From Verif Require Import Base State Moving Crawling Scoring Diagnostics Flee DataTable
  Spawning InputGeography Api SpecAgents SpecHistory SpecRoutes SpecTravel SpecReports Lemmas Inv InvMoves InvStruct Frames ScoreFrames
  CoreProofs ReportProofs Zones LogFrame Coupling SpecCoupling CouplingText AgentLog SpecAgentLog LogHistory.
Local Open Scope string_scope.
Local Open Scope list_scope.

Lemma cell_split s t : one_cell s -> split comma (s ++ String comma t) = s :: split comma t.
Proof. intros [A _]. rewrite split_app, (split_free comma s A). reflexivity. Qed.
Lemma split_commas l : Forall one_cell l -> split comma (with_commas l) = l ++ [""].
Proof.
  induction 1 as [|s l S _ IH]; [reflexivity|]. unfold with_commas. cbn [fold_right]. fold (with_commas l).
  rewrite (cell_split s _ S), IH. reflexivity.
Qed.
Lemma one_Z z : one_cell (str_of_Z z).
Proof. split; apply str_free; try discriminate; cbn; intuition discriminate. Qed.
Lemma one_app a b : one_cell a -> one_cell b -> one_cell (a ++ b)%string.
Proof. intros [A B] [C D]. split; apply free_app; auto. Qed.
Lemma one_dash : one_cell "-". Proof. split; cbn; intuition discriminate. Qed.

Lemma header_cells d : Forall one_cell (map fst d) -> split comma (log_header d) = headings (map fst d).
Proof.
  intro K. unfold log_header, headings, attribute_keys.
  rewrite <- (split_commas (map fst d) K). reflexivity.
Qed.
Lemma comma_app s t : ("," ++ t)%string = String comma t -> (s ++ "," ++ t)%string = (s ++ String comma t)%string.
Proof. now intros ->. Qed.

Lemma line_cells fl rank r : (forall q, one_cell (fl q)) -> fits_cells fl r ->
  split comma (log_line fl rank r) = cells fl rank r.
Proof.
  intros F (Ho & Lo & At). unfold log_line, cells.
  assert (T : one_cell (if (ar_hop r =? 0)%Z then str_of_Z (ar_time r) else (str_of_Z (ar_time r) ++ "-" ++ str_of_Z (ar_hop r))%string)).
  { destruct (ar_hop r =? 0)%Z; [apply one_Z|]. apply one_app; [apply one_Z|]. apply one_app; [apply one_dash|apply one_Z]. }
  assert (I : one_cell (str_of_Z (Z.of_nat rank) ++ "-" ++ str_of_Z (Z.of_nat (ar_agent r)))%string).
  { apply one_app; [apply one_Z|]. apply one_app; [apply one_dash|apply one_Z]. }
  assert (B : one_cell (bool_text (ar_travelling r))) by (destruct (ar_travelling r); split; cbn; intuition discriminate).
  assert (C : forall s t, one_cell s -> split comma (s ++ ("," ++ t))%string = s :: split comma t) by (intros s t X; exact (cell_split s t X)).
  rewrite (C _ _ T), (C _ _ I), (C _ _ Ho), (C _ _ Lo), (C _ _ (F _)), (C _ _ (F _)), (C _ _ B), (C _ _ (F _)), (C _ _ (one_Z _)), (C _ _ (F _)).
  unfold attribute_values. rewrite split_commas by (apply Forall_map; exact At). reflexivity.
Qed.

Lemma printed_app a b : printed (a ++ b) = (printed a ++ printed b)%string.
Proof.
  induction a as [|s a IH]; [reflexivity|]. change (printed ((s :: a) ++ b)) with (s ++ String newline (printed (a ++ b)))%string.
  change (printed (s :: a)) with (s ++ String newline (printed a))%string. rewrite IH, app_assoc_s. reflexivity.
Qed.
Lemma split_printed l : Forall (free newline) l -> split newline (printed l) = l ++ [""].
Proof.
  induction 1 as [|s l S _ IH]; [reflexivity|]. change (printed (s :: l)) with (s ++ String newline (printed l))%string.
  rewrite split_app, (split_free newline s S), IH. reflexivity.
Qed.
Lemma commas_free l : Forall one_cell l -> free newline (with_commas l).
Proof.
  induction 1 as [|s l [_ S] _ IH]; [intros []|]. change (with_commas (s :: l)) with (s ++ String comma (with_commas l))%string.
  apply free_app. split; [exact S|]. intros [Q0|Q0]; [discriminate Q0|exact (IH Q0)].
Qed.
Lemma header_line d : Forall one_cell (map fst d) -> free newline (log_header d).
Proof.
  intro K. unfold log_header, attribute_keys.
  assert (X : forall s t, free newline s -> free newline t -> free newline (s ++ t)%string) by (intros; apply free_app; auto).
  apply X; [|apply X; [|now apply commas_free]]; vm_compute; intuition discriminate.
Qed.
Lemma line_line fl rank r : (forall q, one_cell (fl q)) -> fits_cells fl r -> free newline (log_line fl rank r).
Proof.
  intros F ([_ Ho] & [_ Lo] & At). unfold log_line.
  assert (X : forall s t, free newline s -> free newline t -> free newline (s ++ ("," ++ t))%string).
  { intros s t A B. apply free_app. split; [exact A|]. intros [Q0|Q0]; [discriminate Q0|exact (B Q0)]. }
  assert (N : forall z, free newline (str_of_Z z)) by (intro z; apply one_Z).
  assert (D : forall s t, free newline s -> free newline t -> free newline (s ++ ("-" ++ t))%string).
  { intros s t A B. apply free_app. split; [exact A|]. intros [Q0|Q0]; [discriminate Q0|exact (B Q0)]. }
  repeat apply X; try apply N; try apply F; try assumption.
  - destruct (ar_hop r =? 0)%Z; [apply N|apply D; apply N].
  - apply D; apply N.
  - destruct (ar_travelling r); vm_compute; intuition discriminate.
  - apply commas_free. apply Forall_map. exact At.
Qed.

(** The whole file *)
Theorem file_read fl rank d rows : (forall q, one_cell (fl q)) -> Forall one_cell (map fst d) -> Forall (fits_cells fl) rows ->
  table_of (printed (log_header d :: map (log_line fl rank) rows)) = headings (map fst d) :: map (cells fl rank) rows ++ [[""]].
Proof.
  intros F K R. unfold table_of. rewrite split_printed.
  - rewrite map_app. cbn [map]. rewrite header_cells by exact K. cbn [app]. f_equal. f_equal.
    rewrite map_map. induction R as [|r rows R1 R IH]; [reflexivity|]. cbn [map]. rewrite line_cells, IH; auto.
  - constructor; [now apply header_line|]. apply Forall_map. eapply Forall_impl; [|exact R]. intros r Hr. now apply line_line.
Qed.

(** The file after a call of the writer *)
Theorem file_written fl rank S e e' old d : write_agents S e = Ok e' ->
  (e_time e <> 0%Z -> old = printed (log_header d :: map (log_line fl rank) (e_agents_out e))) ->
  exists d', write_agents_text fl rank S e old = Ok (printed (log_header d' :: map (log_line fl rank) (e_agents_out e'))) /\
    if (e_time e =? 0)%Z then option_map a_attributes (nth_error (e_agents e) 0) = Some d' else d' = d.
Proof.
  unfold write_agents, write_agents_text. intros H Old. destruct (Z.eqb_spec (e_time e) 0) as [T|T].
  - destruct (e_agents e) as [|a l] eqn:Ea; [discriminate|]. cbn [bind] in H. cbn [nth_error of_option bind].
    destruct (all_agent_rows _ _ _ _ _) as [rows|]; [|discriminate]. cbn [bind] in *. injection H as <-. exists (a_attributes a).
    split; [|reflexivity]. cbn [up_e_agents_out e_agents_out app]. f_equal. rewrite <- printed_app. reflexivity.
  - cbn [bind] in *. destruct (all_agent_rows _ _ _ _ _) as [rows|]; [|discriminate]. cbn [bind] in *. injection H as <-. exists d.
    split; [|reflexivity]. cbn [up_e_agents_out e_agents_out]. f_equal. rewrite (Old T), <- printed_app. rewrite map_app. reflexivity.
Qed.

(** What is under a heading *)
Theorem under_heading fl rank o h g0 e g keys : no_clear h -> run o h empty_eco g0 = Ok (e, g) -> all_have keys e ->
  forall r, In r (e_agents_out e) -> exists a, nth_error (e_agents e) (ar_agent r) = Some a /\
    List.length (cells fl rank r) = List.length (headings keys) /\
    forall j k v, nth_error (a_attributes a) j = Some (k, v) ->
      nth_error (headings keys) (10 + j) = Some k /\ nth_error (cells fl rank r) (10 + j) = Some (val_text fl v).
Proof.
  intros N H K r Hr. destruct (log_tells _ _ _ _ _ N H r Hr) as (_ & a & l & Ha & _ & _ & At). exists a. split; [exact Ha|].
  pose proof (K a (nth_error_In _ _ Ha)) as Ka. split.
  - unfold cells, headings. rewrite !app_length, map_length, At, map_length, <- Ka, map_length. reflexivity.
  - intros j k v Hj.
    assert (Lj : (j < List.length (a_attributes a))%nat) by (apply nth_error_Some; congruence).
    change (nth_error (keys ++ [""]) j = Some k /\ nth_error (map (val_text fl) (ar_attributes r) ++ [""]) j = Some (val_text fl v)).
    rewrite !nth_error_app1 by (rewrite ?map_length, ?At, <- ?Ka, ?map_length; exact Lj).
    rewrite <- Ka, At, !nth_error_map, Hj. split; reflexivity.
Qed.
