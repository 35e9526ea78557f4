(** * XLogProofs: what the files of the exchange logs say, for C84 *)

From Coq Require Import Lia.
From Verif Require Import Base State Moving Flee Api Pflee ParApi Coupling SpecCoupling Lemmas CouplingText CouplingRun AgentLog ExchangeLog SpecExchangeLog.
Local Open Scope string_scope.
Local Open Scope list_scope.

(** ** The text of a log *)

Lemma str_one z : free comma (str_of_Z z) /\ free newline (str_of_Z z) /\ free carriage_return (str_of_Z z) /\ str_of_Z z <> EmptyString.
Proof.
  split; [|split; [|split]]; try (apply str_free; [discriminate|cbn; intuition discriminate]).
  intro E. pose proof (parse_str z) as P. rewrite E in P. discriminate P.
Qed.
Lemma join_split zs : zs <> [] -> split comma (join "," (map str_of_Z zs)) = map str_of_Z zs.
Proof.
  induction zs as [|z zs IH]; intro N; [contradiction|]. destruct (str_one z) as (C & _). destruct zs as [|z' zs]; [cbn [map join]; now rewrite (split_free _ _ C)|].
  change (join "," (map str_of_Z (z :: z' :: zs))) with (str_of_Z z ++ String comma (join "," (map str_of_Z (z' :: zs))))%string.
  rewrite split_app, IH by discriminate. now rewrite (split_free _ _ C).
Qed.
Lemma join_free c zs : c <> "-"%char -> ~ In c digits -> c <> comma -> free c (join "," (map str_of_Z zs)).
Proof.
  intros A B C. induction zs as [|z zs IH]; [intros []|]. destruct zs as [|z0 zs]; [cbn [map join]; now apply str_free|].
  change (join "," (map str_of_Z (z :: z0 :: zs))) with (str_of_Z z ++ ("," ++ join "," (map str_of_Z (z0 :: zs))))%string.
  apply free_app; split; [now apply str_free|]. apply free_app; split; [|exact IH]. unfold free. cbn. intros [E|[]]. now apply C.
Qed.
Lemma join_some zs : zs <> [] -> join "," (map str_of_Z zs) <> EmptyString.
Proof.
  intros N E. assert (X : split comma (join "," (map str_of_Z zs)) = [EmptyString]) by (rewrite E; reflexivity). rewrite join_split in X by exact N.
  destruct zs as [|z zs]; [contradiction|]. cbn [map] in X. injection X as X _. destruct (str_one z) as (_ & _ & _ & S). contradiction.
Qed.
Lemma strip_row s : strip_cr (s ++ String carriage_return EmptyString) = s.
Proof.
  induction s as [|c s IH]; [reflexivity|]. cbn [String.append strip_cr]. rewrite IH. destruct s; reflexivity.
Qed.
Lemma rows_split rows : split newline (csv_rows rows) = map (fun r => (join "," (map str_of_Z r) ++ String carriage_return EmptyString)%string) rows ++ [EmptyString].
Proof.
  induction rows as [|r rows IH]; [reflexivity|]. cbn [csv_rows fold_right map]. fold (csv_rows rows). unfold csv_row.
  assert (X : ((join "," (map str_of_Z r) ++ String carriage_return (String newline EmptyString)) ++ csv_rows rows)%string
    = ((join "," (map str_of_Z r) ++ String carriage_return EmptyString) ++ String newline (csv_rows rows))%string) by now rewrite !app_assoc_s.
  rewrite X, split_app, IH. rewrite split_free; [reflexivity|]. apply free_app; split; [|unfold free; cbn; intuition discriminate].
  apply join_free; try discriminate. cbn; intuition discriminate.
Qed.
Lemma cells_read zs : mapM (fun c => of_option ValueError (parse_Z c)) (map str_of_Z zs) = Ok zs.
Proof. induction zs as [|z zs IH]; [reflexivity|]. cbn [map mapM]. rewrite parse_str. cbn [of_option bind]. now rewrite IH. Qed.
Lemma load_rows header rows w : free newline header -> (forall r, In r rows -> List.length r = Datatypes.S w) ->
  load_text (header ++ String newline (csv_rows rows)) = Ok rows.
Proof.
  intros F W. unfold load_text. rewrite split_app, (split_free _ _ F), rows_split. cbn [List.app tl]. rewrite map_app, map_map.
  assert (E : filter (fun l => negb (String.eqb l "")) (map (fun r => strip_cr (join "," (map str_of_Z r) ++ String carriage_return "")) rows ++ map strip_cr [""])
    = map (fun r => join "," (map str_of_Z r)) rows).
  { rewrite filter_app. cbn [map strip_cr filter]. rewrite String.eqb_refl. cbn [negb]. rewrite app_nil_r. induction rows as [|r rows IH]; [reflexivity|].
    cbn [map filter]. rewrite strip_row. destruct (String.eqb_spec (join "," (map str_of_Z r)) "") as [X|X].
    - exfalso. apply join_some in X; [exact X|]. specialize (W r (or_introl eq_refl)). now destruct r.
    - cbn [negb]. f_equal. apply IH. intros r' I. apply W. now right. }
  rewrite E. assert (M : mapM (fun l => mapM (fun c => of_option ValueError (parse_Z c)) (split comma l)) (map (fun r => join "," (map str_of_Z r)) rows) = Ok rows).
  { clear E. induction rows as [|r rows IH]; [reflexivity|]. cbn [map mapM]. rewrite join_split by (specialize (W r (or_introl eq_refl)); now destruct r).
    rewrite cells_read. cbn [bind]. rewrite IH by (intros r' I; apply W; now right). reflexivity. }
  rewrite M. cbn [bind]. replace (same_width rows) with true; [reflexivity|]. symmetry. destruct rows as [|r rows]; [reflexivity|]. apply forallb_forall.
  intros r' I. apply Nat.eqb_eq. rewrite (W r (or_introl eq_refl)), (W r' (or_intror I)). reflexivity.
Qed.

Lemma column_ok j rows : (forall r, In r rows -> (j < List.length r)%nat) -> data_column j rows = Ok (map (fun r => nth j r 0%Z) rows).
Proof.
  intro H. unfold data_column. induction rows as [|r rows IH]; [reflexivity|]. cbn [mapM map].
  rewrite (nth_error_nth' r 0%Z (H r (or_introl eq_refl))). cbn [of_option bind]. rewrite IH by (intros r' I; apply H; now right). reflexivity.
Qed.

(** ** Reading the files of all instances *)

Definition col (j : nat) (rows : list (list Z)) : list Z := map (fun r => nth (Datatypes.S j) r 0%Z) rows.
Definition cols (names : list string) (rowss : list (list (list Z))) (from : nat) : list (string * list (list Z)) :=
  map (fun p => (snd p, map (col (fst p)) rowss)) (combine (seq from (List.length names)) names).
Definition good (names : list string) (rows : list (list Z)) : Prop :=
  (2 <= List.length rows)%nat /\ forall r, In r rows -> List.length r = Datatypes.S (List.length names).

Lemma cols_step names rowss rows from : (forall r, In r rows -> (from + List.length names < List.length r)%nat) ->
  mapM (fun p : nat * (string * list (list Z)) => let '(j, (name, series)) := p in
     c <- data_column j (map (@tl Z) rows) ;; Ok (name, series ++ [c])) (combine (seq from (List.length names)) (cols names rowss from)) = Ok (cols names (rowss ++ [rows]) from).
Proof.
  revert from. induction names as [|n names IH]; intros from H; [reflexivity|]. unfold cols. cbn [List.length seq combine map mapM fst snd].
  rewrite column_ok.
  2:{ intros r I. apply in_map_iff in I as (r' & <- & I). specialize (H r' I). cbn [List.length] in H. destruct r'; cbn [tl List.length] in *; lia. }
  cbn [bind]. fold (cols names rowss (Datatypes.S from)). rewrite IH by (intros r I; specialize (H r I); cbn [List.length] in H; lia).
  cbn [bind]. f_equal. f_equal. rewrite map_app. cbn [map]. f_equal. f_equal. f_equal. unfold col. rewrite map_map. apply map_ext_in. intros r I.
  specialize (H r I). destruct r; [cbn in H; lia|reflexivity].
Qed.
Lemma cols_length names rowss from : List.length (cols names rowss from) = List.length names.
Proof. unfold cols. now rewrite map_length, combine_length, seq_length, Nat.min_id. Qed.

Lemma file_step names rowss rows header days : names <> [] -> free newline header -> good names rows ->
  read_log_file (days, cols names rowss 0) (header ++ String newline (csv_rows rows)) =
  Ok (match days with [] => map (fun r => nth 0 r 0%Z) rows | d => d end, cols names (rowss ++ [rows]) 0).
Proof.
  intros N F [L W]. unfold read_log_file. rewrite (load_rows header rows _ F W). cbn [bind].
  assert (T : two_dimensional rows = Ok rows).
  { destruct rows as [|r [|r' rows]]; [cbn in L; lia|cbn in L; lia|]. specialize (W r (or_introl eq_refl)). destruct names; [contradiction|].
    destruct r as [|z [|z' r]]; try (cbn in W; lia). reflexivity. }
  rewrite T. cbn [bind]. rewrite column_ok by (intros r I; rewrite (W r I); lia). cbn [bind fst snd]. rewrite cols_length.
  rewrite cols_step by (intros r I; rewrite (W r I); lia). cbn [bind]. now destruct days.
Qed.
Lemma start_cols names : NoDup names -> fold_left (fun d n => dict_set n [] d) names ([] : list (string * list (list Z))) = cols names [] 0.
Proof.
  assert (W : forall names acc, NoDup (map fst acc ++ names) ->
    fold_left (fun d n => dict_set n [] d) names (acc : list (string * list (list Z))) = acc ++ map (fun n => (n, [])) names).
  { clear names. induction names as [|n ns IH]; intros acc ND; cbn [fold_left map]; [now rewrite app_nil_r|].
    assert (E : dict_set n [] acc = acc ++ [(n, [])]).
    { apply NoDup_remove in ND as [_ ND]. assert (X : ~ In n (map fst acc)) by (intro I; apply ND; apply in_or_app; now left). clear - X.
      induction acc as [|[m v] acc IH]; [reflexivity|]. cbn [dict_set]. destruct (String.eqb_spec n m) as [->|Y]; [elim X; now left|].
      cbn [List.app]. f_equal. apply IH. intro I. apply X. now right. }
    rewrite E, IH; [now rewrite <- app_assoc|]. rewrite map_app. cbn [map fst]. now rewrite <- app_assoc. }
  intro ND. rewrite (W names []) by exact ND. cbn [List.app]. unfold cols. generalize 0%nat as from. clear ND W. induction names as [|n ns IH]; intro from; [reflexivity|].
  cbn [map List.length seq combine fst snd]. f_equal. apply IH.
Qed.

Lemma read_all names headed : names <> [] -> NoDup names -> Forall (fun p => free newline (fst p) /\ good names (snd p)) headed ->
  read_logs (map (fun p => (fst p ++ String newline (csv_rows (snd p)))%string) headed) names =
  Ok (match headed with [] => [] | p :: _ => map (fun r => nth 0 r 0%Z) (snd p) end, cols names (map snd headed) 0).
Proof.
  intros N ND G. unfold read_logs. rewrite (start_cols names ND).
  assert (W : forall headed days rowss, Forall (fun p => free newline (fst p) /\ good names (snd p)) headed ->
    foldM read_log_file (map (fun p => (fst p ++ String newline (csv_rows (snd p)))%string) headed) (days, cols names rowss 0) =
    Ok (match days with [] => match headed with [] => [] | p :: _ => map (fun r => nth 0 r 0%Z) (snd p) end | d => d end, cols names (rowss ++ map snd headed) 0)).
  { clear - N. induction headed as [|[h rows] headed IH]; intros days rowss G; cbn [map foldM fst snd]; [rewrite app_nil_r; now destruct days|].
    inversion G as [|? ? [F Gd] G']; subst. cbn [fst snd] in F, Gd. rewrite (file_step names rowss rows h days N F Gd). cbn [bind]. rewrite IH by exact G'.
    rewrite <- app_assoc. cbn [List.app]. do 2 f_equal. destruct days; [|reflexivity]. destruct Gd as [L _]. destruct rows; [cbn in L; lia|reflexivity]. }
  exact (W headed [] [] G).
Qed.

Lemma cols_get names rowss : NoDup names -> forall j n, nth_error names j = Some n -> dict_get n (cols names rowss 0) = Some (map (col j) rowss).
Proof.
  intros ND. assert (W : forall names from, NoDup names -> forall j n, nth_error names j = Some n -> dict_get n (cols names rowss from) = Some (map (col (from + j)) rowss)).
  { clear. induction names as [|m names IH]; intros from ND j n E; [destruct j; discriminate|]. inversion ND as [|? ? N1 N2]; subst.
    unfold cols. cbn [List.length seq combine map dict_get fst snd]. fold (cols names rowss (Datatypes.S from)). destruct j as [|j]; cbn in E.
    - injection E as ->. rewrite String.eqb_refl, Nat.add_0_r. reflexivity.
    - destruct (String.eqb_spec n m) as [->|X]; [elim N1; eapply nth_error_In; exact E|]. rewrite (IH _ N2 j n E). do 3 f_equal. lia. }
  intros j n E. exact (W names 0%nat ND j n E).
Qed.
Lemma cols_keys names rowss from : map fst (cols names rowss from) = names.
Proof.
  unfold cols. rewrite map_map. cbn [fst]. revert from. induction names as [|n names IH]; intro from; [reflexivity|]. cbn [List.length seq combine map fst snd].
  f_equal. apply IH.
Qed.

(** ** The rows of the logs *)

Lemma now_mod t cp i : has_interval cp i -> couples_now t cp = Ok (Z.eqb (t mod i) 0).
Proof. intros [E N]. unfold couples_now. rewrite E. cbn [of_option bind]. destruct (Z.eqb_spec i 0); [contradiction|reflexivity]. Qed.

Definition row_of (cp : coupling) (d : Z * eco) (r : list Z) : Prop := exists zs, out_numbers (snd d) cp = Ok zs /\ r = fst d :: zs.
Lemma logs_rows cp i h lg : has_interval cp i -> exchange_days i h <> [] -> logs_of cp h lg ->
  exists rows, x_locations lg = Some rows /\ Forall2 (row_of cp) (exchange_days i h) rows /\
    x_total lg = Some (map (fun d => [fst d; e_total_agents (snd d)]) (exchange_days i h)) /\ x_new lg = None.
Proof.
  intros I N H. unfold logs_of in H.
  assert (W : forall h lg0 lg, foldM (fun lg d => couple_log (fst d) (snd d) cp lg) h lg0 = Ok lg -> exists rows, Forall2 (row_of cp) (exchange_days i h) rows /\
    x_new lg = x_new lg0 /\ (exchange_days i h = [] -> x_locations lg = x_locations lg0 /\ x_total lg = x_total lg0) /\
    (exchange_days i h <> [] -> x_locations lg = Some (match x_locations lg0 with None => [] | Some r => r end ++ rows) /\
      x_total lg = Some (match x_total lg0 with None => [] | Some r => r end ++ map (fun d => [fst d; e_total_agents (snd d)]) (exchange_days i h)))).
  { clear - I. induction h as [|[t e] h IH]; intros lg0 lg H; cbn [foldM fst snd] in H.
    - injection H as <-. exists []. cbn. split; [constructor|]. split; [reflexivity|]. split; [auto|contradiction].
    - destruct (couple_log t e cp lg0) as [lg1|] eqn:E; [|discriminate]. cbn [bind] in H. unfold couple_log in E. rewrite (now_mod t cp i I) in E. cbn [bind] in E.
      destruct (IH lg1 lg H) as (rows & F & Nw & Z0 & Z1). unfold exchange_days in *. cbn [filter fst]. destruct (Z.eqb (t mod i) 0).
      + unfold log_exchange in E. destruct (out_numbers e cp) as [zs|] eqn:Ez; [|discriminate]. cbn [bind] in E. injection E as <-. cbn [x_new x_locations x_total append_row] in *.
        exists ((t :: zs) :: rows). split; [constructor; [exists zs; auto|exact F]|]. split; [exact Nw|]. split; [discriminate|]. intros _.
        destruct (filter (fun d => (fst d mod i =? 0)%Z) h) as [|d ds] eqn:Ed.
        * destruct (Z0 eq_refl) as [-> ->]. inversion F; subst. cbn [map]. auto.
        * destruct Z1 as [-> ->]; [discriminate|]. rewrite <- !app_assoc. cbn [List.app map fst snd]. auto.
      + injection E as <-. exists rows. auto. }
  destruct (W h no_log lg H) as (rows & F & Nw & _ & Z1). destruct (Z1 N) as [A B]. exists rows. cbn in A, B. auto.
Qed.

Lemma numbers_spec e cp zs : out_numbers e cp = Ok zs -> Forall2 (fun n z => sends e cp n z) (out_names cp) zs.
Proof.
  unfold out_numbers, out_names. intro H. destruct (mapM _ (cp_rows cp)) as [zss|] eqn:M; [|discriminate]. cbn [bind] in H. injection H as <-.
  assert (S : forall i n d, In (i, (n, d)) (cp_rows cp) -> str_in "out" d = true -> forall l, loc_of e i = Ok l -> sends e cp n (l_numAgents l)).
  { intros i n d I O l L. exists i, d, l. apply coupled_rows in I. split; [exact I|]. split; [apply says_in; [discriminate|exact O]|].
    unfold loc_of in L. apply of_option_ok in L. auto. }
  revert zss M S. induction (cp_rows cp) as [|(i & n & d) rows IH]; intros zss M S; cbn [mapM] in M; [injection M as <-; constructor|].
  destruct (if str_in "out" d then _ else _) as [z|] eqn:E; [|discriminate]. cbn [bind] in M. destruct (mapM _ rows) as [zs|] eqn:M'; [|discriminate]. cbn [bind] in M.
  injection M as <-. cbn [flat_map List.concat fst snd]. specialize (IH zs eq_refl (fun i n d I => S i n d (or_intror I))).
  destruct (str_in "out" d) eqn:O.
  - destruct (loc_of e i) as [l|] eqn:L; [|discriminate]. cbn [bind] in E. injection E as <-. cbn [List.app]. constructor; [|exact IH]. eapply S; eauto. now left.
  - injection E as <-. exact IH.
Qed.

Lemma header_free cp : Forall plain (out_names cp) -> free newline (locations_header cp).
Proof.
  unfold locations_header. generalize (out_names cp) as ns. assert (F : free newline "day") by (unfold free; cbn; intuition discriminate). revert F. generalize "day" as s.
  intros s F ns. revert s F. induction ns as [|n ns IH]; intros s F P; cbn [fold_left]; [exact F|]. inversion P as [|? ? (A & B & C) P']; subst. apply IH; [|exact P'].
  apply free_app; split; [exact F|]. apply free_app; split; [unfold free; cbn; intuition discriminate|exact B].
Qed.
Lemma out_outgoing cp n : In n (out_names cp) <-> outgoing cp n.
Proof.
  unfold out_names, outgoing. rewrite in_flat_map. split.
  - intros ((i & m & d) & I & X). cbn [fst snd] in X. destruct (str_in "out" d) eqn:O; [|destruct X]. destruct X as [->|[]]. exists i, d.
    split; [now apply coupled_rows|]. apply says_in; [discriminate|exact O].
  - intros (i & d & C & S). exists (i, (n, d)). split; [now apply coupled_rows|]. cbn [fst snd]. apply says_in in S; [|discriminate]. rewrite S. now left.
Qed.
Lemma out_nodup cp : NoDup (cp_names cp) -> NoDup (out_names cp).
Proof.
  unfold out_names, cp_rows. generalize (cp_ids cp) as ids, (cp_directions cp) as ds. induction (cp_names cp) as [|n ns IH]; intros ids ds ND; destruct ids as [|i ids], ds as [|d ds];
    cbn [combine flat_map]; try constructor. inversion ND as [|? ? N1 N2]; subst. cbn [fst snd]. destruct (str_in "out" d); [|now apply IH]. cbn [List.app].
  constructor; [|now apply IH]. intro I. apply N1. apply in_flat_map in I as ((j & m & d') & I & X). cbn [fst snd] in X.
  destruct (str_in "out" d'); [|destruct X]. destruct X as [->|[]]. apply in_combine_r, in_combine_l in I. exact I.
Qed.

Lemma F2_length {A B} (R : A -> B -> Prop) l l2 : Forall2 R l l2 -> List.length l = List.length l2.
Proof. induction 1; cbn; congruence. Qed.
Lemma f_locations cp i hs logs : has_interval cp i -> NoDup (cp_names cp) -> (forall name, outgoing cp name -> plain name) -> (exists name, outgoing cp name) ->
  Forall2 (logs_of cp) hs logs -> (forall h, In h hs -> (2 <= List.length (exchange_days i h))%nat) ->
  exists days columns, read_logs (map (save_locations "" cp) logs) (out_names cp) = Ok (days, columns) /\
    days = match hs with [] => [] | h :: _ => map fst (exchange_days i h) end /\
    (forall name, In name (map fst columns) <-> outgoing cp name) /\ NoDup (map fst columns) /\
    forall name series, dict_get name columns = Some series ->
      Forall2 (fun h numbers => Forall2 (fun d z => sends (snd d) cp name z) (exchange_days i h) numbers) hs series.
Proof.
  intros I ND P [n0 O0] F L.
  assert (R : exists rowss, map (save_locations "" cp) logs = map (fun p => (fst p ++ String newline (csv_rows (snd p)))%string) (map (fun r => (locations_header cp, r)) rowss) /\
     Forall2 (fun h rows => Forall2 (row_of cp) (exchange_days i h) rows) hs rowss).
  { clear O0. revert L. induction F as [|h lg hs logs E F IH]; intro L; [exists []; split; [reflexivity|constructor]|].
    destruct IH as (rowss & E1 & E2); [intros h' I'; apply L; now right|].
    assert (N : exchange_days i h <> []) by (specialize (L h (or_introl eq_refl)); intro X; rewrite X in L; cbn in L; lia).
    destruct (logs_rows cp i h lg I N E) as (rows & A & B & _). exists (rows :: rowss). split; [|constructor; assumption].
    cbn [map fst snd]. rewrite E1. unfold save_locations at 1. rewrite A. reflexivity. }
  destruct R as (rowss & R1 & R2).
  assert (PN : Forall plain (out_names cp)) by (apply Forall_forall; intros n X; apply P; now apply out_outgoing).
  assert (NN : out_names cp <> []) by (intro X; apply out_outgoing in O0; rewrite X in O0; destruct O0).
  assert (G : Forall (fun p => free newline (fst p) /\ good (out_names cp) (snd p)) (map (fun r => (locations_header cp, r)) rowss)).
  { apply Forall_forall. intros p X. apply in_map_iff in X as (rows & <- & X). cbn [fst snd]. split; [now apply header_free|].
    clear R1 F. revert L X. induction R2 as [|h rows' hs rowss R R2 IH]; intros L X; [destruct X|]. destruct X as [->|X].
    - split; [rewrite <- (F2_length _ _ _ R); apply L; now left|]. intros r Ir. clear - R Ir. induction R as [|d r' ds rs (zs & Z1 & ->) R IH]; [destruct Ir|].
      destruct Ir as [<-|Ir]; [|exact (IH Ir)]. cbn [List.length]. f_equal. symmetry. exact (F2_length _ _ _ (numbers_spec _ _ _ Z1)).
    - apply IH; [|exact X]. intros h1 I1. apply L. now right. }
  pose proof (read_all (out_names cp) _ NN (out_nodup cp ND) G) as RA. rewrite <- R1 in RA.
  eexists. eexists. split; [exact RA|]. split; [|split; [|split]].
  - destruct R2 as [|h rows hs rowss R R2]; [reflexivity|]. cbn [map snd]. clear - R. induction R as [|d r ds rs (zs & _ & ->) R IH]; [reflexivity|]. cbn [map nth]. now rewrite IH.
  - intro n. rewrite cols_keys. apply out_outgoing.
  - rewrite cols_keys. now apply out_nodup.
  - intros n series E. assert (In n (out_names cp)) as X.
    { rewrite <- (cols_keys (out_names cp) (map snd (map (fun r => (locations_header cp, r)) rowss)) 0). clear - E.
      induction (cols _ _ _) as [|[m v] d IH]; [discriminate E|]. cbn [dict_get] in E. cbn [map fst]. destruct (String.eqb_spec n m) as [->|]; [now left|right; auto]. }
    apply In_nth_error in X as [j X]. rewrite (cols_get _ _ (out_nodup cp ND) j n X) in E. injection E as <-. rewrite !map_map. cbn [snd].
    clear - R2 X. induction R2 as [|h rows hs rowss R R2 IH]; [constructor|]. cbn [map]. constructor; [|exact IH]. clear - R X.
    induction R as [|d r ds rs (zs & Z1 & ->) R IH]; [constructor|]. cbn [map col]. unfold col in *. cbn [map]. constructor; [|exact IH]. cbn [nth].
    apply numbers_spec in Z1. clear IH R. revert X. revert j. induction Z1 as [|m z ns zs S Z1 IHz]; intros j X; [destruct j; discriminate|].
    destruct j as [|j]; cbn in X; [injection X as <-; exact S|]. exact (IHz j X).
Qed.

Lemma one_file header name rows : header = ("day," ++ name)%string -> free newline name -> (2 <= List.length rows)%nat -> 
  read_logs [(header ++ String newline (csv_rows (map (fun p => [fst p; snd p]) rows)))%string] [name] = Ok (map fst rows, [(name, [map snd rows])]).
Proof.
  intros -> F L. pose proof (read_all [name] [(("day," ++ name)%string, map (fun p => [fst p; snd p]) rows)]) as R. cbn [map fst snd] in R. rewrite R; clear R.
  - f_equal. unfold cols. cbn. unfold col. rewrite !map_map. cbn [nth]. reflexivity.
  - discriminate.
  - repeat constructor. intros [].
  - repeat constructor; cbn [fst snd].
    + apply free_app; split; [unfold free; cbn; intuition discriminate|exact F].
    + now rewrite map_length.
    + intros r I. apply in_map_iff in I as (p & <- & _). reflexivity.
Qed.
Lemma f_total cp i h lg : has_interval cp i -> logs_of cp h lg -> (2 <= List.length (exchange_days i h))%nat ->
  read_logs [save_total "" lg] ["total_agents"] = Ok (map fst (exchange_days i h), [("total_agents", [map (fun d => e_total_agents (snd d)) (exchange_days i h)])]).
Proof.
  intros I H L. assert (N : exchange_days i h <> []) by (intro X; rewrite X in L; cbn in L; lia).
  destruct (logs_rows cp i h lg I N H) as (rows & _ & _ & T & _). unfold save_total. rewrite T. cbn [saved].
  pose proof (one_file "day,total_agents" "total_agents" (map (fun d => (fst d, e_total_agents (snd d))) (exchange_days i h)) eq_refl) as O.
  rewrite !map_map in O. cbn [fst snd] in O. apply O; [unfold free; cbn; intuition discriminate|now rewrite map_length].
Qed.
Lemma f_new (days : list (Z * Z)) lg : x_new lg = None -> (2 <= List.length days)%nat ->
  read_logs [save_new "" (fold_left (fun lg d => log_new (fst d) (snd d) lg) days lg)] ["new_refs"] = Ok (map fst days, [("new_refs", [map snd days])]).
Proof.
  intros N L. assert (W : forall days lg, days <> [] -> x_new (fold_left (fun lg d => log_new (fst d) (snd d) lg) days lg) =
    Some (match x_new lg with None => [] | Some r => r end ++ map (fun p : Z * Z => [fst p; snd p]) days)).
  { clear. induction days as [|[t z] days IH]; intros lg N; [contradiction|]. cbn [fold_left fst snd]. destruct days as [|d days]; [reflexivity|].
    rewrite IH by discriminate. cbn [log_new x_new append_row]. rewrite <- app_assoc. reflexivity. }
  unfold save_new. rewrite W by (intro X; rewrite X in L; cbn in L; lia). rewrite N. cbn [List.app saved].
  apply (one_file "day,new_refs" "new_refs" days eq_refl); [unfold free; cbn; intuition discriminate|exact L].
Qed.

Lemma f_short cp i h lg : has_interval cp i -> (forall name, outgoing cp name -> plain name) -> logs_of cp h lg ->
  exchange_days i h <> [] -> List.length (exchange_days i h) = 1%nat \/ ~ (exists name, outgoing cp name) ->
  read_logs [save_locations "" cp lg] (out_names cp) = Err IndexError.
Proof.
  intros I P H N K. destruct (logs_rows cp i h lg I N H) as (rows & A & B & _). unfold read_logs. cbn [foldM]. unfold save_locations. rewrite A. cbn [saved String.append].
  assert (PN : Forall plain (out_names cp)) by (apply Forall_forall; intros n X; apply P; now apply out_outgoing).
  assert (W : forall r, In r rows -> List.length r = Datatypes.S (List.length (out_names cp))).
  { intros r Ir. clear - B Ir. induction B as [|d r' ds rs (zs & Z1 & ->) R IH]; [destruct Ir|].
    destruct Ir as [<-|Ir]; [|exact (IH Ir)]. cbn [List.length]. f_equal. symmetry. exact (F2_length _ _ _ (numbers_spec _ _ _ Z1)). }
  unfold read_log_file. rewrite (load_rows _ rows _ (header_free cp PN) W). cbn [bind].
  replace (two_dimensional rows) with (@Err (list (list Z)) IndexError); [reflexivity|]. apply F2_length in B. rewrite B in K.
  destruct rows as [|r rows]; [reflexivity|]. destruct K as [K|K].
  - destruct rows as [|r' rows]; [|discriminate K]. destruct r as [|a [|b r]]; reflexivity.
  - specialize (W r (or_introl eq_refl)). assert (O : out_names cp = []).
    { destruct (out_names cp) as [|n ns] eqn:E; [reflexivity|]. elim K. exists n. apply out_outgoing. rewrite E. now left. }
    rewrite O in W. destruct r as [|a [|b r]]; [reflexivity|reflexivity|discriminate W].
Qed.

Lemma f_nothing cp i h lg old : has_interval cp i -> logs_of cp h lg -> exchange_days i h = [] ->
  save_total old lg = old /\ save_locations old cp lg = old /\ save_new old lg = old.
Proof.
  intros I H N. assert (E : lg = no_log); [|subst lg; auto]. unfold logs_of in H. revert H N. generalize no_log as lg0. 
  induction h as [|[t e] h IH]; intros lg0 H N; cbn [foldM fst snd] in H; [now injection H|].
  unfold exchange_days in N. cbn [filter fst] in N. unfold couple_log in H at 1. rewrite (now_mod t cp i I) in H. cbn [bind] in H.
  destruct (Z.eqb (t mod i) 0); [discriminate N|]. cbn [bind] in H. exact (IH lg0 H N).
Qed.
