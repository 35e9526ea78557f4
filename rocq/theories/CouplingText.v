(** * CouplingText: proofs about the text exchanged by coupled simulations *)

From Coq Require Import Lia Qround Lqa DecimalString DecimalZ DecimalFacts.
From Verif Require Import Base State Moving Crawling Scoring Diagnostics Flee DataTable
  Spawning InputGeography Api Pflee ParApi SpecParallel Coupling SpecCoupling Lemmas.
Local Open Scope string_scope.
Local Open Scope list_scope.

(** ** Strings *)

Lemma app_assoc_s a b c : ((a ++ b) ++ c)%string = (a ++ (b ++ c))%string.
Proof. induction a; cbn; congruence. Qed.
Lemma app_empty a : (a ++ EmptyString)%string = a. Proof. induction a; cbn; congruence. Qed.

Lemma split_nonempty c s : split c s <> [].
Proof. destruct s as [|d s]; cbn; [discriminate|]. destruct (Ascii.eqb d c); [discriminate|]. destruct (split c s); discriminate. Qed.
Lemma split_free c s : free c s -> split c s = [s].
Proof.
  induction s as [|d s IH]; intro F; cbn [split]; [reflexivity|].
  destruct (Ascii.eqb_spec d c) as [->|N]; [exfalso; apply F; now left|].
  rewrite IH; [reflexivity|]. intro I. apply F. now right.
Qed.
Lemma split_app c a b : split c (a ++ String c b) = split c a ++ split c b.
Proof.
  induction a as [|d a IH]; cbn [split String.append].
  - rewrite Ascii.eqb_refl. reflexivity.
  - rewrite IH. destruct (Ascii.eqb d c); [reflexivity|]. pose proof (split_nonempty c a).
    destruct (split c a); [contradiction|reflexivity].
Qed.
Lemma free_app c a b : free c (a ++ b) <-> free c a /\ free c b.
Proof.
  unfold free. induction a as [|d a IH]; cbn [String.append list_ascii_of_string In]; [tauto|]. tauto.
Qed.

(** ** Numbers *)

Definition digits : list ascii := ["0"; "1"; "2"; "3"; "4"; "5"; "6"; "7"; "8"; "9"]%char.
Lemma uint_chars u : forall c, In c (list_ascii_of_string (NilEmpty.string_of_uint u)) -> In c digits.
Proof.
  induction u; cbn [NilEmpty.string_of_uint list_ascii_of_string]; intros c H; [destruct H|..];
    (destruct H as [<-|H]; [cbn; tauto|exact (IHu c H)]).
Qed.
Lemma str_chars z c : In c (list_ascii_of_string (str_of_Z z)) -> c = "-"%char \/ In c digits.
Proof.
  unfold str_of_Z, NilZero.string_of_int. destruct (Z.to_int z) as [u|u].
  - unfold NilZero.string_of_uint. destruct u; intro H; right; try exact (uint_chars _ c H). cbn in *. tauto.
  - cbn [list_ascii_of_string In]. intros [<-|H]; [now left|right]. unfold NilZero.string_of_uint in H.
    destruct u; try exact (uint_chars _ c H). cbn in *. tauto.
Qed.
Lemma str_free z c : c <> "-"%char -> ~ In c digits -> free c (str_of_Z z).
Proof. intros A B H. apply str_chars in H. tauto. Qed.
Lemma no_space_strip s : (forall c, In c (list_ascii_of_string s) -> is_space c = false) -> strip s = s.
Proof.
  intro H. unfold strip.
  assert (L : forall t, (forall c, In c (list_ascii_of_string t) -> is_space c = false) -> lstrip t = t).
  { intros [|c t] T; [reflexivity|]. cbn [lstrip]. rewrite (T c); [reflexivity|now left]. }
  assert (R : forall t u, list_ascii_of_string (string_rev t u) = rev (list_ascii_of_string t) ++ list_ascii_of_string u).
  { induction t as [|c t IH]; intro u; cbn [string_rev list_ascii_of_string rev]; [reflexivity|].
    rewrite IH, <- app_assoc. reflexivity. }
  rewrite (L s H). rewrite (L (string_rev s "")).
  - rewrite <- (string_of_list_ascii_of_string (string_rev _ _)), R, R. cbn [list_ascii_of_string].
    rewrite !app_nil_r, rev_involutive. apply string_of_list_ascii_of_string.
  - intros c C. rewrite R, app_nil_r in C. apply H. now apply in_rev.
Qed.
Lemma digits_plain c : c = "-"%char \/ In c digits -> is_space c = false /\ c <> comma /\ c <> newline.
Proof. intros [->|H]; [repeat split; discriminate|]. repeat (destruct H as [<-|H]; [repeat split; discriminate|]). destruct H. Qed.

Lemma parse_str z : parse_Z (str_of_Z z) = Some z.
Proof.
  unfold parse_Z. rewrite no_space_strip; [|intros c C; apply (digits_plain c (str_chars z c C))].
  assert (P : option_map Z.of_int (NilZero.int_of_string (str_of_Z z)) = Some z).
  { unfold str_of_Z. rewrite NilZero.isi; [cbn; now rewrite DecimalZ.of_to|..];
      destruct z; cbn; try discriminate; intro X; injection X as X; revert X;
      rewrite DecimalPos.Unsigned.to_uint_nonnil || idtac; auto;
      apply DecimalPos.Unsigned.to_uint_nonnil. }
  destruct (str_of_Z z) as [|c s] eqn:E; [exact P|].
  assert (C : c = "-"%char \/ In c digits) by (apply (str_chars z); rewrite E; now left).
  destruct C as [->|C]; [exact P|]. repeat (destruct C as [<-|C]; [exact P|]). destruct C.
Qed.

(** ** Rows *)

Lemma get_set {A} n m (v : A) d : dict_get m (dict_set n v d) = if String.eqb m n then Some v else dict_get m d.
Proof.
  induction d as [|[k w] d IH]; cbn [dict_set dict_get].
  - destruct (String.eqb m n); reflexivity.
  - destruct (String.eqb_spec n k) as [->|N]; cbn [dict_get].
    + destruct (String.eqb m k); reflexivity.
    + destruct (String.eqb_spec m k) as [->|M].
      * destruct (String.eqb_spec k n); [congruence|reflexivity].
      * exact IH.
Qed.

Lemma names_loop w rest names : forall d,
  (forall d1, foldM (fun d1 n => if String.eqb w n then
             v <- of_option IndexError (nth_error rest 0) ;;
             z <- of_option ValueError (parse_Z v) ;; Ok (dict_set n z d1)
           else Ok d1) names d = Ok d1 ->
    (forall m, m <> w -> dict_get m d1 = dict_get m d) /\ (~ In w names -> d1 = d)) /\
  (forall v z, nth_error rest 0 = Some v -> parse_Z v = Some z -> exists d1,
    foldM (fun d1 n => if String.eqb w n then
             v <- of_option IndexError (nth_error rest 0) ;;
             z <- of_option ValueError (parse_Z v) ;; Ok (dict_set n z d1)
           else Ok d1) names d = Ok d1 /\
    forall m, dict_get m d1 = if (String.eqb m w && mem_str w names)%bool then Some z else dict_get m d).
Proof.
  induction names as [|n names IH]; intro d; cbn [foldM].
  - split; [intros d1 H; injection H as <-; auto|]. intros v z _ _. exists d. split; [reflexivity|].
    intro m. cbn. now rewrite andb_false_r.
  - split.
    + intros d1 H. destruct (String.eqb_spec w n) as [->|N].
      * rstep H. rstep E. rstep E. injection E as <-. destruct (proj1 (IH _) _ H) as [A B]. split.
        -- intros m M. rewrite (A m M), get_set. destruct (String.eqb_spec m n); congruence.
        -- intro C. exfalso. apply C. now left.
      * destruct (proj1 (IH _) _ H) as [A B]. split; [exact A|]. intro C. apply B. intro I. apply C. now right.
    + intros v z V P. destruct (String.eqb_spec w n) as [->|N].
      * rewrite V. cbn [of_option bind]. rewrite P. cbn [of_option bind].
        destruct (proj2 (IH (dict_set n z d)) v z V P) as (d1 & F & G). rewrite V in F. cbn [of_option bind] in F. rewrite P in F. cbn [of_option bind] in F.
        exists d1. split; [exact F|]. intro m. rewrite G, get_set. unfold mem_str. cbn [existsb]. rewrite String.eqb_refl. cbn [orb].
        destruct (String.eqb m n); cbn; [|reflexivity]. now destruct (existsb _ _).
      * cbn [bind]. destruct (proj2 (IH d) v z V P) as (d1 & F & G). exists d1. split; [exact F|]. intro m. rewrite G. unfold mem_str. cbn [existsb].
        destruct (String.eqb_spec w n); [congruence|]. reflexivity.
Qed.

Lemma row_frame cp d row d1 : read_row cp d row = Ok d1 ->
  forall m, row = [] \/ nth_error row 0 <> Some m -> dict_get m d1 = dict_get m d.
Proof.
  intros H m M. unfold read_row in H. destruct row as [|[|c w] rest]; try (now injection H as <-).
  destruct (Ascii.eqb c "#"%char); [now injection H as <-|].
  destruct (names_loop (String c w) rest (cp_names cp) d) as [A _]. apply (proj1 (A _ H)).
  destruct M as [M|M]; [discriminate M|]. intros ->. apply M. reflexivity.
Qed.
Lemma row_ignored cp d w rest : w = EmptyString \/ (exists v, w = String "#" v) \/ ~ In w (cp_names cp) ->
  read_row cp d (w :: rest) = Ok d.
Proof.
  intros [->|[[v ->]|N]]; [reflexivity|reflexivity|].
  unfold read_row. destruct w as [|c w]; [reflexivity|]. destruct (Ascii.eqb c "#"%char); [reflexivity|].
  revert N. generalize (String c w) as s. intros s N. induction (cp_names cp) as [|n ns IH]; [reflexivity|]. cbn [foldM].
  destruct (String.eqb_spec s n) as [->|X]; [exfalso; apply N; now left|]. cbn [bind]. apply IH. intro I. apply N. now right.
Qed.
Lemma row_plain cp d n z : plain n -> exists d1, read_row cp d [n; str_of_Z z] = Ok d1 /\
  forall m, dict_get m d1 = if (String.eqb m n && mem_str n (cp_names cp))%bool then Some z else dict_get m d.
Proof.
  intros (_ & _ & P). unfold read_row. destruct n as [|c w]; [destruct P|].
  destruct (Ascii.eqb_spec c "#"%char); [contradiction|].
  exact (proj2 (names_loop (String c w) [str_of_Z z] (cp_names cp) d) _ z eq_refl (parse_str z)).
Qed.

(** ** Lines *)

Lemma mem_str_in n l : mem_str n l = true <-> In n l.
Proof.
  unfold mem_str. rewrite existsb_exists. split; [intros (x & I & E); apply String.eqb_eq in E; now subst|].
  intro I. exists n. split; [exact I|apply String.eqb_refl].
Qed.

Definition text_of (rows : list (string * Z)) : string :=
  fold_right (fun r s => (csv_line (fst r) (snd r) ++ s)%string) EmptyString rows.
Lemma line_split n z : plain n -> split comma (n ++ String comma (str_of_Z z)) = [n; str_of_Z z].
Proof.
  intros (C & _). rewrite split_app, (split_free _ _ C), split_free; [reflexivity|].
  apply str_free; [discriminate|cbn; intros H; repeat (destruct H as [H|H]; [discriminate H|]); exact H].
Qed.
Lemma line_free n z : plain n -> free newline (n ++ String comma (str_of_Z z)).
Proof.
  intros (_ & N & _). apply free_app. split; [exact N|]. intros [H|H]; [discriminate H|].
  revert H. apply str_free; [discriminate|cbn; intros H; repeat (destruct H as [H|H]; [discriminate H|]); exact H].
Qed.
Lemma text_split rows : Forall plain (map fst rows) ->
  split newline (text_of rows) = map (fun r => (fst r ++ String comma (str_of_Z (snd r)))%string) rows ++ [EmptyString].
Proof.
  induction rows as [|[n z] rows IH]; intro P; [reflexivity|]. inversion P as [|? ? P1 P2]; subst. cbn [fst] in P1.
  change (text_of ((n, z) :: rows)) with (csv_line n z ++ text_of rows)%string.
  assert (X : (csv_line n z ++ text_of rows)%string = ((n ++ String comma (str_of_Z z)) ++ String newline (text_of rows))%string).
  { unfold csv_line. rewrite !app_assoc_s. cbn [String.append]. rewrite app_assoc_s. reflexivity. }
  rewrite X, split_app, (split_free _ _ (line_free n z P1)), IH; [reflexivity|exact P2].
Qed.

(** The last row of a name counts. *)
Fixpoint last_of (n : string) (rows : list (string * Z)) : option Z :=
  match rows with
  | [] => None
  | (m, z) :: rows' => match last_of n rows' with Some y => Some y | None => if String.eqb n m then Some z else None end
  end.
Lemma read_rows cp rows : Forall plain (map fst rows) -> forall d, exists d1,
  foldM (fun d line => read_row cp d (split comma line))
    (map (fun r => (fst r ++ String comma (str_of_Z (snd r)))%string) rows) d = Ok d1 /\
  forall m, dict_get m d1 = match last_of m rows with
                            | Some z => if mem_str m (cp_names cp) then Some z else dict_get m d
                            | None => dict_get m d
                            end.
Proof.
  induction rows as [|[n z] rows IH]; intros P d; cbn [map foldM last_of fst snd]; [exists d; auto|].
  inversion P as [|? ? P1 P2]; subst. rewrite (line_split n z P1). destruct (row_plain cp d n z P1) as (d1 & E & G). rewrite E. cbn [bind].
  destruct (IH P2 d1) as (d2 & F & K). exists d2. split; [exact F|]. intro m. rewrite K.
  destruct (last_of m rows) as [y|].
  - destruct (mem_str m (cp_names cp)) eqn:M; [reflexivity|]. rewrite G. destruct (String.eqb_spec m n) as [->|]; [|reflexivity]. now rewrite M.
  - rewrite G. destruct (String.eqb_spec m n) as [->|]; reflexivity.
Qed.

(** ** Directions *)

Lemma sub_prefix w b : substring 0 (String.length w) (w ++ b) = w.
Proof. induction w as [|c w IH]; cbn; [destruct b; reflexivity|]. now rewrite IH. Qed.
Lemma sub_at a w b : substring (String.length a) (String.length w) (a ++ w ++ b) = w.
Proof. induction a as [|c a IH]; cbn [String.length String.append]; [apply sub_prefix|exact IH]. Qed.
Lemma sub_split0 w : forall s, substring 0 (String.length w) s = w -> exists b, s = (w ++ b)%string.
Proof.
  induction w as [|c w IH]; intros s H; [now exists s|]. destruct s as [|d s]; [discriminate H|]. cbn in H.
  injection H as <- H. destruct (IH s H) as [b ->]. now exists b.
Qed.
Lemma sub_split w : w <> EmptyString -> forall m s, substring m (String.length w) s = w -> exists a b, s = (a ++ w ++ b)%string.
Proof.
  intros W m. induction m as [|m IH]; intros s H.
  - apply sub_split0 in H as [b ->]. now exists EmptyString, b.
  - destruct s as [|d s]; [cbn in H; congruence|]. cbn in H. apply IH in H as (a & b & ->). now exists (String d a), b.
Qed.
Lemma says_in w s : w <> EmptyString -> (str_in w s = true <-> says w s).
Proof.
  intro W. unfold str_in, says. destruct (index 0 w s) as [m|] eqn:E.
  - split; [|auto]. intros _. apply (sub_split w W m). exact (index_correct1 _ _ _ _ E).
  - split; [discriminate|]. intros (a & b & ->). exfalso.
    refine (index_correct3 0 (String.length a) w _ E W (Nat.le_0_l _) _). apply sub_at.
Qed.

(** ** The table of a simulation *)

Lemma nth_combine {A B} (l : list A) (m : list B) k x y :
  nth_error (combine l m) k = Some (x, y) <-> nth_error l k = Some x /\ nth_error m k = Some y.
Proof.
  revert m k. induction l as [|a l IH]; intros [|b m] [|k]; cbn; try (split; [discriminate|intros [? ?]; discriminate]).
  - split; [intro H; injection H as <- <-; auto|]. intros [[= <-] [= <-]]. reflexivity.
  - apply IH.
Qed.
Lemma coupled_rows cp i n d : coupled cp i n d <-> In (i, (n, d)) (cp_rows cp).
Proof.
  unfold coupled, cp_rows. split.
  - intros (k & A & B & C). eapply nth_error_In. apply nth_combine. split; [exact A|]. apply nth_combine. eauto.
  - intro H. apply In_nth_error in H as [k H]. apply nth_combine in H as [A H]. apply nth_combine in H as [B C]. exists k. auto.
Qed.
Lemma coupled_name cp i n d : coupled cp i n d -> In n (cp_names cp).
Proof. intros (k & _ & B & _). eapply nth_error_In; eauto. Qed.

Lemma out_rows e rows : forall ls, mapM (out_line e) rows = Ok ls -> exists rs,
  fold_right String.append EmptyString ls = text_of rs /\
  forall n z, In (n, z) rs <-> exists i d l, In (i, (n, d)) rows /\ says "out" d /\ nth_error (e_locations e) i = Some l /\ l_numAgents l = z.
Proof.
  induction rows as [|[i [n d]] rows IH]; intros ls H; cbn [mapM] in H.
  - injection H as <-. exists []. split; [reflexivity|]. intros n z. split; [intros []|]. intros (? & ? & ? & [] & _).
  - rstep H. rstep H. injection H as <-. destruct (IH _ eq_refl) as (rs & E1 & E2). unfold out_line in E.
    destruct (str_in "out" d) eqn:O.
    + rstep E. injection E as <-. unfold loc_of in E3. apply of_option_ok in E3. exists ((n, l_numAgents v1) :: rs). split; [cbn [fold_right text_of fst snd]; unfold text_of in E1; now rewrite E1|].
      intros m z. cbn [In]. rewrite E2. split.
      * intros [X|(j & d' & l & A & B)]; [injection X as <- <-; exists i, d, v1; split; [now left|]|exists j, d', l; split; [now right|exact B]].
        split; [apply says_in; [discriminate|exact O]|]. auto.
      * intros (j & d' & l & [X|A] & B & C & D); [|right; exists j, d', l; auto]. injection X as <- <- <-. rewrite C in E3. injection E3 as <-. left. now rewrite D.
    + injection E as <-. exists rs. split; [cbn; exact E1|]. intros m z. rewrite E2. cbn [In]. split.
      * intros (j & d' & l & A & B). exists j, d', l. auto.
      * intros (j & d' & l & [X|A] & B & C); [|exists j, d', l; auto]. injection X as <- <- <-. apply says_in in B; [congruence|discriminate].
Qed.
Lemma output_rows e cp text : output_csv e cp = Ok text -> exists rs, text = text_of rs /\ forall n z, In (n, z) rs <-> sends e cp n z.
Proof.
  unfold output_csv. intro H. rstep H. injection H as <-. destruct (out_rows _ _ _ E) as (rs & E1 & E2). exists rs. split; [exact E1|].
  intros n z. rewrite E2. unfold sends. split; intros (i & d & l & A & B); exists i, d, l; (split; [now apply coupled_rows|exact B]).
Qed.

Lemma last_in n rs z : last_of n rs = Some z -> In (n, z) rs.
Proof.
  induction rs as [|[m y] rs IH]; cbn [last_of]; [discriminate|]. destruct (last_of n rs) as [w|].
  - intro H; injection H as <-. right. auto.
  - destruct (String.eqb_spec n m) as [->|]; [|discriminate]. intro H; injection H as <-. now left.
Qed.
Lemma in_last n rs z : In (n, z) rs -> exists y, last_of n rs = Some y.
Proof.
  induction rs as [|[m y] rs IH]; cbn [last_of]; [intros []|]. intros [H|H].
  - injection H as -> ->. destruct (last_of n rs); [eauto|]. rewrite String.eqb_refl. eauto.
  - destruct (IH H) as [w ->]. eauto.
Qed.


Lemma read_text cp rs : Forall plain (map fst rs) -> forall d, exists d1,
  foldM (fun d line => read_row cp d (split comma line)) (split newline (text_of rs)) d = Ok d1 /\
  forall m, dict_get m d1 = match last_of m rs with
                            | Some z => if mem_str m (cp_names cp) then Some z else dict_get m d
                            | None => dict_get m d
                            end.
Proof.
  intros P d. rewrite (text_split rs P). destruct (read_rows cp rs P d) as (d1 & F & G). exists d1. split; [|exact G].
  rewrite foldM_app, F. reflexivity.
Qed.

(** Reading one's own or the other simulation's table after [d] has been read *)
Lemma read_sent e cp cp2 text d : (forall n z, sends e cp n z -> plain n) -> certain e cp -> output_csv e cp = Ok text ->
  exists d1, foldM (fun d line => read_row cp2 d (split comma line)) (split newline text) d = Ok d1 /\
    (forall n z, sends e cp n z -> In n (cp_names cp2) -> dict_get n d1 = Some z) /\
    (forall n, ~ In n (cp_names cp2) \/ (forall z, ~ sends e cp n z) -> dict_get n d1 = dict_get n d).
Proof.
  intros P C H. destruct (output_rows _ _ _ H) as (rs & -> & R).
  assert (Q : Forall plain (map fst rs)).
  { apply Forall_forall. intros n I. apply in_map_iff in I as ([m z] & <- & I). apply R in I. eauto. }
  destruct (read_text cp2 rs Q d) as (d1 & F & G). exists d1. split; [exact F|]. split.
  - intros n z S I. rewrite G. destruct (in_last n rs z) as [y L]; [now apply R|]. rewrite L.
    apply mem_str_in in I. rewrite I. f_equal. apply (C n); [apply R; now apply last_in|exact S].
  - intros n X. rewrite G. destruct (last_of n rs) as [y|] eqn:L; [|reflexivity]. apply last_in, R in L.
    destruct (mem_str n (cp_names cp2)) eqn:M; [|reflexivity]. apply mem_str_in in M. destruct X as [X|X]; [contradiction|]. elim (X y L).
Qed.

Lemma round_trip e cp cp2 text : (forall n z, sends e cp n z -> plain n) -> certain e cp -> output_csv e cp = Ok text ->
  exists d, extract_text cp2 text = Ok d /\ forall n z, dict_get n d = Some z <-> In n (cp_names cp2) /\ sends e cp n z.
Proof.
  intros P C H. destruct (read_sent e cp cp2 text [] P C H) as (d & F & A & B). exists d. split; [exact F|].
  intros n z. split; [|intros [I S]; auto]. intro G.
  destruct (In_dec string_dec n (cp_names cp2)) as [I|I]; [|rewrite B in G; [discriminate|auto]].
  split; [exact I|]. destruct (output_rows _ _ _ H) as (rs & E & R).
  destruct (last_of n rs) as [y|] eqn:L.
  - apply last_in, R in L. rewrite (A n y L I) in G. injection G as <-. exact L.
  - exfalso. rewrite B in G; [discriminate|]. right. intros w W. apply R, in_last in W as [y Y]. congruence.
Qed.

(** ** Lines without effect, files with earlier lines *)

Lemma ignored_line cp d line : ignored cp line -> read_row cp d (split comma line) = Ok d.
Proof.
  intros [->|[[t ->]|(n & t & -> & F & N)]]; [reflexivity| |].
  - cbn [split]. change (Ascii.eqb "#" comma) with false. cbv iota. pose proof (split_nonempty comma t).
    destruct (split comma t) as [|w ws]; [contradiction|]. apply row_ignored. right. left. eauto.
  - rewrite split_app, (split_free _ _ F). apply row_ignored. auto.
Qed.
Lemma extract_skips cp a line b : ignored cp line -> extract cp (a ++ line :: b) = extract cp (a ++ b).
Proof.
  intro I. unfold extract. rewrite !foldM_app. destruct (foldM _ a []) as [d|]; [|reflexivity]. cbn [bind foldM].
  rewrite (ignored_line cp d line I). reflexivity.
Qed.

Lemma append_lines s t : whole_lines s -> exists ls, split newline s = ls ++ [EmptyString] /\ split newline (s ++ t) = ls ++ split newline t.
Proof.
  intros [->|[u ->]]; [now exists []|]. exists (split newline u). split; [exact (split_app newline u "")|].
  rewrite app_assoc_s. cbn [String.append]. apply split_app.
Qed.
Lemma appended old e cp cp2 text d : whole_lines old -> extract_text cp2 old = Ok d ->
  (forall n z, sends e cp n z -> plain n) -> certain e cp -> write_output old e cp = Ok text ->
  whole_lines text /\
  exists d1, extract_text cp2 text = Ok d1 /\
    (forall n z, sends e cp n z -> In n (cp_names cp2) -> dict_get n d1 = Some z) /\
    (forall n, ~ In n (cp_names cp2) \/ (forall z, ~ sends e cp n z) -> dict_get n d1 = dict_get n d).
Proof.
  intros W D P C H. unfold write_output in H. rstep H. injection H as <-. rename v into s.
  destruct (append_lines old s W) as (ls & E1 & E2).
  unfold extract_text, extract in *. rewrite E1, foldM_app in D. rstep D. cbn [foldM] in D. cbn in D. injection D as ->.
  split.
  - destruct (output_rows _ _ _ E) as (rs & -> & _). destruct W as [->|[u ->]]; [|].
    + cbn [String.append]. clear. induction rs as [|[n z] rs IH]; [now left|]. right.
      change (text_of ((n, z) :: rs)) with (csv_line n z ++ text_of rs)%string. destruct IH as [->|[t ->]].
      * exists (n ++ String comma (str_of_Z z))%string. unfold csv_line. rewrite app_empty, !app_assoc_s. reflexivity.
      * exists (csv_line n z ++ t)%string. now rewrite app_assoc_s.
    + clear E E1 E2. right. induction rs as [|[n z] rs IH] using rev_ind.
      * exists u. now rewrite app_empty.
      * exists (u ++ String newline (text_of rs ++ n ++ String comma (str_of_Z z)))%string.
        assert (T : forall a b, text_of (a ++ b) = (text_of a ++ text_of b)%string).
        { clear. induction a as [|r a IH]; intro b; [reflexivity|]. cbn [app text_of fold_right]. unfold text_of in IH. now rewrite IH, app_assoc_s. }
        rewrite T. cbn [text_of fold_right fst snd]. unfold csv_line. rewrite app_empty, !app_assoc_s. cbn. rewrite !app_assoc_s. reflexivity.
  - rewrite E2, foldM_app, E0. cbn [bind]. exact (read_sent e cp cp2 s d P C E).
Qed.
