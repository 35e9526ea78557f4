(** * ValidationProofs: the report that compares a simulation with the data *)

From Coq Require Import Lia Lqa Qabs.
From Verif Require Import Base Lemmas Analysis AgentLog RunScript Validation SpecRun SpecCoupling CouplingText AnalysisProofs SpecValidation.
Local Open Scope string_scope.
Local Open Scope Q_scope.
Local Open Scope list_scope.

(** ** Texts *)

Lemma ascii_app a b : list_ascii_of_string (a ++ b)%string = list_ascii_of_string a ++ list_ascii_of_string b.
Proof. induction a as [|c a IH]; [reflexivity|]. cbn. now rewrite IH. Qed.
Lemma ascii_inj a b : list_ascii_of_string a = list_ascii_of_string b -> a = b.
Proof. intro H. rewrite <- (string_of_list_ascii_of_string a), <- (string_of_list_ascii_of_string b). now rewrite H. Qed.
Lemma app_same a b x : (a ++ x)%string = (b ++ x)%string -> a = b.
Proof. intro H. apply ascii_inj. apply (f_equal list_ascii_of_string) in H. rewrite !ascii_app in H. now apply app_inv_tail in H. Qed.
Definition end_char (s : string) : ascii := last (list_ascii_of_string s) " "%char.
Lemma end_app a x : x <> "" -> end_char (a ++ x) = end_char x.
Proof.
  intro N. unfold end_char. rewrite ascii_app. destruct x as [|c x]; [easy|]. cbn [list_ascii_of_string].
  induction (list_ascii_of_string a) as [|d l IH]; [reflexivity|]. cbn [app].
  destruct (l ++ c :: list_ascii_of_string x) eqn:E; [now destruct l|]. exact IH.
Qed.
Lemma end_differs a x s : x <> "" -> end_char x <> end_char s -> (a ++ x)%string <> s.
Proof. intros N D E. apply D. rewrite <- E. symmetry. now apply end_app. Qed.

(** ** The names of the camps *)

Lemma pieces_word w : (forall c, In c (list_ascii_of_string w) -> is_space c = false) -> pieces w = [w].
Proof.
  induction w as [|c w IH]; intro H; [reflexivity|]. cbn [pieces]. rewrite (H c) by now left.
  rewrite IH; [reflexivity|]. intros d D. apply H. now right.
Qed.
Lemma pieces_cons w s : (forall c, In c (list_ascii_of_string w) -> is_space c = false) -> pieces (w ++ String " " s)%string = w :: pieces s.
Proof.
  induction w as [|c w IH]; intro H; [reflexivity|]. cbn [String.append pieces]. rewrite (H c) by now left.
  rewrite IH; [reflexivity|]. intros d D. apply H. now right.
Qed.
Lemma pieces_join ws w : Forall one_word ws -> one_word w -> ws <> [] ->
  pieces (join " " ws ++ String " " w)%string = ws ++ [w].
Proof.
  intros F [W1 W2] N. induction F as [|v ws [V1 V2] F IH]; [easy|]. destruct ws as [|u ws].
  - cbn [join app]. rewrite pieces_cons by exact V2. now rewrite pieces_word.
  - change (join " " (v :: u :: ws)) with (v ++ String " " (join " " (u :: ws)))%string.
    rewrite app_assoc_s. cbn [String.append]. rewrite pieces_cons by exact V2. rewrite IH by discriminate. reflexivity.
Qed.

Lemma app_or a : forall b c d, (a ++ b = c ++ d)%string ->
  (exists l, a = c ++ l /\ d = l ++ b)%string \/ (exists l, c = a ++ l /\ b = l ++ d)%string.
Proof.
  induction a as [|x a IH]; intros b c d H.
  - right. exists c. auto.
  - destruct c as [|y c].
    + left. exists (String x a). cbn in *. auto.
    + injection H as -> H. destruct (IH _ _ _ H) as [(l & -> & ->)|(l & -> & ->)]; [left|right]; exists l; auto.
Qed.
(** A word without spaces but maybe its first letter is in the camp or in what is added. *)
Lemma says_app c w s y : ~ In " "%char (list_ascii_of_string w) -> str_in (String c w) (String " " y) = false ->
  says (String c w) (s ++ String " " y)%string -> says (String c w) s.
Proof.
  intros N F (a & b & E). assert (F' : ~ says (String c w) (String " " y)).
  { intro X. apply says_in in X; [congruence|discriminate]. }
  destruct (app_or _ _ _ _ E) as [(l & -> & E')|(l & -> & E')].
  - destruct (app_or _ _ _ _ E') as [(l' & E1 & E2)|(l' & -> & E2)].
    + destruct l as [|d l]; [exfalso; apply F'; exists "", b; cbn in *; now rewrite <- E'|].
      injection E1 as <- ->. destruct l' as [|d' l'].
      * exists a, "". f_equal. cbn. f_equal. clear. induction l as [|? ? IH]; [reflexivity|]. cbn. now rewrite <- IH.
      * cbn in E2. injection E2 as <- _. exfalso. apply N. rewrite ascii_app. apply in_or_app. right. now left.
    + exists a, l'. reflexivity.
  - exfalso. apply F'. now exists l, b.
Qed.
Lemma says_more w s x : says w s -> says w (s ++ x)%string.
Proof. intros (a & b & ->). exists a, (b ++ x)%string. now rewrite !app_assoc_s. Qed.

Lemma not_in w s : w <> "" -> ~ says w s -> str_in w s = false.
Proof. intros N H. destruct (str_in w s) eqn:E; [|reflexivity]. exfalso. apply H. now apply says_in. Qed.

Lemma name_of_camp c : good_name c -> flat_map (fun i => if (str_in " sim" i && negb (str_in "numAgents" i))%bool then [join " " (removelast (py_words i))] else [])
    [(c ++ " sim")%string; (c ++ " data")%string; (c ++ " error")%string] = [c].
Proof.
  intros ((ws & N & F & E) & S & A). cbn [flat_map].
  assert (str_in " sim" (c ++ " sim") = true) as -> by (apply says_in; [discriminate|]; exists c, ""; reflexivity).
  assert (str_in "numAgents" (c ++ " sim") = false) as ->.
  { apply not_in; [discriminate|]. intro X. apply A. eapply says_app; [| |exact X]; [cbn; intuition discriminate|reflexivity]. }
  assert (str_in " sim" (c ++ " data") = false) as ->.
  { apply not_in; [discriminate|]. intro X. apply S. eapply says_app; [| |exact X]; [cbn; intuition discriminate|reflexivity]. }
  assert (str_in " sim" (c ++ " error") = false) as ->.
  { apply not_in; [discriminate|]. intro X. apply S. eapply says_app; [| |exact X]; [cbn; intuition discriminate|reflexivity]. }
  cbn [andb negb app]. f_equal. unfold py_words. rewrite E.
  assert (W : one_word "sim") by (split; [discriminate|]; cbn; intros d [<-|[<-|[<-|[]]]]; reflexivity).
  change " sim" with (String " " "sim"). rewrite (pieces_join ws "sim") by assumption.
  assert (filter (fun w => negb (String.eqb w "")) (ws ++ ["sim"]) = ws ++ ["sim"]) as ->.
  { rewrite filter_app. f_equal. clear - F. induction F as [|w ws [W _] F IH]; [reflexivity|]. cbn [filter].
    destruct (String.eqb_spec w ""); [contradiction|]. cbn [negb]. now rewrite IH. }
  now rewrite removelast_last.
Qed.

Lemma map_flat {A B C} (f : B -> C) (g : A -> list B) l : map f (flat_map g l) = flat_map (fun x => map f (g x)) l.
Proof. induction l as [|x l IH]; [reflexivity|]. cbn. now rewrite map_app, IH. Qed.
Lemma flat_flat {A B C} (f : B -> list C) (g : A -> list B) l : flat_map f (flat_map g l) = flat_map (fun x => flat_map f (g x)) l.
Proof. induction l as [|x l IH]; [reflexivity|]. cbn. now rewrite flat_map_app, IH. Qed.

Lemma names_ok idp camps lines : Forall good_name camps -> location_names (map fst (output_table idp camps lines)) = camps.
Proof.
  intro G. unfold location_names, output_table. rewrite map_app, map_flat, flat_map_app, flat_flat.
  assert (T : forall X, X = map fst ([("Total error", map r_error lines);
    ("refugees in camps (UNHCR)", map (fun r => inject_Z (r_data r)) lines);
    ("total refugees (simulation)", map (fun r => inject_Z (r_total r)) lines);
    ("raw UNHCR refugee count", map (fun r => inject_Z (r_raw r)) lines);
    ("refugees in camps (simulation)", map (fun r => inject_Z (r_in_camps r)) lines);
    ("refugee_debt", map (fun r => inject_Z (r_debt r)) lines)] ++
   (if idp then [("total IDPs", map (fun r => match r_idps r with Some z => inject_Z z | None => 0 end) lines)] else [])) ->
   flat_map (fun i => if (str_in " sim" i && negb (str_in "numAgents" i))%bool then [join " " (removelast (py_words i))] else []) X = []).
  { intros X ->. destruct idp; reflexivity. }
  rewrite (T _ eq_refl), app_nil_r. clear T.
  assert (K : forall k, flat_map (fun x => flat_map (fun i => if (str_in " sim" i && negb (str_in "numAgents" i))%bool then [join " " (removelast (py_words i))] else [])
      (map fst (camp_columns lines (fst x) (snd x)))) (combine (seq k (List.length camps)) camps) = camps).
  { induction G as [|c camps Gc G IH]; intro k; [reflexivity|]. cbn [List.length seq combine flat_map fst snd].
    rewrite (IH (Datatypes.S k)). unfold camp_columns. cbn [map fst]. rewrite (name_of_camp c Gc). reflexivity. }
  apply K.
Qed.

(** ** The columns *)

Lemma find_app n a b : find_column n (a ++ b) = match find_column n a with Some c => Some c | None => find_column n b end.
Proof. induction a as [|[m c] a IH]; [reflexivity|]. cbn. destruct (String.eqb m n); [reflexivity|exact IH]. Qed.

Definition camps_table (camps : list string) (lines : list report) (k : nat) : frame :=
  flat_map (fun ic => camp_columns lines (fst ic) (snd ic)) (combine (seq k (List.length camps)) camps).

Lemma find_none n camps lines : end_char n <> "m"%char -> end_char n <> "a"%char -> end_char n <> "r"%char ->
  forall k, find_column n (camps_table camps lines k) = None.
Proof.
  intros A B C. unfold camps_table. induction camps as [|c camps IH]; intro k; [reflexivity|]. cbn [List.length seq combine flat_map fst snd].
  unfold camp_columns at 1. cbn [app find_column].
  destruct (String.eqb_spec (c ++ " sim") n) as [E|_]; [exfalso; apply (end_differs c " sim" n); [discriminate|cbn; congruence|exact E]|].
  destruct (String.eqb_spec (c ++ " data") n) as [E|_]; [exfalso; apply (end_differs c " data" n); [discriminate|cbn; congruence|exact E]|].
  destruct (String.eqb_spec (c ++ " error") n) as [E|_]; [exfalso; apply (end_differs c " error" n); [discriminate|cbn; congruence|exact E]|].
  apply IH.
Qed.
Lemma find_sim camps lines : NoDup camps -> forall k i c, nth_error camps i = Some c ->
  find_column (c ++ " sim") (camps_table camps lines k) = Some (map (fun r => inject_Z (fst (fst (nth (k + i) (r_camps r) (0%Z, 0%Z, 0))))) lines) /\
  find_column (c ++ " data") (camps_table camps lines k) = Some (map (fun r => inject_Z (snd (fst (nth (k + i) (r_camps r) (0%Z, 0%Z, 0))))) lines).
Proof.
  intro ND. unfold camps_table. induction ND as [|d camps N ND IH]; intros k i c H; [now destruct i|].
  cbn [List.length seq combine flat_map fst snd]. rewrite !find_app. destruct i as [|i]; cbn in H.
  - injection H as <-. unfold camp_columns. cbn [find_column]. rewrite !String.eqb_refl, Nat.add_0_r. split; [reflexivity|].
    destruct (String.eqb_spec (d ++ " sim") (d ++ " data")) as [E|_]; [exfalso|reflexivity].
    apply (end_differs d " sim" (d ++ " data")%string); [discriminate|rewrite end_app by discriminate; discriminate|exact E].
  - assert (D : d <> c) by (intro X; subst; apply N; eapply nth_error_In; eauto).
    destruct (IH (Datatypes.S k) i c H) as [I1 I2]. rewrite I1, I2. replace (Datatypes.S k + i)%nat with (k + Datatypes.S i)%nat by lia.
    unfold camp_columns. cbn [find_column].
    assert (X : forall x y, x <> "" -> y <> "" -> end_char x <> end_char y -> String.eqb (d ++ x) (c ++ y) = false).
    { intros x y X Y XY. apply String.eqb_neq. apply end_differs; [exact X|]. now rewrite end_app. }
    assert (X' : forall x, String.eqb (d ++ x) (c ++ x) = false).
    { intros x. apply String.eqb_neq. intro E. apply D. eapply app_same; eauto. }
    rewrite !X' by discriminate. rewrite !X by discriminate. auto.
Qed.

Section Table.
Variables (idp : bool) (camps : list string) (lines : list report).
Hypothesis ND : NoDup camps.
Hypothesis FULL : Forall (fun r => List.length (r_camps r) = List.length camps) lines.

Lemma table_app : exists rest, output_table idp camps lines = camps_table camps lines 0 ++ rest /\
  find_column "refugees in camps (UNHCR)" rest = Some (map (fun r => inject_Z (r_data r)) lines) /\
  find_column "total refugees (simulation)" rest = Some (map (fun r => inject_Z (r_total r)) lines) /\
  find_column "raw UNHCR refugee count" rest = Some (map (fun r => inject_Z (r_raw r)) lines) /\
  find_column "refugees in camps (simulation)" rest = Some (map (fun r => inject_Z (r_in_camps r)) lines).
Proof. eexists. split; [reflexivity|]. repeat split. Qed.

Lemma column_sim i c : nth_error camps i = Some c -> column (output_table idp camps lines) (c ++ " sim") = Ok (map (fun r => sim_in r i) lines).
Proof.
  intro H. destruct table_app as (rest & E & _). unfold column. rewrite E, find_app.
  destruct (find_sim camps lines ND 0 i c H) as [-> _]. cbn [of_option]. f_equal. clear E. apply map_ext_in. intros r Hr.
  cbn [plus]. unfold sim_in. rewrite Forall_forall in FULL. specialize (FULL r Hr).
  destruct (nth_error (r_camps r) i) as [[[s d] x]|] eqn:Er.
  - now rewrite (nth_error_nth _ _ _ Er).
  - apply nth_error_None in Er. assert (i < List.length camps)%nat by (apply nth_error_Some; congruence). lia.
Qed.
Lemma column_data i c : nth_error camps i = Some c -> column (output_table idp camps lines) (c ++ " data") = Ok (map (fun r => data_in r i) lines).
Proof.
  intro H. destruct table_app as (rest & E & _). unfold column. rewrite E, find_app.
  destruct (find_sim camps lines ND 0 i c H) as [_ ->]. cbn [of_option]. f_equal. clear E. apply map_ext_in. intros r Hr.
  cbn [plus]. unfold data_in. rewrite Forall_forall in FULL. specialize (FULL r Hr).
  destruct (nth_error (r_camps r) i) as [[[s d] x]|] eqn:Er.
  - now rewrite (nth_error_nth _ _ _ Er).
  - apply nth_error_None in Er. assert (i < List.length camps)%nat by (apply nth_error_Some; congruence). lia.
Qed.
Lemma column_totals :
  column (output_table idp camps lines) "refugees in camps (UNHCR)" = Ok (map (fun r => inject_Z (r_data r)) lines) /\
  column (output_table idp camps lines) "total refugees (simulation)" = Ok (map (fun r => inject_Z (r_total r)) lines) /\
  column (output_table idp camps lines) "raw UNHCR refugee count" = Ok (map (fun r => inject_Z (r_raw r)) lines) /\
  column (output_table idp camps lines) "refugees in camps (simulation)" = Ok (map (fun r => inject_Z (r_in_camps r)) lines).
Proof.
  destruct table_app as (rest & E & A & B & C & D). unfold column. rewrite E, !find_app.
  rewrite !(find_none _ camps lines) by (cbn; discriminate). now rewrite A, B, C, D.
Qed.
End Table.
