(** * ValidationWitness: runs on which the report can be checked *)

From Coq Require Import Lia Lqa Qabs.
From Verif Require Import Base Lemmas Analysis AgentLog RunScript Validation SpecRun SpecCoupling AnalysisProofs SpecValidation CouplingText ValidationProofs ValidationReport ValidationFacts RunProofs Defaults ExampleRun RunWitness.
Local Open Scope string_scope.
Local Open Scope Q_scope.
Local Open Scope list_scope.

(** Lines with the numbers of two camps: simulated and data *)
Definition two (a b : nat -> Z * Z) (t : nat) : report :=
  let (s1, d1) := a t in let (s2, d2) := b t in
  Report (Z.of_nat t) "" [(s1, d1, 0); (s2, d2, 0)] 0 (d1 + d2) (s1 + s2) (d1 + d2) (s1 + s2) 0 None.
Definition one (a : nat -> Z * Z) (t : nat) : report :=
  let (s1, d1) := a t in Report (Z.of_nat t) "" [(s1, d1, 0)] 0 d1 s1 d1 s1 0 None.

Definition w_lines : list report :=
  map (two (fun t => (20, 30 - Z.of_nat (Nat.modulo t 4))) (fun t => (10, 10 + Z.of_nat (Nat.modulo t 4))))%Z (seq 0 40).
Definition w_names : list string := ["Lake camp"; "B"].

Lemma one_letter : one_word "B" /\ one_word "Lake" /\ one_word "camp".
Proof. repeat split; try discriminate; cbn; intros c C; intuition subst; reflexivity. Qed.
Lemma w_good : good_table w_names w_lines.
Proof.
  destruct one_letter as (B & La & Ca). split; [|split].
  - apply NoDup_cons; [cbn; intuition discriminate|]. apply NoDup_cons; [easy|apply NoDup_nil].
  - assert (X : forall w s, w <> "" -> str_in w s = false -> ~ says w s) by (intros w s W F Y; apply says_in in Y; [congruence|exact W]).
    apply Forall_cons; [|apply Forall_cons; [|apply Forall_nil]]; (split; [|split; (apply X; [discriminate|reflexivity])]).
    + exists ["Lake"; "camp"]. split; [discriminate|]. split; [|reflexivity]. apply Forall_cons; [exact La|]. apply Forall_cons; [exact Ca|apply Forall_nil].
    + exists ["B"]. split; [discriminate|]. split; [|reflexivity]. apply Forall_cons; [exact B|apply Forall_nil].
  - apply Forall_forall. intros r Hr. apply in_map_iff in Hr as (t & <- & _). reflexivity.
Qed.
Lemma w_long : (31 <= List.length w_lines)%nat.
Proof. apply Nat.leb_le. reflexivity. Qed.


(** Claims about the report of one table, by computation *)
Definition is_num (x : res Q) (q : Q) : bool := match x with Ok y => Qeqb y q | Err _ => false end.
Definition is_none (x : res Q) : bool := match x with Ok _ => false | Err _ => true end.
Lemma is_num_ok x q : is_num x q = true -> exists y, x = Ok y /\ y == q.
Proof. destruct x as [y|]; [|discriminate]. intro H. exists y. split; [reflexivity|]. now apply Qeqb_true. Qed.
Lemma is_none_ok x : is_none x = true -> ~ exists y, x = Ok y.
Proof. destruct x; [discriminate|]. intros _ (y & H). discriminate. Qed.
Definition reported (f : frame) (P : validation -> bool) : bool := match validate f with Ok v => P v | Err _ => false end.
Lemma reported_ok f P : reported f P = true -> exists v, validate f = Ok v /\ P v = true.
Proof. unfold reported. destruct (validate f) as [v|]; [eauto|easy]. Qed.
Definition names_are (v : validation) (l : list string) : bool := if list_eq_dec string_dec (map fst (v_camps v)) l then true else false.

Lemma w_case : exists v, validate (output_table false w_names w_lines) = Ok v /\ map fst (v_camps v) = ["Lake camp"; "B"] /\
  (exists m, v_normal v = Ok m /\ m == 1 # 4) /\ (exists m, v_rescaled v = Ok m /\ m == 18333 # 200000) /\
  (exists m, v_mase v Flat Early = Ok m /\ m == 6111 # 5000) /\ (exists m, v_mase v Sloped Late = Ok m /\ m == 1059 # 400000) /\
  exists a b, nth_error (v_camps v) 0 = Some ("Lake camp", a) /\ nth_error (v_camps v) 1 = Some ("B", b) /\ le_N a == 1140 /\ le_N b == 460 /\
    (exists x, le_mase a Sloped Late = Ok x /\ x == 19 # 10000) /\ (exists x, le_mase b Sloped Late = Ok x /\ x == 9 # 2000).
Proof.
  destruct (reported_ok (output_table false w_names w_lines) (fun v => (names_are v w_names && is_num (v_normal v) (1 # 4) && is_num (v_rescaled v) (18333 # 200000) &&
     is_num (v_mase v Flat Early) (6111 # 5000) && is_num (v_mase v Sloped Late) (1059 # 400000) &&
     match v_camps v with
     | [(_, a); (_, b)] => Qeqb (le_N a) 1140 && Qeqb (le_N b) 460 && is_num (le_mase a Sloped Late) (19 # 10000) && is_num (le_mase b Sloped Late) (9 # 2000)
     | _ => false end)%bool)) as (v & V & H); [vm_compute; reflexivity|].
  exists v. split; [exact V|]. clear V. repeat (apply andb_true_iff in H as [H ?]). unfold names_are in H.
  destruct (list_eq_dec _ _ _) as [E|]; [|discriminate]. split; [exact E|]. repeat (split; [now apply is_num_ok|]).
  destruct (v_camps v) as [|[c a] [|[d b] [|]]]; try discriminate. cbn in E. injection E as -> ->.
  repeat (match goal with Q1 : (_ && _)%bool = true |- _ => apply andb_true_iff in Q1 as [? ?] end).
  exists a, b. split; [reflexivity|]. split; [reflexivity|]. split; [now apply Qeqb_true|]. split; [now apply Qeqb_true|]. split; now apply is_num_ok.
Qed.

Lemma w_exists : naive_exists w_lines 0 Sloped Late /\ naive_wrong w_lines 0 Sloped Late.
Proof.
  split; [intros _; vm_compute; discriminate|]. exists 31%nat. split; [|vm_compute; discriminate].
  unfold later, w_lines. rewrite map_length, seq_length. apply in_seq. cbn. lia.
Qed.

(** ** Runs that are right, with other numbers of agents *)
Definition s_lines : list report := map (two (fun t => (3 * Z.of_nat t + 3, 2 * Z.of_nat t + 2)) (fun t => (15, 10)))%Z (seq 0 33).
Lemma s_good : good_table w_names s_lines.
Proof.
  destruct w_good as (A & B & _). split; [exact A|]. split; [exact B|]. apply Forall_forall. intros r Hr. apply in_map_iff in Hr as (t & <- & _). reflexivity.
Qed.
Lemma s_shares : Forall (right_shares 2) s_lines.
Proof.
  apply Forall_forall. intros r Hr. apply in_map_iff in Hr as (t & <- & _). unfold right_shares, sim_in, data_in. cbn [two r_camps r_in_camps r_data].
  split; [lia|]. intros i Hi. destruct i as [|[|i]]; [| |lia]; cbn [nth_error]; rewrite <- !inject_Z_mult; apply inject_Z_injective; nia.
Qed.
Definition p_lines : list report := map (two (fun t => (2 * Z.of_nat t + 2, 2 * Z.of_nat t + 2)) (fun t => (10, 10)))%Z (seq 0 33).
Lemma p_right : Forall (right_numbers 2) p_lines.
Proof.
  apply Forall_forall. intros r Hr. apply in_map_iff in Hr as (t & <- & _). unfold right_numbers, sim_in, data_in. cbn [two r_camps r_in_camps r_data].
  split; [lia|]. intros i Hi. destruct i as [|[|i]]; [| |lia]; reflexivity.
Qed.
Lemma p_good : good_table w_names p_lines.
Proof.
  destruct w_good as (A & B & _). split; [exact A|]. split; [exact B|]. apply Forall_forall. intros r Hr. apply in_map_iff in Hr as (t & <- & _). reflexivity.
Qed.

(** ** What the report does not do *)

(** Two spaces in a name: no such column *)
Lemma spaces_false : ~ (forall idp camps lines, NoDup camps -> Forall (fun r => List.length (r_camps r) = List.length camps) lines -> camps <> [] ->
  (31 <= List.length lines)%nat -> exists v, validate (output_table idp camps lines) = Ok v).
Proof.
  intro H. destruct (H false ["A  B"] (map (one (fun t => (5, 7)%Z)) (seq 0 40))) as (v & V).
  - apply NoDup_cons; [easy|apply NoDup_nil].
  - apply Forall_forall. intros r Hr. apply in_map_iff in Hr as (t & <- & _). reflexivity.
  - discriminate.
  - apply Nat.leb_le. reflexivity.
  - assert (X : (match validate (output_table false ["A  B"] (map (one (fun t => (5, 7)%Z)) (seq 0 40))) with Ok _ => true | Err _ => false end) = false) by (vm_compute; reflexivity).
    rewrite V in X. discriminate.
Qed.

(** A camp whose name says " sim" counts three times. *)
Lemma sim_false : exists lines v, validate (output_table false ["Al simba"] lines) = Ok v /\ map fst (v_camps v) = ["Al simba"; "Al simba"; "Al simba"] /\
  (exists m, v_normal v = Ok m /\ m == 1 # 2) /\ mean (map (day_error sim_in 1) lines) == 1 # 6.
Proof.
  exists (map (one (fun t => (5, 6)%Z)) (seq 0 40)).
  destruct (reported_ok (output_table false ["Al simba"] (map (one (fun t => (5, 6)%Z)) (seq 0 40)))
    (fun v => names_are v ["Al simba"; "Al simba"; "Al simba"] && is_num (v_normal v) (1 # 2))%bool) as (v & V & H); [vm_compute; reflexivity|].
  exists v. split; [exact V|]. clear V. apply andb_true_iff in H as [H M]. unfold names_are in H.
  destruct (list_eq_dec _ _ _) as [E|]; [|discriminate]. split; [exact E|]. split; [now apply is_num_ok|]. vm_compute. reflexivity.
Qed.

(** The data grow by ten a day from nothing, so the line through day 7 is the data, and yet
    the sloped forecast has a distance from them. *)
Definition grow : list report := map (one (fun t => (5 * Z.of_nat t, 10 * Z.of_nat t)))%Z (seq 0 40).
Lemma grow_good : good_table ["B"] grow.
Proof.
 destruct w_good as (_ & B & _). split; [apply NoDup_cons; [easy|apply NoDup_nil]|]. split; [now inversion B|].
    apply Forall_forall. intros r Hr. apply in_map_iff in Hr as (t & <- & _). reflexivity. 
Qed.
Lemma sloped_false : ~ (forall idp camps lines v i c le, good_table camps lines -> (31 <= List.length lines)%nat ->
  validate (output_table idp camps lines) = Ok v -> nth_error (v_camps v) i = Some (c, le) ->
  (forall day, (day < List.length lines)%nat -> value_on lines i day == inject_Z (Z.of_nat day) * (value_on lines i 7 / 7)) ->
  ~ exists x, le_mase le Sloped Early = Ok x).
Proof.
  intro H. destruct (reported_ok (output_table false ["B"] grow) (fun v => match v_camps v with [(c, le)] => is_num (le_mase le Sloped Early) 0 | _ => false end)) as (v & V & X).
  { vm_compute. reflexivity. }
  destruct (v_camps v) as [|[c le] [|]] eqn:C; try discriminate. apply is_num_ok in X as (x & X & _).
  eapply (H false ["B"] grow v 0%nat c le grow_good); [apply Nat.leb_le; reflexivity|exact V|rewrite C; reflexivity| |exists x; exact X].
  clear. intros day D. unfold grow in D. rewrite map_length, seq_length in D.
  assert (E : forall d, (d < 40)%nat -> value_on grow 0 d = inject_Z (10 * Z.of_nat d)).
  { intros d Hd. unfold value_on, grow. rewrite map_map. apply nth_error_nth. rewrite nth_error_map, seq_nth_error by exact Hd. reflexivity. }
  rewrite (E day D), (E 7%nat) by lia. rewrite inject_Z_mult. change (inject_Z (10 * Z.of_nat 7)) with 70. change (inject_Z 10) with 10. field.
Qed.

(** One camp where the data do not change: no total, although there is an error for the other camp *)
Lemma total_false : ~ (forall idp camps lines v n t, good_table camps lines -> camps <> [] -> (31 <= List.length lines)%nat ->
  validate (output_table idp camps lines) = Ok v -> (exists c le x, In (c, le) (v_camps v) /\ le_mase le n t = Ok x /\ 0 < le_N le) ->
  exists m, v_mase v n t = Ok m).
Proof.
  intro H. set (lines := map (two (fun t => (20, 30 - Z.of_nat (Nat.modulo t 4))) (fun t => (10, 10)))%Z (seq 0 40)).
  assert (G : good_table w_names lines).
  { destruct w_good as (A & B & _). split; [exact A|]. split; [exact B|]. apply Forall_forall. intros r Hr. apply in_map_iff in Hr as (t & <- & _). reflexivity. }
  destruct (reported_ok (output_table false w_names lines) (fun v => match v_camps v with
     (c, le) :: _ => negb (is_none (le_mase le Flat Early)) && Qltb 0 (le_N le) && is_none (v_mase v Flat Early) | _ => false end)%bool) as (v & V & X).
  { vm_compute. reflexivity. }
  destruct (v_camps v) as [|[c le] rest] eqn:C; try discriminate. apply andb_true_iff in X as [X X3]. apply andb_true_iff in X as [X1 X2].
  apply is_none_ok in X3. apply X3. destruct (le_mase le Flat Early) as [x|] eqn:E; [|discriminate].
  eapply (H false w_names lines v Flat Early G); [discriminate|apply Nat.leb_le; reflexivity|exact V|].
  exists c, le, x. rewrite C. split; [left; reflexivity|]. split; [exact E|]. apply Qltb_true. exact X2.
Qed.

(** ** Other cases *)

Lemma short_case : good_table w_names (firstn 30 w_lines) /\ validate (output_table false w_names (firstn 30 w_lines)) = Err IndexError.
Proof.
  split; [|vm_compute; reflexivity]. destruct w_good as (A & B & C). split; [exact A|]. split; [exact B|].
  rewrite Forall_forall in *. intros r Hr. apply C. rewrite <- (firstn_skipn 30 w_lines). apply in_or_app. now left.
Qed.
Lemma times_case : exists v, validate (output_table false w_names (map (times 3) w_lines)) = Ok v /\
  (exists m, v_normal v = Ok m /\ m == 5 # 4) /\ (exists m, v_rescaled v = Ok m /\ m == 18333 # 200000).
Proof.
  destruct (reported_ok (output_table false w_names (map (times 3) w_lines)) (fun v => is_num (v_normal v) (5 # 4) && is_num (v_rescaled v) (18333 # 200000))%bool) as (v & V & H).
  { vm_compute. reflexivity. }
  apply andb_true_iff in H as [A B]. exists v. split; [exact V|]. clear V. split; now apply is_num_ok.
Qed.
Lemma run_names : exists lines, run_script 10 data_S ex_oracle run_inp ex_draws = Ok (["C"], lines) /\ NoDup ["C"] /\ Forall good_name ["C"] /\
  map r_in_camps lines = [3; 4; 7; 7; 7]%Z.
Proof.
  assert (N : NoDup ["C"]) by (apply NoDup_cons; [easy|apply NoDup_nil]).
  assert (G : Forall good_name ["C"]).
  { assert (X : forall w s, w <> "" -> str_in w s = false -> ~ says w s) by (intros w s W F Y; apply says_in in Y; [congruence|exact W]).
    apply Forall_cons; [|apply Forall_nil]. split; [|split; (apply X; [discriminate|reflexivity])]. exists ["C"].
    split; [discriminate|]. split; [|reflexivity]. apply Forall_cons; [|apply Forall_nil]. split; [discriminate|]. cbn. intros c [<-|[]]. reflexivity. }
  destruct data_case as (_ & lines & H & _ & _ & _ & _ & C & _). exists lines. split; [exact H|]. split; [exact N|]. split; [exact G|exact C].
Qed.
