(** * CurvesWitness: runs on which the pictures can be checked *)

From Coq Require Import Lia Lqa Qabs.
From Verif Require Import Base Lemmas Analysis AgentLog RunScript Validation SpecRun SpecCoupling AnalysisProofs SpecValidation CouplingText ValidationProofs ValidationReport ValidationFacts ValidationWitness RunProofs Defaults ExampleRun RunWitness ErrorCurves SpecCurves CurvesProofs.
Local Open Scope string_scope.
Local Open Scope Q_scope.
Local Open Scope list_scope.

Definition k_names : list string := ["Lake"; "B"].
Definition k_lines : list report := [two (fun _ => (20, 30)%Z) (fun _ => (10, 11)%Z) 0; two (fun _ => (7, 5)%Z) (fun _ => (0, 5)%Z) 1].
Lemma k_good : good_table k_names k_lines.
Proof.
  destruct one_letter as (B & La & _). split; [|split].
  - apply NoDup_cons; [cbn; intuition discriminate|]. apply NoDup_cons; [easy|apply NoDup_nil].
  - assert (X : forall w s, w <> "" -> str_in w s = false -> ~ says w s) by (intros w s W F Y; apply says_in in Y; [congruence|exact W]).
    apply Forall_cons; [|apply Forall_cons; [|apply Forall_nil]]; (split; [|split; (apply X; [discriminate|reflexivity])]).
    + exists ["Lake"]. split; [discriminate|]. split; [|reflexivity]. apply Forall_cons; [exact La|apply Forall_nil].
    + exists ["B"]. split; [discriminate|]. split; [|reflexivity]. apply Forall_cons; [exact B|apply Forall_nil].
  - repeat constructor.
Qed.
Lemma k_plain : plain_names k_names.
Proof.
  destruct k_good as (A & _). destruct one_letter as (B & La & _). split; [exact A|]. split; [constructor; [exact La|constructor; [exact B|constructor]]|].
  split; cbn; intuition discriminate.
Qed.
Lemma k_camps : plot_camps (output_table false k_names k_lines) =
  Ok [("Lake", [20; 7], [30; 5]); ("Lake", [20; 7], [30; 5]); ("Lake", [20; 7], [30; 5]);
      ("B", [10; 0], [11; 5]); ("B", [10; 0], [11; 5]); ("B", [10; 0], [11; 5])].
Proof. vm_compute. reflexivity. Qed.
Lemma k_curves : exists c, plot_errors (output_table false k_names k_lines) = Ok c /\
  Forall2 Qeq (c_normal c) [11 # 41; 7 # 10] /\ Forall2 Qeq (c_rescaled c) [5 # 41; 1] /\ c_len c = 2%nat.
Proof.
  destruct (plot_errors (output_table false k_names k_lines)) as [c|] eqn:E; [|vm_compute in E; discriminate]. exists c. split; [reflexivity|].
  vm_compute in E. injection E as <-. cbn [c_normal c_rescaled c_len]. split; [|split; [|reflexivity]]; repeat constructor.
Qed.
Lemma k_totals : Forall totals_right k_lines.
Proof.
  repeat (apply Forall_cons; [split; [reflexivity|split; [reflexivity|]]; repeat (apply Forall_cons; [cbn; lia|]); apply Forall_nil|]). apply Forall_nil.
Qed.

(** A name of two words *)
Lemma lake_camp : In (join " " ["Lake"; "camp"]) w_names /\ Forall one_word ["Lake"; "camp"] /\ ~ In "Lake" w_names.
Proof.
  destruct one_letter as (_ & La & Ca). split; [left; reflexivity|]. split; [|cbn; intuition discriminate].
  apply Forall_cons; [exact La|]. apply Forall_cons; [exact Ca|apply Forall_nil].
Qed.
Lemma two_words_false : ~ (forall camps lines, good_table camps lines -> camps <> [] -> exists ps, plot_camps (output_table false camps lines) = Ok ps).
Proof.
  intro H. destruct (H w_names w_lines w_good) as (ps & P); [discriminate|]. destruct lake_camp as (A & B & C).
  rewrite (pictures_words false w_names w_lines "Lake" ["camp"] w_good) in P; try assumption; [discriminate| |discriminate].
  cbn. intuition discriminate.
Qed.
Lemma idps_false : ~ (forall camps lines, good_table camps lines -> plain_names camps -> camps <> [] ->
  exists ps, plot_camps (output_table true camps lines) = Ok ps).
Proof.
  intro H. destruct (H k_names k_lines k_good k_plain) as (ps & P); [discriminate|].
  rewrite (pictures_idps k_names k_lines k_good) in P; [discriminate| |]; cbn; intuition discriminate.
Qed.

(** The error before rescaling can be any number, *)
Lemma unbounded_false : ~ (forall n r, totals_right r -> List.length (r_camps r) = n -> day_error sim_in n r <= 2).
Proof.
  intro H. specialize (H 1%nat (one (fun _ => (9, 1)%Z) 0)).
  assert (X : 8 <= 2); [|vm_compute in X; apply X; reflexivity].
  eapply Qle_trans; [|apply H]; [vm_compute; discriminate| |reflexivity].
  split; [reflexivity|]. split; [reflexivity|]. apply Forall_cons; [cbn; lia|apply Forall_nil].
Qed.
(** and without data in the total, so can the rescaled one. *)
Lemma no_total_false : ~ (forall n r, r_in_camps r = sumZ (map (fun x => fst (fst x)) (r_camps r)) ->
  Forall (fun x => (0 <= fst (fst x))%Z /\ (0 <= snd (fst x))%Z) (r_camps r) -> List.length (r_camps r) = n -> day_error whole_in n r <= 2).
Proof.
  intro H. specialize (H 1%nat (Report 0 "" [(2%Z, 5%Z, 0)] 0 0 2 0 2 0 None)).
  assert (X : 5 <= 2); [|vm_compute in X; apply X; reflexivity].
  eapply Qle_trans; [|apply H]; [vm_compute; discriminate|reflexivity| |reflexivity]. apply Forall_cons; [cbn; lia|apply Forall_nil].
Qed.

(** A run *)
Definition ok_line (r : report) : bool :=
  ((0 <? r_raw r)%Z && forallb (fun x : Z * Z * Q => (0 <=? snd (fst x))%Z) (r_camps r) && negb (Qeqb (r_error r) (day_error sim_in 1 r)))%bool.
Lemma run_case : exists lines r, run_script 10 data_S ex_oracle run_inp ex_draws = Ok (["C"], lines) /\ In r lines /\ (0 < r_raw r)%Z /\
  (forall s d x, In (s, d, x) (r_camps r) -> (0 <= d)%Z) /\ ~ r_error r == day_error sim_in 1 r.
Proof.
  destruct (run_script 10 data_S ex_oracle run_inp ex_draws) as [[camps lines]|] eqn:E; [|vm_compute in E; discriminate].
  assert (X : match run_script 10 data_S ex_oracle run_inp ex_draws with Ok (c, l) => if list_eq_dec string_dec c ["C"] then existsb ok_line l else false | Err _ => false end = true).
  { vm_compute. reflexivity. }
  rewrite E in X. destruct (list_eq_dec string_dec camps ["C"]) as [-> |]; [|discriminate]. apply existsb_exists in X as (r & I & X).
  unfold ok_line in X. apply andb_true_iff in X as [X X3]. apply andb_true_iff in X as [X1 X2]. exists lines, r.
  split; [reflexivity|]. split; [exact I|]. split; [now apply Z.ltb_lt|]. split.
  - intros s d x Y. rewrite forallb_forall in X2. specialize (X2 _ Y). cbn in X2. now apply Z.leb_le.
  - intro Y. apply negb_true_iff in X3. apply Qeqb_true in Y. congruence.
Qed.
Lemma total_error_false : ~ (forall fuel S o inp g camps lines, run_script fuel S o inp g = Ok (camps, lines) -> forall r, In r lines -> (0 < r_raw r)%Z ->
  day_error sim_in (List.length camps) r == r_error r).
Proof.
  intro H. destruct run_case as (lines & r & R & I & P & _ & N). apply N. symmetry. exact (H _ _ _ _ _ _ _ R r I P).
Qed.
