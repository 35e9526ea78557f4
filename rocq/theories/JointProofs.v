(** * JointProofs: proofs for C93 *)

From Coq Require Import Lia.
From Verif Require Import Base State Flee Api SpecAgents Pflee ParApi SpecParallel Coupling SpecCoupling CouplingRun
  SpecExchange ExchangeProofs CouplingText CouplingFiles SpecTurns TurnsProofs TurnsWitness SpecJoint.
Local Open Scope string_scope.
Local Open Scope list_scope.
Local Open Scope nat_scope.
Local Opaque couple output_csv people stranded.

Lemma joint_sum_snoc {A} (f : A -> Z) xs x : sumZ (map f (xs ++ [x])) = (sumZ (map f xs) + f x)%Z.
Proof. induction xs as [|y ys IH]; cbn [app map sumZ]; [lia|rewrite IH; lia]. Qed.

Lemma joint_now k cp t : nth_error (cp_intervals cp) 0 = Some k -> k <> 0%Z -> couples_now (Z.of_nat t) cp = Ok (Z.of_nat t mod k =? 0)%Z.
Proof. intros E K. unfold couples_now. rewrite E. cbn [of_option bind]. destruct (k =? 0)%Z eqn:Z0; [apply Z.eqb_eq in Z0; contradiction|reflexivity]. Qed.

Lemma joint_text k a b t st s : nth_error (cp_intervals (s_coupling a)) 0 = Some k -> k <> 0%Z ->
  m_text (program_of a b) t st = Ok s -> exists e, In e (map fst st) /\ output_csv e (s_coupling a) = Ok s.
Proof.
  intros E K H. cbn [program_of flee_member m_text] in H. rewrite (joint_now k _ t E K) in H. cbn [bind] in H.
  destruct st as [|p st]; cbn [nth_error of_option bind] in H; [discriminate H|]. exists (fst p). split; [now left|exact H].
Qed.

Local Transparent people stranded.
Lemma joint_none o n cp st : takes_part o n cp st ->
  (forall i name dir, coupled cp i name dir -> ~ says "out" dir -> people_in st i = 0%Z) -> stranded st cp = 0%Z.
Proof.
  intros TP N. unfold stranded.
  assert (Len : List.length (cp_names cp) = List.length (cp_ids cp)).
  { destruct (tp_declared _ _ _ _ TP) as (e1 & _ & D & _). exact (wf_names _ _ (declared_wf _ _ D)). }
  assert (X : forall row, In row (combine (cp_ids cp) (cp_directions cp)) -> str_in "out" (snd row) = false -> people_in st (fst row) = 0%Z).
  { intros [i d] I F. apply In_nth_error in I as (k & I).
    assert (nth_error (cp_ids cp) k = Some i /\ nth_error (cp_directions cp) k = Some d) as [A B].
    { clear -I. revert k I. generalize (cp_directions cp). induction (cp_ids cp) as [|x xs IH]; intros [|y ys] [|k] I; try discriminate; cbn in *; [injection I as <- <-; auto|now apply IH]. }
    destruct (nth_error (cp_names cp) k) as [nm|] eqn:E; [|apply nth_error_None in E; assert (k < List.length (cp_ids cp))%nat by (apply nth_error_Some; congruence); lia].
    apply (N i nm d); [exists k; auto|]. intro S. apply says_in in S; [|discriminate]. cbn [snd] in F. congruence. }
  induction (combine (cp_ids cp) (cp_directions cp)) as [|row rows IH]; [reflexivity|]. cbn [filter].
  destruct (str_in "out" (snd row)) eqn:E; cbn [negb]; [apply IH; intros r I; apply X; now right|].
  cbn [map sumZ]. rewrite (X row (or_introl eq_refl) E), IH; [reflexivity|]. intros r I. apply X. now right.
Qed.
Lemma joint_nonneg xs : (forall x, In x xs -> 0 <= x)%Z -> (0 <= sumZ xs)%Z.
Proof. induction xs as [|x xs IH]; intro H; cbn [sumZ]; [lia|]. pose proof (H x (or_introl eq_refl)). specialize (IH (fun y I => H y (or_intror I))). lia. Qed.
Lemma joint_some st cp : (0 <= stranded st cp)%Z.
Proof.
  unfold stranded. apply joint_nonneg. intros x I. apply in_map_iff in I as (row & <- & _). unfold people_in.
  apply joint_nonneg. intros y I. apply in_map_iff in I as (p & <- & _). unfold how_many. lia.
Qed.
Local Opaque people stranded.
Lemma behind_some T k a e : (0 <= left_behind T k a e)%Z.
Proof. unfold left_behind. apply joint_nonneg. intros x I. apply in_map_iff in I as (t & <- & _). destruct (_ =? 0)%Z; [apply joint_some|lia]. Qed.
Lemma behind_none T k a start e : k <> 0%Z -> lives T k a start e ->
  (forall t i name dir, t < T -> (k | Z.of_nat t)%Z -> coupled (s_coupling a) i name dir -> ~ says "out" dir -> people_in (e t) i = 0%Z) ->
  left_behind T k a e = 0%Z.
Proof.
  intros K [_ _ F] H. unfold left_behind. assert (G : forall t, In t (seq 0 T) -> t < T) by (intros t I; apply in_seq in I; lia).
  induction (seq 0 T) as [|t ts IH]; [reflexivity|]. cbn [map sumZ]. rewrite IH by (intros u I; apply G; now right).
  specialize (G t (or_introl eq_refl)). destruct (Z.of_nat t mod k =? 0)%Z eqn:N; [|lia]. apply Z.eqb_eq, Z.mod_divide in N; [|exact K].
  rewrite (joint_none _ _ _ _ (F t G N)); [lia|]. intros i nm dir. now apply H.
Qed.

Section JOINT.
Context (T : nat) (k : Z) (a b : simulation) (st : nat -> nat -> list (eco * rng)) (ea eb : nat -> list (eco * rng)).
Context (D : s_name a <> s_name b) (K : k <> 0%Z).
Context (LA : lives T k a (fun t => st t 0) ea) (LB : lives T k b (fun t => st t 1) eb).
Context (AB : leads_to (s_coupling a) (s_coupling b)) (BA : leads_to (s_coupling b) (s_coupling a)).
Context (SS : side_by_side T [program_of a b; program_of b a] st).

Lemma joint_day t : t < T ->
  (people (st (S t) 0) + people (st (S t) 1) +
   (if (Z.of_nat t mod k =? 0)%Z then stranded (ea t) (s_coupling a) else 0) +
   (if (Z.of_nat t mod k =? 0)%Z then stranded (eb t) (s_coupling b) else 0) = people (ea t) + people (eb t))%Z.
Proof.
  intro Lt. destruct LA as [EA WA FA], LB as [EB WB FB].
  destruct (SS t 0 _ Lt eq_refl) as (xa & XA & RA). destruct (SS t 1 _ Lt eq_refl) as (xb & XB & RB).
  cbn [program_of flee_member m_work] in XA, XB. rewrite (WA t Lt) in XA. injection XA as <-. rewrite (WB t Lt) in XB. injection XB as <-.
  assert (NA : m_now (program_of a b) t = (Z.of_nat t mod k =? 0)%Z) by (cbn [program_of flee_member m_now]; now rewrite (joint_now k _ t EA K)).
  assert (NB : m_now (program_of b a) t = (Z.of_nat t mod k =? 0)%Z) by (cbn [program_of flee_member m_now]; now rewrite (joint_now k _ t EB K)).
  rewrite NA in RA. rewrite NB in RB. destruct (Z.of_nat t mod k =? 0)%Z eqn:Now; [|rewrite RA, RB; lia].
  assert (Dv : (k | Z.of_nat t)%Z) by (apply Z.eqb_eq in Now; now apply Z.mod_divide).
  destruct RA as (_ & ta & La & TA & GA), RB as (_ & tb & Lb & TB & GB).
  cbn [program_of flee_member m_num] in La, Lb.
  destruct ta as [|sb [|? ?]]; try discriminate La. destruct tb as [|sa [|? ?]]; try discriminate Lb.
  destruct (GA 0 sb eq_refl) as (j & m & Mj & Oj & _ & y & Y & Ty).
  destruct (GB 0 sa eq_refl) as (j' & m' & Mj' & Oj' & _ & y' & Y' & Ty').
  cbn [program_of flee_member m_in] in Oj, Oj'.
  destruct j as [|[|j]]; cbn [nth_error] in Mj; [injection Mj as <-; cbn in Oj; contradiction| |destruct j; discriminate Mj].
  injection Mj as <-.
  destruct j' as [|[|j']]; cbn [nth_error] in Mj'; [|injection Mj' as <-; cbn in Oj'; symmetry in Oj'; contradiction|destruct j'; discriminate Mj'].
  injection Mj' as <-.
  cbn [program_of flee_member m_work] in Y, Y'. rewrite (WB t Lt) in Y. injection Y as <-. rewrite (WA t Lt) in Y'. injection Y' as <-.
  destruct (joint_text k b a t _ _ EB K Ty) as (eB & IB & OB). destruct (joint_text k a b t _ _ EA K Ty') as (eA & IA & OA).
  cbn [program_of flee_member m_take] in TA, TB.
  refine (exchange_total _ _ _ _ eA sa _ _ _ _ _ _ _ eB sb _ _ _ (Z.of_nat t) (FA t Lt Dv) (FB t Lt Dv) AB BA _ _ IA OA IB OB TA TB).
  - exists k. auto.
  - exists k. auto.
Qed.

Lemma joint_days u : u <= T ->
  (people (st u 0) + people (st u 1) + left_behind u k a ea + left_behind u k b eb =
   people (st 0 0) + people (st 0 1) + arrivals u (fun t => st t 0) ea + arrivals u (fun t => st t 1) eb)%Z.
Proof.
  induction u as [|u IH]; intro Le.
  - unfold left_behind, arrivals. cbn [seq map sumZ]. lia.
  - specialize (IH ltac:(lia)). pose proof (joint_day u ltac:(lia)) as J. unfold left_behind, arrivals in *. rewrite seq_S, !joint_sum_snoc. cbn [Nat.add]. lia.
Qed.

Lemma joint_partners : partners [program_of a b; program_of b a].
Proof.
  apply two_partners; try reflexivity; [exact D|]. intro t. destruct LA as [EA _ _], LB as [EB _ _].
  cbn [program_of flee_member m_now]. now rewrite (joint_now k _ t EA K), (joint_now k _ t EB K).
Qed.

Lemma joint_total schedule xa xb :
  careful T [program_of a b; program_of b a] schedule (at_start [st 0 0; st 0 1], no_files) ->
  fst (execute T [program_of a b; program_of b a] schedule (at_start [st 0 0; st 0 1], no_files)) = [Finished xa; Finished xb] ->
  (people xa + people xb + left_behind T k a ea + left_behind T k b eb =
   people (st 0 0) + people (st 0 1) + arrivals T (fun t => st t 0) ea + arrivals T (fun t => st t 1) eb)%Z.
Proof.
  intros C E. destruct (execute T _ schedule _) as [phs d] eqn:X in E. cbn [fst] in E. subst phs.
  destruct (f_result T _ st joint_partners SS schedule _ d C X) as (_ & R).
  destruct (R 0 _ eq_refl) as (_ & Ra & _). destruct (R 1 _ eq_refl) as (_ & Rb & _). rewrite (Ra _ eq_refl), (Rb _ eq_refl).
  now apply joint_days.
Qed.
Lemma joint_at_most schedule xa xb :
  careful T [program_of a b; program_of b a] schedule (at_start [st 0 0; st 0 1], no_files) ->
  fst (execute T [program_of a b; program_of b a] schedule (at_start [st 0 0; st 0 1], no_files)) = [Finished xa; Finished xb] ->
  (people xa + people xb <= people (st 0 0) + people (st 0 1) + arrivals T (fun t => st t 0) ea + arrivals T (fun t => st t 1) eb)%Z.
Proof. intros C E. pose proof (joint_total _ _ _ C E). pose proof (behind_some T k a ea). pose proof (behind_some T k b eb). lia. Qed.

Lemma joint_conserved schedule xa xb :
  (forall t i name dir, t < T -> (k | Z.of_nat t)%Z -> coupled (s_coupling a) i name dir -> ~ says "out" dir -> people_in (ea t) i = 0%Z) ->
  (forall t i name dir, t < T -> (k | Z.of_nat t)%Z -> coupled (s_coupling b) i name dir -> ~ says "out" dir -> people_in (eb t) i = 0%Z) ->
  careful T [program_of a b; program_of b a] schedule (at_start [st 0 0; st 0 1], no_files) ->
  fst (execute T [program_of a b; program_of b a] schedule (at_start [st 0 0; st 0 1], no_files)) = [Finished xa; Finished xb] ->
  (people xa + people xb = people (st 0 0) + people (st 0 1) + arrivals T (fun t => st t 0) ea + arrivals T (fun t => st t 1) eb)%Z.
Proof.
  intros NA NB C E. pose proof (joint_total _ _ _ C E) as J. rewrite (behind_none _ _ _ _ _ K LA NA), (behind_none _ _ _ _ _ K LB NB) in J. lia.
Qed.
End JOINT.
