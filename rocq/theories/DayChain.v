(** * DayChain: what the data alone decide, day by day *)

From Coq Require Import Lia.
From Verif Require Import Base State Moving Crawling Scoring Diagnostics Flee DataTable Spawning InputGeography Dates DataFiles
  Analysis RunScript Api SpecAgents SpecHistory SpecNetwork SpecDates SpecData SpecRun Lemmas Inv InvMoves InvStruct Frames Streams ScoreFrames
  CoreProofs NetworkProofs DateProofs DataProofs SpecSpawn SpawnProofs AnalysisProofs Pflee ParCounts RunProofs.
From Verif Require Import Base.
Local Open Scope string_scope.
Local Open Scope list_scope.

(** The part of a data-driven day that does not depend on the ecosystem: the number of new
    agents, the state of spawning.py and the data *)
Definition daily (S : settings) (t : Z) (sp : spawn_state) (d : dtable) : res (Z * spawn_state * dtable) :=
  '(diff1, d1) <- get_daily_difference d t true (s_sum_from_camps S) ;;
  '(diff2, d2) <- get_daily_difference d1 t true (s_sum_from_camps S) ;;
  let new0 := if (s_InsertDayZero S && (t =? 0)%Z)%bool then 0%Z else (diff1 - sp_debt sp)%Z in
  let '(n, debt) := settle_debt new0 (sp_debt sp) in
  Ok (n, Spawn (sp_raw sp + diff2) debt, d2).

Inductive chain (S : settings) (d0 : dtable) : nat -> spawn_state -> dtable -> Z -> Prop :=
| chain_0 : chain S d0 0 (Spawn 0 0) d0 0
| chain_S t sp d k n sp' d' : chain S d0 t sp d k -> daily S (Z.of_nat t) sp d = Ok (n, sp', d') ->
    chain S d0 (Datatypes.S t) sp' d' (k + n).

Lemma chain_fun S d0 t : forall sp d k sp' d' k', chain S d0 t sp d k -> chain S d0 t sp' d' k' -> sp = sp' /\ d = d' /\ k = k'.
Proof.
  induction t as [|t IH]; intros sp d k sp' d' k' A B; inversion A; inversion B; subst; [auto|].
  match goal with X : chain S d0 t _ _ _, Y : chain S d0 t _ _ _ |- _ => destruct (IH _ _ _ _ _ _ X Y) as (-> & -> & ->) end.
  match goal with X : daily _ _ _ _ = _, Y : daily _ _ _ _ = _ |- _ => rewrite X in Y; injection Y as -> -> -> end. auto.
Qed.

Lemma daily_parts S t sp d n sp' d' : daily S t sp d = Ok (n, sp', d') ->
  exists diff1 d1 diff2, get_daily_difference d t true (s_sum_from_camps S) = Ok (diff1, d1) /\
    get_daily_difference d1 t true (s_sum_from_camps S) = Ok (diff2, d') /\
    sp_raw sp' = (sp_raw sp + diff2)%Z /\
    settle_debt (if (s_InsertDayZero S && (t =? 0)%Z)%bool then 0 else diff1 - sp_debt sp) (sp_debt sp) = (n, sp_debt sp').
Proof.
  unfold daily. intro H. destruct (get_daily_difference d t true _) as [[x d1]|] eqn:E1; [|discriminate]. cbn [bind] in H.
  destruct (get_daily_difference d1 t true _) as [[y d2]|] eqn:E2; [|discriminate]. cbn [bind] in H. cbv zeta in H.
  destruct (settle_debt _ _) as [m debt] eqn:E3 in H. injection H as <- <- <-. exists x, d1, y. cbn [sp_raw sp_debt]. auto.
Qed.
Lemma settle_spec new debt n debt' : settle_debt new debt = (n, debt') -> (0 <= n)%Z /\
  ((0 <= debt)%Z -> (0 <= debt')%Z /\ (n - debt' = new)%Z /\ (n = 0%Z \/ debt' = 0%Z)).
Proof.
  unfold settle_debt. intro H. destruct (new <? 0)%Z eqn:E1; [injection H as <- <-; lia|]. destruct (0 <? debt)%Z eqn:E2; injection H as <- <-; lia.
Qed.
Lemma daily_positive S t sp d n sp' d' : daily S t sp d = Ok (n, sp', d') -> (0 <= n)%Z.
Proof. intro H. apply daily_parts in H as (x & d1 & y & _ & _ & _ & E). now apply settle_spec in E as [? _]. Qed.

Lemma chain_data S d0 : d_day0 d0 = [] -> forall t sp d k, chain S d0 t sp d k ->
  day0_inv d0 d /\ ((t = 0%nat /\ d = d0 /\ sp = Spawn 0 0) \/ ((0 < t)%nat /\ day0_full d0 d)).
Proof.
  intros E0 t sp d k H. induction H as [|t sp d k n sp' d' _ IH H].
  - split; [|left; auto]. split; [reflexivity|]. split; [reflexivity|]. split; [reflexivity|]. intros name N. split.
    + intros _ z _. left. unfold day0_get. now rewrite E0.
    + intros _. unfold day0_get. now rewrite E0.
  - apply daily_parts in H as (x & d1 & y & D1 & D2 & _). destruct IH as [I C]. destruct t as [|t].
    + change (Z.of_nat 0) with 0%Z in D1, D2. apply (day0_daily d0) in D1 as [I1 _]; auto. apply (day0_daily d0) in D2 as [I2 X2]; [|exact E0|exact I1].
      split; [exact I2|]. right. split; [lia|exact X2].
    + apply difference_spec in D1 as [-> _]; [|lia]. apply difference_spec in D2 as [-> _]; [|lia].
      split; [exact I|]. right. split; [lia|]. destruct C as [(? & _)|C]; [discriminate|apply C].
Qed.
Lemma chain_defined S d0 : d_day0 d0 = [] -> forall t sp d k, chain S d0 t sp d k ->
  (0 < t)%nat -> forall c, In c (d_header d0) -> exists z, get_field d0 c 0 true = Ok z.
Proof.
  intros E0 t sp d k H T. induction H as [|t sp d k n sp' d' Hs IH H]; [lia|].
  destruct t as [|t]; [|apply IH; lia]. destruct (chain_data _ _ E0 _ _ _ _ Hs) as [_ [(_ & -> & _)|[X _]]]; [|lia].
  apply daily_parts in H as (x & d1 & y & D1 & _). change (Z.of_nat 0) with 0%Z in D1.
  unfold get_daily_difference in D1. cbn [Z.eqb] in D1. destruct (foldM _ _ _) as [[a na]|] eqn:E in D1; [|discriminate].
  eapply fold_defined; [exact E0| |exact E]. apply same_set0.
Qed.
Lemma chain_shown S d0 t sp d k camp z : from_data S -> d_day0 d0 = [] -> d_start_empty d0 = (if s_EmptyCampsOnDay0 S then 1 else 0)%Z ->
  chain S d0 (Datatypes.S t) sp d k ->
  camp <> "total" -> get_field d camp (Z.of_nat t) true = Ok z -> data_shown S d0 camp (Z.of_nat t) z.
Proof.
  intros F E0 Se H N G. pose proof (chain_defined _ _ E0 _ _ _ _ H ltac:(lia) camp) as Df.
  apply chain_data in H as [I [(? & _)|[_ X]]]; auto; [discriminate|]. destruct I as (A & B & C & _).
  rewrite (field_any d0 d camp _ E0) in G by (repeat split; assumption).
  destruct (get_field d0 camp (Z.of_nat t) true) as [v|] eqn:V; [|discriminate]. injection G as G.
  pose proof (field_in _ _ _ _ V) as Hin. destruct (Df Hin) as (z0 & G0). rewrite (X camp z0 Hin N G0) in G. rewrite Se in G. exists v. split; [exact V|].
  destruct (s_EmptyCampsOnDay0 S); [left|right].
  - split; [exact F|]. split; [reflexivity|]. exists z0. split; [exact G0|lia].
  - split; [intros [_ ?]; discriminate|lia].
Qed.

Lemma chain_balance S d0 : d_day0 d0 = [] -> d_start_empty d0 = 0%Z \/ d_start_empty d0 = 1%Z ->
  forall t sp d k, chain S d0 t sp d k ->
  (0 <= sp_debt sp)%Z /\
  ((t = 0%nat /\ sp = Spawn 0 0 /\ d = d0 /\ k = 0%Z) \/
   exists s z first d1, t = Datatypes.S s /\ same_tables d0 d /\
     get_daily_difference d0 0 true (s_sum_from_camps S) = Ok (first, d1) /\ to_spawn S d0 (Z.of_nat s) z /\
     sp_raw sp = (z + if s_InsertDayZero S then first else 0)%Z /\ sp_debt sp = (k - z)%Z /\
     highest S d0 (Z.of_nat s) k).
Proof.
  intros E0 Se t sp d k Hs. induction Hs as [|t sp d k n sp' d' Hs IH H].
  - split; [reflexivity|]. left. auto.
  - destruct IH as [Debt IH]. set (sc := s_sum_from_camps S) in *.
    assert (St0 : same_tables d0 d) by (destruct IH as [(_ & _ & -> & _)|(? & ? & ? & ? & _ & St & _)]; [apply same_refl|exact St]).
    apply daily_parts in H as (diff & d1 & diff2 & D1 & D2 & Rw & Sd). fold sc in D1, D2.
    assert (diff2 = diff) as -> by (eapply asked_again; [|exact D1|exact D2]; destruct St0 as (_ & _ & ->); exact Se).
    apply settle_spec in Sd as (N0 & Sd). destruct (Sd Debt) as (Db & Bal & Or). clear Sd.
    pose proof (daily_same _ _ _ _ _ D1) as S1. pose proof (daily_same _ _ _ _ _ D2) as S2.
    assert (St' : same_tables d0 d') by (eapply same_trans; [exact St0|]; eapply same_trans; eassumption).
    split; [exact Db|]. right. destruct t as [|t].
    + destruct IH as [(_ & -> & -> & ->)|(s & ? & ? & ? & X & _)]; [|discriminate]. change (Z.of_nat 0) with 0%Z in *. cbn [sp_raw sp_debt] in *.
      destruct (total_defined _ _ _ _ E0 D1) as (v0 & V0). rewrite Z.eqb_refl, andb_true_r in Bal.
      set (z := if s_InsertDayZero S then 0%Z else diff).
      assert (TS : to_spawn S d0 0 z) by (exists diff, d1, v0, v0; repeat split; auto; unfold z; destruct (s_InsertDayZero S); lia).
      exists 0%nat, z, diff, d1. split; [reflexivity|]. split; [exact St'|]. split; [exact D1|]. split; [exact TS|].
      assert (Bz : (n - sp_debt sp' = z)%Z) by (unfold z; destruct (s_InsertDayZero S); lia).
      split; [unfold z; destruct (s_InsertDayZero S); lia|]. split; [lia|].
      change (Z.of_nat 0) with 0%Z. rewrite Z.add_0_l. split; [exact N0|]. split.
      * intros s y Hy Ty. assert (s = 0%Z) as -> by lia. rewrite (to_spawn_fun _ _ _ _ _ Ty TS). lia.
      * destruct Or as [Or|Or]; [now left|]. right. exists 0%Z. split; [lia|]. replace n with z by lia. exact TS.
    + destruct IH as [(X & _)|(s & z & first & df & T & St & Df & TS & Rw0 & Db0 & Hg)]; [discriminate|]. injection T as <-.
      assert (Nz : (Z.of_nat (Datatypes.S t) =? 0)%Z = false) by (apply Z.eqb_neq; lia). rewrite Nz, andb_false_r in Bal.
      assert (TS' : to_spawn S d0 (Z.of_nat (Datatypes.S t)) (z + diff)).
      { apply difference_spec in D1 as (_ & v1 & v2 & V1 & V2 & ->); [|lia]. destruct TS as (f & df' & u & u0 & Tf & Tu & Tu0 & ->). fold sc in Tf, Tu, Tu0.
        destruct (total_any d0 d sc E0 St) as (q & K). rewrite K in V1, V2.
        replace (Z.of_nat (Datatypes.S t) - 1)%Z with (Z.of_nat t) in V2 by lia. rewrite Tu in V2. injection V2 as V2.
        destruct (total_on d0 (Z.of_nat (Datatypes.S t)) true sc) as [u1|] eqn:U1; [|discriminate]. injection V1 as V1.
        exists f, df', u1, u0. split; [exact Tf|]. split; [exact U1|]. split; [exact Tu0|]. lia. }
      exists (Datatypes.S t), (z + diff)%Z, first, df. split; [reflexivity|]. split; [exact St'|]. split; [exact Df|]. split; [exact TS'|].
      split; [lia|]. split; [lia|]. destruct Hg as (Hg0 & Hg1 & Hg2). split; [lia|]. split.
      * intros s' z' Hs' Hz. destruct (Z.eq_dec s' (Z.of_nat (Datatypes.S t))) as [->|Ne].
        -- rewrite (to_spawn_fun _ _ _ _ _ Hz TS'). lia.
        -- specialize (Hg1 s' z' ltac:(lia) Hz). lia.
      * destruct Or as [->|Or].
        -- rewrite Z.add_0_r. destruct Hg2 as [Hg2|(s' & Hs' & Ts')]; [now left|]. right. exists s'. split; [lia|exact Ts'].
        -- right. exists (Z.of_nat (Datatypes.S t)). split; [lia|]. replace (k + n)%Z with (z + diff)%Z by lia. exact TS'.
Qed.

(** ** The serial program *)

Lemma choices_length cdf : forall n g, List.length (fst (np_choices cdf n g)) = n.
Proof.
  induction n as [|n IH]; intro g; [reflexivity|]. cbn [np_choices]. destruct (rng_nu g) as [u g1]. specialize (IH g1).
  destruct (np_choices cdf n g1) as [is_ g2]. cbn [fst List.length] in *. now rewrite IH.
Qed.
Lemma picks_length n e g locs g1 : pick_spawn_locations n e g = Ok (locs, g1) -> List.length locs = Z.to_nat n.
Proof.
  unfold pick_spawn_locations. cbv zeta. intro H. repeat match type of H with (if ?x then _ else _) = _ => destruct x; [discriminate|] end.
  injection H as H. rewrite <- (choices_length (map (fun c => c / List.last (accumulate 0 (map (fun w => w / sumQ (e_spawn_weights e)) (e_spawn_weights e))) 1)%Q
    (accumulate 0 (map (fun w => w / sumQ (e_spawn_weights e))%Q (e_spawn_weights e)))) (Z.to_nat n) g), H. reflexivity.
Qed.
Lemma add_length S i a e e' : add_agent S i a e = Ok e' -> num_agents e' = (num_agents e + 1)%nat.
Proof.
  unfold add_agent, append_agent. intro H. do 2 rstep H. injection H as <-. unfold num_agents. cbn [e_agents up_loc up_e_locations up_e_agents].
  rewrite app_length. destruct (s_TakeFromPopulation S); reflexivity.
Qed.
Lemma spawn_at_length S dm : forall locs e g e' g', spawn_at S dm locs (e, g) = Ok (e', g') -> num_agents e' = (num_agents e + List.length locs)%nat.
Proof.
  unfold spawn_at. induction locs as [|i locs IH]; intros e g e' g' H; cbn [foldM] in H.
  - injection H as <- <-. cbn; lia.
  - destruct (spawn_one S dm true i (e, g)) as [[e1 g1]|] eqn:E; [|discriminate]. cbn [bind] in H. apply IH in H as ->.
    unfold spawn_one in E. destruct (loc_of e i) in E; [|discriminate]. cbn [bind] in E. destruct (draw_samples _ _ _) as [[at_ g3]|] in E; [|discriminate].
    cbn [bind] in E. destruct (add_agent S i at_ e) as [e3|] eqn:E3 in E; [|discriminate]. cbn [bind] in E. injection E as <- <-.
    apply add_length in E3 as ->. cbn [List.length]. lia.
Qed.

Lemma serial_daily S dm t sp d e g n sp' d' e' g' : from_data S -> spawn_daily_displaced S dm t sp d e g = Ok (n, sp', d', e', g') ->
  daily S t sp d = Ok (n, sp', d') /\ Z.of_nat (num_agents e') = (Z.of_nat (num_agents e) + n)%Z.
Proof.
  intros [F1 F2] H. unfold spawn_daily_displaced in H. rewrite F1, F2 in H. unfold daily.
  destruct (get_daily_difference d t true (s_sum_from_camps S)) as [[diff1 d1]|] eqn:E1; [|discriminate]. cbn [bind] in *.
  destruct (get_daily_difference d1 t true (s_sum_from_camps S)) as [[diff2 d2]|] eqn:E2; [|discriminate]. cbn [bind] in *. cbv zeta in *.
  destruct (settle_debt _ _) as [m debt] eqn:E3. apply settle_spec in E3 as [P _].
  destruct (pick_spawn_locations _ _ _) as [[locs g1]|] eqn:E4 in H; [|discriminate]. cbn [bind] in H.
  destruct (spawn_at _ _ _ _) as [[e2 g2]|] eqn:E5 in H; [|discriminate]. cbn [bind] in H. injection H as <- <- <- <- <-. split; [reflexivity|].
  apply spawn_at_length in E5 as ->. apply picks_length in E4 as ->.
  assert (X : num_agents (if (s_InsertDayZero S && (t =? 0)%Z)%bool then reduce_capacities d2 e else e) = num_agents e) by (destruct (_ && _)%bool; reflexivity).
  rewrite X. lia.
Qed.

Lemma serial_chain fuel S o inp w : from_data S -> forall t sp d e g, simulated fuel S o inp w t sp d e g ->
  exists k, chain S (w_data w) t sp d k /\ Z.of_nat (num_agents e) = (Z.of_nat (num_agents (w_eco w)) + k)%Z.
Proof.
  intros F t sp d e g H. induction H as [|t sp d e g e1 g1 n sp' d' e2 g2 e' g' _ (k & C & A) H1 H2 H3].
  - exists 0%Z. split; [constructor|lia].
  - apply serial_daily in H2 as [D N]; [|exact F]. exists (k + n)%Z. split; [econstructor; eassumption|].
    apply rest_agents in H3 as ->. rewrite N. apply sa_step in H1; [|reflexivity]. unfold num_agents in *. rewrite H1. lia.
Qed.
