(** * AddProofs: adding two data series *)

From Coq Require Import ZArith Lia Lqa.
From Verif Require Import Base Lemmas DataTable SpecData DataProofs DataFiles SpecFiles.
Local Open Scope Q_scope.
Local Open Scope list_scope.

Definition plus_rows (l : Q * Q) (rs : series) : series := map (fun r => (fst r, snd l + snd r)) rs.

Lemma nth_skip : forall (A : Type) (l : list A) n x, nth_error l n = Some x -> skipn n l = x :: skipn (S n) l.
Proof.
  intros A l. induction l as [|y l IH]; intros [|n] x H; cbn in *; try discriminate.
  - congruence.
  - rewrite (IH n x H). reflexivity.
Qed.

Lemma while_ok : forall t1 c2 last fuel out off,
  increasing t1 -> (off < List.length t1)%nat -> (List.length t1 <= fuel + off)%nat ->
  (exists r, In r t1 /\ fst c2 <= fst r) ->
  (forall r, nth_error t1 off = Some r -> fst r < fst c2 -> last <> None) ->
  exists k r, add_while (S fuel) t1 c2 out off last =
      Ok (out ++ match last with Some l => plus_rows l (firstn k (skipn off t1)) | None => [] end, (off + k)%nat) /\
    nth_error t1 (off + k) = Some r /\ fst c2 <= fst r /\
    (forall i x, (off <= i < off + k)%nat -> nth_error t1 i = Some x -> fst x < fst c2) /\ (last = None -> k = 0%nat).
Proof.
  intros t1 c2 last fuel. induction fuel as [|fuel IH]; intros out off Hi Ho Hf He Hl; [lia|].
  destruct (nth_error t1 off) as [r|] eqn:Er; [|apply nth_error_None in Er; lia].
  remember (S fuel) as fu. cbn [add_while]. unfold table_row at 1. rewrite Er. cbn [of_option bind].
  destruct (Qltb (fst r) (fst c2)) eqn:Eq.
  - apply Qltb_true in Eq. destruct last as [l|]; [|exfalso; apply (Hl r eq_refl Eq); reflexivity]. cbn [of_option bind].
    assert (S off < List.length t1)%nat as Hlt.
    { destruct He as [r' [Hin Hge]]. apply In_nth_error in Hin. destruct Hin as [i Hin].
      assert (i < List.length t1)%nat by (apply nth_error_Some; congruence).
      assert (off < i)%nat; [|lia].
      destruct (Nat.lt_trichotomy i off) as [H1|[H1|H1]]; [|subst; assert (r' = r) by congruence; subst; lra|exact H1].
      pose proof (Hi i off r' r Hin Er H1). lra. }
    apply Nat.ltb_lt in Hlt. rewrite Hlt. apply Nat.ltb_lt in Hlt. subst fu.
    destruct (IH (out ++ [(fst r, snd l + snd r)]) (S off) Hi Hlt ltac:(lia) He ltac:(discriminate)) as [k [r' [H1 [H2 [H3 [H4 _]]]]]].
    exists (S k), r'. split.
    + rewrite H1. f_equal. f_equal; [|lia]. rewrite (nth_skip _ t1 off r Er). cbn [firstn plus_rows map]. rewrite <- app_assoc. reflexivity.
    + replace (off + S k)%nat with (S off + k)%nat by lia. split; [exact H2|]. split; [exact H3|]. split; [|discriminate].
      intros i x Hx E. destruct (Nat.eq_dec i off) as [->|N]; [assert (x = r) by congruence; subst; exact Eq|]. apply (H4 i x); [lia|exact E].
  - apply Qltb_false in Eq. exists 0%nat, r. rewrite Nat.add_0_r. split.
    + destruct last; cbn [firstn plus_rows map]; rewrite app_nil_r; reflexivity.
    + split; [exact Er|]. split; [exact Eq|]. split; [intros; lia|reflexivity].
Qed.

Lemma step_ok : forall t1 c2 last out off,
  increasing t1 -> (off < List.length t1)%nat -> (exists r, In r t1 /\ fst c2 <= fst r) ->
  (forall r, nth_error t1 off = Some r -> fst r < fst c2 -> last <> None) ->
  exists k r, add_step t1 (out, off, last) c2 =
      Ok (out ++ match last with Some l => plus_rows l (firstn k (skipn off t1)) | None => [] end ++ [(fst c2, snd c2 + snd r)],
          (if Qeqb (fst c2) (fst r) then if (S (off + k) <? List.length t1)%nat then S (off + k) else off + k else off + k)%nat, Some c2) /\
    nth_error t1 (off + k) = Some r /\ fst c2 <= fst r /\
    (forall i x, (off <= i < off + k)%nat -> nth_error t1 i = Some x -> fst x < fst c2) /\ (last = None -> k = 0%nat).
Proof.
  intros t1 c2 last out off Hi Ho He Hl.
  destruct (while_ok t1 c2 last (List.length t1) out off Hi Ho ltac:(lia) He Hl) as [k [r [H1 [H2 [H3 H4]]]]].
  exists k, r. split; [|auto]. unfold add_step. rewrite H1. cbn [bind]. unfold table_row. rewrite H2. cbn [of_option bind].
  rewrite <- app_assoc. destruct (Qeqb (fst c2) (fst r)) eqn:E; [reflexivity|].
  assert (Qltb (fst c2) (fst r) = true) as ->; [|reflexivity]. apply Qltb_true.
  assert (~ fst c2 == fst r) by (intros K; apply Qeqb_true in K; congruence). lra.
Qed.

Lemma last_nth : forall (A : Type) (p : list A) c, nth_error (p ++ [c]) (List.length p) = Some c.
Proof. intros. rewrite nth_error_app2 by lia. rewrite Nat.sub_diag. reflexivity. Qed.

Lemma next_unique : forall t day v v', next_value t day v -> next_value t day v' -> v = v'.
Proof.
  intros t day v v' [i [r [H1 [H2 [-> H3]]]]] [j [r' [K1 [K2 [-> K3]]]]].
  destruct (Nat.lt_trichotomy i j) as [H|[H|H]].
  - pose proof (K3 i r H H1). lra.
  - subst. congruence.
  - pose proof (H3 j r' H K1). lra.
Qed.

Lemma last_snoc : forall p c day v, day < fst c -> (last_value (p ++ [c]) day v <-> last_value p day v).
Proof.
  intros p c day v Hd. split.
  - intros [i [r [H1 [H2 [-> H3]]]]]. destruct (Nat.lt_ge_cases i (List.length p)) as [Hi|Hi].
    + exists i, r. rewrite nth_error_app1 in H1 by exact Hi. split; [exact H1|]. split; [exact H2|]. split; [reflexivity|].
      intros j r' Hj Hr. apply (H3 j r' Hj). rewrite nth_error_app1; [exact Hr|]. apply nth_error_Some. congruence.
    + rewrite nth_error_app2 in H1 by exact Hi. destruct (i - List.length p)%nat as [|m] eqn:E; cbn in H1; [|destruct m; discriminate].
      injection H1 as <-. lra.
  - intros [i [r [H1 [H2 [-> H3]]]]]. assert (i < List.length p)%nat as Hi by (apply nth_error_Some; congruence).
    exists i, r. rewrite nth_error_app1 by exact Hi. split; [exact H1|]. split; [exact H2|]. split; [reflexivity|].
    intros j r' Hj Hr. destruct (Nat.lt_ge_cases j (List.length p)) as [Hk|Hk].
    + rewrite nth_error_app1 in Hr by exact Hk. apply (H3 j r' Hj Hr).
    + rewrite nth_error_app2 in Hr by exact Hk. destruct (j - List.length p)%nat as [|m] eqn:E; cbn in Hr; [|destruct m; discriminate].
      injection Hr as <-. exact Hd.
Qed.

Lemma last_end : forall p c day v, fst c <= day -> (last_value (p ++ [c]) day v <-> v = snd c).
Proof.
  intros p c day v Hd. split.
  - intros [i [r [H1 [H2 [-> H3]]]]]. destruct (Nat.lt_ge_cases i (List.length p)) as [Hi|Hi].
    + pose proof (H3 (List.length p) c Hi (last_nth _ p c)). lra.
    + rewrite nth_error_app2 in H1 by exact Hi. destruct (i - List.length p)%nat as [|m] eqn:E; cbn in H1; [|destruct m; discriminate].
      injection H1 as <-. reflexivity.
  - intros ->. exists (List.length p), c. rewrite last_nth. split; [reflexivity|]. split; [exact Hd|]. split; [reflexivity|].
    intros j r' Hj Hr. assert (j < List.length (p ++ [c]))%nat by (apply nth_error_Some; congruence). rewrite app_length in *. cbn in *. lia.
Qed.

Lemma incr_days : forall p c q, increasing (p ++ c :: q) -> (forall r, In r p -> fst r < fst c) /\ (forall r, In r q -> fst c < fst r).
Proof.
  intros p c q Hi. assert (nth_error (p ++ c :: q) (List.length p) = Some c) as Hc.
  { rewrite nth_error_app2 by lia. rewrite Nat.sub_diag. reflexivity. }
  split; intros r Hr; apply In_nth_error in Hr; destruct Hr as [i Hr].
  - assert (i < List.length p)%nat by (apply nth_error_Some; congruence). apply (Hi i (List.length p) r c); [rewrite nth_error_app1; auto|exact Hc|assumption].
  - apply (Hi (List.length p) (List.length p + S i)%nat c r Hc); [|lia]. rewrite nth_error_app2 by lia.
    replace (List.length p + S i - List.length p)%nat with (S i) by lia. exact Hr.
Qed.

Lemma incr_app : forall a b, increasing a -> increasing b -> (forall x y, In x a -> In y b -> fst x < fst y) -> increasing (a ++ b).
Proof.
  intros a b Ha Hb Hab i j ri rj Hi Hj Hl.
  destruct (Nat.lt_ge_cases i (List.length a)) as [H1|H1]; destruct (Nat.lt_ge_cases j (List.length a)) as [H2|H2].
  - rewrite nth_error_app1 in Hi, Hj by assumption. eauto.
  - rewrite nth_error_app1 in Hi by assumption. rewrite nth_error_app2 in Hj by assumption. apply Hab; eapply nth_error_In; eauto.
  - lia.
  - rewrite nth_error_app2 in Hi, Hj by assumption. apply (Hb (i - List.length a) (j - List.length a) ri rj)%nat; auto. lia.
Qed.
Lemma incr_one : forall x, increasing [x].
Proof. intros x [|[|i]] [|[|j]] ri rj Hi Hj Hl; cbn in *; try discriminate; lia. Qed.
Lemma incr_firstn : forall k t, increasing t -> increasing (firstn k t).
Proof.
  intros k t Hi i j ri rj H1 H2 Hl. assert (forall n x, nth_error (firstn k t) n = Some x -> nth_error t n = Some x) as G.
  { clear. revert t. induction k as [|k IH]; intros [|y t] [|n] x H; cbn in *; try discriminate; auto. }
  apply (Hi i j); auto.
Qed.
Lemma nth_skipn : forall (A : Type) n (l : list A) i, nth_error (skipn n l) i = nth_error l (n + i).
Proof. induction n as [|n IH]; intros [|x l] i; cbn; auto. destruct i; reflexivity. Qed.
Lemma incr_skipn : forall k t, increasing t -> increasing (skipn k t).
Proof. intros k t Hi i j ri rj H1 H2 Hl. rewrite nth_skipn in H1, H2. apply (Hi (k + i) (k + j))%nat; auto. lia. Qed.
Lemma incr_plus : forall l rs, increasing rs -> increasing (plus_rows l rs).
Proof.
  intros l rs Hi i j ri rj H1 H2 Hl. unfold plus_rows in *. rewrite nth_error_map in H1, H2.
  destruct (nth_error rs i) as [a|] eqn:Ea; [|discriminate]. destruct (nth_error rs j) as [b|] eqn:Eb; [|discriminate].
  injection H1 as <-. injection H2 as <-. cbn. apply (Hi i j); auto.
Qed.
Lemma in_window : forall (t : series) off k x, In x (firstn k (skipn off t)) <-> exists i, (off <= i < off + k)%nat /\ nth_error t i = Some x.
Proof.
  intros t off k x. split.
  - intros H. apply In_nth_error in H. destruct H as [i H]. assert (i < List.length (firstn k (skipn off t)))%nat by (apply nth_error_Some; congruence).
    rewrite firstn_length in *. exists (off + i)%nat. split; [lia|]. rewrite <- nth_skipn.
    assert (forall n (l : series) m, (m < n)%nat -> nth_error (firstn n l) m = nth_error l m) as G.
    { clear. induction n as [|n IH]; intros [|y l] [|m] H; cbn; try lia; auto. apply IH. lia. }
    rewrite <- G with (n := k) by lia. exact H.
  - intros [i [Hi Hx]]. apply (nth_error_In _ (i - off)).
    assert (forall n (l : series) m, (m < n)%nat -> nth_error (firstn n l) m = nth_error l m) as G.
    { clear. induction n as [|n IH]; intros [|y l] [|m] H; cbn; try lia; auto. apply IH. lia. }
    rewrite G by lia. rewrite nth_skipn. replace (off + (i - off))%nat with i by lia. exact Hx.
Qed.

(** State after the rows [p ++ [c]] of the second series, with [q] to come *)
Record midway (t1 p : series) (c : Q * Q) (q out : series) (off : nat) : Prop := Midway {
  m_off : (off < List.length t1)%nat;
  m_done : forall i r, (i < off)%nat -> nth_error t1 i = Some r -> fst r <= fst c;
  m_next : forall r, nth_error t1 off = Some r -> q <> [] -> fst c < fst r;
  m_until : forall r, In r out -> fst r <= fst c;
  m_rows : added_rows t1 (p ++ [c]) out }.

Lemma first_row : forall t1 c q,
  increasing t1 -> increasing (c :: q) -> (forall r, In r t1 -> fst c <= fst r) ->
  (forall x, In x (c :: q) -> exists r, In r t1 /\ fst x <= fst r) ->
  exists out off, add_step t1 ([], 0%nat, None) c = Ok (out, off, Some c) /\ midway t1 [] c q out off.
Proof.
  intros t1 c q H1 H2 Hge Hle. destruct (Hle c (or_introl eq_refl)) as [r0 [Hr0 Hc0]].
  assert (0 < List.length t1)%nat as Hn. { destruct t1; [destruct Hr0|cbn; lia]. }
  destruct (step_ok t1 c None [] 0%nat H1 Hn (ex_intro _ r0 (conj Hr0 Hc0))) as [k [r [E [Hr [Hcr [_ Hk]]]]]].
  { intros r Hr Hlt. pose proof (Hge r (nth_error_In _ _ Hr)). lra. }
  rewrite (Hk eq_refl) in *. clear Hk k. cbn [Nat.add app] in *. eexists _, _. split; [exact E|].
  assert (forall i r, nth_error t1 i = Some r -> fst c <= fst r) as Hge' by (intros i x Hx; apply Hge, (nth_error_In _ _ Hx)).
  constructor.
  - destruct (Qeqb (fst c) (fst r)); [|exact Hn]. destruct (Nat.ltb_spec 1 (List.length t1)); assumption.
  - intros i x Hi Hx. destruct (Qeqb (fst c) (fst r)) eqn:Eq; [|lia]. apply Qeqb_true in Eq.
    assert (i = 0)%nat as -> by (destruct (1 <? List.length t1)%nat; lia). assert (x = r) by congruence. subst. lra.
  - intros x Hx Hq. destruct (Qeqb (fst c) (fst r)) eqn:Eq.
    + apply Qeqb_true in Eq. destruct (Nat.ltb_spec 1 (List.length t1)) as [Hl|Hl].
      * pose proof (H1 0%nat 1%nat r x Hr Hx ltac:(lia)). lra.
      * destruct q as [|y q]; [contradiction|]. destruct (Hle y (or_intror (or_introl eq_refl))) as [ry [Hry Hy]].
        pose proof (proj2 (incr_days [] c (y :: q) H2) y (or_introl eq_refl)). destruct t1 as [|a [|b t1]]; cbn in *; try lia.
        destruct Hry as [->|[]]. injection Hr as ->. lra.
    + assert (x = r) by congruence. subst. assert (~ fst c == fst r) by (intros K; apply Qeqb_true in K; congruence). lra.
  - intros x [<-|[]]. cbn. lra.
  - split; [apply incr_one|]. intros day v. split.
    + intros [E1|[]]. injection E1 as <- <-. left. exists (snd r), (snd c). split; [left; destruct c; reflexivity|]. split; [|reflexivity].
      exists 0%nat, r. split; [exact Hr|]. split; [exact Hcr|]. split; [reflexivity|]. intros; lia.
    + intros [[v1 [v2 [Hin [Hv ->]]]]|[v1 [v2 [Hin [_ [[x [Hx Hd]] _]]]]]].
      * destruct Hin as [->|[]]. left. cbn [fst snd]. f_equal. f_equal. apply (next_unique t1 day); [|exact Hv].
        exists 0%nat, r. split; [exact Hr|]. split; [exact Hcr|]. split; [reflexivity|]. intros; lia.
      * destruct Hx as [<-|[]]. pose proof (Hge _ Hin). cbn in *. lra.
Qed.

Lemma next_row : forall t1 p c c2 q out off,
  increasing t1 -> increasing (p ++ c :: c2 :: q) ->
  (forall x, In x (c2 :: q) -> exists r, In r t1 /\ fst x <= fst r) ->
  midway t1 p c (c2 :: q) out off ->
  exists out' off', add_step t1 (out, off, Some c) c2 = Ok (out', off', Some c2) /\ midway t1 (p ++ [c]) c2 q out' off'.
Proof.
  intros t1 p c c2 q out off H1 H2 Hle [Ho Hdone Hnext Huntil [Hinc Hrows]].
  destruct (step_ok t1 c2 (Some c) out off H1 Ho (Hle c2 (or_introl eq_refl)) ltac:(discriminate)) as [k [r [E [Hr [Hcr [Hwin _]]]]]].
  set (new := plus_rows c (firstn k (skipn off t1)) ++ [(fst c2, snd c2 + snd r)]) in *.
  eexists _, _. split; [exact E|]. clear E.
  assert (increasing ((p ++ [c]) ++ c2 :: q)) as H2' by (rewrite <- app_assoc; exact H2).
  destruct (incr_days _ _ _ H2') as [Hbefore Hafter]. destruct (incr_days _ _ _ H2) as [Hb1 _].
  assert (fst c < fst c2) as Hcc by (apply Hbefore, in_or_app; right; left; reflexivity).
  assert (forall i x, (off <= i)%nat -> nth_error t1 i = Some x -> fst c < fst x) as Hlater.
  { intros i x Hi Hx. destruct (nth_error t1 off) as [y|] eqn:Ey; [|apply nth_error_None in Ey; lia].
    pose proof (Hnext y eq_refl ltac:(discriminate)). destruct (Nat.eq_dec i off) as [->|N]; [congruence|].
    pose proof (H1 off i y x Ey Hx ltac:(lia)). lra. }
  assert (off + k < List.length t1)%nat as Hk by (apply nth_error_Some; congruence).
  assert (forall i x, (i < off + k)%nat -> nth_error t1 i = Some x -> fst x < fst c2) as Hall.
  { intros i x Hi Hx. destruct (Nat.lt_ge_cases i off) as [Hl|Hl]; [pose proof (Hdone i x Hl Hx); lra|]. apply (Hwin i x); [lia|exact Hx]. }
  assert (next_value t1 (fst c2) (snd r)) as Hnv.
  { exists (off + k)%nat, r. split; [exact Hr|]. split; [exact Hcr|]. split; [reflexivity|]. exact Hall. }
  assert (forall x, In x new -> fst c < fst x /\ fst x <= fst c2) as Hnew.
  { intros x Hx. apply in_app_or in Hx. destruct Hx as [Hx|[<-|[]]]; [|cbn; lra].
    unfold plus_rows in Hx. apply in_map_iff in Hx. destruct Hx as [y [<- Hy]]. cbn.
    apply in_window in Hy. destruct Hy as [i [Hi Hy]]. split; [apply (Hlater i); [lia|exact Hy]|]. apply Qlt_le_weak, (Hwin i); assumption. }
  constructor.
  - destruct (Qeqb (fst c2) (fst r)); [|exact Hk]. destruct (Nat.ltb_spec (S (off + k)) (List.length t1)); lia.
  - intros i x Hi Hx. destruct (Nat.lt_ge_cases i (off + k)) as [Hl|Hl]; [apply Qlt_le_weak, (Hall i x Hl Hx)|].
    destruct (Qeqb (fst c2) (fst r)) eqn:Eq; [|lia]. apply Qeqb_true in Eq. destruct (S (off + k) <? List.length t1)%nat; [|lia].
    assert (i = off + k)%nat as -> by lia. assert (x = r) by congruence. subst. lra.
  - intros x Hx Hq. destruct (Qeqb (fst c2) (fst r)) eqn:Eq.
    + apply Qeqb_true in Eq. destruct (Nat.ltb_spec (S (off + k)) (List.length t1)) as [Hl|Hl].
      * pose proof (H1 (off + k)%nat (S (off + k)) r x Hr Hx ltac:(lia)). lra.
      * exfalso. destruct q as [|y q]; [contradiction|]. destruct (Hle y (or_intror (or_introl eq_refl))) as [ry [Hry Hy]].
        pose proof (Hafter y (or_introl eq_refl)). apply In_nth_error in Hry. destruct Hry as [i Hi].
        assert (i < List.length t1)%nat by (apply nth_error_Some; congruence).
        destruct (Nat.eq_dec i (off + k)) as [->|N]; [assert (ry = r) by congruence; subst; lra|].
        pose proof (H1 i (off + k)%nat ry r Hi Hr ltac:(lia)). lra.
    + assert (x = r) by congruence. subst. assert (~ fst c2 == fst r) by (intros K; apply Qeqb_true in K; congruence). lra.
  - intros x Hx. apply in_app_or in Hx. destruct Hx as [Hx|Hx]; [pose proof (Huntil x Hx); lra|]. apply Hnew, Hx.
  - split.
    + apply incr_app; [exact Hinc| |].
      * apply incr_app; [apply incr_plus, incr_firstn, incr_skipn, H1|apply incr_one|].
        intros x y Hx [<-|[]]. unfold plus_rows in Hx. apply in_map_iff in Hx. destruct Hx as [z [<- Hz]]. cbn.
        apply in_window in Hz. destruct Hz as [i [Hi Hz]]. apply (Hwin i); assumption.
      * intros x y Hx Hy. pose proof (Huntil x Hx). pose proof (Hnew y Hy). lra.
    + intros day v. split.
      * intros Hin. apply in_app_or in Hin. destruct Hin as [Hin|Hin].
        -- apply Hrows in Hin. destruct Hin as [[v1 [v2 [Hin [Hv ->]]]]|[v1 [v2 [Hin [Hno [[x [Hx Hd]] [Hv ->]]]]]]].
           ++ left. exists v1, v2. split; [apply in_or_app; left; exact Hin|]. split; [exact Hv|reflexivity].
           ++ right. exists v1, v2. assert (day < fst c2) as Hdc by (pose proof (Hbefore x Hx); lra).
              split; [exact Hin|]. split; [|split; [|split; [|reflexivity]]].
              ** intros y Hy. apply in_app_or in Hy. destruct Hy as [Hy|[<-|[]]]; [apply Hno, Hy|lra].
              ** exists c2. split; [apply in_or_app; right; left; reflexivity|exact Hdc].
              ** apply last_snoc; [exact Hdc|exact Hv].
        -- apply in_app_or in Hin. destruct Hin as [Hin|[Hin|[]]].
           ++ unfold plus_rows in Hin. apply in_map_iff in Hin. destruct Hin as [[d v1] [Ed Hz]]. cbn in Ed. injection Ed as -> <-.
              apply in_window in Hz. destruct Hz as [i [Hi Hz]]. pose proof (Hwin i _ Hi Hz) as Hd2. pose proof (Hlater i _ (proj1 Hi) Hz) as Hd1. cbn in Hd1, Hd2.
              right. exists v1, (snd c). split; [apply (nth_error_In _ _ Hz)|]. split; [|split; [|split; [|reflexivity]]].
              ** intros y Hy Hq. apply in_app_or in Hy. destruct Hy as [Hy|[<-|[]]]; [|lra].
                 apply in_app_or in Hy. destruct Hy as [Hy|[<-|[]]]; [|lra]. pose proof (Hb1 y Hy). lra.
              ** exists c2. split; [apply in_or_app; right; left; reflexivity|exact Hd2].
              ** apply last_snoc; [exact Hd2|]. apply last_end; [lra|reflexivity].
           ++ injection Hin as <- <-. left. exists (snd r), (snd c2). split; [apply in_or_app; right; left; destruct c2; reflexivity|]. split; [exact Hnv|reflexivity].
      * intros [[v1 [v2 [Hin [Hv ->]]]]|[v1 [v2 [Hin [Hno [[x [Hx Hd]] [Hv ->]]]]]]].
        -- apply in_app_or in Hin. destruct Hin as [Hin|[->|[]]].
           ++ apply in_or_app. left. apply Hrows. left. exists v1, v2. auto.
           ++ apply in_or_app. right. apply in_or_app. right. left. cbn [fst snd] in *. f_equal. f_equal. apply (next_unique t1 day); assumption.
        -- assert (day < fst c2) as Hdc.
           { apply in_app_or in Hx. destruct Hx as [Hx|[<-|[]]]; [|exact Hd]. pose proof (Hbefore x Hx). lra. }
           apply (last_snoc (p ++ [c]) c2 day v2 Hdc) in Hv.
           assert (~ fst c == day) as Hne by (apply Hno, in_or_app; left; apply in_or_app; right; left; reflexivity).
           destruct (Qlt_le_dec day (fst c)) as [Hlt|Hge].
           ++ apply in_or_app. left. apply Hrows. right. exists v1, v2. split; [exact Hin|]. split; [|split; [|split; [exact Hv|reflexivity]]].
              ** intros y Hy. apply Hno, in_or_app. left. exact Hy.
              ** exists c. split; [apply in_or_app; right; left; reflexivity|exact Hlt].
           ++ apply (last_end p c day v2 Hge) in Hv. subst v2. apply In_nth_error in Hin. destruct Hin as [i Hi].
              apply in_or_app. right. apply in_or_app. left. unfold plus_rows. apply in_map_iff. exists (day, v1). split; [reflexivity|].
              apply in_window. exists i. split; [|exact Hi]. split.
              ** destruct (Nat.lt_ge_cases i off) as [Hl|Hl]; [|exact Hl]. pose proof (Hdone i _ Hl Hi). cbn in *. lra.
              ** destruct (Nat.lt_ge_cases i (off + k)) as [Hl|Hl]; [exact Hl|]. exfalso. destruct (Nat.eq_dec i (off + k)) as [->|N].
                 --- assert ((day, v1) = r) by congruence. subst r. cbn in *. lra.
                 --- pose proof (H1 (off + k)%nat i r _ Hr Hi ltac:(lia)). cbn in *. lra.
Qed.

Lemma rest_rows : forall t1 q p c out off,
  increasing t1 -> increasing (p ++ c :: q) ->
  (forall x, In x q -> exists r, In r t1 /\ fst x <= fst r) -> midway t1 p c q out off ->
  exists out' off' l, foldM (add_step t1) q (out, off, Some c) = Ok (out', off', l) /\ added_rows t1 (p ++ c :: q) out'.
Proof.
  intros t1 q. induction q as [|c2 q IH]; intros p c out off H1 H2 Hle M; cbn [foldM].
  - exists out, off, (Some c). split; [reflexivity|]. apply (m_rows _ _ _ _ _ _ M).
  - destruct (next_row t1 p c c2 q out off H1 H2 Hle M) as [out' [off' [-> M']]]. cbn [bind].
    destruct (IH (p ++ [c]) c2 out' off') as [o [f [l [E A]]]]; auto.
    + rewrite <- app_assoc. exact H2.
    + intros x Hx. apply Hle. right. exact Hx.
    + exists o, f, l. split; [exact E|]. rewrite <- app_assoc in A. exact A.
Qed.

Theorem add_rows : forall t1 t2, increasing t1 -> increasing t2 ->
  (forall x y, nth_error t1 0 = Some x -> nth_error t2 0 = Some y -> fst y <= fst x) ->
  (forall y, In y t2 -> exists x, In x t1 /\ fst y <= fst x) ->
  exists t, add_csv_tables t1 t2 = Ok t /\ added_rows t1 t2 t.
Proof.
  intros t1 t2 H1 H2 Hs Hle. unfold add_csv_tables. destruct t2 as [|c q].
  - exists []. split; [reflexivity|]. split; [intros [|i] j ri rj Hi; discriminate|]. intros day v. split; [intros []|].
    intros [[v1 [v2 [[] _]]]|[v1 [v2 [_ [_ [[r [[] _]] _]]]]]].
  - destruct (first_row t1 c q H1 H2) as [out [off [E M]]].
    + intros r Hr. apply In_nth_error in Hr. destruct Hr as [i Hi]. destruct t1 as [|x t1]; [destruct i; discriminate|].
      pose proof (Hs x c eq_refl eq_refl). destruct i as [|i]; [injection Hi as <-; assumption|].
      pose proof (H1 0%nat (S i) x r eq_refl Hi ltac:(lia)). lra.
    + exact Hle.
    + cbn [foldM]. rewrite E. cbn [bind]. destruct (rest_rows t1 q [] c out off H1 H2 ltac:(intros; apply Hle; right; assumption) M) as [o [f [l [-> A]]]].
      cbn [bind]. exists o. split; [reflexivity|exact A].
Qed.
