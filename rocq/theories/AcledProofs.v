(** * AcledProofs: the conversion of conflict events *)

From Coq Require Import Permutation Sorted DecimalString DecimalZ DecimalPos Lia.
From Verif Require Import Base Lemmas Dates Coupling Acled SpecDates SpecCoupling SpecAcled DateProofs CouplingText.
Local Open Scope string_scope.
Local Open Scope Z_scope.
Local Open Scope list_scope.

(** ** Texts *)

Lemma split_inv c : forall s a l, split c s = a :: l ->
  free c a /\ (l = [] /\ s = a \/ exists s', s = (a ++ String c s')%string /\ l = split c s').
Proof.
  induction s as [|d s IH]; intros a l H; cbn [split] in H.
  - injection H as <- <-. split; [intros []|]. left. auto.
  - destruct (Ascii.eqb_spec d c) as [->|N].
    + injection H as <- <-. split; [intros []|]. right. exists s. auto.
    + destruct (split c s) as [|w ws] eqn:E; [now apply split_nonempty in E|]. injection H as <- <-. destruct (IH w ws eq_refl) as [F R]. split.
      * intros [X|X]; [congruence|contradiction].
      * destruct R as [[-> ->]|(s' & -> & ->)]; [left; auto|right; exists s'; auto].
Qed.
Lemma parts_iff c s x y z : parts c s x y z <-> exists more, split c s = x :: y :: z :: more.
Proof.
  split.
  - intros (A & B & C & rest & -> & R). rewrite split_app, (split_free c x A), split_app, (split_free c y B).
    destruct R as [->|(r & ->)].
    + rewrite app_empty, (split_free c z C). eexists. reflexivity.
    + rewrite split_app, (split_free c z C). eexists. reflexivity.
  - intros (more & H). apply split_inv in H as (A & [[H _]|(s1 & -> & H)]); [discriminate|]. symmetry in H.
    apply split_inv in H as (B & [[H _]|(s2 & -> & H)]); [discriminate|]. symmetry in H.
    apply split_inv in H as (C & H). split; [exact A|]. split; [exact B|]. split; [exact C|].
    destruct H as [[_ ->]|(s3 & -> & _)].
    + exists ""%string. rewrite app_empty. auto.
    + exists (String c s3). split; [reflexivity|]. right. eauto.
Qed.
Lemma hyphen_in s : str_in "-" s = true <-> ~ free "-" s.
Proof.
  assert (A : forall s, In "-"%char (list_ascii_of_string s) <-> says "-" s).
  { clear s. induction s as [|c s IH]; cbn [list_ascii_of_string In].
    - split; [intros []|]. intros (a & b & H). destruct a; discriminate.
    - split.
      + intros [->|H]; [exists ""%string, s; reflexivity|]. apply IH in H as (a & b & ->). exists (String c a), b. reflexivity.
      + intros (a & b & H). destruct a as [|c' a]; cbn [append] in H; injection H as -> ->; [now left|]. right. apply IH. now exists a, b. }
  rewrite says_in by discriminate. unfold free. rewrite <- A. split; [tauto|]. intro H. rewrite A in *.
  destruct (str_in "-" s) eqn:E; [apply says_in in E; [exact E|discriminate]|]. exfalso. apply H. intro X. apply says_in in X; [congruence|discriminate].
Qed.

(** ** Months *)

Lemma month_iff b m : names_month b m <-> exists mn, month_convert b = Ok mn /\ parse_Z mn = Some m.
Proof.
  unfold names_month, month_convert. generalize (lower (strip b)). intro t. split.
  - intros (k & full & N & -> & T).
    do 12 (destruct k as [|k]; [injection N as <-; destruct T as [->| ->]; eexists; split; reflexivity|]). destruct k; discriminate.
  - intros (mn & H & P). destruct (find _ _) as [p|] eqn:F; [|discriminate]. injection H as <-. apply find_some in F as [I E]. apply String.eqb_eq in E. subst t.
    unfold months in I. cbn [In] in I. repeat (destruct I as [<-|I]; [cbn [snd] in P; injection P as <-; cbn [fst]|]); [..|destruct I].
    + exists 0%nat. eexists. repeat split. now right.
    + exists 0%nat. eexists. repeat split. now left.
    + exists 1%nat. eexists. repeat split. now right.
    + exists 1%nat. eexists. repeat split. now left.
    + exists 2%nat. eexists. repeat split. now right.
    + exists 2%nat. eexists. repeat split. now left.
    + exists 3%nat. eexists. repeat split. now right.
    + exists 3%nat. eexists. repeat split. now left.
    + exists 4%nat. eexists. repeat split. now left.
    + exists 5%nat. eexists. repeat split. now right.
    + exists 5%nat. eexists. repeat split. now left.
    + exists 6%nat. eexists. repeat split. now right.
    + exists 6%nat. eexists. repeat split. now left.
    + exists 7%nat. eexists. repeat split. now right.
    + exists 7%nat. eexists. repeat split. now left.
    + exists 8%nat. eexists. repeat split. now right.
    + exists 8%nat. eexists. repeat split. now left.
    + exists 9%nat. eexists. repeat split. now right.
    + exists 9%nat. eexists. repeat split. now left.
    + exists 10%nat. eexists. repeat split. now right.
    + exists 10%nat. eexists. repeat split. now left.
    + exists 11%nat. eexists. repeat split. now right.
    + exists 11%nat. eexists. repeat split. now left.
Qed.
Lemma month_free b mn : month_convert b = Ok mn -> free "-" mn.
Proof.
  unfold month_convert. destruct (find _ _) as [p|] eqn:F; [|discriminate]. intro H. injection H as <-. apply find_some in F as [I _].
  unfold months in I. cbn [In] in I. repeat (destruct I as [<-|I]; [unfold free; cbn; intuition discriminate|]). destruct I.
Qed.

(** ** Dates *)

Lemma item_ok l i x : item l i = Ok x <-> nth_error l i = Some x.
Proof. unfold item. destruct (nth_error l i); cbn; split; congruence. Qed.
Lemma int_ok s z : int_of s = Ok z <-> parse_Z s = Some z.
Proof. unfold int_of. destruct (parse_Z s); cbn; split; congruence. Qed.

Lemma dmy_iff s d : read_dmy (split "-" s) = Ok d <-> civil d /\ start_text s d.
Proof.
  unfold read_dmy, start_text. split.
  - intro H. destruct (item _ 2) as [c|] eqn:C; [|discriminate]. cbn [bind] in H. destruct (int_of c) as [y|] eqn:Y; [|discriminate]. cbn [bind] in H.
    destruct (item _ 1) as [b|] eqn:B; [|discriminate]. cbn [bind] in H. destruct (int_of b) as [m|] eqn:M; [|discriminate]. cbn [bind] in H.
    destruct (item _ 0) as [a|] eqn:A; [|discriminate]. cbn [bind] in H. destruct (int_of a) as [n|] eqn:N; [|discriminate]. cbn [bind] in H.
    apply item_ok in A, B, C. apply int_ok in Y, M, N. apply make_iff in H as [-> H]. split; [exact H|]. exists a, b, c. cbn [dt_year dt_month dt_day].
    split; [|auto]. apply parts_iff. destruct (split "-" s) as [|x0 [|x1 [|x2 l]]]; try discriminate. cbn in A, B, C. exists l. congruence.
  - intros [Cv (a & b & c & P & A & B & C)]. apply parts_iff in P as (more & ->). unfold item. cbn [nth_error of_option bind].
    apply int_ok in A, B, C. rewrite C. cbn [bind]. rewrite B. cbn [bind]. rewrite A. cbn [bind]. apply make_iff. split; [now destruct d|exact Cv].
Qed.

Lemma str_nonneg z : 0 <= z -> free "-" (str_of_Z z).
Proof.
  intros Hz H. unfold str_of_Z, NilZero.string_of_int in H. destruct z as [|p|p]; [cbn in H; intuition discriminate| |lia]. cbn [Z.to_int] in H.
  unfold NilZero.string_of_uint in H. destruct (Pos.to_uint p) eqn:E; [cbn in H; intuition discriminate|..];
    apply uint_chars in H; cbn in H; intuition discriminate.
Qed.
Lemma str_neg z : z < 0 -> exists t, str_of_Z z = String "-" t.
Proof. intro Hz. destruct z as [|p|p]; try lia. unfold str_of_Z, NilZero.string_of_int. cbn [Z.to_int]. eexists. reflexivity. Qed.

Lemma free_sub c a s b : free c (a ++ String s b) -> free c a.
Proof. intro H. apply free_app in H. apply H. Qed.

Lemma event_date_iff s d :
  (exists out, date_format s = Ok out /\ read_dmy (split "-" out) = Ok d) <-> civil d /\ event_text s d.
Proof.
  unfold date_format. set (sep := if str_in "-" s then "-"%char else " "%char).
  replace (if str_in "-" s then split "-" s else split " " s) with (split sep s) by (unfold sep; destruct (str_in "-" s); reflexivity).
  assert (Sp : (free "-" s -> sep = " "%char) /\ (~ free "-" s -> sep = "-"%char)).
  { unfold sep. destruct (str_in "-" s) eqn:E.
    - apply hyphen_in in E. split; [contradiction|reflexivity].
    - split; [reflexivity|]. intro N. apply hyphen_in in N. congruence. }
  assert (Key : forall a b c mn y more, split sep s = a :: b :: c :: more -> month_convert b = Ok mn ->
    let out := (a ++ String "-" (mn ++ String "-" (str_of_Z y)))%string in
    free "-" a /\ (0 <= y -> split "-" out = [a; mn; str_of_Z y]) /\ (y < 0 -> exists l, split "-" out = a :: mn :: ""%string :: l)).
  { intros a b c mn y more E M. cbv zeta. pose proof (month_free _ _ M) as Fm.
    assert (Fa : free "-" a).
    { apply split_inv in E as (Fa & E). unfold sep in Fa. destruct (str_in "-" s) eqn:Hh; [exact Fa|].
      assert (Fs : free "-" s). { intro X. assert (Y : ~ free "-" s) by (intro Z1; exact (Z1 X)). apply hyphen_in in Y. congruence. }
      destruct E as [[_ E]|(s' & E & _)]; [now rewrite <- E|]. rewrite E in Fs. eapply free_sub; exact Fs. }
    split; [exact Fa|].
    rewrite split_app, (split_free _ a Fa), split_app, (split_free _ mn Fm). split.
    - intro Y. rewrite (split_free _ _ (str_nonneg y Y)). reflexivity.
    - intro Y. destruct (str_neg y Y) as (t & ->). cbn [split]. rewrite Ascii.eqb_refl. eexists. reflexivity. }
  split.
  - intros (out & H & R). destruct (item _ 1) as [b|] eqn:B; [|discriminate]. cbn [bind] in H. destruct (month_convert b) as [mn|] eqn:M; [|discriminate]. cbn [bind] in H.
    destruct (item _ 2) as [c|] eqn:C; [|discriminate]. cbn [bind] in H. destruct (int_of c) as [y|] eqn:Y; [|discriminate]. cbn [bind] in H.
    destruct (item _ 0) as [a|] eqn:A; [|discriminate]. cbn [bind] in H. injection H as <-. apply item_ok in A, B, C. apply int_ok in Y.
    destruct (split sep s) as [|x0 [|x1 [|x2 l]]] eqn:E; try discriminate. cbn in A, B, C. injection A as ->. injection B as ->. injection C as ->.
    destruct (Key a b c mn (if y <? 50 then y + 2000 else y) l eq_refl M) as (Fa & K1 & K2).
    set (yy := if y <? 50 then y + 2000 else y) in *. destruct (Z.lt_ge_cases yy 0) as [N|N].
    + destruct (K2 N) as (l' & K). rewrite K in R. discriminate.
    + pose proof (K1 N) as K. rewrite K in R. unfold read_dmy, item in R. cbn [nth_error of_option bind] in R. unfold int_of at 1 in R. rewrite parse_str in R. cbn [of_option bind] in R.
      destruct (int_of mn) as [m|] eqn:Em; [|discriminate]. cbn [bind] in R. destruct (int_of a) as [dd|] eqn:Ed; [|discriminate]. cbn [bind] in R.
      apply make_iff in R as [-> Cv]. split; [exact Cv|]. exists sep, a, b, c, y. apply int_ok in Em, Ed. cbn [dt_year dt_month dt_day].
      split; [apply Sp|]. split; [apply Sp|]. split; [apply parts_iff; eauto|]. split; [exact Ed|]. split; [apply month_iff; eauto|]. split; [exact Y|].
      unfold yy. split; intro; destruct (Z.ltb_spec y 50); lia.
  - intros [Cv (sep' & a & b & c & y & S1 & S2 & P & A & B & C & Y1 & Y2)].
    assert (sep' = sep) as ->.
    { destruct (str_in "-" s) eqn:E.
      - apply hyphen_in in E. rewrite (S2 E). symmetry. now apply Sp.
      - assert (F : free "-" s). { intro X. assert (Z1 : ~ free "-" s) by (intro Z1; exact (Z1 X)). apply hyphen_in in Z1. congruence. }
        rewrite (S1 F). symmetry. now apply Sp. }
    apply parts_iff in P as (more & E). apply month_iff in B as (mn & M & B). rewrite E. unfold item at 1 2 3. cbn [nth_error of_option bind]. rewrite M. cbn [bind].
    apply int_ok in C. rewrite C. cbn [bind]. eexists. split; [reflexivity|].
    destruct (Key a b c mn (if y <? 50 then y + 2000 else y) more E M) as (_ & K1 & _).
    assert (Yd : (if y <? 50 then y + 2000 else y) = dt_year d) by (destruct (Z.ltb_spec y 50); lia).
    assert (Pos : 0 <= dt_year d) by (destruct Cv as [Cv _]; lia).
    rewrite Yd in *. change (a ++ "-" ++ mn ++ "-" ++ str_of_Z (dt_year d))%string with (a ++ String "-" (mn ++ String "-" (str_of_Z (dt_year d))))%string.
    rewrite (K1 Pos). unfold read_dmy, item. cbn [nth_error of_option bind]. unfold int_of. rewrite parse_str, B, A. cbn [of_option bind].
    apply make_iff. split; [now destruct d|exact Cv].
Qed.

Lemma event_day_iff e start n : (exists out, date_format (ev_date e) = Ok out /\ between_date out start = Ok n) <-> days_from_start e start n.
Proof.
  unfold between_date, days_from_start. split.
  - intros (out & F & H). destruct (read_dmy (split "-" out)) as [d|] eqn:D; [|discriminate]. cbn [bind] in H.
    destruct (read_dmy (split "-" start)) as [d0|] eqn:D0; [|discriminate]. cbn [bind] in H. injection H as <-.
    destruct (proj1 (event_date_iff (ev_date e) d) (ex_intro _ out (conj F D))) as [Cv T]. apply dmy_iff in D0 as [Cv0 T0].
    exists d, d0, (ordinal d - ordinal d0). repeat split; auto; try apply Cv; try apply Cv0. apply civil_iff in Cv, Cv0. apply apart_iff; tauto.
  - intros (d & d0 & k & Cv & T & Cv0 & T0 & A & ->). destruct (proj2 (event_date_iff (ev_date e) d) (conj Cv T)) as (out & F & D).
    exists out. split; [exact F|]. rewrite D. cbn [bind]. rewrite (proj2 (dmy_iff start d0) (conj Cv0 T0)). cbn [bind].
    apply civil_iff in Cv, Cv0. apply apart_iff in A; [|tauto|tauto]. now rewrite A.
Qed.
Lemma day_once e start n n' : days_from_start e start n -> days_from_start e start n' -> n = n'.
Proof. intros (out & F & H)%event_day_iff (out' & F' & H')%event_day_iff. congruence. Qed.

(** ** Rows *)

Notation adm := (fun r : Z * event => ev_admin1 (snd r)).
Definition nearer (a b : Z * event) : Prop := fst a <= fst b.

Lemma dd_sub : forall l seen r, In r (drop_duplicates seen l) -> In r l /\ ~ In (adm r) seen.
Proof.
  induction l as [|x l IH]; intros seen r H; cbn [drop_duplicates] in H; [destruct H|]. destruct (mem_str _ seen) eqn:E.
  - apply IH in H. cbn. tauto.
  - destruct H as [<-|H]; [split; [now left|]|].
    + intro X. apply mem_str_in in X. congruence.
    + apply IH in H as [A B]. split; [now right|]. cbn in B. tauto.
Qed.
Lemma dd_nodup : forall l seen, NoDup (map adm (drop_duplicates seen l)).
Proof.
  induction l as [|x l IH]; intro seen; cbn [drop_duplicates]; [constructor|]. destruct (mem_str _ seen) eqn:E; [apply IH|].
  cbn [map]. constructor; [|apply IH]. intro H. apply in_map_iff in H as (r & A & B). apply dd_sub in B as [_ B]. apply B. left. symmetry. exact A.
Qed.
Lemma dd_cover : forall l seen r, In r l -> ~ In (adm r) seen -> exists r', In r' (drop_duplicates seen l) /\ adm r' = adm r.
Proof.
  induction l as [|x l IH]; intros seen r H N; [destruct H|]. cbn [drop_duplicates]. destruct (mem_str _ seen) eqn:E.
  - destruct H as [->|H]; [apply mem_str_in in E; contradiction|auto].
  - destruct (String.string_dec (adm x) (adm r)) as [Q|Q]; [exists x; split; [now left|exact Q]|].
    destruct H as [->|H]; [contradiction|]. destruct (IH (adm x :: seen) r H) as (r' & A & B); [intros [X|X]; contradiction|].
    exists r'. split; [now right|exact B].
Qed.
Lemma dd_sorted : forall l seen, StronglySorted nearer l -> StronglySorted nearer (drop_duplicates seen l).
Proof.
  induction l as [|x l IH]; intros seen H; cbn [drop_duplicates]; [constructor|]. inversion H as [|? ? Hs Hf]; subst. destruct (mem_str _ seen); [auto|].
  constructor; [auto|]. rewrite Forall_forall in *. intros r Hr. apply dd_sub in Hr. apply Hf, Hr.
Qed.
Lemma dd_first : forall l seen r r', StronglySorted nearer l -> In r' (drop_duplicates seen l) -> In r l -> adm r = adm r' -> fst r' <= fst r.
Proof.
  induction l as [|x l IH]; intros seen r r' H Hr' Hr E; [destruct Hr|]. inversion H as [|? ? Hs Hf]; subst. rewrite Forall_forall in Hf.
  cbn [drop_duplicates] in Hr'. destruct (mem_str _ seen) eqn:M.
  - destruct Hr as [->|Hr]; [|eauto]. apply dd_sub in Hr' as [_ N]. apply mem_str_in in M. rewrite E in M. contradiction.
  - destruct Hr' as [->|Hr'].
    + destruct Hr as [->|Hr]; [lia|apply Hf, Hr].
    + destruct Hr as [->|Hr]; [|eauto]. apply dd_sub in Hr' as [_ N]. exfalso. apply N. left. exact E.
Qed.

Lemma unique_nodup : forall l seen, NoDup l -> (forall a, In a l -> ~ In a seen) -> unique seen l = l.
Proof.
  induction l as [|a l IH]; intros seen N H; cbn [unique]; [reflexivity|]. inversion N; subst. destruct (mem_str a seen) eqn:E.
  - apply mem_str_in in E. exfalso. apply (H a); [now left|exact E].
  - f_equal. apply IH; [assumption|]. intros b B [X|X]; [congruence|]. apply (H b); [now right|exact X].
Qed.
Lemma filter_one (df : list (Z * event)) : NoDup (map adm df) -> forall r, In r df -> filter (fun x => String.eqb (adm x) (adm r)) df = [r].
Proof.
  induction df as [|x df IH]; intros N r H; [destruct H|]. cbn [map] in N. inversion N as [|? ? N1 N2]; subst. cbn [filter].
  destruct H as [->|H].
  - rewrite String.eqb_refl. f_equal. clear - N1. induction df as [|y df IH]; [reflexivity|]. cbn [filter]. destruct (String.eqb_spec (adm y) (adm r)) as [E|E].
    + exfalso. apply N1. left. exact E.
    + apply IH. intro X. apply N1. now right.
  - destruct (String.eqb_spec (adm x) (adm r)) as [E|E]; [|auto]. exfalso. apply N1. rewrite E. apply in_map_iff. eauto.
Qed.
Lemma table_same df col level : NoDup (map adm df) ->
  filter_table df col level = if String.eqb level "admin1" then
    match df with [] => Ok [] | _ :: _ => if mem_str col columns_left then Ok df else Err KeyError end else Err AttributeError.
Proof.
  intro N. unfold filter_table. destruct (String.eqb level "admin1"); [|reflexivity]. rewrite (unique_nodup _ [] N) by (intros ? _ []).
  destruct (mem_str col columns_left) eqn:M.
  - assert (G : forall l acc, (forall r, In r l -> In r df) ->
      foldM (fun newdf admin => let tempdf := filter (fun r => String.eqb (adm r) admin) df in Ok (newdf ++ tail1 tempdf)) (map adm l) acc = Ok (acc ++ l)).
    { induction l as [|r l IH]; intros acc I; cbn [map foldM bind]; [now rewrite app_nil_r|]. cbv zeta. cbn [bind].
      rewrite (filter_one df N r) by (apply I; now left). unfold tail1. cbn [rev app]. rewrite IH by (intros; apply I; now right). now rewrite <- app_assoc. }
    etransitivity; [exact (G df [] (fun r H => H))|]. cbn [app]. now destruct df.
  - destruct df as [|r df]; [reflexivity|]. reflexivity.
Qed.

Lemma listed_iff pops name p : get_state_population pops name = Ok p <-> listed pops name p.
Proof.
  unfold get_state_population, listed. split.
  - induction pops as [|[a q] pops IH]; cbn [find]; [discriminate|]. cbn [fst]. destruct (String.eqb_spec a name) as [->|N].
    + intro H. injection H as <-. exists [], pops. split; [reflexivity|]. intros ? [].
    + intro H. destruct (IH H) as (x & y & -> & X). exists ((a, q) :: x), y. split; [reflexivity|]. intros q' [E|E]; [congruence|]. now apply (X q').
  - intros (x & y & -> & N). induction x as [|[a q] x IH]; cbn [app find fst].
    + now rewrite String.eqb_refl.
    + destruct (String.eqb_spec a name) as [->|E]; [exfalso; apply (N q); now left|]. apply IH. intros q' X. apply (N q'). now right.
Qed.

(** ** The whole conversion *)

Lemma F2_mapM {A B} (f : A -> res B) l r : Forall2 (fun x y => f x = Ok y) l r <-> mapM f l = Ok r.
Proof.
  split.
  - induction 1 as [|x y l r E _ IH]; cbn [mapM]; [reflexivity|]. rewrite E. cbn [bind]. rewrite IH. reflexivity.
  - revert r. induction l as [|x l IH]; intros r H; cbn [mapM] in H; [injection H as <-; constructor|].
    destruct (f x) as [y|] eqn:E; [|discriminate]. cbn [bind] in H. destruct (mapM f l) as [ys|] eqn:E2; [|discriminate]. cbn [bind] in H. injection H as <-.
    constructor; auto.
Qed.
Lemma dates_iff start : forall events ns,
  (exists fs, mapM (fun e => date_format (ev_date e)) events = Ok fs /\ mapM (fun d => between_date d start) fs = Ok ns) <->
  Forall2 (fun e n => days_from_start e start n) events ns.
Proof.
  intros events ns. split.
  - intros (fs & A & B). apply F2_mapM in A, B. revert ns B. induction A as [|e f events fs E _ IH]; intros ns B; inversion B; subst; constructor; auto.
    apply event_day_iff. eauto.
  - induction 1 as [|e n events ns E _ (fs & A & B)]; [exists []; split; reflexivity|]. apply event_day_iff in E as (f & E1 & E2).
    exists (f :: fs). cbn [mapM]. rewrite E1, A, E2, B. split; reflexivity.
Qed.

(** The deadly events with their days *)
Definition deadly (start : string) (events : list event) (df : list (Z * event)) : Prop :=
  forall n e, In (n, e) df <-> In e events /\ 0 < ev_fatalities e /\ days_from_start e start n.
Lemma deadly_rows start events ns : Forall2 (fun e n => days_from_start e start n) events ns -> deadly start events (drop_rows (combine ns events) 0).
Proof.
  intros F n e. unfold drop_rows. rewrite filter_In. cbn [snd]. split.
  - intros [I H]. assert (0 < ev_fatalities e) by (destruct (Z.leb_spec (ev_fatalities e) 0); [discriminate|lia]).
    assert (X : In e events /\ days_from_start e start n); [|tauto]. clear H H0. induction F as [|e' n' events ns E F IH]; [destruct I|].
    destruct I as [I|I]; [injection I as <- <-; split; [now left|exact E]|]. destruct (IH I). split; [now right|assumption].
  - intros (I & P & D). split; [|destruct (Z.leb_spec (ev_fatalities e) 0); [lia|reflexivity]]. clear P.
    induction F as [|e' n' events ns E F IH]; [destruct I|]. cbn [combine]. destruct I as [->|I]; [left; f_equal; eapply day_once; eauto|right; auto].
Qed.

Definition options : list string := ["earliest"; "conflict_date"; "country"; "admin1"; "latitude"; "longitude"; "fatalities"].
Lemma option_col opt : mem_str (if String.eqb opt "earliest" then "conflict_date" else opt) columns_left = true <-> In opt options.
Proof.
  destruct (String.eqb_spec opt "earliest") as [->|N].
  - split; [intros _; now left|reflexivity].
  - rewrite mem_str_in. unfold options, columns_left. cbn [In]. split; [tauto|]. intros [E|E]; [congruence|exact E].
Qed.

Definition row_of (p : (Z * event) * Z) : location_row :=
  let '((n, e), pop) := p in LocationRow (ev_admin1 e) (ev_admin1 e) (ev_country e) (ev_latitude e) (ev_longitude e) "conflict_zone" n pop.

Lemma acled_parts order events pops start opt level files files' :
  acled2locations order events pops start opt level files = Ok files' <->
  exists ns ps, Forall2 (fun e n => days_from_start e start n) events ns /\
    let df1 := drop_duplicates [] (order (drop_rows (combine ns events) 0)) in
    level = "admin1"%string /\ (df1 = [] \/ In opt options) /\
    Forall2 (fun r p => listed pops (adm r) p) df1 ps /\ saved files files' (map row_of (combine df1 ps)).
Proof.
  unfold acled2locations. cbv zeta. split.
  - intro H. destruct (mapM _ events) as [fs|] eqn:Ef; [|discriminate]. cbn [bind] in H. destruct (mapM _ fs) as [ns|] eqn:En; [|discriminate]. cbn [bind] in H.
    set (df1 := drop_duplicates [] _) in *. rewrite table_same in H by apply dd_nodup.
    destruct (String.eqb_spec level "admin1") as [->|]; [|discriminate].
    assert (G : (df1 = [] \/ In opt options) /\ match df1 with [] => Ok [] | _ :: _ =>
      if mem_str (if String.eqb opt "earliest" then "conflict_date" else opt)%string columns_left then Ok df1 else Err KeyError end = Ok df1).
    { destruct df1 as [|r df1]; [auto|]. destruct (mem_str _ columns_left) eqn:M; [|discriminate]. apply option_col in M. auto. }
    destruct G as [G1 G2]. rewrite G2 in H. cbn [bind] in H. destruct (mapM _ df1) as [ps|] eqn:Ep; [|discriminate]. cbn [bind] in H.
    exists ns, ps. split; [apply dates_iff; eauto|]. fold df1. split; [reflexivity|]. split; [exact G1|]. split.
    + apply F2_mapM in Ep. clearbody df1. clear - Ep. induction Ep; constructor; auto. now apply listed_iff.
    + unfold saved. fold row_of in H. destruct (f_locations files) as [t|] eqn:F1.
      * right. split; [discriminate|]. destruct (f_new files); [discriminate|]. injection H as <-. auto.
      * left. injection H as <-. auto.
  - intros (ns & ps & F & -> & O & P & Sv). apply dates_iff in F as (fs & -> & E). cbn [bind]. rewrite E. cbn [bind].
    set (df1 := drop_duplicates [] _) in *. rewrite table_same by apply dd_nodup. rewrite String.eqb_refl.
    assert (G : match df1 with [] => Ok [] | _ :: _ =>
      if mem_str (if String.eqb opt "earliest" then "conflict_date" else opt)%string columns_left then Ok df1 else Err KeyError end = Ok df1).
    { destruct df1 as [|r df1]; [reflexivity|]. destruct O as [O|O]; [discriminate|]. apply option_col in O. now rewrite O. }
    rewrite G. cbn [bind]. assert (Ep : mapM (fun r => get_state_population pops (adm r)) df1 = Ok ps).
    { apply F2_mapM. clearbody df1. clear - P. induction P; constructor; auto. now apply listed_iff. }
    rewrite Ep. cbn [bind]. fold row_of. destruct Sv as [[-> ->]|(N & -> & ->)]; [reflexivity|]. destruct (f_locations files); [reflexivity|congruence].
Qed.

Lemma rows_of_combine (df : list (Z * event)) ps pops : Forall2 (fun r p => listed pops (adm r) p) df ps ->
  map lr_name (map row_of (combine df ps)) = map adm df /\ map lr_conflict_date (map row_of (combine df ps)) = map fst df /\
  forall row, In row (map row_of (combine df ps)) -> exists n e p, In (n, e) df /\ listed pops (ev_admin1 e) p /\ row = row_of (n, e, p).
Proof.
  induction 1 as [|[n e] p df ps E _ (A & B & C)]; [repeat split; intros ? []|]. cbn [combine map]. split; [cbn; now f_equal|]. split; [cbn; now f_equal|].
  intros row [<-|H].
  - exists n, e, p. split; [now left|]. split; [exact E|reflexivity].
  - destruct (C row H) as (n' & e' & p' & X & Y). exists n', e', p'. split; [now right|exact Y].
Qed.
Lemma sorted_dates (rows : list location_row) df : map lr_conflict_date rows = map fst df -> StronglySorted nearer df ->
  StronglySorted (fun a b => lr_conflict_date a <= lr_conflict_date b) rows.
Proof.
  revert df. induction rows as [|r rows IH]; intros [|x df] E H; try discriminate; [constructor|]. cbn [map] in E. injection E as E1 E2. inversion H as [|? ? Hs Hf]; subst.
  constructor; [eauto|]. rewrite Forall_forall in *. intros r' Hr. apply (in_map lr_conflict_date) in Hr. rewrite E2 in Hr. apply in_map_iff in Hr as (y & Ey & Iy).
  rewrite E1, <- Ey. apply Hf, Iy.
Qed.

Theorem acled_rows order events pops start opt level files files' : sorts order ->
  acled2locations order events pops start opt level files = Ok files' ->
  exists rows, saved files files' rows /\ NoDup (map lr_name rows) /\
    (forall row, In row rows -> made_from events start pops row) /\
    (forall e, In e events -> 0 < ev_fatalities e -> In (ev_admin1 e) (map lr_name rows)) /\
    StronglySorted (fun a b => lr_conflict_date a <= lr_conflict_date b) rows.
Proof.
  intros So H. apply acled_parts in H as (ns & ps & F & _ & _ & P & Sv). pose proof (deadly_rows _ _ _ F) as D.
  set (df := drop_rows (combine ns events) 0) in *. destruct (So df) as [Pm Ss]. eexists. split; [exact Sv|].
  destruct (rows_of_combine _ _ _ P) as (N1 & N2 & N3). split; [rewrite N1; apply dd_nodup|]. split; [|split].
  - intros row Hr. destruct (N3 row Hr) as (n & e & p & I & L & ->). pose proof (dd_sub _ _ _ I) as [Io _]. apply (Permutation_in _ Pm) in Io. apply D in Io as (Ie & Fe & De).
    exists e, n, p. repeat split; auto. intros e' n' Ie' Fe' Ee' De'.
    assert (X : In (n', e') (order df)). { apply (Permutation_in _ (Permutation_sym Pm)). apply D. auto. }
    exact (dd_first _ _ (n', e') (n, e) Ss I X Ee').
  - intros e Ie Fe. rewrite N1. assert (Dn : exists n, days_from_start e start n).
    { clear - F Ie. induction F as [|e' n' events ns E F IH]; [destruct Ie|]. destruct Ie as [->|Ie]; eauto. }
    destruct Dn as (n & De). assert (X : In (n, e) (order df)). { apply (Permutation_in _ (Permutation_sym Pm)). apply D. auto. }
    destruct (dd_cover _ [] (n, e) X) as (r' & I & E); [intros []|]. apply in_map_iff. exists r'. auto.
  - eapply sorted_dates; [exact N2|]. apply dd_sorted, Ss.
Qed.

Theorem acled_success order events pops start opt level files : sorts order ->
  ((exists files', acled2locations order events pops start opt level files = Ok files') <->
   (forall e, In e events -> exists n, days_from_start e start n) /\ level = "admin1"%string /\
   (In opt ["earliest"; "conflict_date"; "country"; "admin1"; "latitude"; "longitude"; "fatalities"]%string \/ (forall e, In e events -> ev_fatalities e <= 0)) /\
   (forall e, In e events -> 0 < ev_fatalities e -> exists p, listed pops (ev_admin1 e) p) /\
   (f_locations files = None \/ f_new files = None)).
Proof.
  intro So. split.
  - intros (files' & H). pose proof (acled_rows _ _ _ _ _ _ _ _ So H) as (rows & Sv & _ & Mf & Cov & _).
    apply acled_parts in H as (ns & ps & F & L & O & P & _). split.
    { intros e Ie. clear - F Ie. induction F as [|e' n' events ns E F IH]; [destruct Ie|]. destruct Ie as [->|Ie]; eauto. }
    split; [exact L|]. split; [|split].
    + destruct O as [O|O]; [|now left]. right. intros e Ie. destruct (Z.le_gt_cases (ev_fatalities e) 0) as [A|A]; [exact A|]. exfalso.
      pose proof (deadly_rows _ _ _ F) as D. set (df := drop_rows (combine ns events) 0) in *.
      assert (Dn : exists n, days_from_start e start n).
      { clear - F Ie. induction F as [|e' n' events ns E F IH]; [destruct Ie|]. destruct Ie as [->|Ie]; eauto. }
      destruct Dn as (n & De). assert (X : In (n, e) (order df)). { apply (Permutation_in _ (Permutation_sym (proj1 (So df)))). apply D. repeat split; auto; lia. }
      destruct (dd_cover _ [] (n, e) X) as (r' & I & E); [intros []|]. rewrite O in I. destruct I.
    + intros e Ie Fe. pose proof (Cov e Ie Fe) as X. apply in_map_iff in X as (row & En & Ir). destruct (Mf row Ir) as (e0 & n0 & p0 & _ & _ & _ & Lp & -> & _).
      cbn [lr_name] in En. rewrite En in Lp. eauto.
    + destruct Sv as [[A _]|(_ & A & _)]; auto.
  - intros (R & -> & O & Pp & Fl).
    assert (F : exists ns, Forall2 (fun e n => days_from_start e start n) events ns).
    { clear - R. induction events as [|e events IH]; [exists []; constructor|]. destruct (R e (or_introl eq_refl)) as (n & D).
      destruct IH as (ns & F); [intros; apply R; now right|]. exists (n :: ns). constructor; auto. }
    destruct F as (ns & F). pose proof (deadly_rows _ _ _ F) as D. set (df := drop_rows (combine ns events) 0) in *.
    set (df1 := drop_duplicates [] (order df)).
    assert (In1 : forall n e, In (n, e) df1 -> In e events /\ 0 < ev_fatalities e).
    { intros n e I. apply dd_sub in I as [I _]. apply (Permutation_in _ (proj1 (So df))) in I. apply D in I. tauto. }
    assert (P : exists ps, Forall2 (fun r p => listed pops (adm r) p) df1 ps).
    { clearbody df1. clear - In1 Pp. induction df1 as [|[n e] df1 IH]; [exists []; constructor|]. destruct (In1 n e (or_introl eq_refl)) as [A B].
      destruct (Pp e A B) as (p & L). destruct IH as (ps & P); [intros; eapply In1; right; eauto|]. exists (p :: ps). constructor; auto. }
    destruct P as (ps & P).
    assert (Sv : exists files', saved files files' (map row_of (combine df1 ps))).
    { unfold saved. destruct (f_locations files) as [t|] eqn:E; [|eexists; left; eauto]. destruct Fl as [Fl|Fl]; [discriminate|]. eexists. right. split; [discriminate|]. eauto. }
    destruct Sv as (files' & Sv). exists files'. apply acled_parts. exists ns, ps. split; [exact F|]. fold df df1. split; [reflexivity|]. split; [|auto].
    destruct O as [O|O]; [now right|]. left. clearbody df1. destruct df1 as [|[n e] df1]; [reflexivity|]. destruct (In1 n e (or_introl eq_refl)) as [A B]. specialize (O e A). lia.
Qed.

Theorem acled_options order events pops start opt opt' level files : sorts order ->
  In opt ["earliest"; "conflict_date"; "country"; "admin1"; "latitude"; "longitude"; "fatalities"]%string ->
  In opt' ["earliest"; "conflict_date"; "country"; "admin1"; "latitude"; "longitude"; "fatalities"]%string ->
  forall files', acled2locations order events pops start opt level files = Ok files' <-> acled2locations order events pops start opt' level files = Ok files'.
Proof.
  intros So O O' files'. rewrite !acled_parts. cbv zeta. split; intros (ns & ps & A & B & _ & C); exists ns, ps; (split; [exact A|]; split; [exact B|]; split; [right; assumption|exact C]).
Qed.

Theorem acled_level order events pops start opt level files : level <> "admin1"%string ->
  forall files', acled2locations order events pops start opt level files <> Ok files'.
Proof. intros N files' H. apply acled_parts in H as (ns & ps & _ & L & _). contradiction. Qed.
