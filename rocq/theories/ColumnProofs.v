(** * ColumnProofs: lemmas for C75 and C76 *)

From Coq Require Import Lia.
From Verif Require Import Base State Moving Crawling Flee InputGeography Api Lemmas Schedule SpecColumns SpecNetwork.
Local Open Scope string_scope.
Local Open Scope list_scope.

Lemma get_set_c {A} k k' (v : A) d : dict_get k (dict_set k' v d) = if String.eqb k k' then Some v else dict_get k d.
Proof.
  induction d as [|[x w] d IH]; cbn [dict_get dict_set].
  - destruct (String.eqb_spec k k'); reflexivity.
  - destruct (String.eqb_spec k' x) as [->|N]; cbn [dict_get].
    + destruct (String.eqb_spec k x); reflexivity.
    + rewrite IH. destruct (String.eqb_spec k x) as [->|M]; [|reflexivity].
      destruct (String.eqb_spec x k'); [congruence|reflexivity].
Qed.
Lemma set_keys_same {A} k (v w : A) d : dict_get k d = Some w -> map fst (dict_set k v d) = map fst d.
Proof.
  induction d as [|[x y] d IH]; intro H; cbn [dict_get dict_set] in *; [discriminate|].
  destruct (String.eqb_spec k x); cbn [map fst]; [reflexivity|]. now rewrite IH.
Qed.
Lemma get_in {A} (d : list (string * A)) n v : NoDup (map fst d) -> (In (n, v) d <-> dict_get n d = Some v).
Proof.
  induction d as [|[k w] d IH]; intro N; cbn [dict_get In]; [split; [easy|discriminate]|].
  inversion N as [|? ? N1 N2]; subst. specialize (IH N2). destruct (String.eqb_spec n k) as [->|M].
  - split; [intros [E|H]|intro E; left; congruence]; [congruence|].
    exfalso. apply N1. apply (in_map fst) in H. exact H.
  - rewrite <- IH. split; [intros [E|H]; [congruence|exact H]|now right].
Qed.
Lemma get_key {A} (d : list (string * A)) n : In n (map fst d) <-> exists v, dict_get n d = Some v.
Proof.
  induction d as [|[k w] d IH]; cbn [dict_get map fst In]; [split; [easy|intros [v H]; discriminate]|].
  destruct (String.eqb_spec n k) as [->|M]; [split; eauto|]. rewrite <- IH. split; [intros [E|H]; [congruence|exact H]|now right].
Qed.

Section Columns.
Context {A : Type} (parse : string -> res A) (value : string -> A -> Prop).
Hypothesis parse_ok : forall s v, parse s = Ok v <-> value s v.

(** The cells of one row *)
Definition listed_in (h : list string) (cs : row) (name : string) (vs : list A) : Prop :=
  Forall2 (fun nc v => value (strip (sval (snd nc))) v)
    (filter (fun nc => String.eqb (fst nc) name) (combine (map strip h) cs)) vs.

Lemma append_ok : forall cs h d d', append_cells parse h cs d = Ok d' ->
  map fst d' = map fst d /\
  (forall i c, nth_error cs i = Some c -> exists n v, nth_error (map strip h) i = Some n /\ In n (map fst d) /\ value (strip (sval c)) v) /\
  (forall n old, dict_get n d = Some old -> exists vs, listed_in h cs n vs /\ dict_get n d' = Some (old ++ vs)).
Proof.
  induction cs as [|c cs IH]; intros h d d' H; cbn [append_cells] in H.
  - assert (d = d') as <- by (destruct h; now injection H). split; [reflexivity|]. split; [intros [|i] c; discriminate|].
    intros n old G. exists []. rewrite app_nil_r. split; [|exact G]. unfold listed_in. destruct (map strip h); constructor.
  - destruct h as [|n0 h]; [discriminate|]. cbn [append_cells] in H. destruct (dict_get (strip n0) d) as [old0|] eqn:Ho; [|discriminate H]. cbn [of_option bind] in H.
    destruct (parse (strip (sval c))) as [v0|x] eqn:Ev; [|discriminate H]. cbn [bind] in H.
    apply parse_ok in Ev.
    destruct (IH h _ d' H) as (K & F & G). rewrite (set_keys_same _ _ _ _ Ho) in K. split; [exact K|]. split.
    + intros [|i] c' Hc; cbn [nth_error] in Hc.
      * injection Hc as <-. exists (strip n0), v0. split; [reflexivity|]. split; [apply get_key; eauto|exact Ev].
      * destruct (F i c' Hc) as (n & v & X & Y & Z0). exists n, v. rewrite (set_keys_same _ _ _ _ Ho) in Y. auto.
    + intros n old Gn. unfold listed_in. cbn [map combine filter fst].
      destruct (G n (if String.eqb n (strip n0) then old0 ++ [v0] else old)) as (vs & L & D).
      { rewrite get_set_c. destruct (String.eqb n (strip n0)); [reflexivity|exact Gn]. }
      rewrite String.eqb_sym. destruct (String.eqb_spec n (strip n0)) as [->|N].
      * rewrite Ho in Gn. injection Gn as <-. exists (v0 :: vs). split; [constructor; [exact Ev|exact L]|].
        rewrite D, <- app_assoc. reflexivity.
      * exists vs. auto.
Qed.

Lemma append_succeeds : forall cs h (d : list (string * list A)),
  (forall i c, nth_error cs i = Some c -> exists n v, nth_error (map strip h) i = Some n /\ In n (map fst d) /\ value (strip (sval c)) v) ->
  exists d', append_cells parse h cs d = Ok d'.
Proof.
  induction cs as [|c cs IH]; intros h d F; cbn [append_cells]; [destruct h; cbn [append_cells]; eauto|].
  destruct (F 0%nat c eq_refl) as (n & v & X & Y & V). destruct h as [|n0 h]; [discriminate|]. injection X as X. subst n. cbn [append_cells].
  apply get_key in Y. destruct Y as [old Y]. rewrite Y. cbn [of_option bind]. apply parse_ok in V. rewrite V. cbn [bind].
  apply IH. intros i c' Hc. destruct (F (Datatypes.S i) c' Hc) as (n & w & P & Q0 & R). exists n, w.
  rewrite (set_keys_same _ _ _ _ Y). auto.
Qed.

Lemma init_keys (hs : list string) (d : list (string * list A)) :
  let d' := fold_left (fun d h => if empty_cell (strip h) then d else dict_set (strip h) [] d) hs d in
  (forall n, In n (map fst d') <-> In n (map fst d) \/ In n (map strip hs) /\ n <> "") /\
  ((forall n v, dict_get n d = Some v -> v = []) -> forall n v, dict_get n d' = Some v -> v = []).
Proof.
  revert d. induction hs as [|h hs IH]; intro d; cbn [fold_left map In]; [split; [intuition|auto]|].
  assert (E : empty_cell (strip h) = true <-> strip h = "") by (unfold empty_cell; destruct (strip h); split; easy).
  destruct (empty_cell (strip h)) eqn:Ee.
  - apply proj1 in E. specialize (E eq_refl). destruct (IH d) as [K V]. split; [|exact V]. intro n. rewrite K. intuition congruence.
  - assert (N : strip h <> "") by (intro X; apply (proj2 E) in X; discriminate).
    destruct (IH (dict_set (strip h) [] d)) as [K V]. split.
    + intro n. rewrite K, dict_set_keys. intuition congruence.
    + intro E0. apply V. intros n v. rewrite get_set_c. destruct (String.eqb n (strip h)); [congruence|apply E0].
Qed.

Lemma names_map heading : column_names heading = map strip (tl (map sval heading)).
Proof. unfold column_names. destruct heading; [reflexivity|]. cbn [tl map]. now rewrite map_map. Qed.

Lemma rows_ok heading : forall data d d',
  foldM (fun d r => append_cells parse (tl (map sval heading)) (tl r) d) data d = Ok d' ->
  map fst d' = map fst d /\
  (forall r, In r data -> forall i c, nth_error (tl r) i = Some c ->
     exists n v, nth_error (column_names heading) i = Some n /\ In n (map fst d) /\ value (strip (sval c)) v) /\
  (forall n old, dict_get n d = Some old ->
     exists vss, Forall2 (row_lists value heading n) data vss /\ dict_get n d' = Some (old ++ List.concat vss)).
Proof.
  induction data as [|r data IH]; intros d d' H; cbn [foldM] in H.
  - injection H as <-. split; [reflexivity|]. split; [easy|]. intros n old G. exists []. cbn [List.concat]. rewrite app_nil_r. auto.
  - rstep H. destruct (append_ok _ _ _ _ E) as (K & F & G). destruct (IH _ _ H) as (K' & F' & G'). split; [congruence|]. split.
    + intros r' [<-|Hr] i c Hc; [|rewrite <- K; eauto]. rewrite names_map. eauto.
    + intros n old Gn. destruct (G n old Gn) as (vs & L & D). destruct (G' n _ D) as (vss & L' & D').
      exists (vs :: vss). split; [constructor; [|exact L']|cbn [List.concat]; now rewrite D', app_assoc].
      unfold row_lists. rewrite names_map. exact L.
Qed.

Lemma columns_read heading data d : read_columns parse (heading :: data) = Ok d -> tabulated value heading data d.
Proof.
  intro H. pose proof (read_nodup _ _ _ H) as N. unfold read_columns in H. unfold init_columns in H.
  destruct (rows_ok _ _ _ _ H) as (K & _ & G). destruct (init_keys (tl (map sval heading)) []) as [Ik Iv].
  split; [exact N|]. split.
  - intro n. rewrite K, Ik, names_map. cbn [map In]. intuition.
  - intros n vals Hin. assert (X : In n (map fst d)) by (apply (in_map fst) in Hin; exact Hin).
    rewrite K in X. apply get_key in X. destruct X as [old X].
    assert (old = []) by (eapply Iv; [discriminate|exact X]). subst old.
    destruct (G n [] X) as (vss & L & D). exists vss. split; [exact L|]. apply get_in in Hin; [|exact N]. rewrite D in Hin. now injection Hin as <-.
Qed.

Lemma columns_success heading data :
  (exists d, read_columns parse (heading :: data) = Ok d) <-> Forall (readable value heading) data.
Proof.
  unfold read_columns, init_columns. destruct (init_keys (tl (map sval heading)) []) as [Ik _].
  set (d0 := fold_left _ (tl (map sval heading)) []) in *. clearbody d0. rewrite <- names_map in Ik. split.
  - intros [d H]. apply Forall_forall. intros r Hr i c Hc. destruct (rows_ok _ _ _ _ H) as (_ & F & _).
    destruct (F r Hr i c Hc) as (n & v & X & Y & Z0). apply Ik in Y. destruct Y as [[]|[_ Y]]. eauto.
  - intro F.
    assert (F' : Forall (fun r => forall i c, nth_error (tl r) i = Some c ->
       exists n v, nth_error (map strip (tl (map sval heading))) i = Some n /\ In n (map fst d0) /\ value (strip (sval c)) v) data).
    { eapply Forall_impl; [|exact F]. intros r R i c Hc. destruct (R i c Hc) as (n & v & X & Y & Z0).
      exists n, v. rewrite <- names_map. split; [exact X|]. split; [|exact Z0]. apply Ik. right. split; [eapply nth_error_In; eauto|exact Y]. }
    clear F Ik. revert d0 F'. induction data as [|r data IH]; intros d0 F; cbn [foldM]; [eauto|].
    inversion F as [|? ? F1 F2]; subst. destruct (append_succeeds _ _ _ F1) as [d1 E]. rewrite E. cbn [bind].
    destruct (append_ok _ _ _ _ E) as (K & _). apply IH. eapply Forall_impl; [|exact F2]. cbn beta. intros r' R i c Hc.
    rewrite K. eauto.
Qed.

Lemma columns_day heading data d t r i c n :
  read_columns parse (heading :: data) = Ok d -> NoDup (column_names heading) ->
  (forall r, In r data -> List.length r = List.length heading) ->
  nth_error data t = Some r -> nth_error (tl r) i = Some c -> nth_error (column_names heading) i = Some n ->
  exists vals v, In (n, vals) d /\ nth_error vals t = Some v /\ value (strip (sval c)) v.
Proof.
  intros H U Ln Ht Hc Hn. pose proof (columns_read _ _ _ H) as (N & K & V).
  assert (R : Forall (readable value heading) data) by (apply columns_success; eauto).
  assert (Hin : In n (map fst d)).
  { apply K. split; [eapply nth_error_In; eauto|]. rewrite Forall_forall in R.
    destruct (R r (nth_error_In _ _ Ht) i c Hc) as (m & v & X & Y & _). congruence. }
  apply in_map_iff in Hin. destruct Hin as ([n' vals] & <- & Hin). cbn [fst] in *. exists vals.
  destruct (V _ _ Hin) as (vss & F & ->).
  (* every row lists one value *)
  assert (One : forall r vs, List.length r = List.length heading -> row_lists value heading n' r vs ->
            exists c v, nth_error (tl r) i = Some c /\ vs = [v] /\ value (strip (sval c)) v).
  { intros r0 vs L0. unfold row_lists.
    assert (L1 : List.length (tl r0) = List.length (column_names heading)).
    { unfold column_names. rewrite map_length. destruct r0, heading; cbn in *; try discriminate; [reflexivity|now injection L0]. }
    revert L1 U Hn. generalize (column_names heading) as ns. generalize (tl r0) as cs. clear. intros cs ns. revert cs i vs.
    induction ns as [|m ns IH]; intros cs i vs L U Hn F; [destruct i; discriminate|].
    destruct cs as [|c cs]; [discriminate|]. injection L as L. inversion U as [|? ? U1 U2]; subst. cbn [combine filter fst] in F.
    destruct i as [|i]; cbn [nth_error] in Hn.
    - injection Hn as ->. rewrite String.eqb_refl in F.
      assert (E : filter (fun nc : string * pystr => String.eqb (fst nc) n') (combine ns cs) = []).
      { clear - U1. revert cs. induction ns as [|m ns IH]; intros cs; [reflexivity|]. destruct cs as [|c cs]; [reflexivity|].
        cbn [combine filter fst]. destruct (String.eqb_spec m n') as [->|_]; [exfalso; apply U1; now left|]. apply IH.
        intro X. apply U1. now right. }
      rewrite E in F. inversion F as [|? ? ? ? V1 V2]; subst. inversion V2; subst. exists c, y. auto.
    - destruct (String.eqb_spec m n') as [->|M]; [exfalso; apply U1; eapply nth_error_In; eauto|]. cbn [nth_error]. exact (IH cs i vs L U2 Hn F). }
  enough (X : exists v, nth_error (List.concat vss) t = Some v /\ value (strip (sval c)) v) by (destruct X as (v & X & Y); eauto).
  clear V Hin R H Hn U K N. revert data vss F Ln Ht.
  induction t as [|t IH]; intros [|r0 data] vss F Ln Ht; cbn [nth_error] in Ht; try discriminate; inversion F as [|? vs ? vss' F1 F2]; subst;
    destruct (One r0 vs (Ln r0 (or_introl eq_refl)) F1) as (c0 & v & X & -> & Y).
  - injection Ht as ->. exists v. cbn [List.concat app nth_error]. split; [reflexivity|congruence].
  - cbn [List.concat app nth_error]. eapply IH; [exact F2| |exact Ht]. intros r1 Hr. apply Ln. now right.
Qed.

Lemma columns_first heading data data' : map (@tl pystr) data = map (@tl pystr) data' ->
  read_columns parse (heading :: data) = read_columns parse (heading :: data').
Proof.
  unfold read_columns. generalize (init_columns (A := A) (map sval heading)) as d. revert data'.
  induction data as [|r data IH]; intros [|r' data'] d E; try discriminate; [reflexivity|].
  cbn [map] in E. injection E as E1 E2. cbn [foldM]. rewrite E1. destruct (append_cells _ _ _ d); [|reflexivity]. cbn [bind]. now apply IH.
Qed.
End Columns.

Lemma decimal_ok s v : of_option ValueError (parse_Q s) = Ok v <-> decimal s v.
Proof. unfold decimal. destruct (parse_Q s); cbn; split; congruence. Qed.
Lemma integer_ok s v : of_option ValueError (parse_Z s) = Ok v <-> integer s v.
Proof. unfold integer. destruct (parse_Z s); cbn; split; congruence. Qed.

Lemma conflicts_columns heading data : 
  (forall d, read_conflicts (heading :: data) = Ok d -> tabulated decimal heading data d) /\
  ((exists d, read_conflicts (heading :: data) = Ok d) <-> Forall (readable decimal heading) data).
Proof. split; [intro d; now apply columns_read; apply decimal_ok|]. apply columns_success, decimal_ok. Qed.
Lemma attribute_columns heading data : 
  (forall d, read_attribute (heading :: data) = Ok d -> tabulated integer heading data d) /\
  ((exists d, read_attribute (heading :: data) = Ok d) <-> Forall (readable integer heading) data).
Proof. split; [intro d; now apply columns_read; apply integer_ok|]. apply columns_success, integer_ok. Qed.
Lemma conflicts_day heading data d t r i c n :
  read_conflicts (heading :: data) = Ok d -> NoDup (column_names heading) ->
  (forall r, In r data -> List.length r = List.length heading) ->
  nth_error data t = Some r -> nth_error (tl r) i = Some c -> nth_error (column_names heading) i = Some n ->
  exists vals v, In (n, vals) d /\ nth_error vals t = Some v /\ decimal (strip (sval c)) v.
Proof. apply columns_day, decimal_ok. Qed.
Lemma conflicts_first heading data data' : map (@tl pystr) data = map (@tl pystr) data' ->
  read_conflicts (heading :: data) = read_conflicts (heading :: data').
Proof. apply columns_first. Qed.

(** ** Rows that are skipped *)

Lemma is_comment_cases r : (starts_empty r /\ is_comment r = Err IndexError) \/ (~ starts_empty r /\ is_comment r = Ok (skipped r)).
Proof.
  destruct r as [|c r]; [right; split; [intros (? & ? & X & _); discriminate|reflexivity]|].
  unfold is_comment, skipped. destruct (sval c) as [|a s] eqn:E.
  - left. split; [exists c, r; auto|reflexivity].
  - right. split; [intros (? & ? & X & Y); injection X as <- <-; congruence|]. cbn [String.prefix].
    destruct (Ascii.ascii_dec "#" a) as [<-|N]; [now rewrite Ascii.eqb_refl; destruct s|].
    destruct (Ascii.eqb_spec a "#"); [congruence|reflexivity].
Qed.

Lemma plain_rows rows : forall acc out,
  foldM (fun acc r => c <- is_comment r ;; if c : bool then Ok acc else Ok (acc ++ [r])) rows acc = Ok out <->
  (out = acc ++ filter (fun r => negb (skipped r)) rows /\ forall r, In r rows -> ~ starts_empty r).
Proof.
  induction rows as [|r rows IH]; intros acc out; cbn [foldM filter].
  - rewrite app_nil_r. split; [intro H; injection H as <-; easy|intros [-> _]; reflexivity].
  - destruct (is_comment_cases r) as [[X E]|[X E]]; rewrite E; cbn [bind].
    + split; [discriminate|]. intros [_ H]. exfalso. apply (H r); [now left|exact X].
    + destruct (skipped r); cbn [negb bind]; rewrite IH; [|rewrite <- app_assoc; cbn [app]];
        (split; intros [-> H]; (split; [reflexivity|]); [intros r' [<-|Hr]; auto|intros r' Hr; apply H; now right]).
Qed.
Lemma read_plain_iff rows out : read_plain rows = Ok out <->
  out = filter (fun r => negb (skipped r)) rows /\ forall r, In r rows -> ~ starts_empty r.
Proof. apply plain_rows. Qed.

Lemma major_rows rows : forall acc out,
  foldM (fun acc r => _ <- is_comment r ;; Ok (acc ++ [r])) rows acc = Ok out <->
  (out = acc ++ rows /\ forall r, In r rows -> ~ starts_empty r).
Proof.
  induction rows as [|r rows IH]; intros acc out; cbn [foldM].
  - rewrite app_nil_r. split; [intro H; injection H as <-; easy|intros [-> _]; reflexivity].
  - destruct (is_comment_cases r) as [[X E]|[X E]]; rewrite E; cbn [bind].
    + split; [discriminate|]. intros [_ H]. exfalso. apply (H r); [now left|exact X].
    + rewrite IH, <- app_assoc; cbn [app].
      (split; intros [-> H]; (split; [reflexivity|]); [intros r' [<-|Hr]; auto|intros r' Hr; apply H; now right]).
Qed.
Lemma read_major_iff rows out : read_major_links rows = Ok out <-> out = rows /\ forall r, In r rows -> ~ starts_empty r.
Proof. apply major_rows. Qed.

Lemma mapM_in {A B} (f : A -> res B) : forall l bs a, mapM f l = Ok bs -> In a l -> exists b, f a = Ok b.
Proof.
  induction l as [|x l IH]; intros bs a H Hin; [easy|]. cbn [mapM] in H. rstep H. rstep H. destruct Hin as [<-|Hin]; eauto.
Qed.
Lemma major_blank S o factor ig changes e g : In [] (ig_major_routes ig) ->
  forall e' g' ig', store_input S o factor ig changes e g <> Ok (e', g', ig').
Proof.
  intros Hb e' g' ig' H. unfold store_input in H. destruct (ig_locations ig) as [|first rest]; [discriminate|].
  rstep H. rstep H. cbn [foldM] in H. rstep H. cbn [foldM] in E1. rstep E1. clear - Hb E2. unfold store_location in E2.
  repeat rstep E2.
  match goal with H : mapM _ _ = Ok _ |- _ => destruct (mapM_in _ _ _ _ H Hb) as [rs X]; discriminate end.
Qed.

(** ** Numbers have no letters. *)

Definition occurs (a : Ascii.ascii) (s : string) : Prop := In a (list_ascii_of_string s).

Lemma occurs_rev a : forall s acc, occurs a (string_rev s acc) <-> occurs a s \/ occurs a acc.
Proof. induction s as [|b s IH]; intro acc; cbn [string_rev]; [cbv [occurs]; cbn; intuition|]. rewrite IH. cbv [occurs]. cbn. intuition. Qed.
Lemma occurs_lstrip a s : occurs a s -> is_space a = true \/ occurs a (lstrip s).
Proof.
  induction s as [|b s IH]; intro H; [destruct H|]. cbn [lstrip]. destruct (is_space b) eqn:E; [|now right].
  destruct H as [<-|H]; [now left|auto].
Qed.
Lemma occurs_strip a s : occurs a s -> is_space a = true \/ occurs a (strip s).
Proof.
  intro H. unfold strip. destruct (occurs_lstrip _ _ H) as [X|X]; [now left|].
  assert (Y : occurs a (string_rev (lstrip s) "")) by (apply occurs_rev; now left).
  destruct (occurs_lstrip _ _ Y) as [Z0|Z0]; [now left|right]. apply occurs_rev. now left.
Qed.
Lemma occurs_digits a : forall s acc k v k' r, take_digits s acc k = (v, k', r) -> occurs a s -> digit_of a <> None \/ occurs a r.
Proof.
  induction s as [|b s IH]; intros acc k v k' r H O; [destruct O|]. cbn [take_digits] in H. destruct (digit_of b) eqn:D.
  - destruct O as [<-|O]; [left; congruence|]. eapply IH; eauto.
  - injection H as <- <- <-. now right.
Qed.
Lemma occurs_udec a s q : parse_udec s = Some q -> occurs a s -> digit_of a <> None \/ a = "."%char.
Proof.
  unfold parse_udec. destruct (take_digits s 0 0) as [[ip k1] r1] eqn:E1. intros H O.
  destruct (occurs_digits _ _ _ _ _ _ _ E1 O) as [D|D]; [now left|]. destruct r1 as [|b r2]; [destruct D|].
  destruct D as [<-|D].
  - right. destruct (Ascii.ascii_dec b "."%char) as [->|N]; [reflexivity|]. exfalso.
    destruct b as [[] [] [] [] [] [] [] []]; try discriminate H. now apply N.
  - assert (b = "."%char) as ->.
    { destruct (Ascii.ascii_dec b "."%char) as [->|N]; [reflexivity|]. exfalso.
      destruct b as [[] [] [] [] [] [] [] []]; try discriminate H. now apply N. }
    destruct (take_digits r2 ip 0) as [[v k2] r3] eqn:E2. destruct (occurs_digits _ _ _ _ _ _ _ E2 D) as [X|X]; [now left|].
    destruct r3; [destruct X|discriminate].
Qed.
Lemma occurs_Q a s q : parse_Q s = Some q -> occurs a s ->
  is_space a = true \/ digit_of a <> None \/ In a ["."; "-"; "+"]%char.
Proof.
  unfold parse_Q. intros H O. destruct (occurs_strip _ _ O) as [X|X]; [now left|right].
  assert (G : forall t q', parse_udec t = Some q' -> occurs a t -> digit_of a <> None \/ In a ["."; "-"; "+"]%char).
  { intros t q' P T. destruct (occurs_udec _ _ _ P T) as [Y| ->]; [now left|right; now left]. }
  destruct (strip s) as [|b t] eqn:Es; [destruct X|].
  destruct (Ascii.ascii_dec b "-"%char) as [->|N1].
  { destruct (parse_udec t) eqn:P; [|discriminate]. destruct X as [<-|X]; [right; right; now left|eauto]. }
  destruct (Ascii.ascii_dec b "+"%char) as [->|N2].
  { destruct X as [<-|X]; [right; right; right; now left|eauto]. }
  apply (G (String b t) q); [|exact X].
  destruct b as [[] [] [] [] [] [] [] []]; try exact H; exfalso; [now apply N2|now apply N1].
Qed.
Lemma sub_occurs a : forall s n m r, String.substring n m s = String a r -> occurs a s.
Proof.
  induction s as [|b s IH]; intros n m r H; [destruct n, m; discriminate|]. destruct n as [|n].
  - destruct m as [|m]; [discriminate|]. cbn in H. injection H as <- _. now left.
  - right. cbn in H. eapply IH; eauto.
Qed.
Lemma occurs_lower a s : occurs a (lower s) -> exists b, occurs b s /\ a = lower_ascii b.
Proof.
  induction s as [|b s IH]; intro H; [destruct H|]. destruct H as [<-|H]; [exists b; split; [now left|reflexivity]|].
  destruct (IH H) as (b' & X & Y). exists b'. split; [now right|exact Y].
Qed.
Lemma number_no_conflict s q : parse_Q s = Some q -> str_in "conflict" (lower s) = false.
Proof.
  intro P. unfold str_in. destruct (String.index 0 "conflict" (lower s)) as [n|] eqn:E; [|reflexivity]. exfalso.
  apply String.index_correct1 in E. apply sub_occurs, occurs_lower in E. destruct E as (b & O & L).
  destruct (occurs_Q _ _ _ P O) as [X|[X|X]].
  - destruct b as [[] [] [] [] [] [] [] []]; try discriminate L; discriminate X.
  - destruct b as [[] [] [] [] [] [] [] []]; try discriminate L; apply X; reflexivity.
  - destruct X as [<-|[<-|[<-|[]]]]; discriminate L.
Qed.
Lemma cell_no_conflict s x : number s x -> str_in "conflict" (lower s) = false.
Proof. unfold number. intros [[-> _]|[_ H]]; [reflexivity|]. eapply number_no_conflict; eauto. Qed.
