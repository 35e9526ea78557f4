(** * SpecTurns: vocabulary of C81 (coupled programs that run at their own speed) *)

From Verif Require Import Base State CouplingFiles.
Local Open Scope list_scope.

(** At the start: nobody has done anything *)
Definition at_start {X} (xs : list X) : list (phase X) := map (Working 0) xs.

(** No two programs write the same files, and every file a program waits for is written
    by a program that couples on the same days. *)
Record partners {X} (ms : list (member X)) : Prop := {
  pa_differ : forall i j m m', nth_error ms i = Some m -> nth_error ms j = Some m' ->
    m_out m = m_out m' -> m_index m = m_index m' -> i = j;
  pa_meet : forall i m k, nth_error ms i = Some m -> (k < m_num m)%nat ->
    exists j m', nth_error ms j = Some m' /\ m_out m' = m_in m /\ m_index m' = k /\ forall t, m_now m' t = m_now m t }.

(** Program [m'] of [ms], in state [x] at the start of day [t], writes [s]. *)
Definition writes {X} (m : member X) (t : nat) (x : X) (s : string) : Prop :=
  exists x1, m_work m t x = Ok x1 /\ m_text m t x1 = Ok s.

(** [st t i] is the state of program [i] at the start of day [t] when all programs go side
    by side: on each day all work, then all write, then each reads what was written on
    this day. *)
Definition side_by_side {X} (T : nat) (ms : list (member X)) (st : nat -> nat -> X) : Prop :=
  forall t i m, (t < T)%nat -> nth_error ms i = Some m ->
    exists x, m_work m t (st t i) = Ok x /\
      if m_now m t then
        (exists s, m_text m t x = Ok s) /\
        exists texts, List.length texts = m_num m /\ m_take m t texts x = Ok (st (S t) i) /\
          forall k s, nth_error texts k = Some s ->
            exists j m', nth_error ms j = Some m' /\ m_out m' = m_in m /\ m_index m' = k /\ writes m' t (st t j) s
      else st (S t) i = x.

(** Nobody reads a file while another program has its file open: the schedule never gives
    the turn to a program that is about to read a file while there is an open file. *)
Definition is_open {X} (ph : phase X) : Prop := exists t x s, ph = Opened t x s.
Definition about_to_read {X} (m : member X) (ph : phase X) : Prop :=
  exists t x texts, ph = Reading t x texts /\ (List.length texts < m_num m)%nat.
Definition careful {X} (T : nat) (ms : list (member X)) (schedule : list nat) (sys : list (phase X) * folder) : Prop :=
  forall before who after, schedule = before ++ who :: after ->
    forall phs d, execute T ms before sys = (phs, d) ->
      (exists m ph, nth_error ms who = Some m /\ nth_error phs who = Some ph /\ about_to_read m ph) ->
      forall ph, In ph phs -> ~ is_open ph.

(** Every program gets its turn at least once in a round. *)
Definition a_round {X} (ms : list (member X)) (r : list nat) : Prop := forall i, (i < List.length ms)%nat -> In i r.

(** A number of rounds that is enough for [T] days *)
Definition enough {X} (T : nat) (ms : list (member X)) : nat :=
  (1 + List.length ms * (T * (4 + fold_right Nat.add 0 (map m_num ms)) + 1))%nat.

(** The day a program is in *)
Definition day_of {X} (T : nat) (ph : phase X) : nat :=
  match ph with
  | Working t _ | Opened t _ _ | Waiting t _ _ | Reading t _ _ => t
  | Finished _ => T
  | Failed _ => 0
  end.
