(** * MuscleWitness: two simulations and their managers, for C83 *)

From Verif Require Import Base State Flee Api SpecHistory Pflee ParApi SpecParallel Coupling SpecCoupling
  Defaults ExampleRun ParallelWitness CouplingText CouplingRun CouplingWitness SpecExchange ExchangeProofs GhostProofs ExchangeWitness Muscle MuscleProofs.
Local Open Scope string_scope.
Local Open Scope list_scope.
Local Opaque prun run.

(** Each manager has the coupled locations of the simulation whose output it receives. *)
Definition sender_message : string := the_text (manage sender_cp [sender_text]).
Definition other_message : string := the_text (manage other_cp [other_text false]).
Lemma sender_managed : manage sender_cp [sender_text] = Ok sender_message.
Proof. apply text_ok. vm_compute. reflexivity. Qed.
Lemma other_managed : manage other_cp [other_text false] = Ok other_message.
Proof. apply text_ok. vm_compute. reflexivity. Qed.
Lemma three_plain : Forall plain ["east"; "west"; "south"].
Proof. destruct plains as (A & B & C). repeat (apply Forall_cons; [assumption|]); apply Forall_nil. Qed.
Lemma sender_plain : Forall plain (cp_names sender_cp).
Proof. rewrite sender_list. exact three_plain. Qed.
Lemma other_plain : Forall plain (cp_names other_cp).
Proof. rewrite other_list. exact three_plain. Qed.
Lemma knows cp : forall i name dir, coupled cp i name dir -> says "out" dir -> In name (cp_names cp).
Proof. intros i name dir C _. eapply coupled_name; exact C. Qed.

Lemma sender_receives : couple_muscle ex_oracle par_S HighLatency 0 other_message sender_cp (par_end two_one) = Ok (sender_after false).
Proof.
  rewrite (side _ _ _ _ other_cp ex_oracle 2 other_cp (par_end (other_prog false)) (other false) (other_text false) sender_cp (par_end two_one) other_message
    (other_takes false) other_leads other_plain (knows _) (other_writes false) other_managed). apply sender_couples.
Qed.
Lemma other_receives : couple_muscle ex_oracle par_S HighLatency 0 sender_message other_cp (par_end (other_prog false)) = Ok (other_after false).
Proof.
  rewrite (side _ _ _ _ sender_cp ex_oracle 2 sender_cp (par_end two_one) sender sender_text other_cp (par_end (other_prog false)) sender_message
    sender_takes sender_leads sender_plain (knows _) sender_writes sender_managed). apply other_couples.
Qed.

(** A manager that knows only one of the three names *)
Definition short_cp : coupling := Cpl [0]%nat ["A"] ["east"] ["inout"] [1]%Z.
Definition short_message : string := the_text (manage short_cp [other_text false]).
Lemma short_managed : manage short_cp [other_text false] = Ok short_message.
Proof. apply text_ok. vm_compute. reflexivity. Qed.
Lemma short_plain : Forall plain (cp_names short_cp).
Proof. destruct plains as (A & _). repeat (apply Forall_cons; [assumption|]); apply Forall_nil. Qed.
Lemma south_in : coupled sender_cp 2 "south" "in" /\ says "in" "in".
Proof. rewrite sender_list. split; [exists 2%nat; auto|]. apply says_in; [discriminate|reflexivity]. Qed.
Lemma south_unknown : ~ In "south" (cp_names short_cp).
Proof. cbn. intuition discriminate. Qed.
Lemma other_read : read_input sender_cp [other_text false] = Ok [("east", 1%Z); ("south", 4%Z)].
Proof. vm_compute. reflexivity. Qed.

Lemma short_manager : exists o S lat time cm cp texts message st st',
  Forall plain (cp_names cm) /\ (exists name, In name (cp_names cm) /\ In name (cp_names cp)) /\ manage cm texts = Ok message /\
  couple o S lat time texts cp st = Ok st' /\ couple_muscle o S lat time message cp st = Err KeyError.
Proof.
  exists ex_oracle, par_S, HighLatency, 0%Z, short_cp, sender_cp, [other_text false], short_message, (par_end two_one), (sender_after false).
  split; [exact short_plain|]. split; [exists "east"; rewrite sender_list; split; now left|]. split; [exact short_managed|]. split; [apply sender_couples|].
  destruct south_in as [C I].
  exact (f_unknown _ _ _ _ short_cp sender_cp [other_text false] short_message _ _ 2 "south" "in" short_plain short_managed other_read sender_at C I south_unknown).
Qed.
