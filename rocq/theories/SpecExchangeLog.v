(** * SpecExchangeLog: vocabulary of C84

    [sends], [plain] and [says] are in SpecCoupling.v. *)

From Verif Require Import Base State Moving Flee Api Pflee ParApi Coupling SpecCoupling ExchangeLog.
Local Open Scope string_scope.
Local Open Scope list_scope.

(** The run of an instance: for each day the day and the ecosystem of the process that
    couples, as the exchange finds it *)
Definition history : Type := list (Z * eco).

(** The days of [h] on which instances with coupling interval [i] exchange people *)
Definition exchange_days (i : Z) (h : history) : history := filter (fun d => Z.eqb (fst d mod i) 0) h.

(** The logs of a run without logs at its start *)
Definition logs_of (cp : coupling) (h : history) (lg : xlog) : Prop :=
  foldM (fun lg d => couple_log (fst d) (snd d) cp lg) h no_log = Ok lg.

(** The coupling interval, that of the first coupled location *)
Definition has_interval (cp : coupling) (i : Z) : Prop := nth_error (cp_intervals cp) 0 = Some i /\ i <> 0%Z.

Definition outgoing (cp : coupling) (name : string) : Prop := exists i direction, coupled cp i name direction /\ says "out" direction.
