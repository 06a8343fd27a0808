(** Specification of queues: histories of a channel and what may be lost. *)
From Coq Require Import ZArith Bool List Arith.
From Verif Require Import Base ModelChannel.
Import ListNotations.

Section Queue.
  Context {A : Type}.

  (** What happens to a channel: actions of its senders, or the receiver looks for a message. *)
  Inductive chan_event := Acts (a : chan_action A) | Receives.

  Definition chan_step (c : chan A) (e : chan_event) : chan A :=
    match e with
    | Acts a => chan_act c a
    | Receives => fst (chan_try_recv c)
    end.

  Definition chan_run (c : chan A) (h : list chan_event) : chan A := fold_left chan_step h c.

  (** Messages handed to the channel, in order. *)
  Fixpoint sent (c : chan A) (h : list chan_event) : list A :=
    match h with
    | [] => []
    | e :: h =>
        match e with
        | Acts (Send m) | Acts (TrySend m) => match ch_senders c with O => [] | S _ => [m] end
        | _ => []
        end ++ sent (chan_step c e) h
    end.

  (** Messages that were received, in order. *)
  Fixpoint taken (c : chan A) (h : list chan_event) : list A :=
    match h with
    | [] => []
    | e :: h =>
        match e with
        | Receives => match snd (chan_try_recv c) with Message m => [m] | _ => [] end
        | _ => []
        end ++ taken (chan_step c e) h
    end.

  (** No more room. *)
  Definition crowded (c : chan A) : Prop :=
    exists n, ch_cap c = Some n /\ (n <= length (ch_queue c))%nat.

  (** [l1] consists of elements of [l2] in the same order. *)
  Inductive subsequence : list A -> list A -> Prop :=
  | ss_nil : subsequence [] []
  | ss_skip : forall x a b, subsequence a b -> subsequence a (x :: b)
  | ss_keep : forall x a b, subsequence a b -> subsequence (x :: a) (x :: b).

  (** [ms] are the messages taken between [c] and [c']: what was queued at first
      and what was accepted since then, in order, is what was taken followed by
      what is queued still. *)
  Definition moved (c c' : chan A) (ms : list A) : Prop :=
    exists new, ch_accepted c' = ch_accepted c ++ new /\ ch_queue c ++ new = ms ++ ch_queue c'.

  (** Nobody can send any more and nothing is left. *)
  Definition exhausted (c : chan A) : Prop :=
    ch_senders c = O /\ ch_queue c = [] /\ ch_waiting c = [].

  (** Nobody can send any more. *)
  Definition closed (c : chan A) : Prop := ch_senders c = O /\ ch_waiting c = [].

  (** A blocked sender is a sender. *)
  Definition chan_ok (c : chan A) : Prop := ch_senders c = O -> ch_waiting c = [].
End Queue.
Arguments chan_event : clear implicits.
