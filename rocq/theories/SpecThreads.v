(** Specification: several threads that use transmitters of one processor. *)
From Coq Require Import List Arith Bool.
From Verif Require Import Base ModelInstrument ModelTree ModelChannel ModelProcessor ModelTransmitter SpecQueue.
Import ListNotations.

Section Threads.
  Context {X : ext}.

  (** What a thread has to do: messages to send with transmitters, one after the other. *)
  Definition program := list (transmitter * message X).

  (** An action of thread [t]: the message carries its number. *)
  Definition tagged (t : nat) (a : chan_action (message X)) : chan_action (nat * message X) :=
    match a with
    | Send m => Send (t, m)
    | TrySend m => TrySend (t, m)
    | Wake i => Wake i
    | CloneSender => CloneSender
    | DropSender => DropSender
    | DropReceiver => DropReceiver
    end.

  (** The queue, what each thread still has to do, and what was received. *)
  Record threads := Threads {
    th_queue : chan (nat * message X);
    th_todo : nat -> program;
    th_received : list (nat * message X)
  }.

  (** A thread whose message waits is blocked in [send]. *)
  Definition blocked (t : nat) (c : chan (nat * message X)) : Prop := exists m, In (t, m) (ch_waiting c).

  (** Any thread that is not blocked may go on, a blocked one may be woken, handles may
      come and go, the processor may look for a message or come to an end. *)
  Inductive turn : threads -> threads -> Prop :=
  | tu_calls : forall c todo got t tx m rest,
      todo t = (tx, m) :: rest -> ~ blocked t c -> ch_senders c <> O ->
      turn (Threads c todo got)
        (Threads (chan_act c (tagged t (tx_send tx m))) (fun u => if Nat.eqb u t then rest else todo u) got)
  | tu_other : forall c todo got a, (forall m, a <> Send m) -> (forall m, a <> TrySend m) ->
      turn (Threads c todo got) (Threads (chan_act c a) todo got)
  | tu_receives : forall c todo got,
      turn (Threads c todo got)
        (Threads (fst (chan_try_recv c)) todo (got ++ match snd (chan_try_recv c) with Message m => [m] | _ => [] end)).

  Inductive turns : threads -> threads -> Prop :=
  | tu_none : forall s, turns s s
  | tu_more : forall s1 s2 s3, turns s1 s2 -> turn s2 s3 -> turns s1 s3.

  Definition beginning (cap : option nat) (programs : nat -> program) : threads :=
    Threads (chan_new cap) programs [].

  (** The messages of a thread, in order. *)
  Definition of_thread (t : nat) (l : list (nat * message X)) : list (message X) :=
    map snd (filter (fun x => Nat.eqb (fst x) t) l).

  (** A queue without the numbers of the threads. *)
  Definition untagged (c : chan (nat * message X)) : chan (message X) :=
    Chan (ch_cap c) (map snd (ch_queue c)) (map snd (ch_waiting c)) (ch_senders c) (ch_receiver c)
      (map snd (ch_accepted c)) (map snd (ch_lost c)).
End Threads.
Arguments program : clear implicits.
Arguments threads : clear implicits.
