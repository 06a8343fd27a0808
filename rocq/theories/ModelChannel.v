(** Model of the crossbeam channels by their documented behaviour
    (crossbeam-channel: [unbounded], [bounded], [Sender::{send, try_send}],
    [Receiver::try_recv], [len], [is_full], [is_empty], [capacity]). The library
    never blocks in [recv] on these channels. *)
From Coq Require Import ZArith Bool List Arith.
From Verif Require Import Base.
Import ListNotations.

Section Channel.
  Context {A : Type}.

  Record chan := Chan {
    ch_cap : option nat;       (* None: unbounded *)
    ch_queue : list A;
    ch_waiting : list A;       (* the messages of the senders blocked in [send] *)
    ch_senders : nat;          (* live [Sender] handles *)
    ch_receiver : bool;        (* the [Receiver] is alive *)
    (* Not part of the program, for the specification only: *)
    ch_accepted : list A;      (* every message taken over, in order *)
    ch_lost : list A           (* every message refused, in order *)
  }.

  (** [crossbeam_channel::unbounded()] and [bounded(cap)] *)
  Definition chan_new (cap : option nat) : chan := Chan cap [] [] 1 true [] [].

  (** [Sender::is_full]; a channel of capacity 0 is always full *)
  Definition chan_full (c : chan) : bool :=
    match ch_cap c with
    | None => false
    | Some n => (n <=? length (ch_queue c))%nat
    end.

  (** [Sender::is_empty] *)
  Definition chan_empty (c : chan) : bool :=
    match ch_queue c with [] => true | _ => false end.

  (** [Sender::len], [Receiver::len] *)
  Definition chan_len (c : chan) : nat := length (ch_queue c).

  Definition chan_enqueue (c : chan) (m : A) : chan :=
    Chan (ch_cap c) (ch_queue c ++ [m]) (ch_waiting c) (ch_senders c) (ch_receiver c)
      (ch_accepted c ++ [m]) (ch_lost c).

  Definition chan_refuse (c : chan) (m : A) : chan :=
    Chan (ch_cap c) (ch_queue c) (ch_waiting c) (ch_senders c) (ch_receiver c)
      (ch_accepted c) (ch_lost c ++ [m]).

  (** [Sender::try_send]: fails if the receiver is gone or the queue is full. On a
      channel of capacity 0 it only succeeds if a receiver is blocked in [recv],
      which never is the case here. *)
  Definition chan_try_send (c : chan) (m : A) : chan :=
    if negb (ch_receiver c) then chan_refuse c m
    else if chan_full c then chan_refuse c m
    else chan_enqueue c m.

  (** [Sender::send]: blocks while the queue is full. *)
  Definition chan_send (c : chan) (m : A) : chan :=
    if negb (ch_receiver c) then chan_refuse c m
    else if chan_full c then
      Chan (ch_cap c) (ch_queue c) (ch_waiting c ++ [m]) (ch_senders c) (ch_receiver c)
        (ch_accepted c) (ch_lost c)
    else chan_enqueue c m.

  (** The [i]-th blocked sender gets its turn. *)
  Definition chan_wake (c : chan) (i : nat) : chan :=
    match nth_error (ch_waiting c) i with
    | None => c
    | Some m =>
        if chan_full c then c
        else
          chan_enqueue
            (Chan (ch_cap c) (ch_queue c) (firstn i (ch_waiting c) ++ skipn (S i) (ch_waiting c))
               (ch_senders c) (ch_receiver c) (ch_accepted c) (ch_lost c)) m
    end.

  (** [Sender::clone]: needs a sender *)
  Definition chan_clone_sender (c : chan) : chan :=
    match ch_senders c with
    | O => c
    | S n => Chan (ch_cap c) (ch_queue c) (ch_waiting c) (S (S n)) (ch_receiver c) (ch_accepted c) (ch_lost c)
    end.

  (** [drop(Sender)]; the last handle cannot be dropped while a thread is blocked
      in [send] since the thread borrows it *)
  Definition chan_drop_sender (c : chan) : chan :=
    match ch_senders c, ch_waiting c with
    | O, _ => c
    | S O, _ :: _ => c
    | S n, _ =>
        Chan (ch_cap c) (ch_queue c) (ch_waiting c) n (ch_receiver c) (ch_accepted c) (ch_lost c)
    end.

  (** [drop(Receiver)]: the senders blocked get an error *)
  Definition chan_drop_receiver (c : chan) : chan :=
    Chan (ch_cap c) (ch_queue c) [] (ch_senders c) false (ch_accepted c)
      (ch_lost c ++ ch_waiting c).

  (** Result of [Receiver::try_recv] *)
  Inductive received := Message (m : A) | Empty | Disconnected.

  (** [Receiver::try_recv]: disconnected only if the queue is empty and there is
      no sender left; on a channel of capacity 0 the message is taken directly
      from a blocked sender. *)
  Definition chan_try_recv (c : chan) : chan * received :=
    match ch_queue c with
    | m :: q =>
        (Chan (ch_cap c) q (ch_waiting c) (ch_senders c) (ch_receiver c) (ch_accepted c) (ch_lost c),
         Message m)
    | [] =>
        match ch_cap c, ch_waiting c with
        | Some O, m :: w =>
            (Chan (ch_cap c) [] w (ch_senders c) (ch_receiver c) (ch_accepted c ++ [m]) (ch_lost c),
             Message m)
        | _, _ => (c, match ch_senders c with O => Disconnected | _ => Empty end)
        end
    end.

  (** What the threads that hold senders can do. *)
  Inductive chan_action :=
  | Send (m : A)
  | TrySend (m : A)
  | Wake (i : nat)
  | CloneSender
  | DropSender
  | DropReceiver.

  (** A sender can only be used while there is one. *)
  Definition chan_act (c : chan) (a : chan_action) : chan :=
    match a with
    | Send m => match ch_senders c with O => c | _ => chan_send c m end
    | TrySend m => match ch_senders c with O => c | _ => chan_try_send c m end
    | Wake i => chan_wake c i
    | CloneSender => chan_clone_sender c
    | DropSender => chan_drop_sender c
    | DropReceiver => chan_drop_receiver c
    end.
End Channel.
Arguments chan : clear implicits.
Arguments received : clear implicits.
Arguments chan_action : clear implicits.
