(** Model of the transmitter, src/lib.rs 168-374, and of the creation of pairs,
    src/processor.rs 223-304. What a transmitter does is the list of actions that
    take place on the queue of its processor. *)
From Coq Require Import ZArith Bool String List.
From Verif Require Import Base ModelObservation ModelInstrument ModelTree ModelChannel ModelProcessor.
Import ListNotations.
Open Scope Z_scope.

(** lib.rs 292-298; [tx_sender] identifies the channel *)
Record transmitter := Transmitter { tx_sender : nat; tx_use_send : bool }.

Section Transmitter.
  Context {X : ext}.

  (** processor.rs 270-304: the queue, the transmitter and the processor. The
      channel gets the number [id]. *)
  Definition create (id : nat) (name : option string) (bounded : option nat) (use_send : bool)
    : M (chan (message X) * transmitter * tele X) :=
    let queue := chan_new bounded in
    let* t := tele_new name id in
    ret (queue, Transmitter id use_send, t).

  (** processor.rs 223-225, 235-241, 251-253, 263-268 *)
  Definition new_pair (id : nat) (name : string) := create id (Some name) None true.
  Definition new_pair_bounded (id : nat) (name : string) (cap : nat) (block_on_full : bool) :=
    create id (Some name) (Some cap) block_on_full.
  Definition new_pair_without_name (id : nat) := create id None None true.
  Definition new_pair_bounded_without_name (id : nat) (cap : nat) (block_on_full : bool) :=
    create id None (Some cap) block_on_full.

  (** lib.rs 301-310; an error is only logged *)
  Definition tx_send (tx : transmitter) (m : message X) : chan_action (message X) :=
    if tx_use_send tx then Send m else TrySend m.

  (** lib.rs 315-335 *)
  Definition is_queue_full (c : chan (message X)) : bool := chan_full c.
  Definition is_queue_empty (c : chan (message X)) : bool := chan_empty c.
  Definition queue_size (c : chan (message X)) : nat := chan_len c.
  Definition queue_capacity (c : chan (message X)) : option nat := ch_cap c.

  (** lib.rs 338-372 *)
  Definition transmit (tx : transmitter) (o : observation (lab X)) := tx_send tx (MObservation o).
  Definition tx_add_handler (tx : transmitter) (h : handler X) := tx_send tx (MAddHandler h).
  Definition tx_add_cockpit (tx : transmitter) (c : cockpit X) := tx_send tx (MAddCockpit c).
  Definition tx_remove_cockpit (tx : transmitter) (n : string) := tx_send tx (MRemoveCockpit n).
  Definition tx_add_panel_to_cockpit (tx : transmitter) (n : string) (p : panel X) :=
    tx_send tx (MAddPanelToCockpit n p).
  Definition tx_remove_panel_from_cockpit (tx : transmitter) (n m : string) :=
    tx_send tx (MRemovePanelFromCockpit n m).

  (** lib.rs 175-181, 186-188, 193-204 *)
  Definition observed (tx : transmitter) (l : lab X) (count ts : Z) := transmit tx (Observed l count ts).
  Definition observed_one (tx : transmitter) (l : lab X) (ts : Z) := transmit tx (ObservedOne l ts).
  Definition observed_one_value (tx : transmitter) (l : lab X) (v : observed_value) (ts : Z) :=
    transmit tx (ObservedOneValue l v ts).

  (** lib.rs 208-210; the duration is given in nanoseconds *)
  Definition observed_duration (tx : transmitter) (l : lab X) (d ts : Z) : M (chan_action (message X)) :=
    let* v := value_of_duration d in
    ret (observed_one_value tx l v ts).

  (** lib.rs 216-218, 224-226, 232-234, 240-242 *)
  Definition observed_now (tx : transmitter) (l : lab X) (count : Z) : M (chan_action (message X)) :=
    let* t := now in ret (observed tx l count t).
  Definition observed_one_now (tx : transmitter) (l : lab X) : M (chan_action (message X)) :=
    let* t := now in ret (observed_one tx l t).
  Definition observed_one_value_now (tx : transmitter) (l : lab X) (v : observed_value)
    : M (chan_action (message X)) :=
    let* t := now in ret (observed_one_value tx l v t).
  Definition observed_one_duration_now (tx : transmitter) (l : lab X) (d : Z)
    : M (chan_action (message X)) :=
    let* t := now in observed_duration tx l d t.

  (** lib.rs 248-255 *)
  Definition measure_time (tx : transmitter) (l : lab X) (from : Z) : M (list (chan_action (message X))) :=
    let* t := now in
    if from <=? t then
      let* a := observed_duration tx l (t - from) t in
      ret [a]
    else ret [].
End Transmitter.
