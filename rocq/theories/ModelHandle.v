(** Model of the handles of attached mounts, src/attached_mount.rs 11-58, and of
    [attached_mount], src/processor.rs 28-39. *)
From Coq Require Import ZArith Bool List.
From Verif Require Import Base ModelObservation ModelInstrument ModelTree ModelChannel ModelProcessor ModelDriver.
Import ListNotations.

Section Handle.
  Context {X : ext} {Y : pext}.

  (** [InternalAttachedMount { receiver: Some(receiver), inner: mount }] and the handle,
      attached_mount.rs 20-25, processor.rs 29-34. [ch] is the channel that was
      created; the handle [AttachedMount { sender }] is represented by it. *)
  Definition attached_mount_new (ch : nat) (m : mount X Y) : processor X Y * nat := (PAttached (Some ch) m, ch).

  (** attached_mount.rs 33-37, 39-43, also 47-51, 53-57. [send] on an unbounded channel
      does not block; errors are ignored. *)
  Definition handle_put_processor (h : nat) (p : processor X Y) : action X Y := OnMount h (Send (MProcessor p)).
  Definition handle_put_snapshooter (h : nat) (s : snapshooter X) : action X Y := OnMount h (Send (MSnapshooter s)).

  (** attached_mount.rs 17-31 (the type parameter [P] is not used) *)
  Definition handle_attach_mount (h : nat) (ch : nat) (m : mount X Y) : action X Y * nat :=
    let '(attached, h') := attached_mount_new ch m in (handle_put_processor h attached, h').

  (** [derive(Clone)], attached_mount.rs 11, and the end of a handle *)
  Definition handle_clone (h : nat) : action X Y := OnMount h CloneSender.
  Definition handle_drop (h : nat) : action X Y := OnMount h DropSender.

  (** [attached_mount] of a [ProcessorMount], with [add_processor] of processor.rs 715-717 *)
  Definition mount_attached_mount (outer : mount X Y) (ch : nat) (m : mount X Y) : mount X Y * nat :=
    let '(attached, h) := attached_mount_new ch m in (mount_add outer (MProcessor attached), h).

  (** [attached_mount] of a [TelemetryDriver], with [add_processor] of driver.rs 306-310 *)
  Definition driver_attached_mount (ch : nat) (m : mount X Y) : command X Y * nat :=
    let '(attached, h) := attached_mount_new ch m in (call_add_processor attached, h).

  (** [attached_mount] of an [AttachedMount], with [add_processor] of attached_mount.rs 47-51 *)
  Definition handle_attached_mount (h : nat) (ch : nat) (m : mount X Y) : action X Y * nat :=
    let '(attached, h') := attached_mount_new ch m in (handle_put_processor h attached, h').
End Handle.
