(** Specification of how computations use the clock. *)
From Coq Require Import ZArith List.
From Verif Require Import Base ModelHistogram ModelInstrument ModelProcessor.
Open Scope Z_scope.

(** [c'] are the readings of [c] after some of them were taken. *)
Definition later (c c' : clock) : Prop := exists n, forall i, c' i = c (n + i)%nat.

(** A computation can only take readings, not change the clock. *)
Definition ticks {A} (m : M A) : Prop := forall k c a c', m k c = Ok a c' -> later c c'.

(** The external parts do not change the clock. *)
Record parts_tick (X : ext) : Prop := PartsTick {
  pt_histo_new : ticks (histo_new (ex_histo X));
  pt_histo_update : forall h v, ticks (histo_update (ex_histo X) h v);
  pt_instr_update : forall i u, ticks (user_instr_update X i u);
  pt_instr_put : forall i d s, ticks (user_instr_put X i d s);
  pt_handler_handle : forall h o, ticks (user_handler_handle X h o);
  pt_handler_put : forall h d s, ticks (user_handler_put X h d s);
  pt_snap_put : forall u d s, ticks (user_snap_put X u d s)
}.

Record processors_tick (Y : pext) : Prop := ProcessorsTick {
  pt_proc_process : forall u n s, ticks (user_proc_process Y u n s);
  pt_proc_put : forall u d s, ticks (user_proc_put Y u d s);
  pt_driver_snapshot : forall h d, ticks (driver_snapshot Y h d)
}.
