(** Specification of what may differ between builds. *)
From Coq Require Import ZArith Bool String List.
From Verif Require Import Base ModelObservation ModelSnapshot ModelHistogram ModelInstrument ModelProcessor.
Open Scope Z_scope.

(** [k'] is a build on a machine that forbids no more than [k]: it has overflow
    checks only if [k] has them, its instants have at least the range of those of
    [k], and its loops are followed at least as long. *)
Record laxer (k k' : cfg) : Prop := Laxer {
  lx_checks : overflow_checks k' = true -> overflow_checks k = true;
  lx_min : min_instant k' <= min_instant k;
  lx_max : max_instant k <= max_instant k';
  lx_fuel : (fuel k <= fuel k')%nat
}.

(** Whatever comes out of [m] under [k], comes out of [m'] under [k'], and what is
    not followed to its end under [k] is not under [k'] either if the bounds are the
    same: only a panic may be missing. *)
Definition carries (k k' : cfg) {W A} (m m' : St W A) : Prop := forall w,
  match m k w with
  | Ok a w' => m' k' w = Ok a w'
  | Panic => True
  | NoFuel => fuel k = fuel k' -> m' k' w = NoFuel
  end.

Definition robust (k k' : cfg) {W A} (m : St W A) : Prop := carries k k' m m.

(** The parts that are not of the library *)
Record parts_robust (k k' : cfg) (X : ext) : Prop := PartsRobust {
  pr_histo_new : robust k k' (histo_new (ex_histo X));
  pr_histo_update : forall h v, robust k k' (histo_update (ex_histo X) h v);
  pr_instr_update : forall i u, robust k k' (user_instr_update X i u);
  pr_instr_put : forall i d s, robust k k' (user_instr_put X i d s);
  pr_handler_handle : forall h o, robust k k' (user_handler_handle X h o);
  pr_handler_put : forall h d s, robust k k' (user_handler_put X h d s);
  pr_snap_put : forall u d s, robust k k' (user_snap_put X u d s)
}.

Record processors_robust (k k' : cfg) (Y : pext) : Prop := ProcessorsRobust {
  pr_proc_process : forall u n s, robust k k' (user_proc_process Y u n s);
  pr_proc_put : forall u d s, robust k k' (user_proc_put Y u d s);
  pr_driver_snapshot : forall h d, robust k k' (driver_snapshot Y h d)
}.
