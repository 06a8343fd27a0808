(** What builds have in common. *)
From Coq Require Import ZArith Bool String List Lia.
From Verif Require Import Base SpecRun MonadFacts ModelObservation ModelLabelFilter ModelSnapshot ModelBuckets
  ModelCounter ModelGauge ModelMeter ModelHistogram ModelSwitches ModelInstrument ModelTree ModelChannel
  ModelProcessor ModelDriver SpecProfile SpecSafe SpecDriver TreeInd TreeEqs TreeProofs.
Import ListNotations.
Open Scope Z_scope.

Section Profile.
Context (k k' : cfg) (HK : laxer k k').
Notation carries := (carries k k').
Notation robust := (robust k k').

Lemma carries_bind : forall W A B (m m' : St W A) (f f' : A -> St W B),
  carries m m' -> (forall a, carries (f a) (f' a)) -> carries (bind m f) (bind m' f').
Proof.
  intros W A B m m' f f' Hm Hf w. specialize (Hm w). unfold bind. destruct (m k w) as [a w1| |].
  - rewrite Hm. apply Hf.
  - exact I.
  - intros E. rewrite (Hm E). reflexivity.
Qed.

Lemma robust_ret : forall W A (a : A), robust (ret a : St W A).
Proof. intros W A a w. reflexivity. Qed.

Lemma robust_bind : forall W A B (m : St W A) (f : A -> St W B), robust m -> (forall a, robust (f a)) -> robust (bind m f).
Proof. intros. apply carries_bind; assumption. Qed.

Lemma robust_pure : forall W A (m : St W A), (forall k1 k2 w, m k1 w = m k2 w) -> robust m.
Proof.
  intros W A m H w. rewrite (H k k' w). destruct (m k' w); auto.
Qed.

Lemma robust_now : robust now.
Proof. intros w. reflexivity. Qed.

Lemma robust_panic : forall W A, robust (panic : St W A).
Proof. intros W A w. exact I. Qed.

Lemma robust_no_fuel : forall W A, robust (fun _ _ => NoFuel : res W A).
Proof. intros W A w _. reflexivity. Qed.

Lemma robust_arith : forall W lo hi f r, robust (arith lo hi f r : St W Z).
Proof.
  intros W lo hi f r w. unfold arith. destruct ((lo <=? r) && (r <=? hi)); [reflexivity|].
  destruct (overflow_checks k) eqn:E; [exact I|].
  destruct (overflow_checks k') eqn:E'; [|reflexivity]. rewrite (lx_checks _ _ HK E') in E. discriminate E.
Qed.

Lemma robust_add : forall W t d, robust (instant_add t d : St W Z).
Proof.
  intros W t d w. unfold instant_add. destruct (Z.leb_spec (t + d) (max_instant k)); [|exact I].
  pose proof (lx_max _ _ HK). destruct (Z.leb_spec (t + d) (max_instant k')); [reflexivity | lia].
Qed.

Lemma robust_sub : forall W t d, robust (instant_sub t d : St W Z).
Proof.
  intros W t d w. unfold instant_sub. destruct (Z.leb_spec (min_instant k) (t - d)); [|exact I].
  pose proof (lx_min _ _ HK). destruct (Z.leb_spec (min_instant k') (t - d)); [reflexivity | lia].
Qed.

Lemma robust_traverse : forall W A S (f : A -> S -> St W (A * S)) l s,
  Forall (fun x => forall s, robust (f x s)) l -> robust (traverse f l s).
Proof.
  intros W A S f l s H. revert s. induction H as [|x l Hx H IH]; intros s; cbn [traverse].
  - apply robust_ret.
  - apply robust_bind; [apply Hx|]. intros [x' s1]. apply robust_bind; [apply IH|]. intros [l' s2]. apply robust_ret.
Qed.

Lemma robust_traverse_opt : forall W A S (f : A -> S -> St W (A * S)) o s,
  (forall x s, robust (f x s)) -> robust (traverse_opt f o s).
Proof.
  intros W A S f [x|] s H; cbn [traverse_opt].
  - apply robust_bind; [apply H|]. intros [x' s1]. apply robust_ret.
  - apply robust_ret.
Qed.

Hint Resolve robust_ret robust_now robust_panic robust_no_fuel robust_arith robust_add robust_sub : robust.

Ltac rob1 :=
  match goal with
  | |- robust (bind _ _) => apply robust_bind
  | |- forall _, _ => intro
  | |- robust (match ?x with _ => _ end) => destruct x
  | |- robust (let '_ := ?x in _) => destruct x
  | _ => solve [auto with robust]
  end.
Ltac rob := repeat (rob1; cbv beta zeta).

Lemma elapsed_robust : forall s, robust (elapsed s).
Proof. intros. unfold elapsed. rob. Qed.
Hint Resolve elapsed_robust : robust.

Lemma add_usize_robust : forall W a b, robust (add_usize a b : St W Z).
Proof. intros. apply robust_arith. Qed.
Lemma add_u64_robust : forall W a b, robust (add_u64 a b : St W Z).
Proof. intros. apply robust_arith. Qed.
Lemma mul_u64_robust : forall W a b, robust (mul_u64 a b : St W Z).
Proof. intros. apply robust_arith. Qed.
Lemma add_i64_robust : forall W a b, robust (add_i64 a b : St W Z).
Proof. intros. apply robust_arith. Qed.
Hint Resolve add_usize_robust add_u64_robust mul_u64_robust add_i64_robust : robust.

Lemma duration_robust : forall W t u d, robust (duration_to_display_value t u d : St W Z).
Proof. intros. unfold duration_to_display_value. rob. Qed.
Hint Resolve duration_robust : robust.

Lemma counter_update_robust : forall W c u, robust (counter_update c u : St W (counter * Z)).
Proof. intros. unfold counter_update, counter_inc, counter_inc_by. rob. Qed.
Hint Resolve counter_update_robust : robust.

Section Buckets.
  Context {T : Type} (dflt : T).
  Lemma index_set_robust : forall (l : list T) i x, robust (index_set l i x).
  Proof. intros. unfold index_set. rob. Qed.
  Lemma index_get_robust : forall (l : list T) i, robust (index_get l i).
  Proof. intros. unfold index_get. rob. Qed.
  Hint Resolve index_set_robust index_get_robust : robust.
  Lemma idx_robust : forall (b : buckets T) o, robust (idx b o).
  Proof. intros. unfold idx. rob. Qed.
  Hint Resolve idx_robust : robust.
  Lemma advance_robust : forall b, robust (advance dflt b).
  Proof. intros. unfold advance. rob. Qed.
  Hint Resolve advance_robust : robust.
  Lemma advance_n_robust : forall n b, robust (advance_n dflt n b).
  Proof. induction n; intros; cbn [advance_n]; rob. Qed.
  Hint Resolve advance_n_robust : robust.
  Lemma tick_robust : forall b, robust (ModelBuckets.tick dflt b).
  Proof. intros. unfold ModelBuckets.tick. rob. Qed.
  Hint Resolve tick_robust : robust.
  Lemma current_mut_robust : forall b f, (forall x, robust (f x)) -> robust (current_mut dflt b f).
  Proof. intros. unfold current_mut. rob. Qed.
  Lemma iterator_robust : forall (bs : list T) n i, robust (bucket_iterator bs n i).
  Proof. induction n; intros; cbn [bucket_iterator]; rob. Qed.
  Hint Resolve iterator_robust : robust.
  Lemma iter_robust : forall b, robust (iter dflt b).
  Proof. intros. unfold iter. rob. Qed.
End Buckets.
Hint Resolve current_mut_robust iter_robust : robust.

Lemma bucket_update_robust : forall W b v, robust (bucket_update b v : St W bucket).
Proof. intros. unfold bucket_update. rob. Qed.
Hint Resolve bucket_update_robust : robust.

Lemma stats_fold_robust : forall W l a, robust (stats_fold l a : St W stats_acc).
Proof.
  intros W. induction l; intros; cbn [stats_fold]; [rob|]. apply robust_bind; [|auto]. unfold stats_step. rob.
Qed.
Hint Resolve stats_fold_robust : robust.

Lemma from_buckets_robust : forall b v, robust (from_buckets b v).
Proof. intros. unfold from_buckets. rob. Qed.
Hint Resolve from_buckets_robust : robust.

Lemma gauge_next_robust : forall W g v o, robust (gauge_next_value g v o : St W (option Z)).
Proof. intros. unfold gauge_next_value. rob. Qed.
Lemma gauge_track_robust : forall t v, robust (gauge_track t v).
Proof. intros. unfold gauge_track. rob. Qed.
Hint Resolve gauge_next_robust gauge_track_robust : robust.

Lemma gauge_update_robust : forall g u, robust (gauge_update g u).
Proof. intros. unfold gauge_update, gauge_set. rob. Qed.
Hint Resolve gauge_update_robust : robust.

Lemma gauge_put_robust : forall g d s, robust (gauge_put g d s).
Proof. intros. unfold gauge_put, gauge_put_values. rob. Qed.
Hint Resolve gauge_put_robust : robust.

Lemma ga_handle_robust : forall L eqb (a : gauge_adapter L) o, robust (ga_handle eqb a o).
Proof. intros. unfold ga_handle. rob. Qed.
Lemma ga_put_robust : forall L (a : gauge_adapter L) d s, robust (ga_put a d s).
Proof. intros. unfold ga_put. rob. Qed.
Hint Resolve ga_handle_robust ga_put_robust : robust.

Lemma tick_loop_robust : forall n t s, robust (std_tick_loop n t s).
Proof. induction n; intros; cbn [std_tick_loop]; rob. Qed.
Hint Resolve tick_loop_robust : robust.
Lemma tick_inner_robust : forall s, robust (std_tick_inner s).
Proof. intros. unfold std_tick_inner. rob. Qed.
Hint Resolve tick_inner_robust : robust.
Lemma maybe_tick_robust : forall m, robust (meter_maybe_tick m).
Proof. intros. unfold meter_maybe_tick, std_tick. rob. Qed.
Lemma mark_robust : forall m n, robust (meter_mark m n).
Proof. intros. unfold meter_mark, std_mark. rob. Qed.
Hint Resolve maybe_tick_robust mark_robust : robust.
Lemma meter_update_robust : forall m u, robust (meter_update m u).
Proof. intros. unfold meter_update. rob. Qed.
Lemma mean_robust : forall s, robust (std_mean_inner s).
Proof. intros. unfold std_mean_inner. rob. Qed.
Hint Resolve meter_update_robust mean_robust : robust.
Lemma meter_put_robust : forall m d s, robust (meter_put m d s).
Proof. intros. unfold meter_put, meter_get_snapshot, std_snapshot. rob. Qed.
Hint Resolve meter_put_robust : robust.
Lemma value_meter_update_robust : forall m u, robust (value_meter_update m u).
Proof. intros. unfold value_meter_update. rob. Qed.
Lemma value_meter_put_robust : forall m d s, robust (value_meter_put m d s).
Proof. intros. unfold value_meter_put. rob. Qed.
Hint Resolve value_meter_update_robust value_meter_put_robust : robust.

Lemma timed_put_robust : forall n ds state sh d s, robust state -> robust (put_timed_switch n ds state sh d s).
Proof. intros. unfold put_timed_switch. rob. Qed.
Lemma staircase_put_robust : forall t d s, robust (staircase_put t d s).
Proof. intros. apply timed_put_robust. unfold staircase_state. rob. Qed.
Lemma occurrence_put_robust : forall t d s, robust (occurrence_put t d s).
Proof. intros. apply timed_put_robust. unfold occurrence_state. rob. Qed.
Lemma non_occurrence_put_robust : forall t d s, robust (non_occurrence_put t d s).
Proof. intros. apply timed_put_robust. unfold non_occurrence_state. rob. Qed.
Lemma staircase_update_robust : forall t u, robust (staircase_update t u).
Proof. intros. unfold staircase_update. rob. Qed.
Lemma occurrence_update_robust : forall t u, robust (occurrence_update t u).
Proof. intros. unfold occurrence_update. rob. Qed.
Lemma non_occurrence_update_robust : forall t u, robust (non_occurrence_update t u).
Proof. intros. unfold non_occurrence_update. rob. Qed.
Lemma last_update_robust : forall t u, robust (last_occurrence_update t u).
Proof. intros. unfold last_occurrence_update. rob. Qed.
Lemma last_put_robust : forall t d s, robust (last_occurrence_put t d s).
Proof. intros. unfold last_occurrence_put, last_occurrence_elapsed. rob. Qed.
Lemma display_update_robust : forall t u, robust (display_update t u).
Proof. intros. unfold display_update. rob. Qed.
Lemma display_put_robust : forall t d s, robust (display_put t d s).
Proof. intros. unfold display_put, display_value. rob. Qed.
Hint Resolve staircase_put_robust occurrence_put_robust non_occurrence_put_robust staircase_update_robust
  occurrence_update_robust non_occurrence_update_robust last_update_robust last_put_robust display_update_robust
  display_put_robust : robust.

Lemma robust_wrap : forall A B C (f : A -> B) (m : M (A * C)), robust m -> robust (wrap f m).
Proof. intros. unfold wrap. rob. Qed.
Lemma robust_keep : forall A C (a : A) (m : M C), robust m -> robust (keep a m).
Proof. intros. unfold keep. rob. Qed.
Hint Resolve robust_wrap robust_keep : robust.

Section Tree.
  Context {X : ext} (HX : parts_robust k k' X).

  Lemma histogram_update_robust : forall (h : histogram (ex_histo X)) u, robust (histogram_update h u).
  Proof.
    intros. pose proof (pr_histo_new _ _ X HX). pose proof (pr_histo_update _ _ X HX).
    unfold histogram_update, histogram_maybe_reset, histogram_record. rob.
  Qed.
  Lemma histogram_put_robust : forall (h : histogram (ex_histo X)) d s, robust (histogram_put h d s).
  Proof. intros. unfold histogram_put, histogram_put_values. rob. Qed.
  Hint Resolve histogram_update_robust histogram_put_robust : robust.

  Lemma instrument_update_robust : forall (i : instrument X) u, robust (instrument_update i u).
  Proof.
    intros. pose proof (pr_instr_update _ _ X HX). destruct i; cbn [instrument_update]; auto with robust.
  Qed.
  Lemma instrument_put_robust : forall (i : instrument X) d s, robust (instrument_put i d s).
  Proof.
    intros. pose proof (pr_instr_put _ _ X HX). destruct i; cbn [instrument_put]; auto with robust.
  Qed.
  Hint Resolve instrument_update_robust instrument_put_robust : robust.

  Lemma adapter_handle_robust : forall I upd (a : adapter X I) o,
    (forall i u, robust (upd i u)) -> robust (adapter_handle upd a o).
  Proof. intros. unfold adapter_handle. rob. Qed.
  Lemma adapter_put_robust : forall I put (a : adapter X I) d s,
    (forall i d s, robust (put i d s)) -> robust (adapter_put put a d s).
  Proof. intros. unfold adapter_put. rob. Qed.
  Hint Resolve adapter_handle_robust adapter_put_robust : robust.

  Lemma tally_robust : forall A (f : A -> M (A * Z)) x acc, robust (f x) -> robust (tally f x acc).
  Proof. intros. unfold tally. rob. Qed.
  Hint Resolve tally_robust : robust.

  Lemma slots_handle_robust : forall (sl : slots X) o acc, robust (slots_handle sl o acc).
  Proof.
    intros. unfold slots_handle. rob; apply robust_traverse_opt; intros; apply tally_robust; auto with robust.
  Qed.
  Lemma slots_put_robust : forall de (sl : slots X) s, robust (slots_put de sl s).
  Proof.
    intros. unfold slots_put. rob; apply robust_traverse_opt; intros;
      first [apply adapter_put_robust; intros; auto with robust | auto with robust].
  Qed.
  Hint Resolve slots_handle_robust slots_put_robust : robust.

  Lemma traverse_tally_robust : forall A (f : A -> M (A * Z)) l acc,
    Forall (fun x => robust (f x)) l -> robust (traverse (tally f) l acc).
  Proof.
    intros. apply robust_traverse. eapply Forall_impl; [|exact H]. cbv beta. auto with robust.
  Qed.
  Hint Resolve traverse_tally_robust : robust.

  Lemma tree_handle_robust : forall o,
    (forall p : panel X, robust (panel_handle p o))
    /\ (forall h : handler X, robust (handler_handle h o))
    /\ (forall c : cockpit X, robust (cockpit_handle c o))
    /\ (forall s : snapshooter X, True).
  Proof.
    intros o. apply tree_ind; auto; intros.
    - rewrite panel_handle_eq. rob.
    - cbn [handler_handle]. auto with robust.
    - cbn [handler_handle]. auto with robust.
    - change (robust (wrap HPanel (panel_handle p o))). auto with robust.
    - change (robust (wrap HCockpit (cockpit_handle c o))). auto with robust.
    - cbn [handler_handle]. pose proof (pr_handler_handle _ _ X HX). auto with robust.
    - rewrite cockpit_handle_eq. rob.
  Qed.

  Lemma named_robust : forall A n (f : snapshot -> M (A * snapshot)) s,
    (forall s, robust (f s)) -> robust (put_named n f s).
  Proof. intros. unfold put_named. rob. Qed.
  Lemma activity_robust : forall A l sh t (a : A) f s,
    (forall s, robust (f s)) -> robust (check_activity l sh t a f s).
  Proof. intros. unfold check_activity. rob. Qed.
  Lemma traverse_put_robust : forall A (f : A -> bool -> snapshot -> M (A * snapshot)) d l s,
    Forall (fun x => forall d s, robust (f x d s)) l -> robust (traverse (fun x => f x d) l s).
  Proof.
    intros. apply robust_traverse. eapply Forall_impl; [|exact H]. cbv beta. auto.
  Qed.

  Lemma tree_put_robust :
    (forall p : panel X, forall d s, robust (panel_put p d s))
    /\ (forall h : handler X, forall d s, robust (handler_put h d s))
    /\ (forall c : cockpit X, forall d s, robust (cockpit_put c d s))
    /\ (forall x : snapshooter X, forall d s, robust (snapshooter_put x d s)).
  Proof.
    apply tree_ind; intros.
    - rewrite panel_put_eq. apply named_robust. intros. apply activity_robust. intros.
      rob; apply traverse_put_robust; assumption.
    - cbn [handler_put]. auto with robust.
    - cbn [handler_put]. auto with robust.
    - change (robust (wrap HPanel (panel_put p d s))). auto with robust.
    - change (robust (wrap HCockpit (cockpit_put c d s))). auto with robust.
    - cbn [handler_put]. pose proof (pr_handler_put _ _ X HX). auto with robust.
    - rewrite cockpit_put_eq. apply named_robust. intros. apply activity_robust. intros.
      rob; apply traverse_put_robust; assumption.
    - cbn [snapshooter_put]. auto with robust.
    - change (robust (wrap (SPolled n d g) (polled_put (snapshooter_put s) n d g d0 s0))).
      apply robust_wrap. unfold polled_put. rob.
    - cbn [snapshooter_put]. auto with robust.
    - change (robust (wrap SHandler (handler_put h d s))). auto with robust.
    - cbn [snapshooter_put]. pose proof (pr_snap_put _ _ X HX). auto with robust.
  Qed.

  Lemma tele_handle_robust : forall (t : tele X) o acc, robust (tele_handle t o acc).
  Proof.
    intros. destruct (tree_handle_robust o) as (_ & Hh & Hc & _). unfold tele_handle.
    rob; apply traverse_tally_robust; apply Forall_forall; auto.
  Qed.
  Hint Resolve tele_handle_robust : robust.

  Lemma tele_message_robust : forall d (t : tele X) n m, robust (tele_message d t n m).
  Proof. intros. unfold tele_message. rob. Qed.

  Lemma tele_put_robust : forall (t : tele X) d s, robust (tele_put t d s).
  Proof.
    intros. destruct tree_put_robust as (_ & Hh & Hc & Hs). unfold tele_put.
    apply named_robust. intros. apply activity_robust. intros.
    rob; apply traverse_put_robust; apply Forall_forall; auto.
  Qed.

  Lemma strategy_decider_robust : forall s, robust (strategy_decider s).
  Proof. intros. unfold strategy_decider. rob. Qed.
  Hint Resolve tele_message_robust tele_put_robust strategy_decider_robust : robust.

  (** ** Processors *)

  Context {Y : pext} (HY : processors_robust k k' Y).

  Lemma processor_put_robust :
    (forall (p : processor X Y) d s, robust (processor_put p d s)) /\ (forall (m : mount X Y) d s, robust (mount_put m d s)).
  Proof.
    apply processor_ind'.
    - intros t d s. change (robust (wrap (PTele (X := X) (Y := Y)) (tele_put t d s))). auto with robust.
    - intros m Hm d s. change (robust (wrap (PMount (X := X) (Y := Y)) (mount_put m d s))). auto with robust.
    - intros r m Hm d s. change (robust (wrap (PAttached (X := X) (Y := Y) r) (mount_put m d s))). auto with robust.
    - intros h d s. change (robust (wrap (PDriver (X := X) (Y := Y)) (driver_put h d s))).
      apply robust_wrap. unfold driver_put. pose proof (pr_driver_snapshot _ _ Y HY). rob.
    - intros u d s. change (robust (wrap (PUser (X := X) (Y := Y)) (user_proc_put Y u d s))).
      pose proof (pr_proc_put _ _ Y HY). auto with robust.
    - intros md ps ss Hps d s. rewrite mount_put_eq. apply named_robust. intros. apply activity_robust. intros.
      destruct tree_put_robust as (_ & _ & _ & Hs). rob; apply traverse_put_robust; [exact Hps | apply Forall_forall; auto].
  Qed.

  Lemma combine_robust : forall W a b, robust (combine_with a b : St W outcome).
  Proof. intros. unfold combine_with. rob. Qed.

  Lemma robust_lift : forall A (m : M A), robust m -> robust (lift m : St (world X Y) A).
  Proof.
    intros A m H w. unfold lift. specialize (H (w_clock w)). destruct (m k (w_clock w)) as [a c| |].
    - rewrite H. reflexivity.
    - exact I.
    - intros E. rewrite (H E). reflexivity.
  Qed.
  Hint Resolve combine_robust robust_lift : robust.

  Lemma queue_try_recv_robust : forall i, robust (queue_try_recv i : St (world X Y) _).
  Proof. intros. apply robust_pure. reflexivity. Qed.
  Lemma queue_len_robust : forall i, robust (queue_len i : St (world X Y) _).
  Proof. intros. apply robust_pure. reflexivity. Qed.
  Lemma mount_try_recv_robust : forall i, robust (mount_try_recv i : St (world X Y) _).
  Proof. intros. apply robust_pure. reflexivity. Qed.
  Hint Resolve queue_try_recv_robust queue_len_robust mount_try_recv_robust : robust.

  Lemma tele_collect_robust : forall n d (t : tele X) acc, robust (tele_collect n d t acc : St (world X Y) _).
  Proof. induction n as [|n IH]; intros; cbn [tele_collect]; rob. Qed.
  Hint Resolve tele_collect_robust : robust.

  Lemma tele_process_robust : forall (t : tele X) max s, robust (tele_process t max s : St (world X Y) _).
  Proof. intros. unfold tele_process. rob. Qed.

  (** The same bound if the builds have the same one *)
  Definition bounds (n n' : nat) : Prop := (n <= n')%nat /\ (fuel k = fuel k' -> n = n').

  Lemma bounds_S : forall n n', bounds (S n) (S n') -> bounds n n'.
  Proof. intros n n' [A B]. split; [lia|]. intros E. specialize (B E). lia. Qed.

  Lemma bounds_fuel : bounds (fuel k) (fuel k').
  Proof. split; [apply (lx_fuel _ _ HK) | auto]. Qed.

  Lemma bounds_O : forall W A n' (m : St W A), bounds 0 n' -> (n' = O -> m = fun _ _ => NoFuel) -> carries (fun _ _ => NoFuel) m.
  Proof. intros W A n' m [_ B] H w E. rewrite H; [reflexivity | symmetry; exact (B E)]. Qed.

  Lemma attached_drain_carries : forall n n' i (m : mount X Y), bounds n n' -> carries (attached_drain n i m) (attached_drain n' i m).
  Proof.
    induction n as [|n IH]; intros n' i m H.
    - apply (bounds_O _ _ n'); [exact H|]. intros ->. reflexivity.
    - destruct n' as [|n']; [destruct H; lia|]. cbn [attached_drain]. apply carries_bind; [apply mount_try_recv_robust|].
      intros [x| |]; [apply IH, bounds_S, H | apply robust_ret | apply robust_ret].
  Qed.

  Lemma attached_take_robust : forall r (m : mount X Y), robust (attached_take r m).
  Proof.
    intros [i|] m; cbn [attached_take]; [|apply robust_ret]. intros w.
    apply (carries_bind _ _ _ (attached_drain (fuel k) i m) (attached_drain (fuel k') i m)); [apply attached_drain_carries, bounds_fuel|].
    intros [m' b]. apply robust_ret.
  Qed.

  Lemma carries_traverse : forall W A S (f f' : A -> S -> St W (A * S)) l s,
    (forall x s, carries (f x s) (f' x s)) -> carries (traverse f l s) (traverse f' l s).
  Proof.
    intros W A S f f' l s H. revert s. induction l as [|x l IH]; intros s; cbn [traverse]; [apply robust_ret|].
    apply carries_bind; [apply H|]. intros [x' s1]. apply carries_bind; [apply IH|]. intros [l' s2]. apply robust_ret.
  Qed.

  Lemma collect_one_carries : forall f f' (p : processor X Y) acc, carries (f p) (f' p) -> carries (collect_one f p acc) (collect_one f' p acc).
  Proof.
    intros f f' p acc H. unfold collect_one. apply carries_bind; [exact H|]. intros [p' o].
    apply carries_bind; [apply combine_robust|]. intros a. apply robust_ret.
  Qed.

  Lemma mount_process_carries : forall f f' (m : mount X Y), (forall p, carries (f p) (f' p)) -> carries (mount_process f m) (mount_process f' m).
  Proof.
    intros f f' [d ps ss] H. cbn [mount_process]. apply carries_bind.
    - apply carries_traverse. intros. apply collect_one_carries, H.
    - intros [ps' o]. destruct (something_happened o); [|apply robust_ret].
      apply carries_bind; [apply robust_lift, robust_now|]. intros t. apply robust_ret.
  Qed.

  Lemma processor_process_carries : forall n n' (p : processor X Y) max s, bounds n n' ->
    carries (processor_process n p max s) (processor_process n' p max s).
  Proof.
    induction n as [|n IH]; intros n' p max s H.
    - apply (bounds_O _ _ n'); [exact H|]. intros ->. reflexivity.
    - destruct n' as [|n']; [destruct H; lia|]. apply bounds_S in H. cbn [processor_process]. destruct p as [t|m|r m|h|u].
      + apply carries_bind; [apply tele_process_robust|]. intros [t' o]. apply robust_ret.
      + apply carries_bind; [apply mount_process_carries; intros; apply IH, H|]. intros [m' o]. apply robust_ret.
      + apply carries_bind; [apply attached_take_robust|]. intros [r' m'].
        apply carries_bind; [apply mount_process_carries; intros; apply IH, H|]. intros [m'' o]. apply robust_ret.
      + apply robust_ret.
      + apply carries_bind; [apply robust_lift, (pr_proc_process _ _ Y HY)|]. intros [u' o]. apply robust_ret.
  Qed.

  Lemma serve_carries : forall n n' l (p : processor X Y), bounds n n' -> carries (serve n p l) (serve n' p l).
  Proof.
    intros n n' l p H. revert p. induction l as [|[max s|de into] l IH]; intros p; cbn [serve].
    - apply robust_ret.
    - apply carries_bind; [apply processor_process_carries, H|]. intros [p' o]. apply IH.
    - apply carries_bind; [apply robust_lift, processor_put_robust|]. intros [p' o]. apply IH.
  Qed.

  (** ** Drivers *)

  Lemma meter_new_robust : forall al n, robust (meter_new al n).
  Proof. intros. unfold meter_new, std_meter_default. rob. Qed.
  Lemma histogram_new_robust : forall n, robust (histogram_new (ex_histo X) n).
  Proof. intros. pose proof (pr_histo_new _ _ X HX). unfold histogram_new. rob. Qed.
  Lemma set_tracking_robust : forall g n, robust (gauge_set_tracking g n).
  Proof. intros. unfold gauge_set_tracking, buckets_new, buckets_initialized. rob. Qed.
  Hint Resolve meter_new_robust histogram_new_robust set_tracking_robust : robust.
  Lemma tracking_gauge_robust : forall n, robust (tracking_gauge n).
  Proof. intros. unfold tracking_gauge. rob. Qed.
  Lemma non_occurrence_new_robust : forall n, robust (non_occurrence_new n).
  Proof. intros. unfold non_occurrence_new. rob. Qed.
  Hint Resolve tracking_gauge_robust non_occurrence_new_robust : robust.
  Lemma instruments_default_robust : robust (driver_instruments_default (X := X)).
  Proof. unfold driver_instruments_default. rob. Qed.
  Hint Resolve instruments_default_robust : robust.
  Lemma driver_start_robust : forall n ds s b, robust (driver_start (X := X) (Y := Y) n ds s b).
  Proof. intros. unfold driver_start. rob. Qed.

  Lemma value_of_duration_robust : forall W d, robust (value_of_duration d : St W _).
  Proof. intros. unfold value_of_duration. rob. Qed.
  Lemma updated_robust : forall A (m : M (A * Z)), robust m -> robust (updated m).
  Proof. intros. unfold updated. rob. Qed.
  Lemma updated_if_robust : forall A b (m : A -> M (A * Z)) a, (forall a, robust (m a)) -> robust (updated_if b m a).
  Proof. intros A [] m a H; unfold updated_if; [apply updated_robust, H | apply robust_ret]. Qed.
  Hint Resolve value_of_duration_robust updated_robust updated_if_robust : robust.
  Lemma post_collection_robust : forall (i : driver_instruments X) o t, robust (update_post_collection i o t).
  Proof. intros. unfold update_post_collection. rob. Qed.
  Lemma post_snapshot_robust : forall (i : driver_instruments X) t, robust (update_post_snapshot i t).
  Proof. intros. unfold update_post_snapshot. rob. Qed.
  Lemma instruments_put_robust : forall (i : driver_instruments X) d s, robust (instruments_put i d s).
  Proof. intros. unfold instruments_put. rob. Qed.
  Lemma run_ratio_robust : forall (i : driver_instruments X) r, robust (update_run_ratio i r).
  Proof. intros. unfold update_run_ratio. rob. Qed.
  Hint Resolve post_collection_robust post_snapshot_robust instruments_put_robust run_ratio_robust : robust.
  Lemma elapsed_stats_robust : forall a b (m : option (driver_instruments X)), robust (report_elapsed_stats a b m).
  Proof. intros. unfold report_elapsed_stats. rob. Qed.
  Hint Resolve elapsed_stats_robust : robust.

  Lemma put_values_robust : forall (d : driver X Y) b s, robust (put_values_into_snapshot d b s).
  Proof.
    intros. destruct processor_put_robust as [Hp _]. destruct tree_put_robust as (_ & _ & _ & Hs).
    assert (A : forall t s, robust (add_snapshot_values d b t s)).
    { intros. unfold add_snapshot_values. rob; apply traverse_put_robust, Forall_forall; auto. }
    unfold put_values_into_snapshot. rob.
  Qed.

  Lemma robust_in_world : forall A (m : St (world X Y) A), robust m -> robust (in_world m).
  Proof.
    intros A m H w. unfold in_world. specialize (H (dw_world w)). destruct (m k (dw_world w)) as [a c| |].
    - rewrite H. reflexivity.
    - exact I.
    - intros E. rewrite (H E). reflexivity.
  Qed.
  Lemma robust_timed : forall A (m : M A), robust m -> robust (timed m : St (dworld X Y) A).
  Proof. intros. apply robust_in_world, robust_lift. assumption. Qed.
  Hint Resolve put_values_robust robust_timed : robust.

  Lemma load_running_robust : robust (load_running : St (dworld X Y) _).
  Proof. apply robust_pure. reflexivity. Qed.
  Lemma command_try_recv_robust : robust (command_try_recv : St (dworld X Y) _).
  Proof. apply robust_pure. reflexivity. Qed.
  Lemma answer_robust : forall b s, robust (answer b s : St (dworld X Y) _).
  Proof. intros. apply robust_pure. reflexivity. Qed.
  Lemma hang_up_robust : robust (hang_up : St (dworld X Y) _).
  Proof. apply robust_pure. reflexivity. Qed.
  Hint Resolve load_running_robust command_try_recv_robust answer_robust hang_up_robust : robust.

  Lemma driver_command_robust : forall (d : driver X Y) c, robust (driver_command d c).
  Proof. intros. unfold driver_command. rob. Qed.

  Lemma do_a_run_robust : forall (ps : list (processor X Y)) max s, robust (do_a_run ps max s).
  Proof.
    intros ps max s w. unfold do_a_run. apply carries_traverse. intros. apply collect_one_carries.
    apply processor_process_carries, bounds_fuel.
  Qed.
  Hint Resolve driver_command_robust do_a_run_robust robust_in_world : robust.

  Lemma driver_run_robust : forall (d : driver X Y) t, robust (driver_run d t).
  Proof. intros. unfold driver_run. rob. Qed.
  Hint Resolve driver_run_robust : robust.
  Lemma driver_iteration_robust : forall (d : driver X Y), robust (driver_iteration d).
  Proof. intros. unfold driver_iteration. rob. Qed.
  Lemma run_iterations_robust : forall n (d : driver X Y), robust (run_iterations n d).
  Proof.
    induction n as [|n IH]; intros d; cbn [run_iterations]; [apply robust_ret|].
    apply robust_bind; [apply driver_iteration_robust|]. intros [d' []]; [apply IH | apply robust_ret].
  Qed.
End Tree.
End Profile.
