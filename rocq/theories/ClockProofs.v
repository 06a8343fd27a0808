(** No part of the library changes the clock. *)
From Coq Require Import ZArith Bool String List Lia.
From Verif Require Import Base SpecRun MonadFacts ModelObservation ModelLabelFilter ModelSnapshot ModelBuckets
  ModelCounter ModelGauge ModelMeter ModelHistogram ModelSwitches ModelInstrument ModelTree ModelChannel
  ModelProcessor SpecClock TreeInd TreeEqs TreeProofs.
Import ListNotations.
Open Scope Z_scope.

Lemma later_refl : forall c, later c c.
Proof. intros c. exists O. reflexivity. Qed.

Lemma later_trans : forall a b c, later a b -> later b c -> later a c.
Proof.
  intros a b c (n & Hn) (m & Hm). exists (n + m)%nat. intros i. rewrite Hm, Hn. f_equal. lia.
Qed.

Lemma later_tail : forall c, later c (clock_tail c).
Proof. intros c. exists 1%nat. reflexivity. Qed.

Lemma ticks_ret : forall A (a : A), ticks (ret a).
Proof. intros A a k c x c' E. injection E as <- <-. apply later_refl. Qed.

Lemma ticks_bind : forall A B (m : M A) (f : A -> M B), ticks m -> (forall a, ticks (f a)) -> ticks (bind m f).
Proof.
  intros A B m f Hm Hf k c b c' E. apply bind_ok in E. destruct E as (a & c1 & E1 & E2).
  eapply later_trans; [exact (Hm _ _ _ _ E1) | exact (Hf _ _ _ _ _ E2)].
Qed.

Lemma ticks_now : ticks now.
Proof. intros k c a c' E. injection E as <- <-. apply later_tail. Qed.

Lemma ticks_panic : forall A, ticks (panic (A := A)).
Proof. intros A k c a c' E. discriminate E. Qed.

Lemma ticks_no_fuel : forall A, ticks (fun _ _ => NoFuel : res clock A).
Proof. intros A k c a c' E. discriminate E. Qed.

Lemma ticks_arith : forall lo hi w r, ticks (arith lo hi w r).
Proof.
  intros lo hi w r k c a c' E. unfold arith in E.
  destruct ((lo <=? r) && (r <=? hi)); [|destruct (overflow_checks k)]; try discriminate E;
    injection E as <- <-; apply later_refl.
Qed.

Lemma ticks_add : forall t d, ticks (instant_add t d).
Proof.
  intros t d k c a c' E. unfold instant_add in E. destruct (t + d <=? max_instant k); [|discriminate E].
  injection E as <- <-. apply later_refl.
Qed.

Lemma ticks_sub : forall t d, ticks (instant_sub t d).
Proof.
  intros t d k c a c' E. unfold instant_sub in E. destruct (min_instant k <=? t - d); [|discriminate E].
  injection E as <- <-. apply later_refl.
Qed.

Lemma ticks_traverse : forall A S (f : A -> S -> M (A * S)) l s,
  Forall (fun x => forall s, ticks (f x s)) l -> ticks (traverse f l s).
Proof.
  intros A S f l s H. revert s. induction H as [|x l Hx H IH]; intros s; cbn [traverse].
  - apply ticks_ret.
  - apply ticks_bind; [apply Hx|]. intros [x' s1]. apply ticks_bind; [apply IH|]. intros [l' s2]. apply ticks_ret.
Qed.

Lemma ticks_traverse_opt : forall A S (f : A -> S -> M (A * S)) o s,
  (forall x s, ticks (f x s)) -> ticks (traverse_opt f o s).
Proof.
  intros A S f [x|] s H; cbn [traverse_opt].
  - apply ticks_bind; [apply H|]. intros [x' s1]. apply ticks_ret.
  - apply ticks_ret.
Qed.

#[global] Hint Resolve ticks_ret ticks_now ticks_panic ticks_no_fuel ticks_arith ticks_add ticks_sub : ticks.

Ltac tick1 :=
  match goal with
  | |- ticks (bind _ _) => apply ticks_bind
  | |- forall _, _ => intro
  | |- ticks (match ?x with _ => _ end) => destruct x
  | |- ticks (let '_ := ?x in _) => destruct x
  | _ => solve [auto with ticks]
  end.
Ltac tick := repeat (tick1; cbv beta zeta).

Lemma elapsed_ticks : forall s, ticks (elapsed s).
Proof. intros. unfold elapsed. tick. Qed.
#[global] Hint Resolve elapsed_ticks : ticks.

Lemma add_usize_ticks : forall a b, ticks (add_usize a b).
Proof. intros. apply ticks_arith. Qed.
Lemma add_u64_ticks : forall a b, ticks (add_u64 a b).
Proof. intros. apply ticks_arith. Qed.
Lemma mul_u64_ticks : forall a b, ticks (mul_u64 a b).
Proof. intros. apply ticks_arith. Qed.
Lemma add_i64_ticks : forall a b, ticks (add_i64 a b).
Proof. intros. apply ticks_arith. Qed.
#[global] Hint Resolve add_usize_ticks add_u64_ticks mul_u64_ticks add_i64_ticks : ticks.

Lemma duration_ticks : forall t u d, ticks (duration_to_display_value t u d).
Proof. intros. unfold duration_to_display_value. tick. Qed.
#[global] Hint Resolve duration_ticks : ticks.

Lemma counter_update_ticks : forall c u, ticks (counter_update c u).
Proof. intros. unfold counter_update, counter_inc, counter_inc_by. tick. Qed.
#[global] Hint Resolve counter_update_ticks : ticks.

Section Buckets.
  Context {T : Type} (dflt : T).
  Lemma index_set_ticks : forall (l : list T) i x, ticks (index_set l i x).
  Proof. intros. unfold index_set. tick. Qed.
  Lemma index_get_ticks : forall (l : list T) i, ticks (index_get l i).
  Proof. intros. unfold index_get. tick. Qed.
  Hint Resolve index_set_ticks index_get_ticks : ticks.
  Lemma idx_ticks : forall (b : buckets T) o, ticks (idx b o).
  Proof. intros. unfold idx. tick. Qed.
  Hint Resolve idx_ticks : ticks.
  Lemma advance_ticks : forall b, ticks (advance dflt b).
  Proof. intros. unfold advance. tick. Qed.
  Hint Resolve advance_ticks : ticks.
  Lemma advance_n_ticks : forall n b, ticks (advance_n dflt n b).
  Proof. induction n; intros; cbn [advance_n]; tick. Qed.
  Hint Resolve advance_n_ticks : ticks.
  Lemma tick_ticks : forall b, ticks (ModelBuckets.tick dflt b).
  Proof. intros. unfold ModelBuckets.tick. tick. Qed.
  Hint Resolve tick_ticks : ticks.
  Lemma current_mut_ticks : forall b f, (forall x, ticks (f x)) -> ticks (current_mut dflt b f).
  Proof. intros. unfold current_mut. tick. Qed.
  Lemma iterator_ticks : forall (bs : list T) n i, ticks (bucket_iterator bs n i).
  Proof. induction n; intros; cbn [bucket_iterator]; tick. Qed.
  Hint Resolve iterator_ticks : ticks.
  Lemma iter_ticks : forall b, ticks (iter dflt b).
  Proof. intros. unfold iter. tick. Qed.
End Buckets.
#[global] Hint Resolve current_mut_ticks iter_ticks : ticks.

Lemma bucket_update_ticks : forall b v, ticks (bucket_update b v).
Proof. intros. unfold bucket_update. tick. Qed.
#[global] Hint Resolve bucket_update_ticks : ticks.

Lemma stats_fold_ticks : forall l a, ticks (stats_fold l a).
Proof.
  induction l; intros; cbn [stats_fold]; [tick|]. apply ticks_bind; [|auto]. unfold stats_step. tick.
Qed.
#[global] Hint Resolve stats_fold_ticks : ticks.

Lemma from_buckets_ticks : forall b v, ticks (from_buckets b v).
Proof. intros. unfold from_buckets. tick. Qed.
#[global] Hint Resolve from_buckets_ticks : ticks.

Lemma gauge_next_ticks : forall g v o, ticks (gauge_next_value g v o).
Proof. intros. unfold gauge_next_value. tick. Qed.
Lemma gauge_track_ticks : forall t v, ticks (gauge_track t v).
Proof. intros. unfold gauge_track. tick. Qed.
#[global] Hint Resolve gauge_next_ticks gauge_track_ticks : ticks.

Lemma gauge_update_ticks : forall g u, ticks (gauge_update g u).
Proof. intros. unfold gauge_update, gauge_set. tick. Qed.
#[global] Hint Resolve gauge_update_ticks : ticks.

Lemma gauge_put_ticks : forall g d s, ticks (gauge_put g d s).
Proof. intros. unfold gauge_put, gauge_put_values. tick. Qed.
#[global] Hint Resolve gauge_put_ticks : ticks.

Lemma ga_handle_ticks : forall L eqb (a : gauge_adapter L) o, ticks (ga_handle eqb a o).
Proof. intros. unfold ga_handle. tick. Qed.
Lemma ga_put_ticks : forall L (a : gauge_adapter L) d s, ticks (ga_put a d s).
Proof. intros. unfold ga_put. tick. Qed.
#[global] Hint Resolve ga_handle_ticks ga_put_ticks : ticks.

Lemma tick_loop_ticks : forall n t s, ticks (std_tick_loop n t s).
Proof. induction n; intros; cbn [std_tick_loop]; tick. Qed.
#[global] Hint Resolve tick_loop_ticks : ticks.
Lemma tick_inner_ticks : forall s, ticks (std_tick_inner s).
Proof. intros. unfold std_tick_inner. tick. Qed.
#[global] Hint Resolve tick_inner_ticks : ticks.
Lemma maybe_tick_ticks : forall m, ticks (meter_maybe_tick m).
Proof. intros. unfold meter_maybe_tick, std_tick. tick. Qed.
Lemma mark_ticks : forall m n, ticks (meter_mark m n).
Proof. intros. unfold meter_mark, std_mark. tick. Qed.
#[global] Hint Resolve maybe_tick_ticks mark_ticks : ticks.
Lemma meter_update_ticks : forall m u, ticks (meter_update m u).
Proof. intros. unfold meter_update. tick. Qed.
Lemma mean_ticks : forall s, ticks (std_mean_inner s).
Proof. intros. unfold std_mean_inner. tick. Qed.
#[global] Hint Resolve meter_update_ticks mean_ticks : ticks.
Lemma meter_put_ticks : forall m d s, ticks (meter_put m d s).
Proof. intros. unfold meter_put, meter_get_snapshot, std_snapshot. tick. Qed.
#[global] Hint Resolve meter_put_ticks : ticks.
Lemma value_meter_update_ticks : forall m u, ticks (value_meter_update m u).
Proof. intros. unfold value_meter_update. tick. Qed.
Lemma value_meter_put_ticks : forall m d s, ticks (value_meter_put m d s).
Proof. intros. unfold value_meter_put. tick. Qed.
#[global] Hint Resolve value_meter_update_ticks value_meter_put_ticks : ticks.

Lemma timed_put_ticks : forall n ds state sh d s, ticks state -> ticks (put_timed_switch n ds state sh d s).
Proof. intros. unfold put_timed_switch. tick. Qed.
Lemma staircase_put_ticks : forall t d s, ticks (staircase_put t d s).
Proof. intros. apply timed_put_ticks. unfold staircase_state. tick. Qed.
Lemma occurrence_put_ticks : forall t d s, ticks (occurrence_put t d s).
Proof. intros. apply timed_put_ticks. unfold occurrence_state. tick. Qed.
Lemma non_occurrence_put_ticks : forall t d s, ticks (non_occurrence_put t d s).
Proof. intros. apply timed_put_ticks. unfold non_occurrence_state. tick. Qed.
Lemma staircase_update_ticks : forall t u, ticks (staircase_update t u).
Proof. intros. unfold staircase_update. tick. Qed.
Lemma occurrence_update_ticks : forall t u, ticks (occurrence_update t u).
Proof. intros. unfold occurrence_update. tick. Qed.
Lemma non_occurrence_update_ticks : forall t u, ticks (non_occurrence_update t u).
Proof. intros. unfold non_occurrence_update. tick. Qed.
Lemma last_update_ticks : forall t u, ticks (last_occurrence_update t u).
Proof. intros. unfold last_occurrence_update. tick. Qed.
Lemma last_put_ticks : forall t d s, ticks (last_occurrence_put t d s).
Proof. intros. unfold last_occurrence_put, last_occurrence_elapsed. tick. Qed.
Lemma display_update_ticks : forall t u, ticks (display_update t u).
Proof. intros. unfold display_update. tick. Qed.
Lemma display_put_ticks : forall t d s, ticks (display_put t d s).
Proof. intros. unfold display_put, display_value. tick. Qed.
#[global] Hint Resolve staircase_put_ticks occurrence_put_ticks non_occurrence_put_ticks staircase_update_ticks
  occurrence_update_ticks non_occurrence_update_ticks last_update_ticks last_put_ticks display_update_ticks
  display_put_ticks : ticks.

Lemma ticks_wrap : forall A B C (f : A -> B) (m : M (A * C)), ticks m -> ticks (wrap f m).
Proof. intros. unfold wrap. tick. Qed.
Lemma ticks_keep : forall A C (a : A) (m : M C), ticks m -> ticks (keep a m).
Proof. intros. unfold keep. tick. Qed.
#[global] Hint Resolve ticks_wrap ticks_keep : ticks.

Section Tree.
  Context {X : ext} (HX : parts_tick X).

  Lemma histogram_update_ticks : forall (h : histogram (ex_histo X)) u, ticks (histogram_update h u).
  Proof.
    intros. pose proof (pt_histo_new X HX). pose proof (pt_histo_update X HX).
    unfold histogram_update, histogram_maybe_reset, histogram_record. tick.
  Qed.
  Lemma histogram_put_ticks : forall (h : histogram (ex_histo X)) d s, ticks (histogram_put h d s).
  Proof. intros. unfold histogram_put, histogram_put_values. tick. Qed.
  Hint Resolve histogram_update_ticks histogram_put_ticks : ticks.

  Lemma instrument_update_ticks : forall (i : instrument X) u, ticks (instrument_update i u).
  Proof.
    intros. pose proof (pt_instr_update X HX). destruct i; cbn [instrument_update]; auto with ticks.
  Qed.
  Lemma instrument_put_ticks : forall (i : instrument X) d s, ticks (instrument_put i d s).
  Proof.
    intros. pose proof (pt_instr_put X HX). destruct i; cbn [instrument_put]; auto with ticks.
  Qed.
  Hint Resolve instrument_update_ticks instrument_put_ticks : ticks.

  Lemma adapter_handle_ticks : forall I upd (a : adapter X I) o,
    (forall i u, ticks (upd i u)) -> ticks (adapter_handle upd a o).
  Proof. intros. unfold adapter_handle. tick. Qed.
  Lemma adapter_put_ticks : forall I put (a : adapter X I) d s,
    (forall i d s, ticks (put i d s)) -> ticks (adapter_put put a d s).
  Proof. intros. unfold adapter_put. tick. Qed.
  Hint Resolve adapter_handle_ticks adapter_put_ticks : ticks.

  Lemma tally_ticks : forall A (f : A -> M (A * Z)) x acc, ticks (f x) -> ticks (tally f x acc).
  Proof. intros. unfold tally. tick. Qed.
  Hint Resolve tally_ticks : ticks.

  Lemma slots_handle_ticks : forall (sl : slots X) o acc, ticks (slots_handle sl o acc).
  Proof.
    intros. unfold slots_handle. tick; apply ticks_traverse_opt; intros; apply tally_ticks; auto with ticks.
  Qed.
  Lemma slots_put_ticks : forall de (sl : slots X) s, ticks (slots_put de sl s).
  Proof.
    intros. unfold slots_put. tick; apply ticks_traverse_opt; intros;
      first [apply adapter_put_ticks; intros; auto with ticks | auto with ticks].
  Qed.
  Hint Resolve slots_handle_ticks slots_put_ticks : ticks.

  Lemma traverse_tally_ticks : forall A (f : A -> M (A * Z)) l acc,
    Forall (fun x => ticks (f x)) l -> ticks (traverse (tally f) l acc).
  Proof.
    intros. apply ticks_traverse. eapply Forall_impl; [|exact H]. cbv beta. auto with ticks.
  Qed.
  Hint Resolve traverse_tally_ticks : ticks.

  Lemma tree_handle_ticks : forall o,
    (forall p : panel X, ticks (panel_handle p o))
    /\ (forall h : handler X, ticks (handler_handle h o))
    /\ (forall c : cockpit X, ticks (cockpit_handle c o))
    /\ (forall s : snapshooter X, True).
  Proof.
    intros o. apply tree_ind; auto; intros.
    - rewrite panel_handle_eq. tick.
    - cbn [handler_handle]. auto with ticks.
    - cbn [handler_handle]. auto with ticks.
    - change (ticks (wrap HPanel (panel_handle p o))). auto with ticks.
    - change (ticks (wrap HCockpit (cockpit_handle c o))). auto with ticks.
    - cbn [handler_handle]. pose proof (pt_handler_handle X HX). auto with ticks.
    - rewrite cockpit_handle_eq. tick.
  Qed.

  Lemma named_ticks : forall A n (f : snapshot -> M (A * snapshot)) s,
    (forall s, ticks (f s)) -> ticks (put_named n f s).
  Proof. intros. unfold put_named. tick. Qed.
  Lemma activity_ticks : forall A l sh t (a : A) f s,
    (forall s, ticks (f s)) -> ticks (check_activity l sh t a f s).
  Proof. intros. unfold check_activity. tick. Qed.
  Lemma traverse_put_ticks : forall A (f : A -> bool -> snapshot -> M (A * snapshot)) d l s,
    Forall (fun x => forall d s, ticks (f x d s)) l -> ticks (traverse (fun x => f x d) l s).
  Proof.
    intros. apply ticks_traverse. eapply Forall_impl; [|exact H]. cbv beta. auto.
  Qed.

  Lemma tree_put_ticks :
    (forall p : panel X, forall d s, ticks (panel_put p d s))
    /\ (forall h : handler X, forall d s, ticks (handler_put h d s))
    /\ (forall c : cockpit X, forall d s, ticks (cockpit_put c d s))
    /\ (forall x : snapshooter X, forall d s, ticks (snapshooter_put x d s)).
  Proof.
    apply tree_ind; intros.
    - rewrite panel_put_eq. apply named_ticks. intros. apply activity_ticks. intros.
      tick; apply traverse_put_ticks; assumption.
    - cbn [handler_put]. auto with ticks.
    - cbn [handler_put]. auto with ticks.
    - change (ticks (wrap HPanel (panel_put p d s))). auto with ticks.
    - change (ticks (wrap HCockpit (cockpit_put c d s))). auto with ticks.
    - cbn [handler_put]. pose proof (pt_handler_put X HX). auto with ticks.
    - rewrite cockpit_put_eq. apply named_ticks. intros. apply activity_ticks. intros.
      tick; apply traverse_put_ticks; assumption.
    - cbn [snapshooter_put]. auto with ticks.
    - change (ticks (wrap (SPolled n d g) (polled_put (snapshooter_put s) n d g d0 s0))).
      apply ticks_wrap. unfold polled_put. tick.
    - cbn [snapshooter_put]. auto with ticks.
    - change (ticks (wrap SHandler (handler_put h d s))). auto with ticks.
    - cbn [snapshooter_put]. pose proof (pt_snap_put X HX). auto with ticks.
  Qed.

  Lemma tele_handle_ticks : forall (t : tele X) o acc, ticks (tele_handle t o acc).
  Proof.
    intros. destruct (tree_handle_ticks o) as (_ & Hh & Hc & _). unfold tele_handle.
    tick; apply traverse_tally_ticks; apply Forall_forall; auto.
  Qed.
  Hint Resolve tele_handle_ticks : ticks.

  Lemma tele_message_ticks : forall d (t : tele X) n m, ticks (tele_message d t n m).
  Proof. intros. unfold tele_message. tick. Qed.

  Lemma tele_put_ticks : forall (t : tele X) d s, ticks (tele_put t d s).
  Proof.
    intros. destruct tree_put_ticks as (_ & Hh & Hc & Hs). unfold tele_put.
    apply named_ticks. intros. apply activity_ticks. intros.
    tick; apply traverse_put_ticks; apply Forall_forall; auto.
  Qed.

  Lemma strategy_decider_ticks : forall s, ticks (strategy_decider s).
  Proof. intros. unfold strategy_decider. tick. Qed.
End Tree.
