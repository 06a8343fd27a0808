(** A clock that stands still stands still after every operation of the library. *)
From Coq Require Import ZArith Bool String List Lia.
From Verif Require Import Base SpecRun MonadFacts ModelObservation ModelLabelFilter ModelSnapshot ModelBuckets
  ModelCounter ModelGauge ModelMeter ModelHistogram ModelSwitches ModelInstrument ModelTree ModelChannel
  ModelProcessor SpecReads TreeInd TreeEqs TreeProofs.
Import ListNotations.
Open Scope Z_scope.

Lemma stays_ret : forall A (a : A), stays (ret a).
Proof. intros A a k c x c' E. injection E as <- <-. reflexivity. Qed.

Lemma stays_bind : forall A B (m : M A) (f : A -> M B), stays m -> (forall a, stays (f a)) -> stays (bind m f).
Proof.
  intros A B m f Hm Hf k t b c' E. apply bind_ok in E. destruct E as (a & c1 & E1 & E2).
  apply Hm in E1. subst c1. exact (Hf _ _ _ _ _ E2).
Qed.

Lemma stays_now : stays now.
Proof. intros k c a c' E. injection E as <- <-. reflexivity. Qed.

Lemma stays_panic : forall A, stays (panic (A := A)).
Proof. intros A k c a c' E. discriminate E. Qed.

Lemma stays_no_fuel : forall A, stays (fun _ _ => NoFuel : res clock A).
Proof. intros A k c a c' E. discriminate E. Qed.

Lemma stays_arith : forall lo hi w r, stays (arith lo hi w r).
Proof.
  intros lo hi w r k c a c' E. unfold arith in E.
  destruct ((lo <=? r) && (r <=? hi)); [|destruct (overflow_checks k)]; try discriminate E;
    injection E as <- <-; reflexivity.
Qed.

Lemma stays_add : forall t d, stays (instant_add t d).
Proof.
  intros t d k c a c' E. unfold instant_add in E. destruct (t + d <=? max_instant k); [|discriminate E].
  injection E as <- <-. reflexivity.
Qed.

Lemma stays_sub : forall t d, stays (instant_sub t d).
Proof.
  intros t d k c a c' E. unfold instant_sub in E. destruct (min_instant k <=? t - d); [|discriminate E].
  injection E as <- <-. reflexivity.
Qed.

Lemma stays_traverse : forall A S (f : A -> S -> M (A * S)) l s,
  Forall (fun x => forall s, stays (f x s)) l -> stays (traverse f l s).
Proof.
  intros A S f l s H. revert s. induction H as [|x l Hx H IH]; intros s; cbn [traverse].
  - apply stays_ret.
  - apply stays_bind; [apply Hx|]. intros [x' s1]. apply stays_bind; [apply IH|]. intros [l' s2]. apply stays_ret.
Qed.

Lemma stays_traverse_opt : forall A S (f : A -> S -> M (A * S)) o s,
  (forall x s, stays (f x s)) -> stays (traverse_opt f o s).
Proof.
  intros A S f [x|] s H; cbn [traverse_opt].
  - apply stays_bind; [apply H|]. intros [x' s1]. apply stays_ret.
  - apply stays_ret.
Qed.

#[global] Hint Resolve stays_ret stays_now stays_panic stays_no_fuel stays_arith stays_add stays_sub : stays.

Ltac stay1 :=
  match goal with
  | |- stays (bind _ _) => apply stays_bind
  | |- forall _, _ => intro
  | |- stays (match ?x with _ => _ end) => destruct x
  | |- stays (let '_ := ?x in _) => destruct x
  | _ => solve [auto with stays]
  end.
Ltac stay := repeat (stay1; cbv beta zeta).

Lemma elapsed_stays : forall s, stays (elapsed s).
Proof. intros. unfold elapsed. stay. Qed.
#[global] Hint Resolve elapsed_stays : stays.

Lemma add_usize_stays : forall a b, stays (add_usize a b).
Proof. intros. apply stays_arith. Qed.
Lemma add_u64_stays : forall a b, stays (add_u64 a b).
Proof. intros. apply stays_arith. Qed.
Lemma mul_u64_stays : forall a b, stays (mul_u64 a b).
Proof. intros. apply stays_arith. Qed.
Lemma add_i64_stays : forall a b, stays (add_i64 a b).
Proof. intros. apply stays_arith. Qed.
#[global] Hint Resolve add_usize_stays add_u64_stays mul_u64_stays add_i64_stays : stays.

Lemma duration_stays : forall t u d, stays (duration_to_display_value t u d).
Proof. intros. unfold duration_to_display_value. stay. Qed.
#[global] Hint Resolve duration_stays : stays.

Lemma counter_update_stays : forall c u, stays (counter_update c u).
Proof. intros. unfold counter_update, counter_inc, counter_inc_by. stay. Qed.
#[global] Hint Resolve counter_update_stays : stays.

Section Buckets.
  Context {T : Type} (dflt : T).
  Lemma index_set_stays : forall (l : list T) i x, stays (index_set l i x).
  Proof. intros. unfold index_set. stay. Qed.
  Lemma index_get_stays : forall (l : list T) i, stays (index_get l i).
  Proof. intros. unfold index_get. stay. Qed.
  Hint Resolve index_set_stays index_get_stays : stays.
  Lemma idx_stays : forall (b : buckets T) o, stays (idx b o).
  Proof. intros. unfold idx. stay. Qed.
  Hint Resolve idx_stays : stays.
  Lemma advance_stays : forall b, stays (advance dflt b).
  Proof. intros. unfold advance. stay. Qed.
  Hint Resolve advance_stays : stays.
  Lemma advance_n_stays : forall n b, stays (advance_n dflt n b).
  Proof. induction n; intros; cbn [advance_n]; stay. Qed.
  Hint Resolve advance_n_stays : stays.
  Lemma tick_stays : forall b, stays (ModelBuckets.tick dflt b).
  Proof. intros. unfold ModelBuckets.tick. stay. Qed.
  Hint Resolve tick_stays : stays.
  Lemma current_mut_stays : forall b f, (forall x, stays (f x)) -> stays (current_mut dflt b f).
  Proof. intros. unfold current_mut. stay. Qed.
  Lemma iterator_stays : forall (bs : list T) n i, stays (bucket_iterator bs n i).
  Proof. induction n; intros; cbn [bucket_iterator]; stay. Qed.
  Hint Resolve iterator_stays : stays.
  Lemma iter_stays : forall b, stays (iter dflt b).
  Proof. intros. unfold iter. stay. Qed.
End Buckets.
#[global] Hint Resolve current_mut_stays iter_stays : stays.

Lemma bucket_update_stays : forall b v, stays (bucket_update b v).
Proof. intros. unfold bucket_update. stay. Qed.
#[global] Hint Resolve bucket_update_stays : stays.

Lemma stats_fold_stays : forall l a, stays (stats_fold l a).
Proof.
  induction l; intros; cbn [stats_fold]; [stay|]. apply stays_bind; [|auto]. unfold stats_step. stay.
Qed.
#[global] Hint Resolve stats_fold_stays : stays.

Lemma from_buckets_stays : forall b v, stays (from_buckets b v).
Proof. intros. unfold from_buckets. stay. Qed.
#[global] Hint Resolve from_buckets_stays : stays.

Lemma gauge_next_stays : forall g v o, stays (gauge_next_value g v o).
Proof. intros. unfold gauge_next_value. stay. Qed.
Lemma gauge_track_stays : forall t v, stays (gauge_track t v).
Proof. intros. unfold gauge_track. stay. Qed.
#[global] Hint Resolve gauge_next_stays gauge_track_stays : stays.

Lemma gauge_update_stays : forall g u, stays (gauge_update g u).
Proof. intros. unfold gauge_update, gauge_set. stay. Qed.
#[global] Hint Resolve gauge_update_stays : stays.

Lemma gauge_put_stays : forall g d s, stays (gauge_put g d s).
Proof. intros. unfold gauge_put, gauge_put_values. stay. Qed.
#[global] Hint Resolve gauge_put_stays : stays.

Lemma ga_handle_stays : forall L eqb (a : gauge_adapter L) o, stays (ga_handle eqb a o).
Proof. intros. unfold ga_handle. stay. Qed.
Lemma ga_put_stays : forall L (a : gauge_adapter L) d s, stays (ga_put a d s).
Proof. intros. unfold ga_put. stay. Qed.
#[global] Hint Resolve ga_handle_stays ga_put_stays : stays.

Lemma tick_loop_stays : forall n t s, stays (std_tick_loop n t s).
Proof. induction n; intros; cbn [std_tick_loop]; stay. Qed.
#[global] Hint Resolve tick_loop_stays : stays.
Lemma tick_inner_stays : forall s, stays (std_tick_inner s).
Proof. intros. unfold std_tick_inner. stay. Qed.
#[global] Hint Resolve tick_inner_stays : stays.
Lemma maybe_tick_stays : forall m, stays (meter_maybe_tick m).
Proof. intros. unfold meter_maybe_tick, std_tick. stay. Qed.
Lemma mark_stays : forall m n, stays (meter_mark m n).
Proof. intros. unfold meter_mark, std_mark. stay. Qed.
#[global] Hint Resolve maybe_tick_stays mark_stays : stays.
Lemma meter_update_stays : forall m u, stays (meter_update m u).
Proof. intros. unfold meter_update. stay. Qed.
Lemma mean_stays : forall s, stays (std_mean_inner s).
Proof. intros. unfold std_mean_inner. stay. Qed.
#[global] Hint Resolve meter_update_stays mean_stays : stays.
Lemma meter_put_stays : forall m d s, stays (meter_put m d s).
Proof. intros. unfold meter_put, meter_get_snapshot, std_snapshot. stay. Qed.
#[global] Hint Resolve meter_put_stays : stays.
Lemma value_meter_update_stays : forall m u, stays (value_meter_update m u).
Proof. intros. unfold value_meter_update. stay. Qed.
Lemma value_meter_put_stays : forall m d s, stays (value_meter_put m d s).
Proof. intros. unfold value_meter_put. stay. Qed.
#[global] Hint Resolve value_meter_update_stays value_meter_put_stays : stays.

Lemma timed_put_stays : forall n ds state sh d s, stays state -> stays (put_timed_switch n ds state sh d s).
Proof. intros. unfold put_timed_switch. stay. Qed.
Lemma staircase_put_stays : forall t d s, stays (staircase_put t d s).
Proof. intros. apply timed_put_stays. unfold staircase_state. stay. Qed.
Lemma occurrence_put_stays : forall t d s, stays (occurrence_put t d s).
Proof. intros. apply timed_put_stays. unfold occurrence_state. stay. Qed.
Lemma non_occurrence_put_stays : forall t d s, stays (non_occurrence_put t d s).
Proof. intros. apply timed_put_stays. unfold non_occurrence_state. stay. Qed.
Lemma staircase_update_stays : forall t u, stays (staircase_update t u).
Proof. intros. unfold staircase_update. stay. Qed.
Lemma occurrence_update_stays : forall t u, stays (occurrence_update t u).
Proof. intros. unfold occurrence_update. stay. Qed.
Lemma non_occurrence_update_stays : forall t u, stays (non_occurrence_update t u).
Proof. intros. unfold non_occurrence_update. stay. Qed.
Lemma last_update_stays : forall t u, stays (last_occurrence_update t u).
Proof. intros. unfold last_occurrence_update. stay. Qed.
Lemma last_put_stays : forall t d s, stays (last_occurrence_put t d s).
Proof. intros. unfold last_occurrence_put, last_occurrence_elapsed. stay. Qed.
Lemma display_update_stays : forall t u, stays (display_update t u).
Proof. intros. unfold display_update. stay. Qed.
Lemma display_put_stays : forall t d s, stays (display_put t d s).
Proof. intros. unfold display_put, display_value. stay. Qed.
#[global] Hint Resolve staircase_put_stays occurrence_put_stays non_occurrence_put_stays staircase_update_stays
  occurrence_update_stays non_occurrence_update_stays last_update_stays last_put_stays display_update_stays
  display_put_stays : stays.

Lemma stays_wrap : forall A B C (f : A -> B) (m : M (A * C)), stays m -> stays (wrap f m).
Proof. intros. unfold wrap. stay. Qed.
Lemma stays_keep : forall A C (a : A) (m : M C), stays m -> stays (keep a m).
Proof. intros. unfold keep. stay. Qed.
#[global] Hint Resolve stays_wrap stays_keep : stays.

Section Tree.
  Context {X : ext} (HX : parts_quiet X).

  Lemma histogram_update_stays : forall (h : histogram (ex_histo X)) u, stays (histogram_update h u).
  Proof.
    intros. pose proof (pq_histo_new X HX). pose proof (pq_histo_update X HX).
    unfold histogram_update, histogram_maybe_reset, histogram_record. stay.
  Qed.
  Lemma histogram_put_stays : forall (h : histogram (ex_histo X)) d s, stays (histogram_put h d s).
  Proof. intros. unfold histogram_put, histogram_put_values. stay. Qed.
  Hint Resolve histogram_update_stays histogram_put_stays : stays.

  Lemma instrument_update_stays : forall (i : instrument X) u, stays (instrument_update i u).
  Proof.
    intros. pose proof (pq_instr_update X HX). destruct i; cbn [instrument_update]; auto with stays.
  Qed.
  Lemma instrument_put_stays : forall (i : instrument X) d s, stays (instrument_put i d s).
  Proof.
    intros. pose proof (pq_instr_put X HX). destruct i; cbn [instrument_put]; auto with stays.
  Qed.
  Hint Resolve instrument_update_stays instrument_put_stays : stays.

  Lemma adapter_handle_stays : forall I upd (a : adapter X I) o,
    (forall i u, stays (upd i u)) -> stays (adapter_handle upd a o).
  Proof. intros. unfold adapter_handle. stay. Qed.
  Lemma adapter_put_stays : forall I put (a : adapter X I) d s,
    (forall i d s, stays (put i d s)) -> stays (adapter_put put a d s).
  Proof. intros. unfold adapter_put. stay. Qed.
  Hint Resolve adapter_handle_stays adapter_put_stays : stays.

  Lemma tally_stays : forall A (f : A -> M (A * Z)) x acc, stays (f x) -> stays (tally f x acc).
  Proof. intros. unfold tally. stay. Qed.
  Hint Resolve tally_stays : stays.

  Lemma slots_handle_stays : forall (sl : slots X) o acc, stays (slots_handle sl o acc).
  Proof.
    intros. unfold slots_handle. stay; apply stays_traverse_opt; intros; apply tally_stays; auto with stays.
  Qed.
  Lemma slots_put_stays : forall de (sl : slots X) s, stays (slots_put de sl s).
  Proof.
    intros. unfold slots_put. stay; apply stays_traverse_opt; intros;
      first [apply adapter_put_stays; intros; auto with stays | auto with stays].
  Qed.
  Hint Resolve slots_handle_stays slots_put_stays : stays.

  Lemma traverse_tally_stays : forall A (f : A -> M (A * Z)) l acc,
    Forall (fun x => stays (f x)) l -> stays (traverse (tally f) l acc).
  Proof.
    intros. apply stays_traverse. eapply Forall_impl; [|exact H]. cbv beta. auto with stays.
  Qed.
  Hint Resolve traverse_tally_stays : stays.

  Lemma tree_handle_stays : forall o,
    (forall p : panel X, stays (panel_handle p o))
    /\ (forall h : handler X, stays (handler_handle h o))
    /\ (forall c : cockpit X, stays (cockpit_handle c o))
    /\ (forall s : snapshooter X, True).
  Proof.
    intros o. apply tree_ind; auto; intros.
    - rewrite panel_handle_eq. stay.
    - cbn [handler_handle]. auto with stays.
    - cbn [handler_handle]. auto with stays.
    - change (stays (wrap HPanel (panel_handle p o))). auto with stays.
    - change (stays (wrap HCockpit (cockpit_handle c o))). auto with stays.
    - cbn [handler_handle]. pose proof (pq_handler_handle X HX). auto with stays.
    - rewrite cockpit_handle_eq. stay.
  Qed.

  Lemma named_stays : forall A n (f : snapshot -> M (A * snapshot)) s,
    (forall s, stays (f s)) -> stays (put_named n f s).
  Proof. intros. unfold put_named. stay. Qed.
  Lemma activity_stays : forall A l sh t (a : A) f s,
    (forall s, stays (f s)) -> stays (check_activity l sh t a f s).
  Proof. intros. unfold check_activity. stay. Qed.
  Lemma traverse_put_stays : forall A (f : A -> bool -> snapshot -> M (A * snapshot)) d l s,
    Forall (fun x => forall d s, stays (f x d s)) l -> stays (traverse (fun x => f x d) l s).
  Proof.
    intros. apply stays_traverse. eapply Forall_impl; [|exact H]. cbv beta. auto.
  Qed.

  Lemma tree_put_stays :
    (forall p : panel X, forall d s, stays (panel_put p d s))
    /\ (forall h : handler X, forall d s, stays (handler_put h d s))
    /\ (forall c : cockpit X, forall d s, stays (cockpit_put c d s))
    /\ (forall x : snapshooter X, forall d s, stays (snapshooter_put x d s)).
  Proof.
    apply tree_ind; intros.
    - rewrite panel_put_eq. apply named_stays. intros. apply activity_stays. intros.
      stay; apply traverse_put_stays; assumption.
    - cbn [handler_put]. auto with stays.
    - cbn [handler_put]. auto with stays.
    - change (stays (wrap HPanel (panel_put p d s))). auto with stays.
    - change (stays (wrap HCockpit (cockpit_put c d s))). auto with stays.
    - cbn [handler_put]. pose proof (pq_handler_put X HX). auto with stays.
    - rewrite cockpit_put_eq. apply named_stays. intros. apply activity_stays. intros.
      stay; apply traverse_put_stays; assumption.
    - cbn [snapshooter_put]. auto with stays.
    - change (stays (wrap (SPolled n d g) (polled_put (snapshooter_put s) n d g d0 s0))).
      apply stays_wrap. unfold polled_put. stay.
    - cbn [snapshooter_put]. auto with stays.
    - change (stays (wrap SHandler (handler_put h d s))). auto with stays.
    - cbn [snapshooter_put]. pose proof (pq_snap_put X HX). auto with stays.
  Qed.

  Lemma tele_handle_stays : forall (t : tele X) o acc, stays (tele_handle t o acc).
  Proof.
    intros. destruct (tree_handle_stays o) as (_ & Hh & Hc & _). unfold tele_handle.
    stay; apply traverse_tally_stays; apply Forall_forall; auto.
  Qed.
  Hint Resolve tele_handle_stays : stays.

  Lemma tele_message_stays : forall d (t : tele X) n m, stays (tele_message d t n m).
  Proof. intros. unfold tele_message. stay. Qed.

  Lemma tele_put_stays : forall (t : tele X) d s, stays (tele_put t d s).
  Proof.
    intros. destruct tree_put_stays as (_ & Hh & Hc & Hs). unfold tele_put.
    apply named_stays. intros. apply activity_stays. intros.
    stay; apply traverse_put_stays; apply Forall_forall; auto.
  Qed.

  Lemma strategy_decider_stays : forall s, stays (strategy_decider s).
  Proof. intros. unfold strategy_decider. stay. Qed.
End Tree.
