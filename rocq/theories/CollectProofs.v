(** Collections: order, completeness, the end of a queue, groups, attached mounts. *)
From Coq Require Import ZArith Bool String List Lia.
From Verif Require Import Base SpecRun MonadFacts ModelObservation ModelSnapshot ModelInstrument ModelTree
  ModelChannel ModelProcessor TreeEqs SpecActivity SpecClock WorldClockProofs SpecQueue QueueProofs SpecCollect.
Import ListNotations.
Open Scope Z_scope.

Section World.
  Context {X : ext} {Y : pext}.
  Implicit Types w : world X Y.

  Lemma acts_queues : forall l w i, w_queues (fold_left act l w) i = chan_run (w_queues w i) (on_queue i l).
  Proof.
    induction l as [|a l IH]; intros w i; [reflexivity|]. cbn [fold_left on_queue flat_map].
    rewrite IH. fold (on_queue i l). rewrite chan_run_app. f_equal.
    destruct a as [j b|j b]; cbn [act w_queues]; [|reflexivity]. unfold set_chan.
    destruct (Nat.eqb_spec i j) as [->|]; reflexivity.
  Qed.

  Lemma acts_mounts : forall l w i, w_mounts (fold_left act l w) i = chan_run (w_mounts w i) (on_mount i l).
  Proof.
    induction l as [|a l IH]; intros w i; [reflexivity|]. cbn [fold_left on_mount flat_map].
    rewrite IH. fold (on_mount i l). rewrite chan_run_app. f_equal.
    destruct a as [j b|j b]; cbn [act w_mounts]; [reflexivity|]. unfold set_chan.
    destruct (Nat.eqb_spec i j) as [->|]; reflexivity.
  Qed.

  Lemma acts_no_receive : forall i (l : list (action X Y)) c, taken c (on_queue i l) = [].
  Proof.
    induction l as [|a l IH]; intros c; [reflexivity|]. cbn [on_queue flat_map]. fold (on_queue i l).
    rewrite taken_app, IH, app_nil_r. destruct a as [j b|]; [|reflexivity].
    destruct (Nat.eqb i j); reflexivity.
  Qed.

  Lemma acts_no_receive_mount : forall i (l : list (action X Y)) c, taken c (on_mount i l) = [].
  Proof.
    induction l as [|a l IH]; intros c; [reflexivity|]. cbn [on_mount flat_map]. fold (on_mount i l).
    rewrite taken_app, IH, app_nil_r. destruct a as [|j b]; [reflexivity|].
    destruct (Nat.eqb i j); reflexivity.
  Qed.

  Lemma runs_refl : forall w, runs w w.
  Proof. intros w. split; intros i; exists []; reflexivity. Qed.

  Lemma runs_trans : forall a b c : world X Y, runs a b -> runs b c -> runs a c.
  Proof.
    intros a b c [A1 A2] [B1 B2]. split; intros i.
    - destruct (A1 i) as (h1 & E1), (B1 i) as (h2 & E2). exists (h1 ++ h2). rewrite chan_run_app. congruence.
    - destruct (A2 i) as (h1 & E1), (B2 i) as (h2 & E2). exists (h1 ++ h2). rewrite chan_run_app. congruence.
  Qed.

  Definition wruns {A} (m : St (world X Y) A) : Prop := forall k w a w', m k w = Ok a w' -> runs w w'.

  Lemma wruns_ret : forall A (a : A), wruns (ret a).
  Proof. intros A a k w b w' E. injection E as _ <-. apply runs_refl. Qed.

  Lemma wruns_bind : forall A B (m : St (world X Y) A) (f : A -> St (world X Y) B),
    wruns m -> (forall a, wruns (f a)) -> wruns (bind m f).
  Proof.
    intros A B m f Hm Hf k w b w' E. apply bind_ok in E. destruct E as (a & w1 & E1 & E2).
    eapply runs_trans; [exact (Hm _ _ _ _ E1) | exact (Hf _ _ _ _ _ E2)].
  Qed.

  Lemma wruns_lift : forall A (m : M A), wruns (lift m).
  Proof.
    intros A m k w a w' E. unfold lift in E. destruct (m k (w_clock w)); try discriminate E. injection E as _ <-.
    split; intros i; exists []; reflexivity.
  Qed.

  Lemma wruns_interleave : wruns interleave.
  Proof.
    intros k w a w' E. injection E as _ <-. split; intros i; cbn [w_queues w_mounts]; eexists.
    - apply acts_queues.
    - apply acts_mounts.
  Qed.

  Lemma wruns_queue_recv : forall i, wruns (queue_try_recv i).
  Proof.
    intros i. apply wruns_bind; [apply wruns_interleave|]. intros _ k w a w' E.
    destruct (chan_try_recv (w_queues w i)) as [c r] eqn:Er. injection E as <- <-. split; intros j; cbn [w_queues w_mounts].
    - unfold set_chan. destruct (Nat.eqb_spec j i) as [->|]; [|exists []; reflexivity].
      exists [Receives]. cbn. rewrite Er. reflexivity.
    - exists []. reflexivity.
  Qed.

  Lemma wruns_mount_recv : forall i, wruns (mount_try_recv i).
  Proof.
    intros i. apply wruns_bind; [apply wruns_interleave|]. intros _ k w a w' E.
    destruct (chan_try_recv (w_mounts w i)) as [c r] eqn:Er. injection E as <- <-. split; intros j; cbn [w_queues w_mounts].
    - exists []. reflexivity.
    - unfold set_chan. destruct (Nat.eqb_spec j i) as [->|]; [|exists []; reflexivity].
      exists [Receives]. cbn. rewrite Er. reflexivity.
  Qed.

  Lemma wruns_queue_len : forall i, wruns (queue_len i).
  Proof.
    intros i. apply wruns_bind; [apply wruns_interleave|]. intros _ k w a w' E. injection E as <- <-. apply runs_refl.
  Qed.

  Lemma wruns_usize : forall a b, wruns (add_usize a b).
  Proof.
    intros a b k w x w' E. unfold add_usize, u64_arith, arith in E.
    destruct (_ && _); [|destruct (overflow_checks k)]; try discriminate E; injection E as _ <-; apply runs_refl.
  Qed.

  Lemma wruns_combine : forall a b, wruns (combine_with a b).
  Proof. intros a b. unfold combine_with. repeat (apply wruns_bind; [apply wruns_usize|]; intros ?). apply wruns_ret. Qed.

  Lemma wruns_collect : forall n d t acc, wruns (tele_collect n d t acc).
  Proof.
    induction n as [|n IH]; intros d t acc; cbn [tele_collect]; [apply wruns_ret|].
    apply wruns_bind; [apply wruns_queue_recv|]. intros [m| |]; [|apply IH|apply wruns_ret].
    apply wruns_bind; [apply wruns_lift|]. intros [t1 acc1]. apply IH.
  Qed.

  Lemma wruns_tele : forall t max s, wruns (tele_process t max s).
  Proof.
    intros t max s. unfold tele_process. destruct (tp_disconnected t); [apply wruns_ret|].
    apply wruns_bind; [apply wruns_lift|]. intros d. apply wruns_bind; [apply wruns_collect|]. intros [t1 acc].
    apply wruns_bind; [apply wruns_queue_len|]. intros e. cbv zeta.
    destruct (something_happened _); [|apply wruns_ret]. apply wruns_bind; [apply wruns_lift|]. intros. apply wruns_ret.
  Qed.

  Lemma wruns_traverse : forall A S (f : A -> S -> St (world X Y) (A * S)) l s,
    (forall a s, wruns (f a s)) -> wruns (traverse f l s).
  Proof.
    intros A S f l. induction l as [|a l IH]; intros s H; cbn [traverse]; [apply wruns_ret|].
    apply wruns_bind; [apply H|]. intros [a1 s1]. apply wruns_bind; [apply IH, H|]. intros [l1 s2]. apply wruns_ret.
  Qed.

  Lemma wruns_mount : forall f m, (forall p, wruns (f p)) -> wruns (mount_process f m).
  Proof.
    intros f [d ps ss] H. cbn [mount_process]. apply wruns_bind.
    - apply wruns_traverse. intros p acc. unfold collect_one. apply wruns_bind; [apply H|]. intros [p1 o].
      apply wruns_bind; [apply wruns_combine|]. intros. apply wruns_ret.
    - intros [ps1 o]. destruct (something_happened o); [|apply wruns_ret].
      apply wruns_bind; [apply wruns_lift|]. intros. apply wruns_ret.
  Qed.

  Lemma wruns_drain : forall n i m, wruns (attached_drain n i m).
  Proof.
    induction n as [|n IH]; intros i m; cbn [attached_drain]; [intros k w a w' E; discriminate E|].
    apply wruns_bind; [apply wruns_mount_recv|]. intros [x| |]; [apply IH|apply wruns_ret..].
  Qed.

  Lemma wruns_take : forall r m, wruns (attached_take r m).
  Proof.
    intros [i|] m; unfold attached_take; [|apply wruns_ret]. intros k. apply wruns_bind; [apply wruns_drain|].
    intros [m1 b]. apply wruns_ret.
  Qed.

  Lemma wruns_process : forall n p max s, wruns (processor_process n p max s).
  Proof.
    induction n as [|n IH]; intros p max s; cbn [processor_process]; [intros k w a w' E; discriminate E|].
    destruct p as [t|m|r m|h|u].
    - apply wruns_bind; [apply wruns_tele|]. intros [t1 o]. apply wruns_ret.
    - apply wruns_bind; [apply wruns_mount; intros; apply IH|]. intros [m1 o]. apply wruns_ret.
    - apply wruns_bind; [apply wruns_take|]. intros [r1 m1].
      apply wruns_bind; [apply wruns_mount; intros; apply IH|]. intros [m2 o]. apply wruns_ret.
    - apply wruns_ret.
    - apply wruns_bind; [apply wruns_lift|]. intros [u1 o]. apply wruns_ret.
  Qed.

  Lemma runs_moved_queue : forall w w' i, runs w w' -> exists ms, moved (w_queues w i) (w_queues w' i) ms.
  Proof. intros w w' i [H _]. destruct (H i) as (h & ->). eexists. apply run_moved. Qed.

  Lemma runs_moved_mount : forall w w' i, runs w w' -> exists ms, moved (w_mounts w i) (w_mounts w' i) ms.
  Proof. intros w w' i [_ H]. destruct (H i) as (h & ->). eexists. apply run_moved. Qed.

  Lemma runs_ok : forall w w' i, runs w w' -> chan_ok (w_queues w i) -> chan_ok (w_queues w' i).
  Proof. intros w w' i [H _] K. destruct (H i) as (h & ->). apply run_ok, K. Qed.

  Lemma runs_exhausted : forall w w' i, runs w w' -> exhausted (w_queues w i) ->
    exhausted (w_queues w' i) /\ ch_accepted (w_queues w' i) = ch_accepted (w_queues w i).
  Proof. intros w w' i [H _] K. destruct (H i) as (h & ->). apply exhausted_run, K. Qed.

  Lemma exhausted_moved : forall A (c c' : chan A) ms, moved c c' ms -> exhausted c -> ch_accepted c' = ch_accepted c -> ms = [].
  Proof.
    intros A c c' ms (new & Ha & Q) (_ & Q0 & _) E. rewrite E in Ha. rewrite <- (app_nil_r (ch_accepted c)) in Ha at 1.
    apply app_inv_head in Ha. subst new. rewrite Q0 in Q. cbn in Q. destruct ms; [reflexivity | discriminate Q].
  Qed.

  (** ** One collection *)

  Lemma keeps_moved : forall i w w', keeps_queue i w w' -> moved (w_queues w i) (w_queues w' i) [].
  Proof.
    intros i w w' (l & ->). assert (H := run_moved (on_queue i l) (w_queues w i)).
    rewrite acts_no_receive in H. exact H.
  Qed.

  Lemma queue_recv_cases : forall i k w r w', queue_try_recv i k w = Ok r w' ->
    w_clock w' = w_clock w /\
    exists w1, keeps_queue i w w1 /\ chan_try_recv (w_queues w1 i) = (w_queues w' i, r).
  Proof.
    intros i k w r w' E. unfold queue_try_recv in E. apply bind_ok in E. destruct E as (u & w1 & E1 & E2).
    injection E1 as _ E1. destruct (chan_try_recv (w_queues w1 i)) as [c r1] eqn:Er. injection E2 as <- <-.
    cbn [w_clock w_queues]. subst w1. cbn [w_clock w_queues] in *. split; [apply acts_clock|].
    exists (fold_left act (w_sched w O) w). split; [eexists; apply acts_queues|].
    rewrite Er. unfold set_chan. rewrite Nat.eqb_refl. reflexivity.
  Qed.

  Lemma same_settings_receiver : forall d (t : tele X) n m k c t' n' c',
    tele_message d t n m k c = Ok (t', n') c' -> tp_receiver t' = tp_receiver t /\ tp_disconnected t' = tp_disconnected t.
  Proof.
    intros d t n m k c t' n' c' E. destruct m; cbn [tele_message] in E.
    - destruct (should_be_processed d o).
      + apply bind_ok in E. destruct E as ([s2 a2] & c2 & E2 & E).
        apply bind_ok in E. destruct E as (s3 & c3 & E3 & E). injection E as <- <- <-.
        unfold tele_handle in E2. apply bind_ok in E2. destruct E2 as ([cs x] & c4 & E4 & E2).
        apply bind_ok in E2. destruct E2 as ([hs y] & c5 & E5 & E2). injection E2 as <- <- <-. auto.
      + apply bind_ok in E. destruct E as (s3 & c3 & E3 & E). injection E as <- <- <-. auto.
    - apply bind_ok in E. destruct E as (s3 & c3 & E3 & E). injection E as <- <- <-.
      unfold tele_add_cockpit. destruct (cockpit_name c0); [destruct (existsb _ _)|]; auto.
    - apply bind_ok in E. destruct E as (s3 & c3 & E3 & E). injection E as <- <- <-. auto.
    - apply bind_ok in E. destruct E as (s3 & c3 & E3 & E). injection E as <- <- <-. auto.
    - apply bind_ok in E. destruct E as (s3 & c3 & E3 & E). injection E as <- <- <-. auto.
    - apply bind_ok in E. destruct E as (s3 & c3 & E3 & E). injection E as <- <- <-. auto.
  Qed.

  Lemma firstn_prefix : forall A (q a : list A) n, exists r, q = a ++ r ->
    firstn n q = firstn n (a ++ r).
  Proof. intros. exists []. intros ->. reflexivity. Qed.

  (** What is left in the queue comes first. *)
  Lemma keeps_prefix : forall i w w1, keeps_queue i w w1 -> exists new,
    ch_queue (w_queues w1 i) = ch_queue (w_queues w i) ++ new.
  Proof.
    intros i w w1 H. apply keeps_moved in H. destruct H as (new & _ & Q). exists new. symmetry. exact Q.
  Qed.

  Lemma collect_spec : forall k n d t acc w t' acc' w',
    tele_collect n d t acc k w = Ok (t', acc') w' -> let i := tp_receiver t in
    exists ms t1 rest,
      handles k d t acc (w_clock w) ms t1 acc' (w_clock w')
      /\ moved (w_queues w i) (w_queues w' i) ms
      /\ (length ms <= n)%nat
      /\ ms = firstn n (ch_queue (w_queues w i)) ++ rest
      /\ tp_receiver t1 = tp_receiver t /\ tp_disconnected t1 = tp_disconnected t
      /\ (t' = t1 \/ (t' = tele_disconnect t1 /\ ch_queue (w_queues w' i) = [] /\ ch_senders (w_queues w' i) = O
                      /\ (length ms < n)%nat)).
  Proof.
    intros k. induction n as [|n IH]; intros d t acc w t' acc' w' E i; cbn [tele_collect] in E.
    - injection E as <- <- <-. exists [], t, []. repeat split; auto; [constructor | apply moved_refl].
    - apply bind_ok in E. destruct E as (r & w1 & E1 & E). apply queue_recv_cases in E1.
      destruct E1 as (C1 & w0 & K & R). assert (M0 := keeps_moved _ _ _ K). destruct (keeps_prefix _ _ _ K) as (new & Q0).
      fold i in M0, Q0, R. destruct r as [m| |].
      + apply bind_ok in E. destruct E as ([t2 acc2] & w2 & E2 & E).
        unfold lift in E2. rewrite C1 in E2. destruct (tele_message d t acc m k (w_clock w)) as [[t3 acc3] c3| |] eqn:Em; try discriminate E2.
        injection E2 as -> -> <-. destruct (same_settings_receiver _ _ _ _ _ _ _ _ _ Em) as [Hr Hd].
        destruct (IH _ _ _ _ _ _ _ E) as (ms & t1 & rest & H1 & H2 & H3 & H4 & H5 & H6 & H7). clear IH.
        rewrite Hr in *. fold i in H2, H4, H7. cbn [w_clock w_queues] in *.
        assert (M1 := recv_moved (w_queues w0 i)). rewrite R in M1. cbn [fst snd] in M1.
        exists (m :: ms), t1.
        assert (Hrest : exists rest', m :: ms = firstn (S n) (ch_queue (w_queues w i)) ++ rest').
        { destruct (ch_queue (w_queues w i)) as [|y q] eqn:Eq; [exists (m :: ms); reflexivity|].
          apply recv_message in R. rewrite Q0 in R. cbn [app] in R.
          destruct R as [(Rq & _)|(Rq & _)]; [|discriminate Rq]. injection Rq as <- Rq.
          rewrite <- Rq in H4. rewrite H4. cbn [firstn app]. rewrite firstn_app, <- app_assoc. eexists. reflexivity. }
        destruct Hrest as (rest' & Hrest). exists rest'. repeat split.
        * econstructor; [exact Em | exact H1].
        * change (m :: ms) with ([] ++ [m] ++ ms). eapply moved_trans; [exact M0|]. eapply moved_trans; [exact M1 | exact H2].
        * cbn [length]. lia.
        * exact Hrest.
        * exact H5.
        * congruence.
        * destruct H7 as [H7|(? & ? & ? & ?)]; [left; exact H7 | right; cbn [length]; repeat split; auto; lia].
      + apply recv_empty in R. destruct R as (R1 & R2 & _). rewrite <- R1 in *.
        destruct (IH _ _ _ _ _ _ _ E) as (ms & t1 & rest & H1 & H2 & H3 & H4 & H5 & H6 & H7). fold i in H2, H4, H7.
        rewrite C1 in H1. exists ms, t1, ms. repeat split; auto.
        * change ms with ([] ++ ms). eapply moved_trans; [exact M0 | exact H2].
        * rewrite R2 in Q0. destruct (ch_queue (w_queues w i)); [reflexivity | discriminate Q0].
        * destruct H7 as [H7|(? & ? & ? & ?)]; [left; exact H7 | right; repeat split; auto].
      + injection E as <- <- <-. apply recv_disconnected in R. destruct R as (R1 & R2 & R3).
        exists [], t, []. rewrite <- C1. rewrite <- R1 in *. repeat split; auto.
        * constructor.
        * cbn [length]. lia.
        * rewrite R2 in Q0. destruct (ch_queue (w_queues w i)); [reflexivity | discriminate Q0].
        * right. cbn [length]. repeat split; auto; lia.
  Qed.

  Lemma handles_counts : forall k d (t : tele X) n c ms t' n' c', handles k d t n c ms t' n' c' ->
    0 <= ct_processed n -> 0 <= ct_dropped n ->
    ct_processed n + ct_dropped n + Z.of_nat (length ms) <= u64_max ->
    0 <= ct_processed n' /\ 0 <= ct_dropped n'
    /\ ct_processed n' + ct_dropped n' = ct_processed n + ct_dropped n + Z.of_nat (length ms).
  Proof.
    intros k d t n c ms t' n' c' H. induction H as [|t n c m t1 n1 c1 ms t2 n2 c2 E H IH]; intros P D L.
    - cbn [length]. lia.
    - cbn [length] in *. rewrite Nat2Z.inj_succ in *.
      assert (G : 0 <= ct_processed n1 /\ 0 <= ct_dropped n1 /\ ct_processed n1 + ct_dropped n1 = ct_processed n + ct_dropped n + 1).
      { assert (F : forall a W (w w' : W) x, 0 <= a -> a + 1 <= u64_max -> add_usize a 1 k w = Ok x w' -> x = a + 1).
        { intros a W w w' x Ha Hb E1. unfold add_usize in E1. rewrite u64_arith_fits in E1 by lia. congruence. }
        destruct m; cbn [tele_message] in E.
        - destruct (should_be_processed d o).
          + apply bind_ok in E. destruct E as ([s2 a2] & c3 & E2 & E).
            apply bind_ok in E. destruct E as (s3 & c4 & E3 & E). injection E as <- <- <-.
            apply F in E3; [|lia..]. cbn [ct_processed ct_dropped]. lia.
          + apply bind_ok in E. destruct E as (s3 & c3 & E3 & E). injection E as <- <- <-.
            apply F in E3; [|lia..]. cbn [ct_processed ct_dropped]. lia.
        - apply bind_ok in E. destruct E as (s3 & c3 & E3 & E). injection E as <- <- <-.
          apply F in E3; [|lia..]. cbn [ct_processed ct_dropped]. lia.
        - apply bind_ok in E. destruct E as (s3 & c3 & E3 & E). injection E as <- <- <-.
          apply F in E3; [|lia..]. cbn [ct_processed ct_dropped]. lia.
        - apply bind_ok in E. destruct E as (s3 & c3 & E3 & E). injection E as <- <- <-.
          apply F in E3; [|lia..]. cbn [ct_processed ct_dropped]. lia.
        - apply bind_ok in E. destruct E as (s3 & c3 & E3 & E). injection E as <- <- <-.
          apply F in E3; [|lia..]. cbn [ct_processed ct_dropped]. lia.
        - apply bind_ok in E. destruct E as (s3 & c3 & E3 & E). injection E as <- <- <-.
          apply F in E3; [|lia..]. cbn [ct_processed ct_dropped]. lia. }
      destruct G as (G1 & G2 & G3). destruct IH as (I1 & I2 & I3); [lia..|]. lia.
  Qed.

  Lemma process_spec : forall k t max s w t' o w',
    tele_process t max s k w = Ok (t', o) w' -> Z.of_nat max <= u64_max ->
    let i := tp_receiver t in
    exists ms,
      collection k t s (w_clock w) ms t' o
      /\ moved (w_queues w i) (w_queues w' i) ms
      /\ (length ms <= max)%nat
      /\ oc_processed o + oc_dropped o = Z.of_nat (length ms)
      /\ (tp_disconnected t = false -> exists rest, ms = firstn max (ch_queue (w_queues w i)) ++ rest)
      /\ tp_receiver t' = i
      /\ (tp_disconnected t' = true -> tp_disconnected t = true
            \/ (chan_ok (w_queues w i) -> exhausted (w_queues w' i))).
  Proof.
    intros k t max s w t' o w' E Hmax i. unfold tele_process in E.
    destruct (tp_disconnected t) eqn:Ed.
    - injection E as <- <- <-. exists []. repeat split; auto; [left; auto | apply moved_refl | cbn; lia | discriminate].
    - apply bind_ok in E. destruct E as (d & w1 & E1 & E). unfold lift in E1.
      destruct (strategy_decider s k (w_clock w)) as [d1 c1| |] eqn:Es; try discriminate E1. injection E1 as -> <-.
      apply bind_ok in E. destruct E as ([t1 acc] & w2 & E2 & E).
      assert (E2' := E2). apply collect_spec in E2. fold i in E2. cbn [w_clock w_queues] in E2.
      destruct E2 as (ms & t0 & rest & H1 & H2 & H3 & H4 & H5 & H6 & H7).
      apply bind_ok in E. destruct E as (enq & w3 & E3 & E). cbv zeta in E.
      assert (Hr : tp_receiver t1 = i) by (destruct H7 as [->|(-> & _)]; exact H5).
      unfold queue_len in E3. apply bind_ok in E3. destruct E3 as (u & w4 & E4 & E3). injection E4 as _ E4. injection E3 as E3a E3.
      assert (K : keeps_queue i w2 w3).
      { subst w3 w4. eexists. cbn [w_queues]. apply acts_queues. }
      assert (C3 : w_clock w3 = w_clock w2) by (subst w3 w4; apply acts_clock).
      assert (M3 := keeps_moved _ _ _ K).
      destruct (handles_counts _ _ _ _ _ _ _ _ _ H1) as (G1 & G2 & G3); try (cbn; lia).
      cbn [ct_processed ct_dropped] in G3.
      assert (Mw : moved (w_queues w i) (w_queues w3 i) ms).
      { rewrite <- (app_nil_r ms). eapply moved_trans; [exact H2 | exact M3]. }
      exists ms.
      assert (Ht : exists t2, (t2 = t0 \/ t2 = tele_disconnect t0) /\ (t' = t2 \/ t' = tele_touch t2 (w_clock w2 O))
                   /\ t2 = t1 /\ (forall j, w_queues w' j = w_queues w3 j)
                   /\ o = Outcome (ct_processed acc) (ct_dropped acc) (ct_updated acc) enq).
      { exists t1. split; [destruct H7 as [H7|(H7 & _)]; auto|].
        destruct (something_happened _).
        - apply bind_ok in E. destruct E as (x & w5 & E5 & E). injection E as <- <- <-.
          unfold lift, now in E5. injection E5 as <- <-. rewrite C3. cbn [w_queues]. auto 6.
        - injection E as <- <- <-. auto 6. }
      destruct Ht as (t2 & T1 & T2 & T3 & T4 & T5). subst o. cbn [oc_processed oc_dropped oc_instruments_updated].
      rewrite T4. repeat split.
      + right. split; [exact Ed|]. exists d, c1, t0, acc, (w_clock w2), t2. repeat split; auto.
      + exact Mw.
      + exact H3.
      + lia.
      + intros _. exists rest. exact H4.
      + subst t2. destruct T2 as [->| ->]; exact Hr.
      + intros Hd. right.
        destruct H7 as [H7|(H7 & Q & S0 & _)].
        * exfalso. subst t2 t1. destruct T2; subst t'; cbn in Hd; congruence.
        * intros Ok0. destruct K as (l & ->). apply exhausted_run. split; [exact S0|]. split; [exact Q|].
          apply (runs_ok w w2 i); [|exact Ok0 | exact S0].
          eapply runs_trans; [|exact (wruns_collect _ _ _ _ _ _ _ _ E2')].
          split; intros j; exists []; reflexivity.
  Qed.

  (** ** No transmitters left *)

  Lemma closed_step : forall A (c : chan A) e, closed c ->
    closed (chan_step c e) /\ ch_accepted (chan_step c e) = ch_accepted c.
  Proof.
    intros A [cap q wt sn rc ac lo] e [S0 W]. cbn in S0, W. subst. unfold closed.
    destruct e as [[m|m|i| | |]|]; cbn; auto.
    - unfold chan_wake. cbn. replace (nth_error [] i) with (@None A) by (destruct i; reflexivity). auto.
    - unfold chan_try_recv. cbn. destruct q; cbn; auto. destruct cap as [[|]|]; cbn; auto.
  Qed.

  Lemma closed_run : forall A h (c : chan A), closed c ->
    closed (chan_run c h) /\ ch_accepted (chan_run c h) = ch_accepted c.
  Proof.
    induction h as [|e h IH]; intros c H; [auto|]. cbn [chan_run fold_left]. fold (chan_run (chan_step c e) h).
    destruct (closed_step _ c e H) as [H1 H2]. destruct (IH _ H1) as [H3 H4]. split; [exact H3 | congruence].
  Qed.

  Lemma closed_moved : forall A (c : chan A) h, closed c -> ch_queue c = taken c h ++ ch_queue (chan_run c h).
  Proof.
    intros A c h H. destruct (run_moved h c) as (new & Ha & Q). destruct (closed_run _ h c H) as [_ E].
    rewrite E in Ha. rewrite <- (app_nil_r (ch_accepted c)) in Ha at 1. apply app_inv_head in Ha. subst new.
    rewrite app_nil_r in Q. exact Q.
  Qed.

  Lemma closed_ms : forall w w' i ms, runs w w' -> closed (w_queues w i) ->
    moved (w_queues w i) (w_queues w' i) ms -> ch_queue (w_queues w i) = ms ++ ch_queue (w_queues w' i).
  Proof.
    intros w w' i ms [R _] H (new & Ha & Q). destruct (R i) as (h & E). destruct (closed_run _ h _ H) as [_ E'].
    rewrite <- E in E'. rewrite E' in Ha. rewrite <- (app_nil_r (ch_accepted (w_queues w i))) in Ha at 1.
    apply app_inv_head in Ha. subst new. rewrite app_nil_r in Q. exact Q.
  Qed.

  Lemma prefix_exact : forall A (q ms r rest : list A) n,
    q = ms ++ r -> (length ms <= n)%nat -> ms = firstn n q ++ rest -> ms = firstn n q.
  Proof.
    intros A q ms r rest n Eq L E. destruct rest as [|x rest]; [rewrite app_nil_r in E; exact E|]. exfalso.
    assert (Lm : length ms = (length (firstn n q) + S (length rest))%nat) by (rewrite E at 1; rewrite app_length; reflexivity).
    rewrite firstn_length in Lm. assert (Lq : length q = (length ms + length r)%nat) by (rewrite Eq, app_length; reflexivity).
    lia.
  Qed.

  Lemma collect_closed : forall k n d t acc w t' acc' w',
    tele_collect n d t acc k w = Ok (t', acc') w' -> closed (w_queues w (tp_receiver t)) ->
    (length (ch_queue (w_queues w (tp_receiver t))) < n)%nat -> exists t1, t' = tele_disconnect t1.
  Proof.
    intros k. induction n as [|n IH]; intros d t acc w t' acc' w' E C L; [lia|]. cbn [tele_collect] in E.
    apply bind_ok in E. destruct E as (r & w1 & E1 & E). apply queue_recv_cases in E1.
    destruct E1 as (C1 & w0 & K & R). destruct K as (l & K).
    assert (C0 : closed (w_queues w0 (tp_receiver t))) by (rewrite K; apply closed_run; exact C).
    assert (Q0 : ch_queue (w_queues w0 (tp_receiver t)) = ch_queue (w_queues w (tp_receiver t))).
    { rewrite K. assert (Q := closed_moved _ _ (on_queue (tp_receiver t) l) C). rewrite acts_no_receive in Q. symmetry. exact Q. }
    destruct r as [m| |].
    - apply bind_ok in E. destruct E as ([t2 acc2] & w2 & E2 & E). unfold lift in E2.
      destruct (tele_message d t acc m k (w_clock w1)) as [[t3 acc3] c3| |] eqn:Em; try discriminate E2.
      injection E2 as -> -> <-. destruct (same_settings_receiver _ _ _ _ _ _ _ _ _ Em) as [Hr _].
      assert (Rq := R). apply recv_message in Rq. destruct Rq as [(Rq & _)|(_ & _ & _ & Rw & _)]; [|destruct C0; congruence].
      apply (IH _ _ _ _ _ _ _ E); rewrite Hr; cbn [w_queues].
      + assert (Cr := proj1 (closed_step _ _ Receives C0)). cbn [chan_step] in Cr. rewrite R in Cr. exact Cr.
      + rewrite <- Q0, Rq in L. cbn [length] in L. lia.
    - apply recv_empty in R. destruct R as (_ & _ & R). destruct C0 as [C0 _]. destruct (R C0).
    - injection E as <- <- <-. eauto.
  Qed.

  Lemma process_closed : forall k t max s w t' o w',
    tele_process t max s k w = Ok (t', o) w' -> tp_disconnected t = false ->
    closed (w_queues w (tp_receiver t)) ->
    tp_disconnected t' = true <-> (length (ch_queue (w_queues w (tp_receiver t))) < max)%nat.
  Proof.
    intros k t max s w t' o w' E Ed C. unfold tele_process in E. rewrite Ed in E.
    apply bind_ok in E. destruct E as (d & w1 & E1 & E). unfold lift in E1.
    destruct (strategy_decider s k (w_clock w)) as [d1 c1| |] eqn:Es; try discriminate E1. injection E1 as -> <-.
    apply bind_ok in E. destruct E as ([t1 acc] & w2 & E2 & E).
    assert (Ht : tp_disconnected t' = tp_disconnected t1).
    { apply bind_ok in E. destruct E as (enq & w3 & E3 & E). cbv zeta in E. destruct (something_happened _).
      - apply bind_ok in E. destruct E as (x & w5 & E5 & E). injection E as <- <- <-. reflexivity.
      - injection E as <- <- <-. reflexivity. }
    rewrite Ht. clear Ht E. split.
    - intros H. assert (R := wruns_collect _ _ _ _ _ _ _ _ E2). apply collect_spec in E2. cbn [w_queues] in E2.
      destruct E2 as (ms & t0 & rest & H1 & H2 & H3 & H4 & H5 & H6 & H7).
      destruct H7 as [->|(-> & Q & S0 & L)]; [congruence|].
      assert (Q' := closed_ms _ _ _ _ R C H2). cbn [w_queues] in Q'. rewrite Q, app_nil_r in Q'. rewrite Q'. exact L.
    - intros L. destruct (collect_closed _ _ _ _ _ _ _ _ _ E2 C L) as (t0 & ->). reflexivity.
  Qed.

  (** ** Histories *)

  Lemma put_named_inv : forall A name (f : snapshot -> M (A * snapshot)) into k c a into' c',
    put_named name f into k c = Ok (a, into') c' -> exists i1 i2, f i1 k c = Ok (a, i2) c'.
  Proof.
    intros A [n|] f into k c a into' c' E; unfold put_named in E; [|eauto].
    apply bind_ok in E. destruct E as ([x i2] & c1 & E1 & E). injection E as <- _ <-. eauto.
  Qed.

  Lemma check_activity_inv : forall A limit show last (a : A) rest into k c a' into' c',
    check_activity limit show last a rest into k c = Ok (a', into') c' ->
    a' = a \/ exists i1 c1, rest i1 k c1 = Ok (a', into') c'.
  Proof.
    intros A limit show last a rest into k c a' into' c' E. unfold check_activity in E.
    destruct limit as [l|]; [|eauto]. destruct show; [|eauto].
    apply bind_ok in E. destruct E as (e & c1 & E1 & E).
    match type of E with context [if ?b then _ else _] => destruct b end; [|eauto].
    left. injection E as <- _ _. reflexivity.
  Qed.

  Lemma tele_put_receiver : forall (t : tele X) de into k c t' into' c',
    tele_put t de into k c = Ok (t', into') c' ->
    tp_receiver t' = tp_receiver t /\ tp_disconnected t' = tp_disconnected t.
  Proof.
    intros t de into k c t' into' c' E. unfold tele_put in E. apply put_named_inv in E. destruct E as (i1 & i2 & E).
    apply check_activity_inv in E. destruct E as [->|(i3 & c1 & E)]; [auto|].
    apply bind_ok in E. destruct E as ([cs i4] & c2 & _ & E). apply bind_ok in E. destruct E as ([hs i5] & c3 & _ & E).
    apply bind_ok in E. destruct E as ([ss i6] & c4 & _ & E). injection E as <- _ _. auto.
  Qed.

  Lemma lift_inv : forall A (m : M A) k w a w', lift m k w = Ok a w' ->
    exists c, m k (w_clock w) = Ok a c /\ w' = World c (w_queues w) (w_mounts w) (w_sched w).
  Proof.
    intros A m k w a w' E. unfold lift in E. destruct (m k (w_clock w)) as [x c| |]; try discriminate E.
    injection E as -> <-. eauto.
  Qed.

  Lemma life_spec : forall k t w h t' w', tele_life k t w h t' w' -> maxima_fit h ->
    exists mss,
      tele_story k t h mss t'
      /\ moved (w_queues w (tp_receiver t)) (w_queues w' (tp_receiver t)) (concat mss)
      /\ tp_receiver t' = tp_receiver t
      /\ runs w w'
      /\ (chan_ok (w_queues w (tp_receiver t)) -> tp_disconnected t' = true ->
            tp_disconnected t = true \/ exhausted (w_queues w' (tp_receiver t))).
  Proof.
    intros k t w h t' w' H. induction H as [t w|t w max s o t1 w1 h t2 w2 E H IH|t w de into t1 into1 w1 h t2 w2 E H IH]; intros F.
    - exists []. repeat split; [constructor | apply moved_refl|..]; try (intros i; exists []; reflexivity). auto.
    - inversion F as [|? ? F1 F2]; subst. cbn [fst] in F1. assert (R := wruns_tele _ _ _ _ _ _ _ E).
      destruct (process_spec _ _ _ _ _ _ _ _ E F1) as (ms & S1 & S2 & S3 & S4 & S5 & S6 & S7).
      destruct (IH F2) as (mss & I1 & I2 & I3 & I4 & I5). rewrite S6 in *.
      exists (ms :: mss). split; [econstructor; eassumption|]. split; [eapply moved_trans; eassumption|].
      split; [exact I3|]. split; [eapply runs_trans; eassumption|].
      intros C D. destruct (I5 (runs_ok _ _ _ R C) D) as [D1|X1]; [|right; exact X1].
      destruct (S7 D1) as [D2|X2]; [left; exact D2|]. right. apply (runs_exhausted _ _ _ I4). exact (X2 C).
    - destruct (lift_inv _ _ _ _ _ _ E) as (c1 & E1 & ->). destruct (tele_put_receiver _ _ _ _ _ _ _ _ E1) as [Hr Hd].
      destruct (IH F) as (mss & I1 & I2 & I3 & I4 & I5). rewrite Hr, Hd in *. cbn [w_queues] in *.
      exists mss. split; [econstructor; eassumption|]. split; [exact I2|]. split; [exact I3|]. split; [|exact I5].
      destruct I4 as [A1 A2]. split; intros i; [destruct (A1 i) as (x & ->) | destruct (A2 i) as (x & ->)]; eexists; reflexivity.
  Qed.

  (** From the start of the queue on. *)
  Lemma life_from_start : forall k t w h t' w' cap, tele_life k t w h t' w' -> maxima_fit h ->
    w_queues w (tp_receiver t) = chan_new cap -> tp_disconnected t = false ->
    exists mss,
      tele_story k t h mss t'
      /\ ch_accepted (w_queues w' (tp_receiver t)) = concat mss ++ ch_queue (w_queues w' (tp_receiver t))
      /\ (tp_disconnected t' = true -> exhausted (w_queues w' (tp_receiver t))).
  Proof.
    intros k t w h t' w' cap H F C D. destruct (life_spec _ _ _ _ _ _ H F) as (mss & I1 & I2 & I3 & I4 & I5).
    exists mss. split; [exact I1|]. rewrite C in *. split.
    - destruct I2 as (new & A1 & Q). cbn in A1, Q. rewrite A1. exact Q.
    - intros D'. destruct (I5 (new_ok cap) D') as [D1|X1]; [congruence | exact X1].
  Qed.

  Lemma story_total : forall k (t : tele X) h mss t', tele_story k t h mss t' ->
    sum (map (fun e => oc_processed (snd e) + oc_dropped (snd e)) h) = Z.of_nat (length (concat mss)).
  Proof.
    intros k t h mss t' H. induction H as [|? ? ? ? ? ? ? ? ? ? H1 H2 H3 H IH|]; [reflexivity| |assumption].
    cbn [map sum snd concat]. rewrite app_length, Nat2Z.inj_add, IH, H3. reflexivity.
  Qed.

  (** Collections after the last transmitter is gone handle what is left, bit by bit. *)
  Lemma closed_life : forall k t w h t' w', tele_life k t w h t' w' -> maxima_fit h ->
    tp_disconnected t = false -> closed (w_queues w (tp_receiver t)) ->
    exists mss, tele_story k t h mss t'
      /\ concat mss = firstn (fold_right (fun e n => fst (fst e) + n)%nat O h) (ch_queue (w_queues w (tp_receiver t))).
  Proof.
    intros k t w h t' w' H. induction H as [t w|t w max s o t1 w1 h t2 w2 E H IH|t w de into t1 into1 w1 h t2 w2 E H IH]; intros F D C.
    - exists []. split; [constructor | reflexivity].
    - inversion F as [|? ? F1 F2]; subst. cbn [fst] in F1. assert (R := wruns_tele _ _ _ _ _ _ _ E).
      assert (P := process_closed _ _ _ _ _ _ _ _ E D C).
      destruct (process_spec _ _ _ _ _ _ _ _ E F1) as (ms & S1 & S2 & S3 & S4 & S5 & S6 & S7).
      destruct (S5 D) as (rest & S5'). assert (Q := closed_ms _ _ _ _ R C S2).
      assert (Em := prefix_exact _ _ _ _ _ _ Q S3 S5').
      assert (C1 : closed (w_queues w1 (tp_receiver t))).
      { destruct R as [R _]. destruct (R (tp_receiver t)) as (x & ->). apply closed_run, C. }
      cbn [fold_right fst].
      destruct (tp_disconnected t1) eqn:D1.
      + assert (L := proj1 P eq_refl).
        assert (Em' : ms = ch_queue (w_queues w (tp_receiver t))) by (rewrite Em; apply firstn_all2; lia).
        destruct (life_spec _ _ _ _ _ _ H F2) as (mss & I1 & I2 & I3 & I4 & I5).
        exists (ms :: mss). split; [econstructor; eassumption|]. cbn [concat].
        rewrite firstn_all2 by lia. rewrite Em' in Q at 1. rewrite Em'.
        rewrite <- (app_nil_r (ch_queue (w_queues w (tp_receiver t)))) in Q at 1. apply app_inv_head in Q.
        rewrite S6 in I2.
        assert (X1 : exhausted (w_queues w1 (tp_receiver t))) by (destruct C1; repeat split; auto).
        destruct (runs_exhausted _ _ _ I4 X1) as [_ Ha].
        rewrite (exhausted_moved _ _ _ _ I2 X1 Ha), app_nil_r. reflexivity.
      + rewrite S6 in IH. destruct (IH F2 eq_refl C1) as (mss & I1 & I2).
        exists (ms :: mss). split; [econstructor; eassumption|]. cbn [concat]. rewrite I2, Em.
        set (q := ch_queue (w_queues w (tp_receiver t))) in *. set (q1 := ch_queue (w_queues w1 (tp_receiver t))) in *.
        assert (L : (max <= length q)%nat) by (destruct (Nat.le_gt_cases max (length q)) as [|G]; [assumption | apply P in G; discriminate G]).
        assert (Lm : length (firstn max q) = max) by (rewrite firstn_length; lia).
        assert (Q' : q = firstn max q ++ q1) by (rewrite <- Em; exact Q).
        rewrite Q' at 2. rewrite firstn_app, Lm. rewrite (firstn_all2 (firstn max q)) by lia.
        f_equal. f_equal. lia.
    - destruct (lift_inv _ _ _ _ _ _ E) as (c1 & E1 & ->). destruct (tele_put_receiver _ _ _ _ _ _ _ _ E1) as [Hr Hd].
      rewrite Hr, Hd in IH. cbn [w_queues] in IH. destruct (IH F D C) as (mss & I1 & I2).
      exists mss. split; [econstructor; eassumption | exact I2].
  Qed.

  (** ** Other receivers *)

  Section Foreign.
    Variable r : receiver.

    Definition chan_clean (c : chan (mount_message X Y)) : Prop := Forall (fun x => ~ put_holds r x) (ch_queue c ++ ch_waiting c).

    Definition act_clean (a : action X Y) : Prop :=
      match a with OnMount _ (Send x) | OnMount _ (TrySend x) => ~ put_holds r x | _ => True end.

    Lemma foreign_iff : forall w, foreign r w <->
      (forall j, chan_clean (w_mounts w j)) /\ (forall n, Forall act_clean (w_sched w n)).
    Proof.
      intros w. unfold foreign, chan_clean. split; intros [H1 H2]; split.
      - intros j. apply Forall_forall. intros x. apply H1.
      - intros n. apply Forall_forall. intros [j b|j [x|x|y| | |]] Hin; cbn; auto; eapply H2; eauto.
      - intros j x. specialize (H1 j). rewrite Forall_forall in H1. apply H1.
      - intros n j x. specialize (H2 n). rewrite Forall_forall in H2. intros [Hin|Hin]; exact (H2 _ Hin).
    Qed.

    Lemma nth_error_rest : forall A (P : A -> Prop) l i x, nth_error l i = Some x -> Forall P l ->
      P x /\ Forall P (firstn i l ++ skipn (S i) l).
    Proof.
      intros A P l i x E F. apply nth_error_split in E. destruct E as (a & b & -> & <-).
      apply Forall_app in F. destruct F as [Fa Fb]. inversion Fb; subst. split; [assumption|].
      rewrite firstn_app, Nat.sub_diag, firstn_all. cbn [firstn]. rewrite app_nil_r.
      rewrite skipn_app. replace (S (length a) - length a)%nat with 1%nat by lia.
      rewrite skipn_all2 by lia. apply Forall_app. auto.
    Qed.

    Lemma act_chan_clean : forall c a, chan_clean c ->
      match a with Send x | TrySend x => ~ put_holds r x | _ => True end -> chan_clean (chan_act c a).
    Proof.
      intros [cap q wt sn rc ac lo] a H Ha. unfold chan_clean in *. cbn [ch_queue ch_waiting] in *. rewrite Forall_app in H. destruct H as [Hq Hw].
      destruct a as [x|x|i| | |]; unfold chan_act, chan_send, chan_try_send, chan_wake, chan_clone_sender, chan_drop_sender, chan_drop_receiver, chan_enqueue, chan_refuse, chan_full;
        cbn [ch_cap ch_queue ch_waiting ch_senders ch_receiver ch_accepted ch_lost].
      - destruct sn; [apply Forall_app; auto|]. destruct rc; cbn [negb]; [|apply Forall_app; auto].
        destruct cap as [n|]; [destruct (n <=? length q)%nat|]; cbn [ch_queue ch_waiting]; rewrite ?Forall_app; auto 6.
      - destruct sn; [apply Forall_app; auto|]. destruct rc; cbn [negb]; [|apply Forall_app; auto].
        destruct cap as [n|]; [destruct (n <=? length q)%nat|]; cbn [ch_queue ch_waiting]; rewrite ?Forall_app; auto 6.
      - destruct (nth_error wt i) as [x|] eqn:E; [|apply Forall_app; auto].
        destruct (nth_error_rest _ _ _ _ _ E Hw) as [Hx Hr].
        destruct cap as [n|]; [destruct (n <=? length q)%nat|]; cbn [ch_queue ch_waiting];
          [apply Forall_app; auto|..]; apply Forall_app; split; auto; apply Forall_app; auto.
      - destruct sn; apply Forall_app; auto.
      - destruct sn as [|[|]]; [|destruct wt|destruct wt]; apply Forall_app; auto.
      - apply Forall_app; auto.
    Qed.

    Lemma recv_chan_clean : forall c c' x, chan_clean c -> chan_try_recv c = (c', x) ->
      chan_clean c' /\ match x with Message m => ~ put_holds r m | _ => True end.
    Proof.
      intros [cap q wt sn rc ac lo] c' x H E. unfold chan_clean, chan_try_recv in *.
      cbn [ch_cap ch_queue ch_waiting ch_senders ch_receiver ch_accepted ch_lost] in *.
      destruct q as [|y q].
      - destruct cap as [[|n]|]; [destruct wt as [|y wt]|..]; try (injection E as <- <-; cbn [ch_queue ch_waiting]; split; [exact H | destruct sn; exact I]).
        injection E as <- <-. cbn [ch_queue ch_waiting app] in *. inversion H; subst. auto.
      - injection E as <- <-. cbn [ch_queue ch_waiting app] in *. inversion H; subst. auto.
    Qed.

    Lemma acts_clean : forall l w, foreign r w -> Forall act_clean l -> (forall j, chan_clean (w_mounts (fold_left act l w) j)).
    Proof.
      intros l w Hw Hl. apply foreign_iff in Hw. destruct Hw as [Hw _]. revert w Hw.
      induction Hl as [|a l Ha Hl IH]; intros w Hw; [exact Hw|]. cbn [fold_left]. apply IH.
      destruct a as [i b|i b]; cbn [act w_mounts]; [exact Hw|]. intros j. unfold set_chan.
      destruct (Nat.eqb j i); [|apply Hw]. apply act_chan_clean; [apply Hw|]. destruct b; cbn in Ha; auto.
    Qed.

    Lemma acts_sched : forall l w, w_sched (fold_left act l w) = w_sched w.
    Proof. induction l as [|[i b|i b] l IH]; intros w; [reflexivity|..]; cbn [fold_left]; rewrite IH; reflexivity. Qed.

    Lemma interleave_foreign : forall k w u w', interleave k w = Ok u w' -> foreign r w -> foreign r w'.
    Proof.
      intros k w u w' E Hw. injection E as _ <-. assert (H := Hw). apply foreign_iff in H. destruct H as [H1 H2].
      apply foreign_iff. cbn [w_mounts w_sched]. split.
      - apply acts_clean; [exact Hw | apply H2].
      - intros n. rewrite acts_sched. apply H2.
    Qed.

    Lemma untouched_refl : forall w, untouched r w w.
    Proof. intros w. unfold untouched, keeps_queue. destruct r; exists []; reflexivity. Qed.

    Lemma untouched_trans : forall a b c : world X Y, untouched r a b -> untouched r b c -> untouched r a c.
    Proof.
      intros a b c. unfold untouched, keeps_queue. destruct r as [i|i]; intros (l1 & E1) (l2 & E2); exists (l1 ++ l2);
        unfold on_queue, on_mount; rewrite flat_map_app, chan_run_app, E2, E1; reflexivity.
    Qed.

    (** A computation that does not use the receiver and whose result satisfies [P]. *)
    Definition away {A} (m : St (world X Y) A) (P : A -> Prop) : Prop := forall k w a w',
      m k w = Ok a w' -> foreign r w -> foreign r w' /\ untouched r w w' /\ P a.

    Lemma away_ret : forall A (a : A) (P : A -> Prop), P a -> away (ret a) P.
    Proof. intros A a P H k w b w' E F. injection E as <- <-. split; [exact F|]. split; [apply untouched_refl | exact H]. Qed.

    Lemma away_bind : forall A B (m : St (world X Y) A) (f : A -> St (world X Y) B) P Q,
      away m P -> (forall a, P a -> away (f a) Q) -> away (bind m f) Q.
    Proof.
      intros A B m f P Q Hm Hf k w b w' E F. apply bind_ok in E. destruct E as (a & w1 & E1 & E2).
      destruct (Hm _ _ _ _ E1 F) as (F1 & U1 & Pa). destruct (Hf a Pa _ _ _ _ E2 F1) as (F2 & U2 & Qb).
      split; [exact F2|]. split; [eapply untouched_trans; eassumption | exact Qb].
    Qed.

    Lemma away_lift : forall A (m : M A) (P : A -> Prop), (forall k c a c', m k c = Ok a c' -> P a) -> away (lift m) P.
    Proof.
      intros A m P H k w a w' E F. unfold lift in E. destruct (m k (w_clock w)) as [b c| |] eqn:Em; try discriminate E.
      injection E as -> <-. split; [exact F|]. split; [exact (untouched_refl w) | exact (H _ _ _ _ Em)].
    Qed.

    Lemma away_interleave : away interleave (fun _ => True).
    Proof.
      intros k w u w' E F. split; [exact (interleave_foreign _ _ _ _ E F)|]. split; [|exact I].
      injection E as _ <-. unfold untouched, keeps_queue. destruct r as [i|i]; cbn [w_queues w_mounts]; eexists.
      - apply acts_queues.
      - apply acts_mounts.
    Qed.

    Lemma away_queue_recv : forall i, r <> QueueReceiver i -> away (queue_try_recv i) (fun _ => True).
    Proof.
      intros i N. eapply away_bind; [apply away_interleave|]. intros _ _ k w a w' E F.
      destruct (chan_try_recv (w_queues w i)) as [c x]. injection E as <- <-. split; [exact F|]. split; [|exact I].
      unfold untouched, keeps_queue. destruct r as [j|j]; exists []; cbn [w_queues w_mounts]; [|reflexivity].
      unfold set_chan. destruct (Nat.eqb_spec j i) as [->|]; [destruct (N eq_refl) | reflexivity].
    Qed.

    Lemma away_mount_recv : forall i, r <> MountReceiver i ->
      away (mount_try_recv i) (fun x => match x with Message m => ~ put_holds r m | _ => True end).
    Proof.
      intros i N. eapply away_bind; [apply away_interleave|]. intros _ _ k w a w' E F.
      destruct (chan_try_recv (w_mounts w i)) as [c x] eqn:Er. injection E as <- <-.
      assert (F' := F). apply foreign_iff in F'. destruct F' as [F1 F2].
      destruct (recv_chan_clean _ _ _ (F1 i) Er) as [C1 C2]. split; [|split; [|exact C2]].
      - apply foreign_iff. cbn [w_mounts w_sched]. split; [|exact F2]. intros j. unfold set_chan.
        destruct (Nat.eqb j i); [exact C1 | apply F1].
      - unfold untouched, keeps_queue. destruct r as [j|j]; exists []; cbn [w_queues w_mounts]; [reflexivity|].
        unfold set_chan. destruct (Nat.eqb_spec j i) as [->|]; [destruct (N eq_refl) | reflexivity].
    Qed.

    Lemma away_queue_len : forall i, away (queue_len i) (fun _ => True).
    Proof.
      intros i. eapply away_bind; [apply away_interleave|]. intros _ _ k w a w' E F. injection E as _ <-.
      split; [exact F|]. split; [apply untouched_refl | exact I].
    Qed.

    Lemma away_usize : forall a b, away (add_usize a b) (fun _ => True).
    Proof.
      intros a b k w x w' E F. unfold add_usize, u64_arith, arith in E.
      destruct (_ && _); [|destruct (overflow_checks k)]; try discriminate E; injection E as _ <-;
        (split; [exact F | split; [apply untouched_refl | exact I]]).
    Qed.

    Lemma away_combine : forall a b, away (combine_with a b) (fun _ => True).
    Proof.
      intros a b. unfold combine_with. repeat (eapply away_bind; [apply away_usize|]; intros ? _). apply away_ret. exact I.
    Qed.

    Lemma away_collect : forall n d t acc, r <> QueueReceiver (tp_receiver t) ->
      away (tele_collect n d t acc) (fun x => tp_receiver (fst x) = tp_receiver t).
    Proof.
      induction n as [|n IH]; intros d t acc N; cbn [tele_collect]; [apply away_ret; reflexivity|].
      eapply away_bind; [apply away_queue_recv, N|]. intros [m| |] _; [|apply IH, N|apply away_ret; reflexivity].
      eapply away_bind with (P := fun x => tp_receiver (fst x) = tp_receiver t).
      - apply away_lift. intros k c [t1 n1] c' E. exact (proj1 (same_settings_receiver _ _ _ _ _ _ _ _ _ E)).
      - intros [t1 n1] Et. cbn [fst] in Et. rewrite <- Et in N. specialize (IH d t1 n1 N). rewrite Et in IH. exact IH.
    Qed.

    Lemma away_tele : forall t max s, r <> QueueReceiver (tp_receiver t) ->
      away (tele_process t max s) (fun x => tp_receiver (fst x) = tp_receiver t).
    Proof.
      intros t max s N. unfold tele_process. destruct (tp_disconnected t); [apply away_ret; reflexivity|].
      eapply away_bind with (P := fun _ => True); [apply away_lift; auto|]. intros d _.
      eapply away_bind; [apply away_collect, N|]. intros [t1 acc] Et. cbn [fst] in Et.
      eapply away_bind; [apply away_queue_len|]. intros e _. cbv zeta.
      destruct (something_happened _); [|apply away_ret; exact Et].
      eapply away_bind with (P := fun _ => True); [apply away_lift; auto|]. intros x _. apply away_ret. exact Et.
    Qed.

    Lemma mount_holds_iff : forall d ps ss, mount_holds r (Mount (X := X) (Y := Y) d ps ss) <-> Exists (holds r) ps.
    Proof.
      intros d ps ss. cbn [mount_holds]. induction ps as [|p ps IH].
      - split; [intros [] | intros H; inversion H].
      - rewrite Exists_cons, <- IH. reflexivity.
    Qed.

    Lemma away_traverse : forall f ps acc,
      (forall p, ~ holds r p -> away (f p) (fun x => ~ holds r (fst x))) ->
      ~ Exists (holds r) ps ->
      away (traverse (collect_one f) ps acc) (fun x => ~ Exists (holds r) (fst x)).
    Proof.
      intros f ps. induction ps as [|p ps IH]; intros acc H N; cbn [traverse].
      - apply away_ret. exact N.
      - rewrite Exists_cons in N. eapply away_bind with (P := fun x => ~ holds r (fst x)).
        + unfold collect_one. eapply away_bind; [apply H; tauto|]. intros [p1 o] Hp.
          eapply away_bind; [apply away_combine|]. intros o1 _. apply away_ret. exact Hp.
        + intros [p1 acc1] Hp. eapply away_bind; [apply IH; tauto|]. intros [ps1 o1] Hps. apply away_ret.
          cbn [fst] in *. rewrite Exists_cons. tauto.
    Qed.

    Lemma away_mount : forall f m,
      (forall p, ~ holds r p -> away (f p) (fun x => ~ holds r (fst x))) ->
      ~ mount_holds r m ->
      away (mount_process f m) (fun x => ~ mount_holds r (fst x)).
    Proof.
      intros f [d ps ss] H N. rewrite mount_holds_iff in N. cbn [mount_process].
      eapply away_bind; [apply away_traverse; [exact H | exact N]|]. intros [ps1 o] Hps. cbn [fst] in Hps.
      destruct (something_happened o).
      - eapply away_bind with (P := fun _ => True); [apply away_lift; auto|]. intros t _. apply away_ret.
        cbn [fst]. rewrite mount_holds_iff. exact Hps.
      - apply away_ret. cbn [fst]. rewrite mount_holds_iff. exact Hps.
    Qed.

    Lemma mount_add_holds : forall (m : mount X Y) x, ~ mount_holds r m -> ~ put_holds r x -> ~ mount_holds r (mount_add m x).
    Proof.
      intros [d ps ss] [p|s] Hm Hx; cbn [mount_add]; rewrite mount_holds_iff in *; [|exact Hm].
      rewrite Exists_app, Exists_cons, Exists_nil. cbn [put_holds] in Hx. tauto.
    Qed.

    Lemma away_drain : forall n i m, r <> MountReceiver i -> ~ mount_holds r m ->
      away (attached_drain n i m) (fun x => ~ mount_holds r (fst x)).
    Proof.
      induction n as [|n IH]; intros i m N Hm; cbn [attached_drain]; [intros k w a w' E; discriminate E|].
      eapply away_bind; [apply away_mount_recv, N|]. intros [x| |] Hx; [|apply away_ret; exact Hm..].
      apply IH; [exact N|]. apply mount_add_holds; assumption.
    Qed.

    Lemma away_process : forall n p max s, ~ holds r p ->
      away (processor_process n p max s) (fun x => ~ holds r (fst x)).
    Proof.
      induction n as [|n IH]; intros p max s N; cbn [processor_process]; [intros k w a w' E; discriminate E|].
      destruct p as [t|m|rc m|h|u].
      - cbn [holds] in N. eapply away_bind; [apply away_tele, N|]. intros [t1 o] Et. apply away_ret. cbn [fst holds] in *. congruence.
      - cbn [holds] in N. eapply away_bind; [apply away_mount; [intros p Hp; apply IH, Hp | exact N]|].
        intros [m1 o] Hm. apply away_ret. exact Hm.
      - eapply away_bind with (P := fun x : option nat * mount X Y => ~ mount_holds r (snd x) /\ forall i, fst x = Some i -> r <> MountReceiver i).
        + destruct rc as [i|]; cbn [attached_take holds] in *.
          * intros k. eapply away_bind with (P := fun x : mount X Y * bool => ~ mount_holds r (fst x)); [apply away_drain; tauto|].
            intros [m1 b] Hm. apply away_ret. cbn [fst snd] in *. split; [exact Hm|].
            intros j Ej. destruct b; [|discriminate Ej]. injection Ej as <-. tauto.
          * apply away_ret. cbn [fst snd]. split; [exact N | discriminate].
        + intros [r1 m1] [Hm Hr]. cbn [fst snd] in *.
          eapply away_bind; [apply away_mount; [intros p Hp; apply IH, Hp | exact Hm]|].
          intros [m2 o] Hm2. apply away_ret. cbn [fst holds] in *. destruct r1 as [j|]; [|exact Hm2].
          intros [E|E]; [exact (Hr j eq_refl E) | exact (Hm2 E)].
      - apply away_ret. exact N.
      - eapply away_bind with (P := fun _ => True); [apply away_lift; auto|]. intros [u1 o] _. apply away_ret. exact N.
    Qed.
  End Foreign.
End World.
