(** Processors and drivers do not panic without overflow checks. *)
From Coq Require Import ZArith Bool String List Lia.
From Verif Require Import Base SpecRun MonadFacts ModelObservation ModelSnapshot ModelCounter ModelBuckets
  ModelLabelFilter ModelGauge ModelMeter ModelHistogram ModelSwitches ModelInstrument ModelTree ModelChannel
  ModelProcessor ModelDriver SpecTree SpecSafe TreeInd TreeEqs SafeProofs SafeTreeProofs.
Import ListNotations.
Open Scope Z_scope.

Section Channels.
  Context {A : Type}.
  Implicit Types (c : chan A).

  Lemma enqueue_messages : forall c m x, In x (chan_messages (chan_enqueue c m)) -> In x (chan_messages c) \/ x = m.
  Proof.
    unfold chan_messages, chan_enqueue. cbn. intros c m x H. rewrite !in_app_iff in *. cbn in H. intuition.
  Qed.

  Lemma act_messages : forall c a x, In x (chan_messages (chan_act c a)) ->
    In x (chan_messages c) \/ In x (action_messages a).
  Proof.
    intros c a x H. destruct a as [m|m|i| | |]; cbn [chan_act action_messages] in *.
    - destruct (ch_senders c); [auto|]. unfold chan_send in H.
      destruct (negb _); [left; exact H|]. destruct (chan_full c).
      + unfold chan_messages in *. cbn in *. rewrite !in_app_iff in *. cbn in H. intuition.
      + apply enqueue_messages in H. destruct H as [H| ->]; [auto|]. right. left. reflexivity.
    - destruct (ch_senders c); [auto|]. unfold chan_try_send in H.
      destruct (negb _); [left; exact H|]. destruct (chan_full c); [left; exact H|].
      apply enqueue_messages in H. destruct H as [H| ->]; [auto|]. right. left. reflexivity.
    - left. unfold chan_wake in H. destruct (nth_error (ch_waiting c) i) as [m|] eqn:E; [|exact H].
      destruct (chan_full c); [exact H|]. apply enqueue_messages in H. unfold chan_messages in *. cbn in H.
      rewrite in_app_iff. destruct H as [H| ->].
      + apply in_app_iff in H. destruct H as [H|H]; [auto|]. right. apply in_app_iff in H.
        destruct H as [H|H].
        * rewrite <- (firstn_skipn i (ch_waiting c)). apply in_app_iff. auto.
        * rewrite <- (firstn_skipn (S i) (ch_waiting c)). apply in_app_iff. auto.
      + right. eapply nth_error_In, E.
    - left. unfold chan_clone_sender in H. destruct (ch_senders c); exact H.
    - left. unfold chan_drop_sender in H. destruct (ch_senders c) as [|[|]], (ch_waiting c) eqn:E; try exact H;
        unfold chan_messages in *; cbn in *; rewrite ?E in *; exact H.
    - left. unfold chan_drop_receiver, chan_messages in *. cbn in *. rewrite app_nil_r in H. apply in_app_iff. auto.
  Qed.

  Lemma recv_messages : forall c c' r, chan_try_recv c = (c', r) ->
    (forall x, In x (chan_messages c') -> In x (chan_messages c))
    /\ (forall m, r = Message m -> In m (chan_messages c)).
  Proof.
    intros c c' r H. unfold chan_try_recv, chan_messages in *.
    destruct (ch_queue c) as [|m q] eqn:E.
    - destruct (ch_cap c) as [[|n]|]; [destruct (ch_waiting c) as [|m w] eqn:Ew|..];
        injection H as <- <-; cbn; rewrite ?E, ?Ew; cbn; split; auto;
        try (intros m'; destruct (ch_senders c); discriminate).
      intros m' Hm. injection Hm as ->. auto.
    - injection H as <- <-. cbn. split; [auto|]. intros m' Hm. injection Hm as ->. auto.
  Qed.
End Channels.

Section World.
  Context {X : ext} {Y : pext}.
  Variables (k : cfg) (lo hi : Z).
  Notation safe := (safe k lo hi).
  Notation sound := (sound (X := X) k lo hi).
  Notation world_sound := (world_sound (X := X) (Y := Y) k lo hi).
  Hypothesis Hrel : overflow_checks k = false.
  Hypothesis Htime : manageable k lo hi 0.
  Hypothesis HX : parts_safe k lo hi X.
  Hypothesis HY : processors_safe k lo hi Y.

  (** Other threads may keep loops busy, so running out of fuel is possible. *)
  Definition wsafe {A} (m : St (world X Y) A) (P : A -> Prop) : Prop :=
    forall w, world_sound w ->
      match m k w with Ok a w' => world_sound w' /\ P a | Panic => False | NoFuel => True end.

  Lemma wsafe_ret : forall A (a : A) (P : A -> Prop), P a -> wsafe (ret a) P.
  Proof. intros A a P H w Hw. cbn. auto. Qed.

  Lemma wsafe_bind : forall A B (m : St (world X Y) A) (f : A -> St (world X Y) B) P Q,
    wsafe m P -> (forall a, P a -> wsafe (f a) Q) -> wsafe (bind m f) Q.
  Proof.
    intros A B m f P Q Hm Hf w Hw. unfold bind. specialize (Hm w Hw). destruct (m k w) as [a w1| |]; auto.
    destruct Hm as [Hw1 Ha]. apply Hf; assumption.
  Qed.

  Lemma wsafe_weak : forall A (m : St (world X Y) A) (P Q : A -> Prop), wsafe m P -> (forall a, P a -> Q a) -> wsafe m Q.
  Proof. intros A m P Q H HPQ w Hw. specialize (H w Hw). destruct (m k w); intuition. Qed.

  Lemma wsafe_lift : forall A (m : M A) (P : A -> Prop), safe m P -> wsafe (lift m) P.
  Proof.
    intros A m P H w Hw. unfold lift. destruct (H _ (wd_clock _ _ _ _ Hw)) as (a & c & -> & Hc & Ha).
    split; [|exact Ha]. destruct Hw. constructor; assumption.
  Qed.

  Lemma wsafe_arith : forall l h w r, wsafe (arith l h w r) (fun _ => True).
  Proof. intros l h wr r w Hw. unfold arith. destruct (_ && _); [auto|]. rewrite Hrel. auto. Qed.

  Lemma wsafe_traverse : forall A S (f : A -> S -> St (world X Y) (A * S)) (P : A -> Prop) l,
    Forall (fun x => forall s, wsafe (f x s) (fun r => P (fst r))) l ->
    forall s, wsafe (traverse f l s) (fun r => Forall P (fst r)).
  Proof.
    intros A S f P l H. induction H as [|x l Hx Hl IH]; intros s; cbn [traverse].
    - apply wsafe_ret. constructor.
    - apply (wsafe_bind _ _ _ _ _ _ (Hx s)). intros [x' s1] Hx'.
      apply (wsafe_bind _ _ _ _ _ _ (IH s1)). intros [l' s2] Hl'. apply wsafe_ret. constructor; assumption.
  Qed.

  Definition action_sound (a : action X Y) : Prop :=
    match a with
    | OnQueue _ a => forall m, In m (action_messages a) -> Forall sound (message_instruments m)
    | OnMount _ a => forall m, In m (action_messages a) -> Forall sound (mount_message_instruments m)
    end.

  Lemma act_sound : forall w a, world_sound w -> action_sound a -> world_sound (act w a).
  Proof.
    intros w a [Hc Hq Hm Ha Hb] H. destruct a as [i a|i a]; constructor; cbn [act w_clock w_queues w_mounts w_sched]; auto.
    - intros j m Hin. unfold set_chan in Hin. destruct (Nat.eqb j i); [|apply (Hq j m Hin)].
      apply act_messages in Hin. destruct Hin as [Hin|Hin]; [apply (Hq i m Hin)|apply (H m Hin)].
    - intros j m Hin. unfold set_chan in Hin. destruct (Nat.eqb j i); [|apply (Hm j m Hin)].
      apply act_messages in Hin. destruct Hin as [Hin|Hin]; [apply (Hm i m Hin)|apply (H m Hin)].
  Qed.

  Lemma acts_sound : forall l w, world_sound w -> Forall action_sound l -> world_sound (fold_left act l w).
  Proof.
    induction l as [|a l IH]; intros w Hw H; cbn [fold_left]; [exact Hw|]. inversion H; subst.
    apply IH; [|assumption]. apply act_sound; assumption.
  Qed.

  Lemma wsafe_interleave : wsafe interleave (fun _ => True).
  Proof.
    intros w Hw. unfold interleave. cbv zeta. split; [|exact I].
    assert (H : world_sound (fold_left act (w_sched w O) w)).
    { apply acts_sound; [exact Hw|]. apply Forall_forall. intros a Ha. destruct Hw. destruct a as [i a|i a]; cbn.
      - intros m Hm. eapply wd_queue_actions; eassumption.
      - intros m Hm. eapply wd_mount_actions; eassumption. }
    destruct H. constructor; cbn [w_clock w_queues w_mounts w_sched]; auto.
    - intros n. apply (wd_queue_actions (S n)).
    - intros n. apply (wd_mount_actions (S n)).
  Qed.

  Lemma wsafe_queue_recv : forall i,
    wsafe (queue_try_recv i) (fun r => forall m, r = Message m -> Forall sound (message_instruments m)).
  Proof.
    intros i. unfold queue_try_recv. eapply wsafe_bind; [apply wsafe_interleave|]. intros _ _ w Hw.
    destruct (chan_try_recv (w_queues w i)) as [c r] eqn:E. apply recv_messages in E. destruct E as [E1 E2].
    destruct Hw. split.
    - constructor; cbn [w_clock w_queues w_mounts w_sched]; auto.
      intros j m Hin. unfold set_chan in Hin. destruct (Nat.eqb j i); [|eauto]. eauto.
    - intros m Hm. eauto.
  Qed.

  Lemma wsafe_mount_recv : forall i,
    wsafe (mount_try_recv i) (fun r => forall m, r = Message m -> Forall sound (mount_message_instruments m)).
  Proof.
    intros i. unfold mount_try_recv. eapply wsafe_bind; [apply wsafe_interleave|]. intros _ _ w Hw.
    destruct (chan_try_recv (w_mounts w i)) as [c r] eqn:E. apply recv_messages in E. destruct E as [E1 E2].
    destruct Hw. split.
    - constructor; cbn [w_clock w_queues w_mounts w_sched]; auto.
      intros j m Hin. unfold set_chan in Hin. destruct (Nat.eqb j i); [|eauto]. eauto.
    - intros m Hm. eauto.
  Qed.

  Lemma wsafe_len : forall i, wsafe (queue_len i) (fun _ => True).
  Proof. intros i. unfold queue_len. eapply wsafe_bind; [apply wsafe_interleave|]. intros _ _ w Hw. auto. Qed.

  (** ** The telemetry processor *)

  Notation panel_sound := (panel_sound (X := X) k lo hi).
  Notation handler_sound := (handler_sound (X := X) k lo hi).
  Notation cockpit_sound := (cockpit_sound (X := X) k lo hi).
  Notation snapshooter_sound := (snapshooter_sound (X := X) k lo hi).

  Definition tele_sound (t : tele X) : Prop := Forall sound (tele_instruments t).

  Lemma tele_sound_iff : forall t, tele_sound t <->
    Forall cockpit_sound (tp_cockpits t) /\ Forall handler_sound (tp_handlers t)
    /\ Forall snapshooter_sound (tp_snapshooters t).
  Proof. intros t. unfold tele_sound, tele_instruments. rewrite !Forall_app, !Forall_flat_map. reflexivity. Qed.

  Lemma tele_handle_safe : forall t o acc, tele_sound t -> safe (tele_handle t o acc) (fun r => tele_sound (fst r)).
  Proof.
    intros t o acc H. apply tele_sound_iff in H. destruct H as (Hc & Hh & Hs). unfold tele_handle.
    destruct (tree_handle_safe k lo hi Hrel Htime HX) as (_ & Th & Tc & _).
    eapply safe_bind.
    { apply (safe_traverse _ _ _ _ _ _ cockpit_sound). eapply Forall_impl; [|exact Hc]. cbv beta. intros x Hx s.
      apply safe_tally; [exact Hrel|]. apply Tc, Hx. }
    intros [cs n] Hcs. eapply safe_bind.
    { apply (safe_traverse _ _ _ _ _ _ handler_sound). eapply Forall_impl; [|exact Hh]. cbv beta. intros x Hx s.
      apply safe_tally; [exact Hrel|]. apply Th, Hx. }
    intros [hs n1] Hhs. apply safe_ret, tele_sound_iff. auto.
  Qed.

  Lemma forall_update_first : forall (P : cockpit X -> Prop) n f cs, (forall c, P c -> P (f c)) -> Forall P cs ->
    Forall P (update_first n f cs).
  Proof.
    intros P n f cs Hf H. induction H; cbn; [constructor|]. destruct (is_named _ _); constructor; auto.
  Qed.

  Lemma forall_filter : forall A (P : A -> Prop) f l, Forall P l -> Forall P (filter f l).
  Proof. intros A P f l H. induction H; cbn; [constructor|]. destruct (f x); [constructor|]; auto. Qed.

  Lemma add_panel_sound : forall c p, cockpit_sound c -> panel_sound p -> cockpit_sound (cockpit_add_panel c p).
  Proof.
    intros [d ps hs ss] p Hc Hp. unfold cockpit_add_panel. pose proof Hc as H. apply cockpit_sound_iff in H.
    destruct H as (H1 & H2 & H3).
    assert (Ha : cockpit_sound (Cockpit d (ps ++ [p]) hs ss)).
    { apply cockpit_sound_iff. repeat split; auto. apply Forall_app. auto. }
    destruct (panel_name p); [|exact Ha]. destruct (existsb _ _); [exact Hc|exact Ha].
  Qed.

  Lemma remove_panel_sound : forall c n, cockpit_sound c -> cockpit_sound (cockpit_remove_panel c n).
  Proof.
    intros [d ps hs ss] n Hc. unfold cockpit_remove_panel. apply cockpit_sound_iff in Hc. apply cockpit_sound_iff.
    destruct Hc as (H1 & H2 & H3). repeat split; auto. apply forall_filter, H1.
  Qed.

  Lemma tele_message_safe : forall d t n m, tele_sound t -> Forall sound (message_instruments m) ->
    safe (tele_message d t n m) (fun r => tele_sound (fst r)).
  Proof.
    intros d t n m Ht Hm. pose proof Ht as H. apply tele_sound_iff in H. destruct H as (Hc & Hh & Hs).
    assert (Hadd : forall A (f : Z -> A) (P : A -> Prop), (forall z, P (f z)) ->
      safe (let* p := add_usize (ct_processed n) 1 in ret (f p)) P).
    { intros A f P Hf. eapply safe_bind; [apply safe_add_usize, Hrel|]. intros p _. apply safe_ret, Hf. }
    unfold tele_message. cbv zeta. destruct m as [o|c|c|h|cn p|cn pn]; cbn in Hm.
    - destruct (should_be_processed d o).
      + eapply safe_bind; [apply tele_handle_safe, Ht|]. intros [t' u] Ht'. apply Hadd. intros. exact Ht'.
      + eapply safe_bind; [apply safe_add_usize, Hrel|]. intros p _. apply safe_ret, Ht.
    - apply Hadd. intros ?. unfold tele_add_cockpit.
      assert (Ha : tele_sound (tele_with t (tp_cockpits t ++ [c]) (tp_handlers t))).
      { apply tele_sound_iff. cbn. repeat split; auto. apply Forall_app. auto. }
      cbn [fst]. destruct (cockpit_name c); [|exact Ha]. destruct (existsb _ _); [exact Ht|exact Ha].
    - apply Hadd. intros ?. apply tele_sound_iff. cbn. repeat split; auto. apply forall_filter, Hc.
    - apply Hadd. intros ?. apply tele_sound_iff. cbn. repeat split; auto. apply Forall_app. auto.
    - apply Hadd. intros ?. apply tele_sound_iff. cbn. repeat split; auto. apply forall_update_first; [|exact Hc].
      intros c Hc'. apply add_panel_sound; assumption.
    - apply Hadd. intros ?. apply tele_sound_iff. cbn. repeat split; auto. apply forall_update_first; [|exact Hc].
      intros c Hc'. apply remove_panel_sound; assumption.
  Qed.

  Lemma tele_collect_safe : forall n d t acc, tele_sound t ->
    wsafe (tele_collect n d t acc) (fun r => tele_sound (fst r)).
  Proof.
    induction n as [|n IH]; intros d t acc Ht; cbn [tele_collect]; [apply wsafe_ret, Ht|].
    eapply wsafe_bind; [apply wsafe_queue_recv|]. intros r Hr. cbv beta in Hr. destruct r as [m| |].
    - eapply wsafe_bind; [apply wsafe_lift, tele_message_safe; [exact Ht|apply Hr; reflexivity]|].
      intros [t' acc'] Ht'. apply IH, Ht'.
    - apply IH, Ht.
    - apply wsafe_ret. exact Ht.
  Qed.

  Lemma decider_safe : forall s, strategy_sound k lo hi s -> safe (strategy_decider s) (fun _ => True).
  Proof.
    intros [| |age dd] H; cbn [strategy_decider]; try apply safe_done.
    eapply safe_bind; [apply safe_now|]. intros t Ht. cbv beta in Ht.
    eapply safe_bind; [apply safe_sub_instant, (manageable_down k lo hi); assumption|]. intros d _. apply safe_done.
  Qed.

  Lemma tele_process_safe : forall t max s, tele_sound t -> strategy_sound k lo hi s ->
    wsafe (tele_process t max s) (fun r => tele_sound (fst r)).
  Proof.
    intros t max s Ht Hs. unfold tele_process. destruct (tp_disconnected t); [apply wsafe_ret, Ht|].
    eapply wsafe_bind; [apply wsafe_lift, decider_safe, Hs|]. intros d _.
    eapply wsafe_bind; [apply tele_collect_safe, Ht|]. intros [t' acc] Ht'.
    eapply wsafe_bind; [apply wsafe_len|]. intros e _. cbv zeta.
    destruct (something_happened _); [|apply wsafe_ret, Ht'].
    eapply wsafe_bind; [apply wsafe_lift, safe_now|]. intros t0 _. apply wsafe_ret. exact Ht'.
  Qed.

  (** ** Processors *)

  Definition processor_sound (p : processor X Y) : Prop := Forall sound (processor_instruments p).
  Definition mount_sound (m : mount X Y) : Prop := Forall sound (mount_instruments m).

  Lemma mount_sound_iff : forall d ps ss, mount_sound (Mount d ps ss) <->
    Forall processor_sound ps /\ Forall snapshooter_sound ss.
  Proof.
    intros. unfold mount_sound.
    change (mount_instruments (Mount d ps ss)) with (flat_map processor_instruments ps ++ flat_map snapshooter_instruments ss).
    rewrite Forall_app, !Forall_flat_map. reflexivity.
  Qed.

  Lemma combine_safe : forall a b, wsafe (combine_with a b) (fun _ => True).
  Proof.
    intros a b. unfold combine_with.
    eapply wsafe_bind; [apply wsafe_arith|]. intros ? _. eapply wsafe_bind; [apply wsafe_arith|]. intros ? _.
    eapply wsafe_bind; [apply wsafe_arith|]. intros ? _. eapply wsafe_bind; [apply wsafe_arith|]. intros ? _.
    apply wsafe_ret. exact I.
  Qed.

  Lemma collect_one_safe : forall f p acc, wsafe (f p) (fun r => processor_sound (fst r)) ->
    wsafe (collect_one f p acc) (fun r => processor_sound (fst r)).
  Proof.
    intros f p acc H. unfold collect_one. eapply wsafe_bind; [apply H|]. intros [p' o] Hp.
    eapply wsafe_bind; [apply combine_safe|]. intros acc' _. apply wsafe_ret. exact Hp.
  Qed.

  Lemma mount_process_safe : forall f m,
    (forall p, processor_sound p -> wsafe (f p) (fun r => processor_sound (fst r))) -> mount_sound m ->
    wsafe (mount_process f m) (fun r => mount_sound (fst r)).
  Proof.
    intros f [d ps ss] Hf Hm. apply mount_sound_iff in Hm. destruct Hm as [Hp Hs]. unfold mount_process.
    eapply wsafe_bind.
    { apply (wsafe_traverse _ _ _ processor_sound). eapply Forall_impl; [|exact Hp]. cbv beta. intros p Hpp s.
      apply collect_one_safe, Hf, Hpp. }
    intros [ps' o] Hps. destruct (something_happened o); [|apply wsafe_ret, mount_sound_iff; auto].
    eapply wsafe_bind; [apply wsafe_lift, safe_now|]. intros t _. apply wsafe_ret, mount_sound_iff. auto.
  Qed.

  Lemma mount_add_sound : forall m x, mount_sound m -> Forall sound (mount_message_instruments x) -> mount_sound (mount_add m x).
  Proof.
    intros [d ps ss] x Hm Hx. apply mount_sound_iff in Hm. destruct Hm as [Hp Hs].
    destruct x as [p|s]; apply mount_sound_iff; split; auto; apply Forall_app; auto.
  Qed.

  Lemma drain_safe : forall n i m, mount_sound m -> wsafe (attached_drain n i m) (fun r => mount_sound (fst r)).
  Proof.
    induction n as [|n IH]; intros i m Hm; cbn [attached_drain]; [intros w Hw; exact I|].
    eapply wsafe_bind; [apply wsafe_mount_recv|]. intros r Hr. cbv beta in Hr. destruct r as [x| |].
    - apply IH, mount_add_sound; [exact Hm|]. apply Hr. reflexivity.
    - apply wsafe_ret, Hm.
    - apply wsafe_ret, Hm.
  Qed.

  Lemma take_safe : forall r m, mount_sound m -> wsafe (attached_take r m) (fun x => mount_sound (snd x)).
  Proof.
    intros [i|] m Hm; cbn [attached_take]; [|apply wsafe_ret, Hm].
    assert (H : wsafe (let* '(m, still_connected) := attached_drain (fuel k) i m in
           ret (if still_connected : bool then Some i else None, m)) (fun x => mount_sound (snd x))).
    { eapply wsafe_bind; [apply drain_safe, Hm|]. intros [m' b] Hm'. apply wsafe_ret. exact Hm'. }
    exact H.
  Qed.

  Lemma processor_process_safe : forall n p max s, processor_sound p -> strategy_sound k lo hi s ->
    wsafe (processor_process n p max s) (fun r => processor_sound (fst r)).
  Proof.
    induction n as [|n IH]; intros p max s Hp Hs; cbn [processor_process]; [intros w Hw; exact I|].
    destruct p as [t|m|r m|h|u].
    - eapply wsafe_bind; [apply tele_process_safe; [exact Hp|exact Hs]|]. intros [t' o] Ht. apply wsafe_ret. exact Ht.
    - eapply wsafe_bind; [apply mount_process_safe; [intros; apply IH; assumption|exact Hp]|].
      intros [m' o] Hm. apply wsafe_ret. exact Hm.
    - eapply wsafe_bind; [apply take_safe; exact Hp|]. intros [r' m'] Hm'.
      eapply wsafe_bind; [apply mount_process_safe; [intros; apply IH; assumption|exact Hm']|].
      intros [m'' o] Hm. apply wsafe_ret. exact Hm.
    - apply wsafe_ret. constructor.
    - eapply wsafe_bind; [apply wsafe_lift, (ps_proc_process _ _ _ _ HY)|]. intros [u' o] _. apply wsafe_ret. constructor.
  Qed.

  Lemma tele_put_safe : forall t de into, tele_sound t -> safe (tele_put t de into) (fun r => tele_sound (fst r)).
  Proof.
    intros t de into Ht. pose proof Ht as H. apply tele_sound_iff in H. destruct H as (Hc & Hh & Hs).
    destruct (tree_put_safe k lo hi Hrel Htime HX) as (_ & Th & Tc & Ts). unfold tele_put.
    apply safe_put_named. intros into1. cbv zeta. apply safe_check; [exact Ht|]. intros into2.
    eapply safe_bind.
    { apply (put_list k lo hi _ cockpit_sound); [|exact Hc]. apply Forall_forall. intros x _. apply Tc. }
    intros [cs i1] H1. eapply safe_bind.
    { apply (put_list k lo hi _ handler_sound); [|exact Hh]. apply Forall_forall. intros x _. apply Th. }
    intros [hs i2] H2. eapply safe_bind.
    { apply (put_list k lo hi _ snapshooter_sound); [|exact Hs]. apply Forall_forall. intros x _. apply Ts. }
    intros [ss i3] H3. apply safe_ret, tele_sound_iff. auto.
  Qed.

  Lemma snapshooters_put_safe : forall ss de into, Forall snapshooter_sound ss ->
    safe (traverse (fun x => snapshooter_put x de) ss into) (fun r => Forall snapshooter_sound (fst r)).
  Proof.
    intros ss de into H. apply (put_list k lo hi _ snapshooter_sound); [|exact H]. apply Forall_forall. intros x _.
    apply (tree_put_safe k lo hi Hrel Htime HX).
  Qed.

  Lemma processor_put_safe :
    (forall p de into, processor_sound p -> safe (processor_put p de into) (fun r => processor_sound (fst r)))
    /\ (forall m de into, mount_sound m -> safe (mount_put m de into) (fun r => mount_sound (fst r))).
  Proof.
    apply processor_ind'.
    - intros t de into H. change (processor_put (PTele t) de into) with (wrap (PTele (X := X) (Y := Y)) (tele_put t de into)).
      apply safe_wrap. apply tele_put_safe, H.
    - intros m Hm de into H. change (processor_put (PMount m) de into) with (wrap (PMount (X := X) (Y := Y)) (mount_put m de into)).
      apply safe_wrap. apply Hm, H.
    - intros r m Hm de into H. change (processor_put (PAttached r m) de into) with (wrap (PAttached (X := X) (Y := Y) r) (mount_put m de into)).
      apply safe_wrap. apply Hm, H.
    - intros h de into H. change (processor_put (PDriver h) de into) with (wrap (PDriver (X := X) (Y := Y)) (driver_put h de into)).
      apply safe_wrap. eapply safe_weak; [|intros r _; constructor]. unfold driver_put.
      eapply safe_bind; [apply (ps_driver_snapshot _ _ _ _ HY)|]. intros [h' a] _. apply safe_done.
    - intros u de into H. change (processor_put (PUser u) de into) with (wrap (PUser (X := X) (Y := Y)) (user_proc_put Y u de into)).
      apply safe_wrap. eapply safe_weak; [|intros r _; constructor]. apply (ps_proc_put _ _ _ _ HY).
    - intros d ps ss Hps de into H. pose proof H as H0. apply mount_sound_iff in H. destruct H as [Hp Hs].
      rewrite mount_put_eq. apply safe_put_named. intros into1. apply safe_check; [exact H0|]. intros into2.
      eapply safe_bind; [apply (put_list _ _ _ _ _ _ _ Hps Hp)|]. intros [ps' n1] Hps'.
      eapply safe_bind; [apply snapshooters_put_safe, Hs|]. intros [ss' n2] Hss'.
      apply safe_ret, mount_sound_iff. auto.
  Qed.

  Lemma serve_safe : forall n l p, processor_sound p -> Forall (request_sound k lo hi) l ->
    wsafe (serve n p l) processor_sound.
  Proof.
    intros n. induction l as [|r l IH]; intros p Hp Hl; cbn [serve]; [apply wsafe_ret, Hp|]. inversion Hl; subst.
    destruct r as [max s|de into].
    - eapply wsafe_bind; [apply processor_process_safe; assumption|]. intros [p' o] Hp'. apply IH; assumption.
    - eapply wsafe_bind; [apply wsafe_lift, processor_put_safe, Hp|]. intros [p' o] Hp'. apply IH; assumption.
  Qed.
End World.
