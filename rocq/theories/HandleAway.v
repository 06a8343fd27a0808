(** Computations that do not use some receivers. *)
From Coq Require Import ZArith Bool String List Lia.
From Verif Require Import Base SpecRun MonadFacts ModelObservation ModelSnapshot ModelInstrument ModelTree
  ModelChannel ModelProcessor ModelDriver TreeEqs TreeInd SpecClock ClockProofs WorldClockProofs SpecQueue QueueProofs SpecCollect CollectProofs
  GroupProofs SpecDriver SpecChronicle ChronicleProofs SpecHandle.
Import ListNotations.
Open Scope Z_scope.

Section Away.
  Context {X : ext} {Y : pext}.
  Variable R : receiver -> Prop.
  Implicit Types w : world X Y.

  Definition mheld (m : mount X Y) : Prop := exists r, R r /\ mount_holds r m.
  Definition pheld (x : mount_message X Y) : Prop := exists r, R r /\ put_holds r x.
  Definition alone w w' : Prop := forall r, R r -> untouched r w w'.

  Lemma alone_refl : forall w, alone w w.
  Proof. intros w r _. apply untouched_refl. Qed.
  Lemma alone_trans : forall a b c : world X Y, alone a b -> alone b c -> alone a c.
  Proof. intros a b c H1 H2 r Hr. eapply untouched_trans; eauto. Qed.

  (** What is kept of the mounts' channels and of the plans of the other threads *)
  Definition invariant := (nat -> chan (mount_message X Y)) -> (nat -> list (action X Y)) -> Prop.
  Definition valid (inv : invariant) w : Prop := inv (w_mounts w) (w_sched w).
  Record kept (inv : invariant) : Prop := Kept {
    kept_interleave : forall k w u w', interleave k w = Ok u w' -> valid inv w -> valid inv w';
    kept_recv : forall i ms sc c x, ~ R (MountReceiver i) -> inv ms sc -> chan_try_recv (ms i) = (c, x) ->
      inv (set_chan ms i c) sc /\ match x with Message m => ~ pheld m | _ => True end
  }.

  Section Inv.
    Variable inv : invariant.
    Hypothesis K : kept inv.

    Definition aways {A} (m : St (world X Y) A) (P : A -> Prop) : Prop := forall k w a w',
      m k w = Ok a w' -> valid inv w -> valid inv w' /\ alone w w' /\ P a.

    Lemma aways_ret : forall A (a : A) (P : A -> Prop), P a -> aways (ret a) P.
    Proof. intros A a P H k w b w' E F. injection E as <- <-. split; [exact F|]. split; [apply alone_refl | exact H]. Qed.

    Lemma aways_bind : forall A B (m : St (world X Y) A) (f : A -> St (world X Y) B) P Q,
      aways m P -> (forall a, P a -> aways (f a) Q) -> aways (bind m f) Q.
    Proof.
      intros A B m f P Q Hm Hf k w b w' E F. apply bind_ok in E. destruct E as (a & w1 & E1 & E2).
      destruct (Hm _ _ _ _ E1 F) as (F1 & U1 & Pa). destruct (Hf a Pa _ _ _ _ E2 F1) as (F2 & U2 & Qb).
      split; [exact F2|]. split; [eapply alone_trans; eassumption | exact Qb].
    Qed.

    Lemma aways_lift : forall A (m : M A) (P : A -> Prop), (forall k c a c', m k c = Ok a c' -> P a) -> aways (lift m) P.
    Proof.
      intros A m P H k w a w' E F. apply lift_inv in E. destruct E as (c & E & ->).
      split; [exact F|]. split; [|exact (H _ _ _ _ E)]. intros r _. unfold untouched, keeps_queue. destruct r; exists []; reflexivity.
    Qed.

    Lemma aways_interleave : aways interleave (fun _ => True).
    Proof.
      intros k w u w' E F. split; [exact (kept_interleave _ K _ _ _ _ E F)|]. split; [|exact I].
      injection E as _ <-. intros r _. unfold untouched, keeps_queue. destruct r as [i|i]; cbn [w_queues w_mounts]; eexists.
      - apply acts_queues.
      - apply acts_mounts.
    Qed.

    Lemma aways_queue_recv : forall i, ~ R (QueueReceiver i) -> aways (queue_try_recv i) (fun _ => True).
    Proof.
      intros i N. eapply aways_bind; [apply aways_interleave|]. intros _ _ k w a w' E F.
      destruct (chan_try_recv (w_queues w i)) as [c x]. injection E as <- <-. split; [exact F|]. split; [|exact I].
      intros r Hr. unfold untouched, keeps_queue. destruct r as [j|j]; exists []; cbn [w_queues w_mounts]; [|reflexivity].
      unfold set_chan. destruct (Nat.eqb_spec j i) as [->|]; [destruct (N Hr) | reflexivity].
    Qed.

    Lemma aways_mount_recv : forall i, ~ R (MountReceiver i) ->
      aways (mount_try_recv i) (fun x => match x with Message m => ~ pheld m | _ => True end).
    Proof.
      intros i N. eapply aways_bind; [apply aways_interleave|]. intros _ _ k w a w' E F.
      destruct (chan_try_recv (w_mounts w i)) as [c x] eqn:Er. injection E as <- <-.
      destruct (kept_recv _ K _ _ _ _ _ N F Er) as [C1 C2]. split; [exact C1|]. split; [|exact C2].
      intros r Hr. unfold untouched, keeps_queue. destruct r as [j|j]; exists []; cbn [w_queues w_mounts]; [reflexivity|].
      unfold set_chan. destruct (Nat.eqb_spec j i) as [->|]; [destruct (N Hr) | reflexivity].
    Qed.

    Lemma aways_queue_len : forall i, aways (queue_len i) (fun _ => True).
    Proof.
      intros i. eapply aways_bind; [apply aways_interleave|]. intros _ _ k w a w' E F. injection E as _ <-.
      split; [exact F|]. split; [apply alone_refl | exact I].
    Qed.

    Lemma aways_usize : forall a b, aways (add_usize a b) (fun _ => True).
    Proof.
      intros a b k w x w' E F. unfold add_usize, u64_arith, arith in E.
      destruct (_ && _); [|destruct (overflow_checks k)]; try discriminate E; injection E as _ <-;
        (split; [exact F | split; [apply alone_refl | exact I]]).
    Qed.

    Lemma aways_combine : forall a b, aways (combine_with a b) (fun _ => True).
    Proof.
      intros a b. unfold combine_with. repeat (eapply aways_bind; [apply aways_usize|]; intros ? _). apply aways_ret. exact I.
    Qed.

    Lemma aways_collect : forall n d t acc, ~ R (QueueReceiver (tp_receiver t)) ->
      aways (tele_collect n d t acc) (fun x => tp_receiver (fst x) = tp_receiver t).
    Proof.
      induction n as [|n IH]; intros d t acc N; cbn [tele_collect]; [apply aways_ret; reflexivity|].
      eapply aways_bind; [apply aways_queue_recv, N|]. intros [m| |] _; [|apply IH, N|apply aways_ret; reflexivity].
      eapply aways_bind with (P := fun x => tp_receiver (fst x) = tp_receiver t).
      - apply aways_lift. intros k c [t1 n1] c' E. exact (proj1 (same_settings_receiver _ _ _ _ _ _ _ _ _ E)).
      - intros [t1 n1] Et. cbn [fst] in Et. rewrite <- Et in N. specialize (IH d t1 n1 N). rewrite Et in IH. exact IH.
    Qed.

    Lemma aways_tele : forall t max s, ~ R (QueueReceiver (tp_receiver t)) ->
      aways (tele_process t max s) (fun x => tp_receiver (fst x) = tp_receiver t).
    Proof.
      intros t max s N. unfold tele_process. destruct (tp_disconnected t); [apply aways_ret; reflexivity|].
      eapply aways_bind with (P := fun _ => True); [apply aways_lift; auto|]. intros d _.
      eapply aways_bind; [apply aways_collect, N|]. intros [t1 acc] Et. cbn [fst] in Et.
      eapply aways_bind; [apply aways_queue_len|]. intros e _. cbv zeta.
      destruct (something_happened _); [|apply aways_ret; exact Et].
      eapply aways_bind with (P := fun _ => True); [apply aways_lift; auto|]. intros x _. apply aways_ret. exact Et.
    Qed.

    Lemma mheld_iff : forall d ps ss, mheld (Mount d ps ss) <-> Exists (held R) ps.
    Proof.
      intros d ps ss. unfold mheld. split.
      - intros (r & Hr & H). rewrite mount_holds_iff in H. apply Exists_exists in H. destruct H as (p & Hp & H). apply Exists_exists. exists p. split; [exact Hp|].
        exists r. auto.
      - intros H. apply Exists_exists in H. destruct H as (p & Hp & r & Hr & H). exists r. split; [exact Hr|]. rewrite mount_holds_iff. apply Exists_exists. eauto.
    Qed.

    Lemma aways_traverse : forall f ps acc,
      (forall p, ~ held R p -> aways (f p) (fun x => ~ held R (fst x))) ->
      ~ Exists (held R) ps ->
      aways (traverse (collect_one f) ps acc) (fun x => ~ Exists (held R) (fst x)).
    Proof.
      intros f ps. induction ps as [|p ps IH]; intros acc H N; cbn [traverse].
      - apply aways_ret. exact N.
      - rewrite Exists_cons in N. eapply aways_bind with (P := fun x => ~ held R (fst x)).
        + unfold collect_one. eapply aways_bind; [apply H; tauto|]. intros [p1 o] Hp.
          eapply aways_bind; [apply aways_combine|]. intros o1 _. apply aways_ret. exact Hp.
        + intros [p1 acc1] Hp. eapply aways_bind; [apply IH; tauto|]. intros [ps1 o1] Hps. apply aways_ret.
          cbn [fst] in *. rewrite Exists_cons. tauto.
    Qed.

    Lemma aways_mount : forall f m,
      (forall p, ~ held R p -> aways (f p) (fun x => ~ held R (fst x))) ->
      ~ mheld m ->
      aways (mount_process f m) (fun x => ~ mheld (fst x)).
    Proof.
      intros f [d ps ss] H N. rewrite mheld_iff in N. cbn [mount_process].
      eapply aways_bind; [apply aways_traverse; [exact H | exact N]|]. intros [ps1 o] Hps. cbn [fst] in Hps.
      destruct (something_happened o).
      - eapply aways_bind with (P := fun _ => True); [apply aways_lift; auto|]. intros t _. apply aways_ret.
        cbn [fst]. rewrite mheld_iff. exact Hps.
      - apply aways_ret. cbn [fst]. rewrite mheld_iff. exact Hps.
    Qed.

    Lemma aways_drain : forall n i m, ~ R (MountReceiver i) ->
      aways (attached_drain n i m) (fun x => exists xs, fst x = fold_left mount_add xs m /\ Forall (fun y => ~ pheld y) xs).
    Proof.
      induction n as [|n IH]; intros i m N; cbn [attached_drain]; [intros k w a w' E; discriminate E|].
      eapply aways_bind; [apply aways_mount_recv, N|]. intros [x| |] Hx; [|apply aways_ret; exists []; auto..].
      intros k w a w' E F. destruct (IH i (mount_add m x) N _ _ _ _ E F) as (H1 & H2 & xs & H3 & H4).
      split; [exact H1|]. split; [exact H2|]. exists (x :: xs). auto.
    Qed.

    (** Before the collection of an attached mount with another receiver *)
    Lemma aways_take : forall i d ps ss, (forall j, i = Some j -> ~ R (MountReceiver j)) ->
      aways (attached_take i (Mount d ps ss)) (fun x => (fst x = i \/ fst x = None)
        /\ exists xs, snd x = Mount d (ps ++ put_processors xs) (ss ++ put_snapshooters xs) /\ Forall (fun p => ~ held R p) (put_processors xs)).
    Proof.
      intros i d ps ss N. destruct i as [i|]; cbn [attached_take].
      - intros k. apply (aways_bind _ _ _ _ (fun x : mount X Y * bool => exists xs, fst x = fold_left mount_add xs (Mount d ps ss) /\ Forall (fun y => ~ pheld y) xs));
          [apply aways_drain; apply N; reflexivity|].
        intros [m1 b] (xs & Hm & Hx). cbn [fst] in Hm. apply aways_ret. cbn [fst snd]. split; [destruct b; auto|]. exists xs.
        split; [rewrite Hm; apply mount_add_list|]. apply Forall_forall. intros p Ip. apply in_flat_map in Ip. destruct Ip as (y & Iy & Ip).
        rewrite Forall_forall in Hx. specialize (Hx _ Iy). destruct y; [|destruct Ip]. destruct Ip as [->|[]]. exact Hx.
      - apply aways_ret. cbn [fst snd]. split; [auto|]. exists []. cbn. rewrite !app_nil_r. auto.
    Qed.

    Lemma not_exists : forall A (P : A -> Prop) l, ~ Exists P l <-> Forall (fun a => ~ P a) l.
    Proof. intros A P l. symmetry. apply Forall_Exists_neg. Qed.

    Lemma aways_process : forall n p max s, ~ held R p ->
      aways (processor_process n p max s) (fun x => ~ held R (fst x)).
    Proof.
      induction n as [|n IH]; intros p max s N; cbn [processor_process]; [intros k w a w' E; discriminate E|].
      destruct p as [t|m|rc m|h|u].
      - assert (N' : ~ R (QueueReceiver (tp_receiver t))) by (intros H; apply N; exists (QueueReceiver (tp_receiver t)); split; [exact H | reflexivity]).
        eapply aways_bind; [apply aways_tele, N'|]. intros [t1 o] Et. apply aways_ret. cbn [fst] in *. intros (r & Hr & ->). congruence.
      - eapply aways_bind; [apply aways_mount; [intros p Hp; apply IH, Hp | exact N]|].
        intros [m1 o] Hm. apply aways_ret. exact Hm.
      - destruct m as [d ps ss].
        assert (Nr : forall j, rc = Some j -> ~ R (MountReceiver j)) by (intros j -> H; apply N; exists (MountReceiver j); cbn; auto).
        assert (Nm : ~ Exists (held R) ps).
        { intros H. apply N. rewrite <- (mheld_iff d ps ss) in H. destruct H as (r & Hr & H). exists r. split; [exact Hr|].
          destruct rc; [right; exact H | exact H]. }
        eapply aways_bind; [apply (aways_take _ _ _ _ Nr)|]. intros [r1 m1] (Hr1 & xs & Hm1 & Hx). cbn [fst snd] in *.
        eapply aways_bind; [apply aways_mount; [intros p Hp; apply IH, Hp|]|].
        { rewrite Hm1, mheld_iff, not_exists. apply Forall_app. split; [apply not_exists, Nm | exact Hx]. }
        intros [m2 o] Hm2. apply aways_ret. cbn [fst] in *. intros (r & Hr & H). destruct r1 as [j|].
        + destruct H as [-> | H]; [|apply Hm2; exists r; auto]. destruct Hr1 as [E|E]; [|discriminate E]. exact (Nr j (eq_sym E) Hr).
        + apply Hm2. exists r. auto.
      - apply aways_ret. exact N.
      - eapply aways_bind with (P := fun _ => True); [apply aways_lift; auto|]. intros [u1 o] _. apply aways_ret. exact N.
    Qed.
  End Inv.

  (** ** Invariants *)

  (** Nothing that was or will be put has one of the receivers. *)
  Definition clear : invariant := fun ms sc =>
    (forall j, Forall (fun x => ~ pheld x) (ch_queue (ms j) ++ ch_waiting (ms j)))
    /\ (forall n, Forall (fun a => match a with OnMount _ (Send x) | OnMount _ (TrySend x) => ~ pheld x | _ => True end) (sc n)).

  Lemma pheld_each : forall x, ~ pheld x <-> forall r, R r -> ~ put_holds r x.
  Proof. intros x. unfold pheld. split; [intros H r Hr Hx; apply H; eauto | intros H (r & Hr & Hx); exact (H r Hr Hx)]. Qed.

  Lemma clear_iff : forall w, valid clear w <-> forall r, R r -> foreign r w.
  Proof.
    intros w. unfold valid, clear. split.
    - intros (H1 & H2) r Hr. apply foreign_iff. split.
      + intros j. eapply Forall_impl; [|apply (H1 j)]. intros x Hx. exact (proj1 (pheld_each x) Hx r Hr).
      + intros n. eapply Forall_impl; [|apply (H2 n)]. intros [i a|i [x|x|y| | |]] Hx; cbn; auto; exact (proj1 (pheld_each x) Hx r Hr).
    - intros H. split.
      + intros j. apply Forall_forall. intros x Ix. apply pheld_each. intros r Hr.
        exact (proj1 (H r Hr) j x Ix).
      + intros n. apply Forall_forall. intros [i a|i [x|x|y| | |]] Ix; auto; apply pheld_each; intros r Hr; apply (proj2 (H r Hr) n i x); auto.
  Qed.

  Lemma clear_kept : kept clear.
  Proof.
    split.
    - intros k w u w' E H. apply clear_iff. intros r Hr. apply (interleave_foreign r _ _ _ _ E). apply clear_iff; assumption.
    - intros i ms sc c x N (H1 & H2) E. split; [split; [|exact H2]|].
      + intros j. unfold set_chan. destruct (Nat.eqb j i); [|apply H1]. specialize (H1 i).
        apply Forall_forall. intros y Iy. apply pheld_each. intros r Hr.
        assert (C : chan_clean r (ms i)) by (eapply Forall_impl; [|exact H1]; intros z Hz; exact (proj1 (pheld_each z) Hz r Hr)).
        destruct (recv_chan_clean r _ _ _ C E) as (C1 & _). unfold chan_clean in C1. rewrite Forall_forall in C1. exact (C1 _ Iy).
      + destruct x as [m| |]; auto. apply pheld_each. intros r Hr.
        assert (C : chan_clean r (ms i)) by (eapply Forall_impl; [|exact (H1 i)]; intros z Hz; exact (proj1 (pheld_each z) Hz r Hr)).
        exact (proj2 (recv_chan_clean r _ _ _ C E)).
  Qed.

  Lemma process_foreign : forall r n p max s, keeps_foreign (X := X) (Y := Y) r (processor_process n p max s).
  Proof.
    intros r. assert (Dr : forall n i m, keeps_foreign r (attached_drain (X := X) (Y := Y) n i m)).
    { induction n as [|n IH]; intros i m; cbn [attached_drain]; [intros k w a w' E; discriminate E|].
      apply foreign_bind; [|intros [x| |]; [apply IH | apply foreign_ret..]].
      unfold mount_try_recv. apply foreign_bind; [exact (interleave_foreign r)|]. intros _ k w a w' E F.
      destruct (chan_try_recv (w_mounts w i)) as [c y] eqn:Er. injection E as <- <-.
      apply foreign_iff in F. destruct F as [F1 F2]. destruct (recv_chan_clean _ _ _ _ (F1 i) Er) as [C1 _].
      apply foreign_iff. cbn [w_mounts w_sched]. split; [|exact F2]. intros j. unfold set_chan. destruct (Nat.eqb j i); [exact C1 | apply F1]. }
    assert (Us : forall a b, keeps_foreign (X := X) (Y := Y) r (add_usize a b)).
    { intros a b k w x w' E F. unfold add_usize, u64_arith, arith in E. destruct (_ && _); [|destruct (overflow_checks k)]; try discriminate E; injection E as _ <-; exact F. }
    assert (Cb : forall a b, keeps_foreign (X := X) (Y := Y) r (combine_with a b)).
    { intros a b. unfold combine_with. repeat (apply foreign_bind; [apply Us|]; intros ?). apply foreign_ret. }
    induction n as [|n IH]; intros p max s; cbn [processor_process]; [intros k w a w' E; discriminate E|].
    assert (Mo : forall m : mount X Y, keeps_foreign r (mount_process (fun p => processor_process n p max s) m)).
    { intros [d ps ss]. cbn [mount_process]. apply foreign_bind.
      - generalize outcome_default. induction ps as [|q ps IHp]; intros acc; cbn [traverse]; [apply foreign_ret|].
        apply foreign_bind; [|intros [? ?]; apply foreign_bind; [apply IHp | intros [? ?]; apply foreign_ret]].
        unfold collect_one. apply foreign_bind; [apply IH|]. intros [? ?]. apply foreign_bind; [apply Cb|]. intros ?. apply foreign_ret.
      - intros [ps1 o]. destruct (something_happened o); [|apply foreign_ret]. apply foreign_bind; [apply foreign_lift|]. intros; apply foreign_ret. }
    destruct p as [t|m|rc m|h|u].
    - apply foreign_bind; [apply tele_process_foreign|]. intros [? ?]. apply foreign_ret.
    - apply foreign_bind; [apply Mo|]. intros [? ?]. apply foreign_ret.
    - apply foreign_bind; [|intros [? ?]; apply foreign_bind; [apply Mo | intros [? ?]; apply foreign_ret]].
      destruct rc as [i|]; cbn [attached_take]; [|apply foreign_ret]. intros k. revert k.
      intros k w a w' E F. apply bind_ok in E. destruct E as ([m1 b] & w1 & E1 & E). injection E as <- <-. exact (Dr _ _ _ _ _ _ _ E1 F).
    - apply foreign_ret.
    - apply foreign_bind; [apply foreign_lift|]. intros [? ?]. apply foreign_ret.
  Qed.

  Lemma process_clear : forall n p max s k w p' o w', processor_process n p max s k w = Ok (p', o) w' -> valid clear w -> valid clear w'.
  Proof. intros n p max s k w p' o w' E H. apply clear_iff. intros r Hr. apply (process_foreign r _ _ _ _ _ _ _ _ E). apply clear_iff; assumption. Qed.

  (** [x] waits in channel [j] behind [q]; nothing else has one of the receivers. *)
  Definition waits (j : nat) (q : list (mount_message X Y)) (x : mount_message X Y) : invariant := fun ms sc =>
    (forall i, i <> j -> Forall (fun y => ~ pheld y) (ch_queue (ms i) ++ ch_waiting (ms i)))
    /\ (exists more, ch_queue (ms j) = q ++ x :: more /\ Forall (fun y => ~ pheld y) (q ++ more ++ ch_waiting (ms j)))
    /\ (forall n, Forall (fun a => match a with OnMount _ (Send x) | OnMount _ (TrySend x) => ~ pheld x | _ => True end) (sc n)).

  (** An action adds to the queue. *)
  Lemma act_adds : forall A (P : A -> Prop) (c : chan A) a,
    match a with Send x | TrySend x => P x | _ => True end -> Forall P (ch_waiting c) ->
    exists new, ch_queue (chan_act c a) = ch_queue c ++ new /\ Forall P new /\ Forall P (ch_waiting (chan_act c a)).
  Proof.
    intros A P [cap q wt sn rc ac lo] a Ha Hw. cbn [ch_waiting] in Hw.
    assert (N : forall l : list A, l = l ++ []) by (intros; symmetry; apply app_nil_r).
    destruct a as [x|x|i| | |]; unfold chan_act, chan_send, chan_try_send, chan_wake, chan_clone_sender, chan_drop_sender, chan_drop_receiver, chan_enqueue, chan_refuse, chan_full;
      cbn [ch_cap ch_queue ch_waiting ch_senders ch_receiver ch_accepted ch_lost].
    - destruct sn; [exists []; cbn; auto|]. destruct rc; cbn [negb]; [|exists []; cbn; auto].
      destruct cap as [n|]; [destruct (n <=? length q)%nat|]; cbn [ch_queue ch_waiting]; [exists [] | exists [x] | exists [x]]; rewrite ?Forall_app; auto 6.
    - destruct sn; [exists []; cbn; auto|]. destruct rc; cbn [negb]; [|exists []; cbn; auto].
      destruct cap as [n|]; [destruct (n <=? length q)%nat|]; cbn [ch_queue ch_waiting]; [exists [] | exists [x] | exists [x]]; rewrite ?Forall_app; auto 6.
    - destruct (nth_error wt i) as [x|] eqn:E; [|exists []; cbn; auto].
      destruct (nth_error_rest _ _ _ _ _ E Hw) as [Hx Hr].
      destruct cap as [n|]; [destruct (n <=? length q)%nat|]; cbn [ch_queue ch_waiting]; [exists [] | exists [x] | exists [x]]; auto.
    - destruct sn; exists []; cbn; auto.
    - destruct sn as [|[|]]; [|destruct wt|destruct wt]; exists []; cbn; auto.
    - exists []. cbn. auto.
  Qed.

  Lemma waits_acts : forall j q x l w sc,
    waits j q x (w_mounts w) sc -> Forall (fun a => match a with OnMount _ (Send x) | OnMount _ (TrySend x) => ~ pheld x | _ => True end) l ->
    waits j q x (w_mounts (fold_left act l w)) sc.
  Proof.
    intros j q x l. induction l as [|a l IH]; intros w sc H Hl; [exact H|]. inversion Hl as [|? ? Ha Hl']. subst. cbn [fold_left].
    apply IH; [|exact Hl']. destruct H as (H1 & (more & H2 & H3) & H4). destruct a as [i b|i b]; cbn [act w_mounts]; [repeat split; eauto|].
    split; [|split; [|exact H4]].
    - intros i' Hi'. unfold set_chan. destruct (Nat.eqb_spec i' i) as [->|]; [|auto]. specialize (H1 i Hi'). apply Forall_app in H1. destruct H1 as [Hq Hw].
      destruct (act_adds _ (fun y => ~ pheld y) (w_mounts w i) b) as (new & E & F1 & F2); [destruct b; auto | exact Hw|]. rewrite E, !Forall_app. auto.
    - unfold set_chan. destruct (Nat.eqb_spec j i) as [<-|]; [|eauto]. rewrite !Forall_app in H3. destruct H3 as (Hq & Hm & Hw).
      destruct (act_adds _ (fun y => ~ pheld y) (w_mounts w j) b) as (new & E & F1 & F2); [destruct b; auto | exact Hw|].
      exists (more ++ new). rewrite E, H2, <- app_assoc. cbn [app]. split; [reflexivity|]. rewrite !Forall_app. auto.
  Qed.

  Lemma waits_interleave : forall j q x k w u w', interleave k w = Ok u w' -> valid (waits j q x) w -> valid (waits j q x) w'.
  Proof.
    intros j q x k w u w' E H. injection E as _ <-. unfold valid in *. cbn [w_mounts w_sched].
    destruct (waits_acts j q x (w_sched w O) w (w_sched w) H) as (A & B & C); [apply (proj2 (proj2 H))|].
    split; [exact A|]. split; [exact B|]. intros n. rewrite acts_sched. apply C.
  Qed.

  Lemma waits_kept : forall j q x, R (MountReceiver j) -> kept (waits j q x).
  Proof.
    intros j q x Hj. split.
    - apply waits_interleave.
    - intros i ms sc c y N (H1 & H2 & H3) E.
      assert (Ne : i <> j) by (intros ->; exact (N Hj)). specialize (H1 i Ne) as Hi.
      assert (C : Forall (fun z => ~ pheld z) (ch_queue c ++ ch_waiting c) /\ match y with Message m => ~ pheld m | _ => True end).
      { clear - Hi E. destruct (ms i) as [cap qq wt sn rc ac lo]. unfold chan_try_recv in E.
        cbn [ch_cap ch_queue ch_waiting ch_senders ch_receiver ch_accepted ch_lost] in *. destruct qq as [|z qq].
        - destruct cap as [[|n]|]; [destruct wt as [|z wt]|..]; try (injection E as <- <-; cbn [ch_queue ch_waiting]; split; [exact Hi | destruct sn; exact I]).
          injection E as <- <-. cbn [ch_queue ch_waiting app] in *. inversion Hi; subst. auto.
        - injection E as <- <-. cbn [ch_queue ch_waiting app] in *. inversion Hi; subst. auto. }
      destruct C as [C1 C2]. split; [|exact C2]. split; [|split; [|exact H3]].
      + intros i' Hi'. unfold set_chan. destruct (Nat.eqb i' i); [exact C1 | auto].
      + unfold set_chan. destruct (Nat.eqb_spec j i) as [<-|]; [congruence | exact H2].
  Qed.
End Away.
