(** Mounts and attached mounts. *)
From Coq Require Import ZArith Bool String List Lia.
From Verif Require Import Base SpecRun MonadFacts ModelObservation ModelSnapshot ModelInstrument ModelTree
  ModelChannel ModelProcessor TreeEqs SpecActivity SpecClock WorldClockProofs SpecQueue QueueProofs SpecCollect
  CollectProofs TreeInd.
Import ListNotations.
Open Scope Z_scope.

Section Groups.
  Context {X : ext} {Y : pext}.
  Implicit Types w : world X Y.

  (** ** The bound of the nesting does not matter *)

  Definition extends {A B} (f g : A -> St (world X Y) B) : Prop :=
    forall a k w b w', f a k w = Ok b w' -> g a k w = Ok b w'.

  Lemma traverse_extends : forall A S (f g : A -> S -> St (world X Y) (A * S)),
    (forall a s k w r w', f a s k w = Ok r w' -> g a s k w = Ok r w') ->
    forall l s k w r w', traverse f l s k w = Ok r w' -> traverse g l s k w = Ok r w'.
  Proof.
    intros A S f g H. induction l as [|a l IH]; intros s k w r w' E; cbn [traverse] in *; [exact E|].
    apply bind_ok in E. destruct E as ([a1 s1] & w1 & E1 & E).
    apply bind_ok in E. destruct E as ([l1 s2] & w2 & E2 & E).
    unfold bind. rewrite (H _ _ _ _ _ _ E1), (IH _ _ _ _ _ E2). exact E.
  Qed.

  Lemma mount_extends : forall f g, extends f g -> extends (mount_process f) (mount_process (X := X) (Y := Y) g).
  Proof.
    intros f g H [d ps ss] k w r w' E. cbn [mount_process] in *. apply bind_ok in E. destruct E as ([ps1 o] & w1 & E1 & E).
    unfold bind at 1. rewrite (traverse_extends _ _ (collect_one f) (collect_one g)) with (r := (ps1, o)) (w' := w1); [exact E| |exact E1].
    clear - H. intros p acc k w r w' E. unfold collect_one in *. apply bind_ok in E. destruct E as ([p1 o] & w1 & E1 & E).
    unfold bind at 1. rewrite (H _ _ _ _ _ E1). exact E.
  Qed.

  Lemma process_more : forall n max s, extends (fun p => processor_process n p max s) (fun p => processor_process (X := X) (Y := Y) (S n) p max s).
  Proof.
    induction n as [|n IH]; intros max s p k w r w' E; [discriminate E|].
    cbn [processor_process] in E. destruct p as [t|m|rc m|h|u].
    - exact E.
    - apply bind_ok in E. destruct E as ([m1 o] & w1 & E1 & E). cbn [processor_process]. unfold bind at 1.
      change (mount_process _ m k w) with (mount_process (fun p => processor_process (S n) p max s) m k w).
      rewrite (mount_extends _ _ (IH max s) _ _ _ _ _ E1). exact E.
    - apply bind_ok in E. destruct E as ([r1 m1] & w1 & E1 & E).
      apply bind_ok in E. destruct E as ([m2 o] & w2 & E2 & E). cbn [processor_process]. unfold bind at 1. rewrite E1.
      unfold bind at 1.
      change (mount_process _ m1 k w1) with (mount_process (fun p => processor_process (S n) p max s) m1 k w1).
      rewrite (mount_extends _ _ (IH max s) _ _ _ _ _ E2). exact E.
    - exact E.
    - exact E.
  Qed.

  Lemma process_le : forall a b (p : processor X Y) max s k w r w', (a <= b)%nat ->
    processor_process a p max s k w = Ok r w' -> processor_process b p max s k w = Ok r w'.
  Proof.
    intros a b p max s k w r w' L. induction L as [|b L IH]; [auto|]. intros E. apply process_more. exact (IH E).
  Qed.

  Lemma collects_fun : forall k (p : processor X Y) max s w p1 o1 w1 p2 o2 w2,
    collects k p max s w p1 o1 w1 -> collects k p max s w p2 o2 w2 -> p1 = p2 /\ o1 = o2 /\ w1 = w2.
  Proof.
    intros k p max s w p1 o1 w1 p2 o2 w2 (a & Ea) (b & Eb).
    apply (process_le a (Nat.max a b)) in Ea; [|lia]. apply (process_le b (Nat.max a b)) in Eb; [|lia].
    rewrite Ea in Eb. injection Eb as -> -> ->. auto.
  Qed.

  (** ** Sums *)

  Lemma add_usize_wraps : forall W a b k (w w' : W) x, add_usize a b k w = Ok x w' -> x = wrap_u64 (a + b) /\ w' = w.
  Proof.
    intros W a b k w w' x E. unfold add_usize, u64_arith, arith in E.
    destruct ((0 <=? a + b) && (a + b <=? u64_max)) eqn:B.
    - injection E as <- <-. apply andb_true_iff in B. destruct B as [B1 B2].
      apply Z.leb_le in B1. apply Z.leb_le in B2. rewrite wrap_u64_id by (split; assumption). auto.
    - destruct (overflow_checks k); [discriminate E|]. injection E as <- <-. auto.
  Qed.

  Lemma combine_wraps : forall W a b k (w w' : W) o, combine_with a b k w = Ok o w' ->
    o = Outcome (wrap_u64 (oc_processed a + oc_processed b)) (wrap_u64 (oc_dropped a + oc_dropped b))
          (wrap_u64 (oc_instruments_updated a + oc_instruments_updated b)) (wrap_u64 (oc_enqueued a + oc_enqueued b))
    /\ w' = w.
  Proof.
    intros W a b k w w' o E. unfold combine_with in E.
    apply bind_ok in E. destruct E as (x1 & w1 & E1 & E). apply add_usize_wraps in E1. destruct E1 as [-> ->].
    apply bind_ok in E. destruct E as (x2 & w2 & E2 & E). apply add_usize_wraps in E2. destruct E2 as [-> ->].
    apply bind_ok in E. destruct E as (x3 & w3 & E3 & E). apply add_usize_wraps in E3. destruct E3 as [-> ->].
    apply bind_ok in E. destruct E as (x4 & w4 & E4 & E). apply add_usize_wraps in E4. destruct E4 as [-> ->].
    injection E as <- <-. auto.
  Qed.

  Definition plus (a : outcome) (os : list outcome) : outcome :=
    Outcome (wrap_u64 (oc_processed a + total oc_processed os)) (wrap_u64 (oc_dropped a + total oc_dropped os))
      (wrap_u64 (oc_instruments_updated a + total oc_instruments_updated os)) (wrap_u64 (oc_enqueued a + total oc_enqueued os)).

  Lemma traverse_collects : forall n max s ps acc k w ps' o w',
    traverse (collect_one (fun p => processor_process n p max s)) ps acc k w = Ok (ps', o) w' ->
    exists os, collect_each (X := X) (Y := Y) k max s ps w ps' os w'
      /\ (os = [] -> o = acc) /\ (os <> [] -> o = plus acc os).
  Proof.
    intros n max s. induction ps as [|p ps IH]; intros acc k w ps' o w' E; cbn [traverse] in E.
    - injection E as <- <- <-. exists []. repeat split; [constructor | congruence].
    - apply bind_ok in E. destruct E as ([p1 acc1] & w1 & E1 & E).
      apply bind_ok in E. destruct E as ([ps1 o2] & w2 & E2 & E). injection E as <- <- <-.
      unfold collect_one in E1. apply bind_ok in E1. destruct E1 as ([p2 o1] & w3 & E3 & E1).
      apply bind_ok in E1. destruct E1 as (acc2 & w4 & E4 & E1). injection E1 as <- <- <-.
      apply combine_wraps in E4. destruct E4 as [-> ->].
      destruct (IH _ _ _ _ _ _ E2) as (os & H1 & H2 & H3). exists (o1 :: os). split; [|split].
      + econstructor; [exists n; exact E3 | exact H1].
      + discriminate.
      + intros _. destruct os as [|o3 os].
        * rewrite (H2 eq_refl). unfold plus, total. cbn [map sum]. rewrite !Z.add_0_r. reflexivity.
        * rewrite H3 by discriminate. unfold plus, total. cbn [map sum oc_processed oc_dropped oc_instruments_updated oc_enqueued].
          rewrite !wrap_u64_add_l, <- !Z.add_assoc. reflexivity.
  Qed.

  Lemma mount_collected : forall k d ps ss max s w p' o w',
    collects (X := X) (Y := Y) k (PMount (Mount d ps ss)) max s w p' o w' ->
    exists ps' os w1 d',
      collect_each k max s ps w ps' os w1
      /\ p' = PMount (Mount d' ps' ss) /\ (d' = d \/ d' = mount_touch d (w_clock w1 O))
      /\ o = wrapped os
      /\ w_queues w' = w_queues w1 /\ w_mounts w' = w_mounts w1.
  Proof.
    intros k d ps ss max s w p' o w' (n & E). destruct n as [|n]; [discriminate E|]. cbn [processor_process] in E.
    apply bind_ok in E. destruct E as ([m1 o1] & w1 & E1 & E). injection E as <- <- <-.
    cbn [mount_process] in E1. apply bind_ok in E1. destruct E1 as ([ps1 o2] & w2 & E2 & E1).
    apply traverse_collects in E2. destruct E2 as (os & H1 & H2 & H3).
    assert (Ho : o2 = wrapped os).
    { destruct os as [|x os]; [rewrite (H2 eq_refl); reflexivity|]. rewrite H3 by discriminate. unfold plus, wrapped.
      cbn [outcome_default oc_processed oc_dropped oc_instruments_updated oc_enqueued]. rewrite !Z.add_0_l. reflexivity. }
    destruct (something_happened o2).
    - apply bind_ok in E1. destruct E1 as (t & w3 & E3 & E1). injection E1 as <- <- <-.
      destruct (lift_inv _ _ _ _ _ _ E3) as (c & E4 & ->). injection E4 as <- <-.
      exists ps1, os, w2, (mount_touch d (w_clock w2 O)). cbn [w_queues w_mounts]. auto 7.
    - injection E1 as <- <- <-. exists ps1, os, w2, d. auto 7.
  Qed.

  Lemma wrapped_exact : forall os, outcomes_fit os ->
    wrapped os = Outcome (total oc_processed os) (total oc_dropped os) (total oc_instruments_updated os) (total oc_enqueued os).
  Proof. intros os (H1 & H2 & H3 & H4). unfold wrapped. rewrite !wrap_u64_id by assumption. reflexivity. Qed.

  (** ** Attached mounts *)

  Definition keeps_mount (i : nat) w w' : Prop := exists l, w_mounts w' i = chan_run (w_mounts w i) (on_mount (X := X) (Y := Y) i l).

  Lemma keeps_mount_moved : forall i w w', keeps_mount i w w' -> moved (w_mounts w i) (w_mounts w' i) [].
  Proof.
    intros i w w' (l & ->). assert (H := run_moved (on_mount i l) (w_mounts w i)).
    rewrite acts_no_receive_mount in H. exact H.
  Qed.

  Lemma mount_recv_cases : forall i k w r w', mount_try_recv i k w = Ok r w' ->
    exists w1, keeps_mount i w w1 /\ chan_try_recv (w_mounts w1 i) = (w_mounts w' i, r).
  Proof.
    intros i k w r w' E. unfold mount_try_recv in E. apply bind_ok in E. destruct E as (u & w1 & E1 & E2).
    injection E1 as _ E1. destruct (chan_try_recv (w_mounts w1 i)) as [c r1] eqn:Er. injection E2 as <- <-.
    cbn [w_mounts]. subst w1. cbn [w_mounts] in *.
    exists (fold_left act (w_sched w O) w). split; [eexists; apply acts_mounts|].
    rewrite Er. unfold set_chan. rewrite Nat.eqb_refl. reflexivity.
  Qed.

  Lemma mount_add_list : forall xs d ps ss,
    fold_left mount_add xs (Mount (X := X) (Y := Y) d ps ss) = Mount d (ps ++ put_processors xs) (ss ++ put_snapshooters xs).
  Proof.
    induction xs as [|x xs IH]; intros d ps ss; cbn [fold_left put_processors put_snapshooters flat_map].
    - rewrite !app_nil_r. reflexivity.
    - destruct x; cbn [mount_add]; rewrite IH; cbn [app]; rewrite <- ?app_assoc; reflexivity.
  Qed.

  Lemma drain_spec : forall k n i m w m' b w',
    attached_drain n i m k w = Ok (m', b) w' ->
    exists xs, m' = fold_left mount_add xs m
      /\ moved (w_mounts w i) (w_mounts w' i) xs
      /\ ch_queue (w_mounts w' i) = []
      /\ (b = false -> ch_senders (w_mounts w' i) = O).
  Proof.
    intros k. induction n as [|n IH]; intros i m w m' b w' E; [discriminate E|]. cbn [attached_drain] in E.
    apply bind_ok in E. destruct E as (r & w1 & E1 & E). apply mount_recv_cases in E1. destruct E1 as (w0 & K & R).
    assert (M0 := keeps_mount_moved _ _ _ K). assert (M1 := recv_moved (w_mounts w0 i)). rewrite R in M1. cbn [fst snd] in M1.
    destruct r as [x| |].
    - destruct (IH _ _ _ _ _ _ E) as (xs & H1 & H2 & H3 & H4). exists (x :: xs). split; [exact H1|].
      split; [|split; assumption]. change (x :: xs) with ([] ++ [x] ++ xs).
      eapply moved_trans; [exact M0|]. eapply moved_trans; eassumption.
    - injection E as <- <- <-. apply recv_empty in R. destruct R as (R1 & R2 & _). exists []. rewrite R1 in *.
      split; [reflexivity|]. split; [exact (moved_trans _ _ _ _ _ M0 M1)|]. split; [exact R2 | discriminate].
    - injection E as <- <- <-. apply recv_disconnected in R. destruct R as (R1 & R2 & R3). exists []. rewrite R1 in *.
      split; [reflexivity|]. split; [exact (moved_trans _ _ _ _ _ M0 M1)|]. split; [exact R2 | intros _; exact R3].
  Qed.

  Lemma moved_all : forall A (c c' : chan A) ms, moved c c' ms -> ch_queue c' = [] ->
    exists new, ch_accepted c' = ch_accepted c ++ new /\ ms = ch_queue c ++ new.
  Proof. intros A c c' ms (new & H1 & H2) Q. exists new. rewrite Q, app_nil_r in H2. auto. Qed.

  Lemma attached_collected : forall k i d ps ss max s w p' o w',
    collects (X := X) (Y := Y) k (PAttached (Some i) (Mount d ps ss)) max s w p' o w' ->
    exists w1 new r m',
      runs w w1
      /\ ch_accepted (w_mounts w1 i) = ch_accepted (w_mounts w i) ++ new
      /\ ch_queue (w_mounts w1 i) = []
      /\ collects k (PMount (Mount d (ps ++ put_processors (ch_queue (w_mounts w i) ++ new))
                               (ss ++ put_snapshooters (ch_queue (w_mounts w i) ++ new)))) max s w1 (PMount m') o w'
      /\ p' = PAttached r m'
      /\ (r = Some i \/ r = None /\ ch_senders (w_mounts w1 i) = O).
  Proof.
    intros k i d ps ss max s w p' o w' (n & E). destruct n as [|n]; [discriminate E|]. cbn [processor_process] in E.
    apply bind_ok in E. destruct E as ([r1 m1] & w1 & E1 & E). apply bind_ok in E. destruct E as ([m2 o2] & w2 & E2 & E).
    injection E as <- <- <-. assert (Rn := wruns_take _ _ _ _ _ _ E1). cbn [attached_take] in E1.
    apply bind_ok in E1. destruct E1 as ([m3 b] & w3 & E3 & E1). injection E1 as <- <- <-.
    apply drain_spec in E3. destruct E3 as (xs & H1 & H2 & H3 & H4). rewrite mount_add_list in H1.
    destruct (moved_all _ _ _ _ H2 H3) as (new & H5 & H6). subst xs.
    exists w3, new, (if b then Some i else None), m2. repeat split; auto; try apply Rn.
    - exists (S n). cbn [processor_process]. unfold bind. rewrite <- H1, E2. reflexivity.
    - destruct b; auto.
  Qed.

  Lemma detached_collected : forall k m max s w p' o w',
    collects (X := X) (Y := Y) k (PAttached None m) max s w p' o w' <->
    exists m', collects k (PMount m) max s w (PMount m') o w' /\ p' = PAttached None m'.
  Proof.
    intros k m max s w p' o w'. split.
    - intros (n & E). destruct n as [|n]; [discriminate E|]. cbn [processor_process attached_take] in E.
      apply bind_ok in E. destruct E as ([r1 m1] & w1 & E1 & E). injection E1 as <- <- <-.
      apply bind_ok in E. destruct E as ([m2 o2] & w2 & E2 & E). injection E as <- <- <-.
      exists m2. split; [|reflexivity]. exists (S n). cbn [processor_process]. unfold bind. rewrite E2. reflexivity.
    - intros (m' & (n & E) & ->). exists n. destruct n as [|n]; [discriminate E|]. cbn [processor_process attached_take] in *.
      unfold bind, ret in *. destruct (mount_process _ m k w) as [[m2 o2] w2| |]; try discriminate E.
      injection E as <- <- <-. reflexivity.
  Qed.

  (** ** The life of an attached mount *)

  Lemma evolves_trans : forall k (a b c : processor X Y), evolves k a b -> evolves k b c -> evolves k a c.
  Proof.
    intros k a b c H. induction H; intros H2; [exact H2|..].
    - eapply ev_collected; [eassumption | auto].
    - eapply ev_asked; [eassumption | auto].
  Qed.

  Lemma snap_evolves_trans : forall k (a b c : snapshooter X),
    snapshooter_evolves k a b -> snapshooter_evolves k b c -> snapshooter_evolves k a c.
  Proof. intros k a b c H. induction H; intros H2; [exact H2|]. eapply sv_asked; [eassumption | auto]. Qed.

  Lemma forall2_mono : forall A (R S : A -> A -> Prop), (forall a b, R a b -> S a b) ->
    forall l l', Forall2 R l l' -> Forall2 S l l'.
  Proof. intros A R S H l l' F. induction F; constructor; auto. Qed.

  Lemma forall2_refl : forall A (R : A -> A -> Prop) l, (forall a, R a a) -> Forall2 R l l.
  Proof. intros A R l H. induction l; constructor; auto. Qed.

  Lemma forall2_trans : forall A (R : A -> A -> Prop), (forall a b c, R a b -> R b c -> R a c) ->
    forall l1 l2 l3, Forall2 R l1 l2 -> Forall2 R l2 l3 -> Forall2 R l1 l3.
  Proof.
    intros A R H l1 l2 l3 H1. revert l3. induction H1; intros l3 H2; inversion H2; subst; constructor; eauto.
  Qed.

  Lemma each_evolves : forall k max s ps w ps' os w',
    collect_each (X := X) (Y := Y) k max s ps w ps' os w' -> Forall2 (evolves k) ps ps'.
  Proof.
    intros k max s ps w ps' os w' H. induction H; constructor; auto.
    eapply ev_collected; [eassumption | apply ev_same].
  Qed.

  Lemma collect_each_runs : forall k max s ps w ps' os w',
    collect_each (X := X) (Y := Y) k max s ps w ps' os w' -> runs w w'.
  Proof.
    intros k max s ps w ps' os w' H. induction H as [|p w p' o w1 ps ps' os w2 (n & E) H IH]; [apply runs_refl|].
    eapply runs_trans; [exact (wruns_process _ _ _ _ _ _ _ _ E) | exact IH].
  Qed.

  Lemma traverse_puts : forall A (f : A -> snapshot -> M (A * snapshot)) l into k c l' into' c',
    traverse f l into k c = Ok (l', into') c' ->
    Forall2 (fun a a' => exists i c0 i' c1, f a i k c0 = Ok (a', i') c1) l l'.
  Proof.
    intros A f. induction l as [|a l IH]; intros into k c l' into' c' E; cbn [traverse] in E.
    - injection E as <- _ _. constructor.
    - apply bind_ok in E. destruct E as ([a1 i1] & c1 & E1 & E). apply bind_ok in E. destruct E as ([l1 i2] & c2 & E2 & E).
      injection E as <- _ _. constructor; eauto 6.
  Qed.

  Lemma mount_put_evolves : forall k d ps ss de into c m' into' c',
    mount_put (X := X) (Y := Y) (Mount d ps ss) de into k c = Ok (m', into') c' ->
    exists ps' ss', m' = Mount d ps' ss' /\ Forall2 (evolves k) ps ps' /\ Forall2 (snapshooter_evolves k) ss ss'.
  Proof.
    intros k d ps ss de into c m' into' c' E. rewrite mount_put_eq in E. apply put_named_inv in E. destruct E as (i1 & i2 & E).
    apply check_activity_inv in E. destruct E as [->|(i3 & c1 & E)].
    - exists ps, ss. repeat split; apply forall2_refl; constructor.
    - apply bind_ok in E. destruct E as ([ps1 i4] & c2 & E1 & E). apply bind_ok in E. destruct E as ([ss1 i5] & c3 & E2 & E).
      injection E as <- _ _. exists ps1, ss1. split; [reflexivity|]. split.
      + apply traverse_puts in E1. eapply forall2_mono; [|exact E1].
        intros a a' (i & c0 & i' & c4 & H). eapply ev_asked; [exact H | apply ev_same].
      + apply traverse_puts in E2. eapply forall2_mono; [|exact E2].
        intros a a' (i & c0 & i' & c4 & H). eapply sv_asked; [exact H | apply sv_same].
  Qed.

  Definition mount_contents (m : mount X Y) : list (processor X Y) * list (snapshooter X) :=
    let '(Mount _ ps ss) := m in (ps, ss).

  Lemma collected_evolves : forall k d ps ss max s w p' o w',
    collects (X := X) (Y := Y) k (PMount (Mount d ps ss)) max s w p' o w' ->
    exists d' ps', p' = PMount (Mount d' ps' ss) /\ Forall2 (evolves k) ps ps' /\ runs w w'.
  Proof.
    intros k d ps ss max s w p' o w' H. assert (R : runs w w') by (destruct H as (n & E); exact (wruns_process _ _ _ _ _ _ _ _ E)).
    apply mount_collected in H. destruct H as (ps' & os & w1 & d' & H1 & -> & _ & _ & _). exists d', ps'.
    split; [reflexivity|]. split; [exact (each_evolves _ _ _ _ _ _ _ _ H1) | exact R].
  Qed.

  Lemma forall2_app_l : forall A (R : A -> A -> Prop) a b l, (forall x, R x x) ->
    Forall2 R a l -> Forall2 R (a ++ b) (l ++ b).
  Proof. intros A R a b l H F. apply Forall2_app; [exact F | apply forall2_refl, H]. Qed.

  (** Receivers stay where they are when snapshots are taken. *)
  Lemma put_keeps_receivers : forall r,
    (forall (p : processor X Y) de into k c p' into' c', processor_put p de into k c = Ok (p', into') c' -> holds r p' <-> holds r p)
    /\ (forall (m : mount X Y) de into k c m' into' c', mount_put m de into k c = Ok (m', into') c' -> mount_holds r m' <-> mount_holds r m).
  Proof.
    intros r. apply processor_ind'.
    - intros t de into k c p' into' c' E. cbn [processor_put] in E. unfold wrap in E.
      apply bind_ok in E. destruct E as ([t1 i1] & c1 & E1 & E). injection E as <- _ _.
      apply tele_put_receiver in E1. destruct E1 as [E1 _]. cbn [holds]. rewrite E1. reflexivity.
    - intros m IH de into k c p' into' c' E. change (wrap PMount (mount_put m de into) k c = Ok (p', into') c') in E. unfold wrap in E.
      apply bind_ok in E. destruct E as ([m1 i1] & c1 & E1 & E). injection E as <- _ _. exact (IH _ _ _ _ _ _ _ E1).
    - intros rc m IH de into k c p' into' c' E. change (wrap (PAttached rc) (mount_put m de into) k c = Ok (p', into') c') in E. unfold wrap in E.
      apply bind_ok in E. destruct E as ([m1 i1] & c1 & E1 & E). injection E as <- _ _.
      specialize (IH _ _ _ _ _ _ _ E1). cbn [holds]. destruct rc; rewrite IH; reflexivity.
    - intros h de into k c p' into' c' E. cbn [processor_put] in E. unfold wrap in E.
      apply bind_ok in E. destruct E as ([m1 i1] & c1 & E1 & E). injection E as <- _ _. reflexivity.
    - intros u de into k c p' into' c' E. cbn [processor_put] in E. unfold wrap in E.
      apply bind_ok in E. destruct E as ([m1 i1] & c1 & E1 & E). injection E as <- _ _. reflexivity.
    - intros d ps ss IH de into k c m' into' c' E. rewrite mount_put_eq in E. apply put_named_inv in E. destruct E as (i1 & i2 & E).
      apply check_activity_inv in E. destruct E as [->|(i3 & c1 & E)]; [reflexivity|].
      apply bind_ok in E. destruct E as ([ps1 i4] & c2 & E1 & E). apply bind_ok in E. destruct E as ([ss1 i5] & c3 & E2 & E).
      injection E as <- _ _. rewrite !mount_holds_iff. apply traverse_puts in E1. clear - IH E1.
      induction E1 as [|p p1 ps ps1 (i & c0 & i' & c4 & H) E1 IHE]; [reflexivity|].
      inversion IH as [|? ? IH1 IH2]; subst. rewrite !Exists_cons, (IHE IH2), (IH1 _ _ _ _ _ _ _ H). reflexivity.
  Qed.

  Lemma collected_away : forall r k p max s w p' o w', collects (X := X) (Y := Y) k p max s w p' o w' ->
    ~ holds r p -> foreign r w -> foreign r w' /\ untouched r w w' /\ ~ holds r p'.
  Proof. intros r k p max s w p' o w' (n & E) N F. exact (away_process r n p max s N k w _ _ E F). Qed.

  Lemma attached_life : forall k p w p' w', proc_life (X := X) (Y := Y) k p w p' w' ->
    forall i d ps ss, p = PAttached (Some i) (Mount d ps ss) ->
    ~ Exists (holds (MountReceiver i)) ps -> foreign (MountReceiver i) w -> chan_ok (w_mounts w i) ->
    exists xs r d' ps' ss',
      p' = PAttached r (Mount d' ps' ss')
      /\ moved (w_mounts w i) (w_mounts w' i) xs
      /\ Forall2 (evolves k) (ps ++ put_processors xs) ps'
      /\ Forall2 (snapshooter_evolves k) (ss ++ put_snapshooters xs) ss'
      /\ (r = Some i \/ r = None /\ exhausted (w_mounts w' i)).
  Proof.
    (* once the handle is gone the mount is a plain mount *)
    assert (G : forall k p w p' w', proc_life (X := X) (Y := Y) k p w p' w' ->
      forall i d ps ss, p = PAttached None (Mount d ps ss) -> exhausted (w_mounts w i) ->
      exists d' ps' ss', p' = PAttached None (Mount d' ps' ss')
        /\ moved (w_mounts w i) (w_mounts w' i) []
        /\ Forall2 (evolves k) ps ps' /\ Forall2 (snapshooter_evolves k) ss ss' /\ exhausted (w_mounts w' i)).
    { intros k p w p' w' H. induction H as [p w|p w max s p1 o w1 p2 w2 E H IH|p w de into p1 into1 w1 p2 w2 E H IH];
        intros i d ps ss -> Ex.
      - exists d, ps, ss. split; [reflexivity|]. split; [apply moved_refl|]. repeat split; try apply Ex; apply forall2_refl; constructor.
      - apply detached_collected in E. destruct E as (m' & E & ->). apply collected_evolves in E.
        destruct E as (d1 & ps1 & Em & F1 & R). injection Em as ->.
        assert (Ex1 : exhausted (w_mounts w1 i) /\ ch_accepted (w_mounts w1 i) = ch_accepted (w_mounts w i)).
        { destruct R as [_ R]. destruct (R i) as (h & ->). apply exhausted_run, Ex. }
        destruct Ex1 as [Ex1 Ea].
        destruct (IH i d1 ps1 ss eq_refl Ex1) as (d' & ps' & ss' & H1 & H2 & H3 & H4 & H5).
        exists d', ps', ss'. split; [exact H1|]. split.
        + destruct (runs_moved_mount _ _ i R) as (ms & Mv). rewrite (exhausted_moved _ _ _ _ Mv Ex Ea) in Mv.
          exact (moved_trans _ _ _ _ _ Mv H2).
        + split; [|split; assumption]. eapply forall2_trans; [apply evolves_trans | exact F1 | exact H3].
      - destruct (lift_inv _ _ _ _ _ _ E) as (c1 & E1 & ->). cbn [processor_put] in E1. unfold wrap in E1.
        apply bind_ok in E1. destruct E1 as ([m1 i1] & c2 & E1 & E2). injection E2 as <- <- <-.
        apply mount_put_evolves in E1. destruct E1 as (ps1 & ss1 & -> & F1 & F2).
        destruct (IH i d ps1 ss1 eq_refl Ex) as (d' & ps' & ss' & H1 & H2 & H3 & H4 & H5).
        exists d', ps', ss'. split; [exact H1|]. split; [exact H2|]. split; [|split; [|exact H5]].
        + eapply forall2_trans; [apply evolves_trans | exact F1 | exact H3].
        + eapply forall2_trans; [apply snap_evolves_trans | exact F2 | exact H4]. }
    intros k p w p' w' H. induction H as [p w|p w max s p1 o w1 p2 w2 E H IH|p w de into p1 into1 w1 p2 w2 E H IH];
      intros i d ps ss -> N Fw Ok0.
    - exists [], (Some i), d, ps, ss. split; [reflexivity|]. split; [apply moved_refl|].
      cbn [put_processors put_snapshooters flat_map]. rewrite !app_nil_r.
      repeat split; auto; apply forall2_refl; constructor.
    - assert (T : exists w3 new r d1 ps1, foreign (MountReceiver i) w1 /\ ~ Exists (holds (MountReceiver i)) ps1
        /\ p1 = PAttached r (Mount d1 ps1 (ss ++ put_snapshooters (ch_queue (w_mounts w i) ++ new)))
        /\ Forall2 (evolves k) (ps ++ put_processors (ch_queue (w_mounts w i) ++ new)) ps1
        /\ runs w w3 /\ runs w3 w1
        /\ moved (w_mounts w i) (w_mounts w3 i) (ch_queue (w_mounts w i) ++ new)
        /\ moved (w_mounts w3 i) (w_mounts w1 i) []
        /\ ch_queue (w_mounts w3 i) = []
        /\ (r = Some i \/ r = None /\ ch_senders (w_mounts w3 i) = O)).
      { assert (Ec := E). destruct E as (n & E). destruct n as [|n]; [discriminate E|].
        cbn [processor_process attached_take] in E.
        apply bind_ok in E. destruct E as ([r1 m1] & w3 & E1 & E). apply bind_ok in E. destruct E as ([m2 o2] & w4 & E2 & E).
        injection E as <- <- <-. apply bind_ok in E1. destruct E1 as ([m3 b] & w5 & E3 & E1). injection E1 as <- <- <-.
        assert (R3 := wruns_drain _ _ _ _ _ _ _ E3).
        assert (F3 : foreign (MountReceiver i) w5 /\ ~ mount_holds (MountReceiver i) m3).
        { clear - E3 Fw N. assert (Nm : ~ mount_holds (MountReceiver i) (Mount d ps ss)) by (rewrite mount_holds_iff; exact N).
          revert E3 Fw Nm. generalize (Mount d ps ss) as m. revert w. generalize (fuel k) as n.
          induction n as [|n IH]; intros w m E Fw Nm; [discriminate E|]. cbn [attached_drain] in E.
          apply bind_ok in E. destruct E as (x & w1 & E1 & E).
          assert (F1 : foreign (MountReceiver i) w1 /\ match x with Message y => ~ put_holds (MountReceiver i) y | _ => True end).
          { unfold mount_try_recv in E1. apply bind_ok in E1. destruct E1 as (u & w0 & E0 & E1).
            assert (F0 := interleave_foreign _ _ _ _ _ E0 Fw). apply foreign_iff in F0. destruct F0 as [F0a F0b].
            destruct (chan_try_recv (w_mounts w0 i)) as [c y] eqn:Er. injection E1 as <- <-.
            destruct (recv_chan_clean _ _ _ _ (F0a i) Er) as [C1 C2]. split; [|exact C2].
            apply foreign_iff. cbn [w_mounts w_sched]. split; [|exact F0b]. intros j. unfold set_chan.
            destruct (Nat.eqb j i); [exact C1 | apply F0a]. }
          destruct F1 as [F1 Fx]. destruct x as [y| |].
          - apply (IH _ _ E F1). apply mount_add_holds; assumption.
          - injection E as <- <- <-. auto.
          - injection E as <- <- <-. auto. }
        destruct F3 as [F3 N3].
        assert (Ecm : collects k (PMount m3) max s w5 (PMount m2) o2 w4).
        { exists (S n). cbn [processor_process]. unfold bind. rewrite E2. reflexivity. }
        destruct (collected_away _ _ _ _ _ _ _ _ _ Ecm N3 F3) as (F4 & U4 & N4). change (~ mount_holds (MountReceiver i) m2) in N4.
        apply drain_spec in E3. destruct E3 as (xs & H1 & H2 & H3 & H4). rewrite mount_add_list in H1.
        destruct (moved_all _ _ _ _ H2 H3) as (new & H5 & H6). subst m3.
        apply collected_evolves in Ecm. destruct Ecm as (d1 & ps1 & Em & F1 & R). injection Em as ->.
        exists w5, new, (if b then Some i else None), d1, ps1. rewrite <- H6.
        rewrite mount_holds_iff in N4. split; [exact F4|]. split; [exact N4|]. split; [reflexivity|]. split; [exact F1|].
        split; [exact R3|]. split; [exact R|]. split; [exact H2|]. split; [|split; [exact H3 | destruct b; auto]].
        exact (keeps_mount_moved _ _ _ U4). }
      destruct T as (w3 & new & r & d1 & ps1 & F1 & N1 & -> & Ev & R3 & R1 & Mv3 & Mv1 & Q3 & Hr).
      set (xs0 := ch_queue (w_mounts w i) ++ new) in *.
      assert (Ok3 : chan_ok (w_mounts w3 i)) by (destruct R3 as [_ R3]; destruct (R3 i) as (h & ->); apply run_ok, Ok0).
      assert (Ok1 : chan_ok (w_mounts w1 i)) by (destruct R1 as [_ R1]; destruct (R1 i) as (h & ->); apply run_ok, Ok3).
      destruct Hr as [->|(-> & S0)].
      + destruct (IH i d1 ps1 _ eq_refl N1 F1 Ok1) as (xs & r & d' & ps' & ss' & H1 & H2 & H3 & H4 & H5).
        exists (xs0 ++ xs), r, d', ps', ss'. split; [exact H1|]. split.
        { replace (xs0 ++ xs) with (xs0 ++ [] ++ xs) by reflexivity. eapply moved_trans; [exact Mv3|]. eapply moved_trans; eassumption. }
        unfold put_processors, put_snapshooters in *. rewrite !flat_map_app, !app_assoc.
        split; [|split; [exact H4 | exact H5]].
        eapply forall2_trans; [apply evolves_trans | | exact H3]. apply forall2_app_l; [apply ev_same | exact Ev].
      + assert (Ex3 : exhausted (w_mounts w3 i)) by (repeat split; auto).
        assert (Ex1 : exhausted (w_mounts w1 i)) by (destruct R1 as [_ R1]; destruct (R1 i) as (h & ->); apply exhausted_run, Ex3).
        destruct (G _ _ _ _ _ H i d1 ps1 _ eq_refl Ex1) as (d' & ps' & ss' & H1 & H2 & H3 & H4 & H5).
        exists xs0, None, d', ps', ss'. split; [exact H1|]. split.
        { rewrite <- (app_nil_r xs0). eapply moved_trans; [exact Mv3|]. exact (moved_trans _ _ _ _ _ Mv1 H2). }
        split; [|split; [exact H4 | right; split; [reflexivity | exact H5]]].
        eapply forall2_trans; [apply evolves_trans | exact Ev | exact H3].
    - destruct (lift_inv _ _ _ _ _ _ E) as (c1 & E1 & ->). cbn [processor_put] in E1. unfold wrap in E1.
      apply bind_ok in E1. destruct E1 as ([m1 i1] & c2 & E1 & E2). injection E2 as <- <- <-.
      change (mount_put (Mount d ps ss) de into k (w_clock w) = Ok (m1, i1) c2) in E1.
      assert (Np := proj2 (put_keeps_receivers (MountReceiver i)) _ _ _ _ _ _ _ _ E1).
      apply mount_put_evolves in E1. destruct E1 as (ps1 & ss1 & -> & F1 & F2).
      rewrite !mount_holds_iff in Np. rewrite <- Np in N.
      destruct (IH i d ps1 ss1 eq_refl N Fw Ok0) as (xs & r & d' & ps' & ss' & H1 & H2 & H3 & H4 & H5).
      exists xs, r, d', ps', ss'. split; [exact H1|]. split; [exact H2|]. split; [|split; [|exact H5]].
      + eapply forall2_trans; [apply evolves_trans | | exact H3]. apply forall2_app_l; [apply ev_same | exact F1].
      + eapply forall2_trans; [apply snap_evolves_trans | | exact H4]. apply forall2_app_l; [apply sv_same | exact F2].
  Qed.
End Groups.
