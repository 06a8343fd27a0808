(** Collections and snapshots of a processor that is somewhere in a tree. *)
From Coq Require Import ZArith Bool String List Lia.
From Verif Require Import Base SpecRun MonadFacts ModelObservation ModelSnapshot ModelInstrument ModelTree
  ModelChannel ModelProcessor ModelDriver TreeEqs TreeInd SpecClock ClockProofs WorldClockProofs SpecQueue QueueProofs SpecCollect CollectProofs
  GroupProofs SpecDriver DriverProofs DriverLoopProofs DriverMetricsProofs DriverShapeProofs SpecChronicle ChronicleProofs SpecHandle HandleAway.
Import ListNotations.
Open Scope Z_scope.

Scheme inside_mut := Minimality for inside Sort Prop
  with inside_one_mut := Minimality for inside_one Sort Prop.

Section Through.
  Context {X : ext} {Y : pext}.
  Context (HX : parts_tick X) (HY : processors_tick Y).
  Implicit Types (w : world X Y) (p q : processor X Y).

  (** ** Places *)

  Lemma inside_sub : forall (R S : receiver -> Prop), (forall r, S r -> R r) ->
    (forall p path q, inside (X := X) (Y := Y) R p path q -> inside S p path q)
    /\ (forall ps path q, inside_one (X := X) (Y := Y) R ps path q -> inside_one S ps path q).
  Proof.
    intros R S H.
    assert (N : forall l : list (processor X Y), Forall (fun p => ~ held R p) l -> Forall (fun p => ~ held S p) l).
    { intros l F. eapply Forall_impl; [|exact F]. intros p Hp (r & Hr & Hh). apply Hp. exists r. auto. }
    assert (A : forall p path q, inside (X := X) (Y := Y) R p path q -> inside S p path q).
    { apply (inside_mut X Y R (fun p path q => inside S p path q) (fun ps path q => inside_one S ps path q)); intros.
      - constructor.
      - constructor. assumption.
      - constructor; [|assumption]. intros j Hj Hs. exact (H0 j Hj (H _ Hs)).
      - constructor; auto. }
    split; [exact A|]. intros ps path q I. inversion I; subst. constructor; auto.
  Qed.

  Lemma inside_trans : forall R,
    (forall p path q, inside (X := X) (Y := Y) R p path q -> forall path2 q2, inside R q path2 q2 -> inside R p (path ++ path2) q2)
    /\ (forall ps path q, inside_one (X := X) (Y := Y) R ps path q -> forall path2 q2, inside R q path2 q2 -> inside_one R ps (path ++ path2) q2).
  Proof.
    intros R.
    assert (A : forall p path q, inside (X := X) (Y := Y) R p path q -> forall path2 q2, inside R q path2 q2 -> inside R p (path ++ path2) q2).
    { apply (inside_mut X Y R (fun p path q => forall path2 q2, inside R q path2 q2 -> inside R p (path ++ path2) q2)
               (fun ps path q => forall path2 q2, inside R q path2 q2 -> inside_one R ps (path ++ path2) q2)); intros; cbn [app]; auto;
        constructor; auto. }
    split; [exact A|]. intros ps path q I path2 q2 I2. inversion I; subst. cbn [app]. constructor; auto. eapply A; eassumption.
  Qed.

  Lemma unheld : forall (R : receiver -> Prop) r p, R r -> ~ held R p -> ~ holds r p.
  Proof. intros R r p Hr N H. apply N. exists r. auto. Qed.
  Lemma unheld_all : forall (R : receiver -> Prop) r ps, R r -> Forall (fun p => ~ held R p) ps -> Forall (fun p => ~ holds (X := X) (Y := Y) r p) ps.
  Proof. intros R r ps Hr F. eapply Forall_impl; [|exact F]. intros p. apply unheld, Hr. Qed.

  (** A processor for telemetry data in a processor in a tree *)
  Lemma inside_located : forall (R : receiver -> Prop) r, R r ->
    (forall p path q, inside (X := X) (Y := Y) R p path q -> forall path2 t, located r q path2 t -> located r p (path ++ path2) t)
    /\ (forall ps path q, inside_one (X := X) (Y := Y) R ps path q -> forall path2 t, located r q path2 t -> among r ps (path ++ path2) t).
  Proof.
    intros R r Hr.
    assert (A : forall p path q, inside (X := X) (Y := Y) R p path q -> forall path2 t, located r q path2 t -> located r p (path ++ path2) t).
    { apply (inside_mut X Y R (fun p path q => forall path2 t, located r q path2 t -> located r p (path ++ path2) t)
               (fun ps path q => forall path2 t, located r q path2 t -> among r ps (path ++ path2) t)); intros; cbn [app]; auto;
        constructor; auto; eapply unheld_all; eassumption. }
    split; [exact A|]. intros ps path q I path2 t L. inversion I; subst. cbn [app].
    constructor; [eapply unheld_all; eassumption | eapply A; eassumption | eapply unheld_all; eassumption].
  Qed.

  Lemma inside_more : forall R (ps qs : list (processor X Y)) path q, inside_one R ps path q -> Forall (fun p => ~ held R p) qs -> inside_one R (ps ++ qs) path q.
  Proof. intros R ps qs path q I F. inversion I; subst. rewrite <- app_assoc. cbn [app]. constructor; auto. apply Forall_app. auto. Qed.

  Section Collect.
    Variables (R : receiver -> Prop).

    (** Channels are used as they should, without those of [R]. *)
    Definition step w w' : Prop := alone R w w' /\ later (w_clock w) (w_clock w') /\ runs w w'.
    Lemma step_refl : forall w, step w w.
    Proof. intros w. split; [apply alone_refl|]. split; [apply later_refl | apply runs_refl]. Qed.
    Lemma step_trans : forall a b c, step a b -> step b c -> step a c.
    Proof.
      intros a b c (A1 & L1 & R1) (A2 & L2 & R2). split; [eapply alone_trans; eassumption|]. split; [eapply later_trans; eassumption | eapply runs_trans; eassumption].
    Qed.

    Variables (inv1 inv2 : invariant (X := X) (Y := Y)).
    Hypothesis (K1 : kept R inv1) (K2 : kept R inv2).
    Variables (max : nat) (s : strategy) (k : cfg).

    Definition turns q : Prop := forall n w q' o w', processor_process n q max s k w = Ok (q', o) w' -> valid inv1 w -> valid inv2 w'.

    (** The processor is collected once, the others do not use its receivers. *)
    Definition reached q w q' w' : Prop := exists n w1 o w2,
      step w w1 /\ valid inv1 w1 /\ processor_process n q max s k w1 = Ok (q', o) w2 /\ step w2 w' /\ valid inv2 w'.

    Lemma reached_before : forall q w0 w q' w', step w0 w -> reached q w q' w' -> reached q w0 q' w'.
    Proof. intros q w0 w q' w' S (n & w1 & o & w2 & H1 & H2). exists n, w1, o, w2. split; [eapply step_trans; eassumption | exact H2]. Qed.
    Lemma reached_after : forall q w q' w' w2, reached q w q' w' -> step w' w2 -> valid inv2 w2 -> reached q w q' w2.
    Proof.
      intros q w q' w' w2 (n & w1 & o & w3 & H1 & H2 & H3 & H4 & H5) S V. exists n, w1, o, w3. do 3 (split; [assumption|]).
      split; [eapply step_trans; eassumption | exact V].
    Qed.

    Lemma traverse_through : forall n,
      (forall p w p' o w' path q, processor_process n p max s k w = Ok (p', o) w' -> inside R p path q -> turns q -> valid inv1 w ->
         exists q', reached q w q' w' /\ inside R p' path q') ->
      forall ps acc w ps' o w' path q,
        traverse (collect_one (fun p => processor_process n p max s)) ps acc k w = Ok (ps', o) w' ->
        inside_one R ps path q -> turns q -> valid inv1 w ->
        exists q', reached q w q' w' /\ inside_one R ps' path q'.
    Proof.
      intros n IH ps acc w ps' o w' path q E A Tq V. inversion A as [before p after path0 q0 B L Af]. subst.
      clear A. revert acc w ps' o w' E V B. induction before as [|b before IHb]; intros acc w ps' o w' E V B;
        cbn [app traverse] in E; apply bind_ok in E; destruct E as ([p1 acc1] & w1 & E1 & E);
        apply bind_ok in E; destruct E as ([ps1 o2] & w2 & E2 & E); injection E as <- <- <-;
        unfold collect_one in E1; apply bind_ok in E1; destruct E1 as ([p2 o1] & w3 & E3 & E1);
        apply bind_ok in E1; destruct E1 as (o3 & w4 & E4 & E1); injection E1 as <- <- <-;
        apply combine_wraps in E4; destruct E4 as (_ & ->).
      - destruct (IH _ _ _ _ _ _ _ E3 L Tq V) as (q' & Re & I').
        assert (V2 : valid inv2 w3) by (destruct Re as (? & ? & ? & ? & _ & _ & _ & _ & V2); exact V2).
        assert (Na : ~ Exists (held R) after) by (apply not_exists; exact Af).
        destruct (aways_traverse R inv2 (fun p => processor_process n p max s) after o3
                    (fun p Hp => aways_process R inv2 K2 n p max s Hp) Na k _ _ _ E2 V2) as (V3 & U2 & N2). cbn [fst] in N2.
        exists q'. split.
        + eapply reached_after; [exact Re | | exact V3]. split; [exact U2|]. split.
          * assert (Tk := wticks_traverse _ _ (collect_one (fun p => processor_process n p max s)) after o3
              (fun x s0 => ltac:(unfold collect_one; apply wticks_bind; [apply (processor_process_wticks HX HY)|];
                 intros [? ?]; apply wticks_bind; [apply combine_wticks|]; intros; apply wticks_ret))).
            exact (Tk _ _ _ _ E2).
          * apply traverse_collects in E2. destruct E2 as (os & CE & _). exact (collect_each_runs _ _ _ _ _ _ _ _ CE).
        + apply (io_at R [] p2 ps1 path0 q'); [constructor | exact I' | apply not_exists, N2].
      - inversion B as [|? ? Bq Bb]. subst.
        destruct (aways_process R inv1 K1 n b max s Bq k _ _ _ E3 V) as (V1 & U1 & N1). cbn [fst] in N1.
        destruct (IHb _ _ _ _ _ E2 V1 Bb) as (q' & Re & A').
        exists q'. split.
        + eapply reached_before; [|exact Re]. split; [exact U1|]. split; [exact (processor_process_wticks HX HY _ _ _ _ _ _ _ _ E3) | exact (wruns_process _ _ _ _ _ _ _ _ E3)].
        + inversion A' as [b' p' a' pa q0 B' L' Af' Eb Ep]. subst. cbn [length]. rewrite <- Ep.
          change (p2 :: b' ++ p' :: a') with ((p2 :: b') ++ p' :: a'). change (S (length b')) with (length (p2 :: b')).
          constructor; [constructor; assumption | assumption..].
    Qed.

    Lemma mount_through : forall n,
      (forall p w p' o w' path q, processor_process n p max s k w = Ok (p', o) w' -> inside R p path q -> turns q -> valid inv1 w ->
         exists q', reached q w q' w' /\ inside R p' path q') ->
      forall d ps ss w m' o w' path q,
        mount_process (fun p => processor_process n p max s) (Mount d ps ss) k w = Ok (m', o) w' ->
        inside_one R ps path q -> turns q -> valid inv1 w ->
        exists q' d' ps', reached q w q' w' /\ m' = Mount d' ps' ss /\ md_name d' = md_name d /\ md_limit d' = md_limit d /\ inside_one R ps' path q'.
    Proof.
      intros n IH d ps ss w m' o w' path q E A Tq V. cbn [mount_process] in E.
      apply bind_ok in E. destruct E as ([ps1 o1] & w1 & E1 & E).
      destruct (traverse_through n IH _ _ _ _ _ _ _ _ E1 A Tq V) as (q' & Re & A').
      destruct (something_happened o1).
      - apply bind_ok in E. destruct E as (x & w2 & E2 & E). injection E as <- <- <-. apply lift_inv in E2. destruct E2 as (c & E2 & ->).
        exists q', (mount_touch d x), ps1. split; [|auto].
        assert (V2 : valid inv2 w1) by (destruct Re as (? & ? & ? & ? & _ & _ & _ & _ & V2); exact V2).
        eapply reached_after; [exact Re | | exact V2]. split; [|split].
        + intros r _. unfold untouched, keeps_queue. destruct r; exists []; reflexivity.
        + exact (ticks_now _ _ _ _ E2).
        + split; intros j; exists []; reflexivity.
      - injection E as <- <- <-. exists q', d, ps1. auto.
    Qed.

    Lemma through : forall n p w p' o w' path q,
      processor_process n p max s k w = Ok (p', o) w' -> inside R p path q -> turns q -> valid inv1 w ->
      exists q', reached q w q' w' /\ inside R p' path q'.
    Proof.
      induction n as [|n IH]; intros p w p' o w' path q E I Tq V; [discriminate E|].
      inversion I as [q0|d ps ss path0 q0 A|i d ps ss path0 q0 N A]; subst.
      - exists p'. split; [|constructor]. exists (S n), w, o, w'. split; [apply step_refl|]. split; [exact V|]. split; [exact E|].
        split; [apply step_refl | exact (Tq _ _ _ _ _ E V)].
      - cbn [processor_process] in E. apply bind_ok in E. destruct E as ([m1 o1] & w1 & E1 & E). injection E as <- <- <-.
        destruct (mount_through n IH _ _ _ _ _ _ _ _ _ E1 A Tq V) as (q' & d' & ps' & Re & -> & Nm & Nl & A').
        exists q'. split; [exact Re|]. rewrite <- Nm, <- Nl. constructor. exact A'.
      - cbn [processor_process] in E. apply bind_ok in E. destruct E as ([r1 m1] & w1 & E1 & E).
        apply bind_ok in E. destruct E as ([m2 o2] & w2 & E2 & E). injection E as <- <- <-.
        destruct (aways_take R inv1 K1 i d ps ss N k _ _ _ E1 V) as (V1 & U1 & Hr & xs & Hm & Hx). cbn [fst snd] in *. subst m1.
        assert (A1 : inside_one R (ps ++ put_processors xs) path0 q) by (apply inside_more; assumption).
        destruct (mount_through n IH _ _ _ _ _ _ _ _ _ E2 A1 Tq V1) as (q' & d' & ps' & Re & -> & Nm & Nl & A').
        exists q'. split.
        + eapply reached_before; [|exact Re]. split; [exact U1|]. split; [exact (attached_take_wticks _ _ _ _ _ _ E1)|].
          destruct i as [i|]; cbn [attached_take] in E1.
          * apply bind_ok in E1. destruct E1 as ([m3 b] & w5 & E3 & E1). injection E1 as _ _ <-. exact (wruns_drain _ _ _ _ _ _ _ E3).
          * unfold ret in E1. assert (w1 = w) as -> by congruence. apply runs_refl.
        + rewrite <- Nm, <- Nl. constructor; [|exact A']. intros j ->. destruct Hr as [<-|Hr]; [apply N; reflexivity | discriminate Hr].
    Qed.
  End Collect.

  (** ** Snapshots *)

  (** The processor is asked or left alone. *)
  Definition asked_or_not k c q q' c' : Prop :=
    (q' = q /\ later c c') \/ exists de into into' c0 c1, later c c0 /\ processor_put q de into k c0 = Ok (q', into') c1 /\ later c1 c'.

  Lemma asked_before : forall k c0 c q q' c', later c0 c -> asked_or_not k c q q' c' -> asked_or_not k c0 q q' c'.
  Proof.
    intros k c0 c q q' c' L [(-> & H)|(de & i & i' & ca & cb & H1 & H2 & H3)]; [left | right].
    - split; [reflexivity | eapply later_trans; eassumption].
    - exists de, i, i', ca, cb. split; [eapply later_trans; eassumption | auto].
  Qed.
  Lemma asked_after : forall k c q q' c' c2, asked_or_not k c q q' c' -> later c' c2 -> asked_or_not k c q q' c2.
  Proof.
    intros k c q q' c' c2 [(-> & H)|(de & i & i' & ca & cb & H1 & H2 & H3)] L; [left | right].
    - split; [reflexivity | eapply later_trans; eassumption].
    - exists de, i, i', ca, cb. split; [exact H1|]. split; [exact H2 | eapply later_trans; eassumption].
  Qed.

  Lemma put_unheld : forall R p de into k c p' into' c', processor_put p de into k c = Ok (p', into') c' -> ~ held R p -> ~ held R p'.
  Proof. intros R p de into k c p' into' c' E N (r & Hr & H). apply N. exists r. split; [exact Hr|]. exact (proj1 (proj1 (put_keeps_receivers r) _ _ _ _ _ _ _ _ E) H). Qed.

  Lemma puts_unheld : forall R de ps into k c ps' into' c',
    traverse (fun x => processor_put (X := X) (Y := Y) x de) ps into k c = Ok (ps', into') c' ->
    Forall (fun q => ~ held R q) ps -> Forall (fun q => ~ held R q) ps' /\ later c c'.
  Proof.
    intros R de. induction ps as [|p ps IH]; intros into k c ps' into' c' E F.
    - injection E as <- _ <-. split; [constructor | apply later_refl].
    - apply traverse_cons_inv in E. destruct E as (a' & s1 & c1 & l' & E1 & E2 & ->). inversion F; subst.
      destruct (IH _ _ _ _ _ _ E2) as (H3 & H5); [assumption|]. split.
      + constructor; [|exact H3]. eapply put_unheld; eassumption.
      + eapply later_trans; [|exact H5]. exact (proj1 (processor_put_ticks HX HY) _ _ _ _ _ _ _ E1).
  Qed.

  Lemma inside_put_step : forall R de before p after path q,
    (forall into k c p' into' c', processor_put p de into k c = Ok (p', into') c' ->
        exists q', asked_or_not k c q q' c' /\ inside R p' path q') ->
    forall into k c ps' into' c', Forall (fun q => ~ held R q) before -> Forall (fun q => ~ held R q) after ->
    traverse (fun x => processor_put (X := X) (Y := Y) x de) (before ++ p :: after) into k c = Ok (ps', into') c' ->
    exists q', asked_or_not k c q q' c' /\ inside_one R ps' (Position (length before) :: path) q'.
  Proof.
    intros R de before p after path t Hp. induction before as [|b before IH]; intros into k c ps' into' c' B A E; cbn [app] in E;
      apply traverse_cons_inv in E; destruct E as (a' & s1 & c1 & l' & E1 & E2 & ->).
    - destruct (Hp _ _ _ _ _ _ E1) as (t' & C1 & L1). destruct (puts_unheld R _ _ _ _ _ _ _ _ E2 A) as (A1 & La).
      exists t'. split; [eapply asked_after; eassumption|]. apply (io_at R []); auto.
    - inversion B; subst. destruct (IH _ _ _ _ _ _ ltac:(assumption) A E2) as (t' & C1 & A1). exists t'. split.
      + eapply asked_before; [|exact C1]. exact (proj1 (processor_put_ticks HX HY) _ _ _ _ _ _ _ E1).
      + inversion A1 as [b' p' af' q' t0 B' L' Af' Eb Ep]; subst. cbn [length]. rewrite <- Ep.
        change (a' :: b' ++ p' :: af') with ((a' :: b') ++ p' :: af'). change (S (length b')) with (length (a' :: b')).
        constructor; auto. constructor; [|assumption]. eapply put_unheld; eassumption.
  Qed.

  Lemma inside_put : forall R p path q, inside R p path q -> forall de into k c p' into' c',
    processor_put p de into k c = Ok (p', into') c' -> exists q', asked_or_not k c q q' c' /\ inside R p' path q'.
  Proof.
    intros R.
    assert (Mo : forall d (ps : list (processor X Y)) ss path q,
      (forall de into k c ps' into' c', traverse (fun x => processor_put x de) ps into k c = Ok (ps', into') c' ->
         exists q', asked_or_not k c q q' c' /\ inside_one R ps' path q') -> inside_one R ps path q ->
      forall de into k c m' into' c', mount_put (Mount d ps ss) de into k c = Ok (m', into') c' ->
      exists q' ps' ss', asked_or_not k c q q' c' /\ m' = Mount d ps' ss' /\ inside_one R ps' path q').
    { intros d ps ss path q H A de into k c m' into' c' E. rewrite mount_put_eq in E. apply put_named_inv in E. destruct E as (i1 & i2 & E).
      apply activity_cases in E. destruct E as [(-> & L)|(i3 & c1 & L & E)].
      - exists q, ps, ss. split; [left; auto | auto].
      - apply bind_ok in E. destruct E as ([ps1 i4] & c2 & E1 & E). apply bind_ok in E. destruct E as ([ss1 i5] & c3 & E2 & E).
        injection E as <- _ <-. destruct (H _ _ _ _ _ _ _ E1) as (q' & C1 & A1). exists q', ps1, ss1. split; [|auto].
        eapply asked_before; [exact L|]. eapply asked_after; [exact C1|].
        refine (ticks_traverse _ _ _ _ _ _ _ _ _ _ E2). apply Forall_forall. intros x _ s0. apply (tree_put_ticks HX). }
    apply (inside_mut X Y R
      (fun p path q => forall de into k c p' into' c',
        processor_put p de into k c = Ok (p', into') c' -> exists q', asked_or_not k c q q' c' /\ inside R p' path q')
      (fun ps path q => forall de into k c ps' into' c', traverse (fun x => processor_put x de) ps into k c = Ok (ps', into') c' ->
         exists q', asked_or_not k c q q' c' /\ inside_one R ps' path q')).
    - intros q de into k c p' into' c' E. exists p'. split; [|constructor]. right. exists de, into, into', c, c'. split; [apply later_refl|]. split; [exact E | apply later_refl].
    - intros d ps ss path q A IH de into k c p' into' c' E.
      change (wrap PMount (mount_put (Mount d ps ss) de into) k c = Ok (p', into') c') in E. unfold wrap in E.
      apply bind_ok in E. destruct E as ([m1 i1] & c1 & E1 & E). injection E as <- _ <-.
      destruct (Mo _ _ _ _ _ IH A _ _ _ _ _ _ _ E1) as (q' & ps' & ss' & C & -> & A'). exists q'. split; [exact C | constructor; exact A'].
    - intros i d ps ss path q N A IH de into k c p' into' c' E.
      change (wrap (PAttached i) (mount_put (Mount d ps ss) de into) k c = Ok (p', into') c') in E. unfold wrap in E.
      apply bind_ok in E. destruct E as ([m1 i1] & c1 & E1 & E). injection E as <- _ <-.
      destruct (Mo _ _ _ _ _ IH A _ _ _ _ _ _ _ E1) as (q' & ps' & ss' & C & -> & A'). exists q'. split; [exact C | constructor; assumption].
    - intros before p after path q B L IH Af de into k c ps' into' c' E.
      eapply inside_put_step; [|exact B | exact Af | exact E]. intros into0 k0 c0 p' into1 c1 E1. exact (IH _ _ _ _ _ _ _ E1).
  Qed.

  Lemma inside_one_put : forall R ps path q, inside_one R ps path q -> forall de into k c ps' into' c',
    traverse (fun x => processor_put (X := X) (Y := Y) x de) ps into k c = Ok (ps', into') c' ->
    exists q', asked_or_not k c q q' c' /\ inside_one R ps' path q'.
  Proof.
    intros R ps path q A de into k c ps' into' c' E. inversion A; subst.
    eapply inside_put_step; [|eassumption..]. intros into0 k0 c0 p' into1 c1 E1. eapply inside_put; eassumption.
  Qed.

  (** ** What waits in the channel of an attached mount arrives *)

  Section Arrival.
    Variable R : receiver -> Prop.
    Variable j : nat.
    Hypothesis Rj : R (MountReceiver j).

    (** As [step], but channel [j] is used as well. *)
    Definition step_but w w' : Prop :=
      (forall r, R r -> r <> MountReceiver j -> untouched r w w') /\ later (w_clock w) (w_clock w') /\ runs w w'.
    Lemma step_but_refl : forall w, step_but w w.
    Proof. intros w. split; [intros; apply untouched_refl|]. split; [apply later_refl | apply runs_refl]. Qed.
    Lemma step_but_trans : forall a b c, step_but a b -> step_but b c -> step_but a c.
    Proof.
      intros a b c (A1 & L1 & R1) (A2 & L2 & R2). split; [intros r Hr N; eapply untouched_trans; [apply A1 | apply A2]; assumption|].
      split; [eapply later_trans; eassumption | eapply runs_trans; eassumption].
    Qed.

    Lemma recv_step : forall k w x w', mount_try_recv j k w = Ok x w' -> step_but w w'.
    Proof.
      intros k w x w' E. split; [|split].
      - intros r Hr N. unfold mount_try_recv in E. apply bind_ok in E. destruct E as (u & w1 & E1 & E).
        destruct (chan_try_recv (w_mounts w1 j)) as [c y]. injection E as _ <-. injection E1 as _ E1.
        unfold untouched, keeps_queue. destruct r as [i|i]; cbn [w_queues w_mounts].
        + subst w1. cbn [w_queues]. eexists. apply acts_queues.
        + unfold set_chan. destruct (Nat.eqb_spec i j) as [->|]; [congruence|]. subst w1. cbn [w_mounts]. eexists. apply acts_mounts.
      - unfold mount_try_recv in E. apply bind_ok in E. destruct E as (u & w1 & E1 & E).
        destruct (chan_try_recv (w_mounts w1 j)) as [c y]. injection E as _ <-. injection E1 as _ E1. subst w1. cbn [w_clock].
        rewrite acts_clock. apply later_refl.
      - exact (wruns_mount_recv _ _ _ _ _ E).
    Qed.

    Lemma clear_recv : forall i k w x w', mount_try_recv i k w = Ok x w' -> valid (clear R) w ->
      valid (clear R) w' /\ match x with Message m => ~ pheld R m | _ => True end.
    Proof.
      intros i k w x w' E V. unfold mount_try_recv in E. apply bind_ok in E. destruct E as (u & w1 & E1 & E).
      assert (V1 := kept_interleave _ _ (clear_kept R) _ _ _ _ E1 V).
      destruct (chan_try_recv (w_mounts w1 i)) as [c y] eqn:Er. injection E as <- <-. destruct V1 as (H1 & H2).
      unfold valid, clear. cbn [w_mounts w_sched].
      assert (C : Forall (fun z => ~ pheld R z) (ch_queue c ++ ch_waiting c) /\ match y with Message m => ~ pheld R m | _ => True end).
      { specialize (H1 i). clear - H1 Er. destruct (w_mounts w1 i) as [cap qq wt sn rc ac lo]. unfold chan_try_recv in Er.
        cbn [ch_cap ch_queue ch_waiting ch_senders ch_receiver ch_accepted ch_lost] in *. destruct qq as [|z qq].
        - destruct cap as [[|n]|]; [destruct wt as [|z wt]|..]; try (injection Er as <- <-; cbn [ch_queue ch_waiting]; split; [exact H1 | destruct sn; exact I]).
          injection Er as <- <-. cbn [ch_queue ch_waiting app] in *. inversion H1; subst. auto.
        - injection Er as <- <-. cbn [ch_queue ch_waiting app] in *. inversion H1; subst. auto. }
      destruct C as [C1 C2]. split; [split; [|exact H2]|exact C2]. intros i'. unfold set_chan. destruct (Nat.eqb i' i); auto.
    Qed.

    Lemma drain_clear : forall n k w m m' b w', attached_drain n j m k w = Ok (m', b) w' -> valid (clear R) w ->
      exists xs, m' = fold_left mount_add xs m /\ Forall (fun x => ~ pheld R x) xs /\ valid (clear R) w' /\ step_but w w'.
    Proof.
      induction n as [|n IH]; intros k w m m' b w' E V; [discriminate E|]. cbn [attached_drain] in E.
      apply bind_ok in E. destruct E as (x & w1 & E1 & E). assert (S1 := recv_step _ _ _ _ E1). destruct (clear_recv _ _ _ _ _ E1 V) as (V1 & P1).
      destruct x as [y| |].
      - destruct (IH _ _ _ _ _ _ E V1) as (xs & H1 & H2 & H3 & H4). exists (y :: xs). split; [exact H1|].
        split; [constructor; assumption|]. split; [exact H3|]. eapply step_but_trans; eassumption.
      - injection E as <- _ <-. exists []. auto.
      - injection E as <- _ <-. exists []. auto.
    Qed.

    Lemma drain_waits : forall n (q : list (mount_message X Y)) x k w m m' b w', attached_drain n j m k w = Ok (m', b) w' -> valid (waits R j q x) w ->
      exists rest, m' = fold_left mount_add (q ++ x :: rest) m /\ Forall (fun x => ~ pheld R x) (q ++ rest)
        /\ valid (clear R) w' /\ step_but w w'.
    Proof.
      induction n as [|n IH]; intros q x k w m m' b w' E V; [discriminate E|]. cbn [attached_drain] in E.
      apply bind_ok in E. destruct E as (y & w1 & E1 & E). assert (S1 := recv_step _ _ _ _ E1).
      unfold mount_try_recv in E1. apply bind_ok in E1. destruct E1 as (u & w0 & E0 & E1).
      assert (V0 := waits_interleave R _ _ _ _ _ _ _ E0 V). clear E0 V. destruct V0 as (H1 & (more & H2 & H3) & H4).
      destruct (chan_try_recv (w_mounts w0 j)) as [c z] eqn:Er. injection E1 as -> <-.
      unfold chan_try_recv in Er. rewrite H2 in Er. rewrite !Forall_app in H3. destruct H3 as (Hq & Hm & Hw).
      assert (Oth : forall i, i <> j -> set_chan (w_mounts w0) j c i = w_mounts w0 i).
      { intros i Ni. unfold set_chan. destruct (Nat.eqb_spec i j) as [->|]; [congruence | reflexivity]. }
      assert (Own : set_chan (w_mounts w0) j c j = c) by (unfold set_chan; rewrite Nat.eqb_refl; reflexivity).
      destruct q as [|y0 q]; cbn [app] in Er; injection Er as <- <-.
      - assert (V1 : valid (clear R) (World (w_clock w0) (w_queues w0) (set_chan (w_mounts w0) j (Chan (ch_cap (w_mounts w0 j)) more (ch_waiting (w_mounts w0 j))
             (ch_senders (w_mounts w0 j)) (ch_receiver (w_mounts w0 j)) (ch_accepted (w_mounts w0 j)) (ch_lost (w_mounts w0 j)))) (w_sched w0))).
        { split; [|exact H4]. cbn [w_mounts]. intros i. destruct (Nat.eq_dec i j) as [->|Ni]; [rewrite Own | rewrite (Oth _ Ni); apply H1, Ni].
          cbn [ch_queue ch_waiting]. apply Forall_app. auto. }
        destruct (drain_clear _ _ _ _ _ _ _ E V1) as (xs & D1 & D2 & D3 & D4). exists xs. split; [exact D1|]. split; [exact D2|].
        split; [exact D3 | eapply step_but_trans; eassumption].
      - inversion Hq; subst.
        assert (V1 : valid (waits R j q x) (World (w_clock w0) (w_queues w0) (set_chan (w_mounts w0) j (Chan (ch_cap (w_mounts w0 j)) (q ++ x :: more) (ch_waiting (w_mounts w0 j))
             (ch_senders (w_mounts w0 j)) (ch_receiver (w_mounts w0 j)) (ch_accepted (w_mounts w0 j)) (ch_lost (w_mounts w0 j)))) (w_sched w0))).
        { split; [|split; [|exact H4]]; cbn [w_mounts].
          - intros i Ni. rewrite (Oth _ Ni). apply H1, Ni.
          - rewrite Own. cbn [ch_queue ch_waiting]. exists more. rewrite !Forall_app. auto. }
        destruct (IH _ _ _ _ _ _ _ _ E V1) as (rest & D1 & D2 & D3 & D4). exists rest. split; [exact D1|].
        split; [constructor; assumption|]. split; [exact D3 | eapply step_but_trans; eassumption].
    Qed.

    Lemma arrival : forall n (q : list (mount_message X Y)) x d ps ss max s k w p' o w',
      processor_process n (PAttached (Some j) (Mount d ps ss)) max s k w = Ok (p', o) w' -> valid (waits R j q x) w ->
      exists rest w1 r m', let xs := q ++ x :: rest in
        step_but w w1 /\ valid (clear R) w1 /\ Forall (fun x => ~ pheld R x) (q ++ rest)
        /\ processor_process n (PMount (Mount d (ps ++ put_processors xs) (ss ++ put_snapshooters xs))) max s k w1 = Ok (PMount m', o) w'
        /\ p' = PAttached r m' /\ (r = Some j \/ r = None) /\ valid (clear R) w'.
    Proof.
      intros n q x d ps ss max s k w p' o w' E V. assert (E' := E). destruct n as [|n]; [discriminate E|]. cbn [processor_process attached_take] in E.
      apply bind_ok in E. destruct E as ([r1 m1] & w1 & E1 & E). apply bind_ok in E1. destruct E1 as ([m3 b] & w5 & E3 & E1). injection E1 as <- <- <-.
      apply bind_ok in E. destruct E as ([m2 o2] & w2 & E2 & E). injection E as <- <- <-.
      destruct (drain_waits _ _ _ _ _ _ _ _ _ E3 V) as (rest & -> & D2 & D3 & D4). rewrite mount_add_list in E2.
      assert (E5 : processor_process (S n) (PMount (Mount d (ps ++ put_processors (q ++ x :: rest)) (ss ++ put_snapshooters (q ++ x :: rest)))) max s k w5 = Ok (PMount m2, o2) w2).
      { cbn [processor_process]. unfold bind at 1. rewrite E2. reflexivity. }
      exists rest, w5, (if b then Some j else None), m2. cbv zeta. split; [exact D4|]. split; [exact D3|]. split; [exact D2|].
      split; [exact E5|]. split; [reflexivity|]. split; [destruct b; auto|]. exact (process_clear R _ _ _ _ _ _ _ _ _ E5 D3).
    Qed.

    Lemma arrival_turns : forall (q : list (mount_message X Y)) x d ps ss max s k, turns (waits R j q x) (clear R) max s k (PAttached (Some j) (Mount d ps ss)).
    Proof.
      intros q x d ps ss max s k n w q' o w' E V. destruct (arrival _ _ _ _ _ _ _ _ _ _ _ _ _ E V) as (rest & w1 & r & m' & _ & _ & _ & _ & _ & _ & H). exact H.
    Qed.
    Lemma clear_turns : forall max s k p, turns (clear R) (clear R) max s k p.
    Proof. intros max s k p n w q' o w' E V. exact (process_clear R _ _ _ _ _ _ _ _ _ E V). Qed.
  End Arrival.
End Through.
