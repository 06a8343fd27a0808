(** What is put through the handle of an attached mount arrives. *)
From Coq Require Import ZArith Bool String List Lia.
From Verif Require Import Base SpecRun MonadFacts SpecClock ClockProofs ModelObservation ModelSnapshot ModelInstrument ModelTree
  ModelChannel ModelProcessor ModelDriver TreeEqs TreeInd SpecQueue QueueProofs SpecCollect WorldClockProofs CollectProofs GroupProofs SpecDriver
  DriverProofs DriverLoopProofs DriverMetricsProofs DriverShapeProofs SpecChronicle ChronicleProofs ChronicleDriver
  ModelHandle SpecHandle HandleAway HandleProofs HandleDriver.
Import ListNotations.
Open Scope Z_scope.

Section Arrives.
  Context {X : ext} {Y : pext}.
  Context (HX : parts_tick X) (HY : processors_tick Y).
  Implicit Types (d : driver X Y) (w : dworld X Y).

  Lemma same_length : forall A B (P : A -> B -> Prop) l l', Forall2 P l l' -> length l' = length l.
  Proof. intros A B P l l' H. induction H; cbn; congruence. Qed.

  Section Mount.
    Variable R : receiver -> Prop.
    Variable j : nat.
    Hypothesis Rj : R (MountReceiver j).
    Variables (path : list place) (md : mount_data) (np ns : nat).
    Variables (q : list (mount_message X Y)) (x : mount_message X Y).

    Definition waiting d w : Prop := exists ps ss,
      inside_one R (dr_processors d) path (PAttached (Some j) (Mount md ps ss)) /\ length ps = np /\ length ss = ns
      /\ Forall (fun p => ~ held R p) ps /\ valid (waits R j q x) (dw_world w) /\ driver_ok w /\ unsent R w.

    (** It was moved and collected at once. *)
    Definition arrived k d w d1 w1 : Prop := exists ps ss rest v1 n m' o v2 r, let xs := q ++ x :: rest in
      length ps = np /\ length ss = ns /\ Forall (fun p => ~ held R p) ps /\ Forall (fun x => ~ pheld R x) (q ++ rest)
      /\ step_but R j (dw_world w) v1 /\ valid (clear R) v1
      /\ processor_process n (PMount (Mount md (ps ++ put_processors xs) (ss ++ put_snapshooters xs))) 1000 (dr_strategy d1) k v1 = Ok (PMount m', o) v2
      /\ step R v2 (dw_world w1) /\ valid (clear R) (dw_world w1)
      /\ inside_one R (dr_processors d1) path (PAttached r m') /\ (r = Some j \/ r = None)
      /\ driver_ok w1 /\ unsent R w1 /\ dr_name d1 = dr_name d.

    Lemma asked_attached : forall k c i ps ss p' c', asked_or_not k c (PAttached (X := X) (Y := Y) i (Mount md ps ss)) p' c' ->
      exists ps' ss', p' = PAttached i (Mount md ps' ss') /\ length ps' = length ps /\ length ss' = length ss
        /\ (Forall (fun p => ~ held R p) ps -> Forall (fun p => ~ held R p) ps') /\ later c c'.
    Proof.
      intros k c i ps ss p' c' [(-> & L)|(de & into & into' & c0 & c1 & L1 & E & L2)].
      - exists ps, ss. auto 6.
      - assert (L : later c c').
        { eapply later_trans; [exact L1|]. eapply later_trans; [|exact L2]. exact (proj1 (processor_put_ticks HX HY) _ _ _ _ _ _ _ E). }
        change (wrap (PAttached i) (mount_put (Mount md ps ss) de into) k c0 = Ok (p', into') c1) in E. unfold wrap in E.
        apply bind_ok in E. destruct E as ([m1 i1] & c2 & E1 & E). injection E as <- _ _.
        assert (E1' := E1). apply mount_put_evolves in E1. destruct E1 as (ps' & ss' & -> & F1 & F2). exists ps', ss'. split; [reflexivity|].
        split; [exact (same_length _ _ _ _ _ F1)|]. split; [exact (same_length _ _ _ _ _ F2)|]. split; [|exact L].
        intros N. apply Forall_forall. intros p Ip (r & Hr & Hp).
        assert (Mh : mount_holds r (Mount md ps ss)).
        { apply (proj2 (put_keeps_receivers r) _ _ _ _ _ _ _ _ E1'). rewrite mount_holds_iff. apply Exists_exists. eauto. }
        rewrite mount_holds_iff in Mh. apply Exists_exists in Mh. destruct Mh as (p0 & I0 & H0). rewrite Forall_forall in N. apply (N _ I0). exists r. auto.
    Qed.

    Lemma waiting_iteration : forall k d w d1 w1, waiting d w -> driver_iteration d k w = Ok (d1, true) w1 ->
      exists cs, moved (dw_commands w) (dw_commands w1) cs /\ (length cs <= 1)%nat
        /\ dr_strategy d1 = strategy_after (dr_strategy d) cs /\ dr_paused d1 = paused_after (dr_paused d) cs
        /\ if dr_paused d1 then waiting d1 w1 /\ w_queues (dw_world w1) = w_queues (dw_world w)
                                /\ w_mounts (dw_world w1) = w_mounts (dw_world w)
                                /\ later (w_clock (dw_world w)) (w_clock (dw_world w1)) /\ dr_name d1 = dr_name d
           else arrived k d w d1 w1.
    Proof.
      intros k d w d1 w1 (ps & ss & I & Np & Ns & F & V & Ok0 & U) E.
      destruct (iteration_through HX HY R (waits R j q x) (clear R) (waits_kept R j q x Rj) (clear_kept R) k d w d1 w1 path _ Ok0 U V I) as
        (cs & qm & c & H1 & H2 & H3 & H4 & H5 & H6 & H7 & H8 & H9).
      - intros c qm c' s A. destruct (asked_attached _ _ _ _ _ _ _ A) as (ps' & ss' & -> & _). apply arrival_turns.
      - exact E.
      - destruct (asked_attached _ _ _ _ _ _ _ H8) as (ps' & ss' & -> & Lp & Ls & Fp & L). specialize (Fp F). cbv zeta in H9.
        exists cs. split; [exact H1|]. split; [exact H2|]. split; [exact H6|]. split; [exact H7|]. destruct (dr_paused d1).
        + destruct H9 as (Ew & I'). split; [|rewrite Ew; auto]. exists ps', ss'. rewrite Ew. split; [exact I'|]. split; [congruence|]. split; [congruence|]. auto.
        + destruct H9 as (q' & (n & v0 & o & v2 & S1 & V1 & Ep & S2 & V2) & I').
          destruct (arrival R j n q x md ps' ss' _ _ _ _ _ _ _ Ep V1) as (rest & v1 & r & m' & B1 & B2 & B3 & B4 & -> & B6 & B7).
          exists ps', ss', rest, v1, n, m', o, v2, r. split; [congruence|]. split; [congruence|]. split; [exact Fp|]. split; [exact B3|]. split.
          { eapply step_but_trans; [|exact B1]. destruct S1 as (A1 & A2 & A3). split; [|split; [|exact A3]].
            - intros r0 Hr _. exact (A1 r0 Hr).
            - eapply later_trans; [exact L | exact A2]. }
          auto 12.
    Qed.

    Lemma waiting_iterates : forall k n d w d' w', iterates k n d w d' w' -> waiting d w ->
      (exists css, length css = n /\ Forall (fun cs => (length cs <= 1)%nat) css /\ moved (dw_commands w) (dw_commands w') (concat css)
         /\ strategies (dr_strategy d) (dr_paused d) css = [] /\ waiting d' w' /\ w_queues (dw_world w') = w_queues (dw_world w)
         /\ w_mounts (dw_world w') = w_mounts (dw_world w)
         /\ later (w_clock (dw_world w)) (w_clock (dw_world w')) /\ dr_name d' = dr_name d)
      \/ exists css da wa db wb n2, n = (length css + n2)%nat /\ Forall (fun cs => (length cs <= 1)%nat) css
         /\ moved (dw_commands w) (dw_commands wb) (concat css)
         /\ (forall css2, strategies (dr_strategy d) (dr_paused d) (css ++ css2) = dr_strategy db :: strategies (dr_strategy db) (dr_paused db) css2)
         /\ w_queues (dw_world wa) = w_queues (dw_world w) /\ w_mounts (dw_world wa) = w_mounts (dw_world w)
         /\ later (w_clock (dw_world w)) (w_clock (dw_world wa)) /\ dr_name da = dr_name d
         /\ arrived k da wa db wb /\ iterates k n2 db wb d' w'.
    Proof.
      intros k n d w d' w' H. induction H as [d w|n d w d1 w1 d2 w2 E H IH]; intros W.
      - left. exists []. split; [reflexivity|]. split; [constructor|]. split; [apply moved_refl|]. split; [reflexivity|]. split; [exact W|].
        split; [reflexivity|]. split; [reflexivity|]. split; [apply later_refl | reflexivity].
      - destruct (waiting_iteration _ _ _ _ _ W E) as (cs & M1 & L1 & S1 & P1 & C). destruct (dr_paused d1) eqn:P.
        + destruct C as (W1 & Q1 & Q1' & T1 & N1). destruct (IH W1) as [(css & A1 & A2 & A3 & A4 & A5 & A6 & A6' & A7 & A8)
            |(css & da & wa & db & wb & n2 & A1 & A2 & A3 & A4 & A5 & A5' & A6 & A7 & A8 & A9)].
          * left. exists (cs :: css). split; [cbn; congruence|]. split; [constructor; assumption|]. split; [eapply moved_trans; eassumption|].
            split. { cbn [strategies]. rewrite <- S1, <- P1. exact A4. }
            split; [exact A5|]. split; [congruence|]. split; [congruence|]. split; [eapply later_trans; eassumption | congruence].
          * right. exists (cs :: css), da, wa, db, wb, n2. split; [cbn; lia|]. split; [constructor; assumption|].
            split; [cbn [concat]; eapply moved_trans; eassumption|]. split.
            { intros css2. cbn [app strategies]. rewrite <- S1, <- P1. exact (A4 css2). }
            split; [congruence|]. split; [congruence|]. split; [eapply later_trans; eassumption|]. split; [congruence | auto].
        + right. exists [cs], d, w, d1, w1, n. split; [reflexivity|]. split; [constructor; [exact L1 | constructor]|].
          split; [cbn [concat]; rewrite app_nil_r; exact M1|]. split.
          { intros css2. cbn [app strategies]. rewrite <- S1, <- P1, P. reflexivity. }
          split; [reflexivity|]. split; [reflexivity|]. split; [apply later_refl|]. split; [reflexivity|]. split; [exact C | exact H].
    Qed.

    (** The place of the new one *)
    Lemma put_place : forall (p : processor X Y) ps rest, x = MProcessor p ->
      ps ++ put_processors (q ++ x :: rest) = (ps ++ put_processors q) ++ p :: put_processors rest
      /\ length (ps ++ put_processors q) = (length ps + length (put_processors q))%nat.
    Proof.
      intros p ps rest ->. split; [|apply app_length]. unfold put_processors. rewrite flat_map_app. cbn [flat_map app]. rewrite app_assoc. reflexivity.
    Qed.
    Lemma put_shown : forall (s : snapshooter X) ss rest, x = MSnapshooter s ->
      ss ++ put_snapshooters (q ++ x :: rest) = (ss ++ put_snapshooters q) ++ s :: put_snapshooters rest
      /\ length (ss ++ put_snapshooters q) = (length ss + length (put_snapshooters q))%nat.
    Proof.
      intros p ss rest ->. split; [|apply app_length]. unfold put_snapshooters. rewrite flat_map_app. cbn [flat_map app]. rewrite app_assoc. reflexivity.
    Qed.

    Lemma put_unheld_all : forall xs : list (mount_message X Y), Forall (fun x => ~ pheld R x) xs -> Forall (fun p => ~ held R p) (put_processors xs).
    Proof.
      intros xs F. apply Forall_forall. intros p Ip. apply in_flat_map in Ip. destruct Ip as (y & Iy & Ip).
      rewrite Forall_forall in F. specialize (F _ Iy). destruct y; [|destruct Ip]. destruct Ip as [->|[]]. exact F.
    Qed.
  End Mount.

  Lemma located_mount : forall r i m path t, located (X := X) (Y := Y) r (PMount m) path t -> located r (PAttached i m) path t.
  Proof. intros r i m path t L. inversion L; subst. constructor. assumption. Qed.

  Lemma visited_within : forall r k max s (t : tele X) (w0 w : world X Y) t' (w' w1 : world X Y),
    untouched r w0 w -> later (w_clock w0) (w_clock w) -> runs w0 w -> visited r k max s t w t' w' ->
    untouched r w' w1 -> later (w_clock w') (w_clock w1) -> runs w' w1 -> visited r k max s t w0 t' w1.
  Proof.
    intros r k max s t w0 w t' w' w1 U1 L1 R1 (wa & oa & wb & V1 & V2 & V3 & V4 & V5 & V6 & V7) U2 L2 R2.
    exists wa, oa, wb. split; [eapply untouched_trans; eassumption|]. split; [eapply later_trans; eassumption|]. split; [exact V3|].
    split; [eapply untouched_trans; eassumption|]. split; [eapply later_trans; eassumption|]. split; eapply runs_trans; eassumption.
  Qed.

  (** A processor for telemetry data that waits *)
  Lemma tele_arrives : forall k n d w d' w' path j md ps ss p path0 t queue more,
    let i := tp_receiver t in
    let R := fun r => r = MountReceiver j \/ r = QueueReceiver i in
    inside_one R (dr_processors d) path (PAttached (Some j) (Mount md ps ss)) -> Forall (fun p => ~ held R p) ps ->
    driver_ok w -> unsent R w ->
    valid (waits R j queue (MProcessor p)) (dw_world w) -> ch_queue (channel_of j w) = queue ++ MProcessor p :: more ->
    located (QueueReceiver i) p path0 t ->
    iterates k n d w d' w' ->
    exists css es t',
      length css = n /\ Forall (fun cs => (length cs <= 1)%nat) css /\ moved (dw_commands w) (dw_commands w') (concat css)
      /\ map (@en_strategy X) es = strategies (dr_strategy d) (dr_paused d) css
      /\ chronicle k (w_clock (dw_world w)) t es t' (w_clock (dw_world w'))
      /\ Forall (fun e => (length (en_messages e) <= 1000)%nat) es
      /\ moved (queue_of i w) (queue_of i w') (flat_map (@en_messages X) es)
      /\ (es = [] -> t' = t /\ ch_queue (channel_of j w') = queue ++ MProcessor p :: more)
      /\ (es <> [] -> among (QueueReceiver i) (dr_processors d')
             (path ++ Level (md_name md) (md_limit md) :: Position (length ps + length (put_processors queue)) :: path0) t'
           /\ nobody_else (QueueReceiver i) w')
      /\ (attentive i t (dw_world w) -> attentive i t' (dw_world w')
           /\ exists rest, flat_map (@en_messages X) es = firstn (1000 * length es) (ch_queue (queue_of i w)) ++ rest).
  Proof.
    intros k n d w d' w' path j md ps ss p path0 t queue more i R I F Ok0 U V Hq L H.
    assert (Rj : R (MountReceiver j)) by (left; reflexivity). assert (Rt : R (QueueReceiver i)) by (right; reflexivity).
    assert (W : waiting R j path md (length ps) (length ss) queue (MProcessor p) d w) by (exists ps, ss; auto 10).
    destruct (waiting_iterates R j Rj _ _ _ _ _ _ _ _ _ _ _ _ H W) as [(css & A1 & A2 & A3 & A4 & A5 & A6 & A6' & A7 & A8)
            |(css & da & wa & db & wb & n2 & A1 & A2 & A3 & A4 & A5 & A5' & A6 & A7 & A8 & A9)].
    - exists css, [], t. split; [exact A1|]. split; [exact A2|]. split; [exact A3|]. split; [symmetry; exact A4|].
      split; [apply cr_end; exact A7|]. split; [constructor|]. unfold queue_of. rewrite A6. split; [apply moved_refl|].
      split; [intros _; split; [reflexivity|]; unfold channel_of; rewrite A6'; exact Hq|]. split; [congruence|].
      intros At. split; [unfold attentive; rewrite A6; exact At|]. exists []. reflexivity.
    - destruct A8 as (ps1 & ss1 & rest & v1 & m & m' & o & v2 & r & B1 & B2 & B3 & B4 & B5 & B6 & B7 & B8 & B9 & B10 & B11 & B12 & B13 & B14).
      destruct (put_place queue (MProcessor p) p ps1 rest eq_refl) as (Pl & Pn). rewrite Pl in B7.
      rewrite Forall_app in B4. destruct B4 as (Fq & Fr).
      set (pos := (length ps + length (put_processors queue))%nat).
      assert (Lm : located (QueueReceiver i) (PMount (Mount md ((ps1 ++ put_processors queue) ++ p :: put_processors rest)
                     (ss1 ++ put_snapshooters (queue ++ MProcessor p :: rest)))) (Level (md_name md) (md_limit md) :: Position pos :: path0) t).
      { constructor. replace pos with (length (ps1 ++ put_processors queue)) by (rewrite Pn; unfold pos; congruence). constructor; [|exact L|].
        - apply Forall_app. split; [eapply unheld_all; [exact Rt | exact B3]|]. eapply unheld_all; [exact Rt | apply put_unheld_all, Fq].
        - eapply unheld_all; [exact Rt | apply put_unheld_all, Fr]. }
      assert (Fv : foreign (QueueReceiver i) v1) by (apply (proj1 (clear_iff R v1) B6 _ Rt)).
      destruct (collected_located HX HY _ _ _ _ _ _ _ _ _ _ _ _ B7 Lm Fv) as (t1 & Vi & L1 & F1).
      destruct B5 as (S1 & S2 & S3). destruct B8 as (S4 & S5 & S6).
      assert (Vi' : visited (QueueReceiver i) k 1000 (dr_strategy db) t (dw_world wa) t1 (dw_world wb)).
      { eapply visited_within; [apply S1; [exact Rt | discriminate] | exact S2 | exact S3 | exact Vi | exact (S4 _ Rt) | exact S5 | exact S6]. }
      destruct (visited_chronicle HX k 1000 (dr_strategy db) t (dw_world wa) t1 (dw_world wb) Vi') as (start & ms & V1 & V2 & V3 & V4 & V5).
      fold i in V2, V4, V5.
      assert (Am : among (QueueReceiver i) (dr_processors db) (path ++ Level (md_name md) (md_limit md) :: Position pos :: path0) t1).
      { apply (proj2 (inside_located R _ Rt) _ _ _ B10). apply located_mount. exact L1. }
      assert (Nb : nobody_else (QueueReceiver i) wb) by (apply (proj2 (nobody_iff R wb)); auto).
      assert (It := iterates_located HX HY k n2 db wb d' w' (path ++ Level (md_name md) (md_limit md) :: Position pos :: path0) t1 A9 B12).
      cbv zeta in It. rewrite V4 in It. destruct (It Nb Am) as (css2 & es2 & t2 & I1 & I2 & I3 & I4 & I5 & I6 & I7 & I8 & I9 & I10 & I11 & I12).
      exists (css ++ css2), (Entry start (dr_strategy db) ms :: es2), t2.
      split; [rewrite app_length; lia|]. split; [apply Forall_app; auto|]. split; [rewrite concat_app; eapply moved_trans; eassumption|].
      split; [rewrite A4; cbn [map en_strategy]; rewrite I4; reflexivity|].
      split. { eapply chronicle_before; [exact A6|]. exact (chronicle_app _ _ _ _ _ _ _ _ _ V1 I5). }
      split; [constructor; [exact V3 | exact I8]|].
      assert (Qq : queue_of i w = queue_of i wa) by (unfold queue_of; rewrite A5; reflexivity).
      split. { cbn [flat_map en_messages]. rewrite Qq. eapply moved_trans; [exact V2 | exact I9]. }
      split; [discriminate|]. split; [auto|]. intros At.
      assert (At1 : attentive i t (dw_world wa)) by (unfold attentive; rewrite A5; exact At).
      destruct (V5 At1) as (At2 & rest1 & P1). destruct (I12 At2) as (At3 & rest2 & P2). split; [exact At3|].
      cbn [flat_map en_messages length]. rewrite Nat.mul_succ_r, Nat.add_comm, Qq. destruct V2 as (new & _ & Qv).
      eapply prefix_trans; [exact Qv | exact P1 | exact P2].
  Qed.
End Arrives.
