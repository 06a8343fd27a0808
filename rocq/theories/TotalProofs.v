(** All that is sent is seen. *)
From Coq Require Import ZArith Bool String List Lia.
From Verif Require Import Base SpecRun MonadFacts SpecClock ClockProofs ModelObservation ModelSnapshot ModelCounter ModelInstrument ModelTree
  ModelChannel ModelProcessor ModelTransmitter ModelDriver TreeEqs TreeInd SpecWriting SpecTree SpecNames SpecQueue QueueProofs SpecCollect WorldClockProofs CollectProofs
  GroupProofs SpecDriver DriverProofs DriverLoopProofs SpecChronicle ChronicleProofs ChronicleDriver SpecSite SpecLife SpecLives SiteProofs LifeProofs SiteDriver SpecHandle HandleAdds
  SpecTotal SpecCounting.
Import ListNotations.
Open Scope Z_scope.

Section Total.
  Context {X : ext} {Y : pext}.
  Context (HX : parts_tick X) (HY : processors_tick Y) (HA : parts_append X) (HB : forall u, appends (user_proc_put Y u)).
  Implicit Types (d : driver X Y) (w : dworld X Y).

  (** ** Commands *)

  Lemma accepted_iterates : forall (P : command X Y -> Prop) k n d w d' w', iterates k n d w d' w' -> driver_ok w ->
    (forall n, Forall (fun a => match a with Call c => P c | _ => True end) (dw_sched w n)) ->
    exists new, ch_accepted (dw_commands w') = ch_accepted (dw_commands w) ++ new /\ Forall P new.
  Proof.
    intros P k n d w d' w' H. induction H as [d w|n d w d1 w1 d2 w2 E H IH]; intros Ok0 S.
    - exists []. split; [symmetry; apply app_nil_r | constructor].
    - destruct (iteration_true _ _ _ _ _ Ok0 E) as (cs & ans & It & _ & _ & _ & A & _ & Sc & _).
      assert (Ok1 : driver_ok w1) by (apply (it_ok _ _ _ _ _ _ _ It)).
      destruct (IH Ok1) as (new & A2 & F2); [intros m; rewrite Sc; apply S|].
      exists (called (dw_guards w) (meanwhile w 2) ++ new). rewrite A2, A, app_assoc. split; [reflexivity|]. apply Forall_app. split; [|exact F2].
      apply calls_of. unfold meanwhile. apply Forall_forall. intros a Ha. apply in_flat_map in Ha. destruct Ha as (m & _ & Ha).
      specialize (S m). rewrite Forall_forall in S. apply S, Ha.
  Qed.

  Lemma steady_strategies : forall s css, Forall steady_command (concat css) -> strategies (X := X) (Y := Y) s false css = repeat s (length css).
  Proof.
    intros s css. induction css as [|cs css IH]; intros F; [reflexivity|]. cbn [concat] in F. rewrite Forall_app in F. destruct F as (F1 & F2).
    assert (E : strategy_after s cs = s /\ paused_after false cs = false).
    { clear - F1. induction cs as [|c cs IH]; [split; reflexivity|]. inversion F1; subst. destruct c; cbn [strategy_after paused_after]; cbn in H1; tauto. }
    destruct E as (E1 & E2). cbn [strategies length repeat]. rewrite E1, E2, (IH F2). reflexivity.
  Qed.

  (** ** Observations *)

  Lemma without_reaching : forall (on : lab X -> bool) (P : observation (lab X) -> Prop) os os', (forall o, P o) ->
    without (fun o => ~ (P o /\ on (obs_label o) = true)) os os' -> os' = reaching on os.
  Proof.
    intros on P os os' HP H. induction H as [|x l l' Hx _ IH|x l l' Hx _ IH]; [reflexivity|..]; cbn [reaching filter].
    - destruct (on (obs_label x)) eqn:E; [|exact IH]. exfalso. apply Hx. split; [apply HP | reflexivity].
    - destruct (on (obs_label x)) eqn:E; [unfold reaching in *; congruence|]. exfalso. apply Hx. intros (_ & H). discriminate H.
  Qed.

  Lemma observations_app : forall a b : list (message X), observations_in (a ++ b) = observations_in a ++ observations_in b.
  Proof. intros a b. apply flat_map_app. Qed.

  Lemma seen_reaching : forall on (es : list (entry X)) os, seen on es os -> Forall (fun e => en_strategy e = ProcessAll) es ->
    os = reaching on (observations_in (flat_map en_messages es)).
  Proof.
    intros on es os H. induction H as [|e es os os' W _ IH]; intros F; [reflexivity|]. inversion F as [|? ? F1 F2]; subst.
    cbn [flat_map]. rewrite observations_app. unfold reaching. rewrite filter_app. f_equal; [|apply IH, F2].
    rewrite F1 in W. cbn [kept_by] in W. eapply (without_reaching on (fun _ => True)); [intros; exact I | exact W].
  Qed.

  (** ** All of the queue *)

  Lemma all_seen : forall k n d w d' w' path t at_ names gs on x b de d'' w'',
    let i := tp_receiver t in
    let queue := ch_queue (queue_of i w) in
    followed k n d w d' w' path t at_ names gs on x b de d'' w'' -> attentive i t (dw_world w) ->
    dr_strategy d = ProcessAll -> dr_paused d = false -> steady w -> (length queue <= 1000 * n)%nat ->
    exists more added,
      moved (queue_of i w) (queue_of i w') (queue ++ more) /\ dw_answers w'' = dw_answers w' ++ [(b, added)]
      /\ (Forall (spares (owners at_ (layout t))) (queue ++ more) ->
          exists x' x'' gs', leaf_life k (clock_of w) x (reaching on (observations_in (queue ++ more))) x' (clock_of w')
            /\ guards_on path gs gs'
            /\ presented k (clock_of w') (opt_list (dr_name d) ++ names_on path ++ names) gs' x' x'' de added (clock_of w'')).
  Proof.
    intros k n d w d' w' path t at_ names gs on x b de d'' w'' i queue [H Hok Hn A T E] At Ds Dp St Len. fold i in Hn, A.
    rewrite <- (iterates_name _ _ _ _ _ _ H).
    destruct (iterates_located HX HY _ _ _ _ _ _ _ _ H Hok Hn A) as (css & es & t' & H1 & H2 & H3 & H4 & H5 & H7 & _ & _ & H6 & _ & _ & H8).
    fold i in H6, H7, H8. destruct (H8 At) as (_ & rest & Pre).
    assert (Sc : Forall steady_command (concat css)).
    { destruct St as (S1 & S2). destruct (accepted_iterates _ _ _ _ _ _ _ H Hok S2) as (new & A1 & F1). destruct H3 as (new' & A2 & Q).
      rewrite A1 in A2. apply app_inv_head in A2. subst new'. assert (F : Forall steady_command (ch_queue (dw_commands w) ++ new)) by (apply Forall_app; auto).
      rewrite Q in F. apply Forall_app in F. apply F. }
    rewrite Ds, Dp, (steady_strategies _ _ Sc), H1 in H4.
    assert (Le : length es = n) by (rewrite <- (map_length (@en_strategy X)), H4; apply repeat_length).
    assert (Fe : Forall (fun e => en_strategy e = ProcessAll) es).
    { rewrite <- (Forall_map (@en_strategy X) (fun s => s = ProcessAll)), H4. apply Forall_forall. intros s Hs. apply repeat_spec in Hs. exact Hs. }
    rewrite Le in Pre. fold queue in Pre. rewrite firstn_all2 in Pre by lia.
    cbn [driver_command call_snapshot] in E. apply bind_ok in E. destruct E as ([d2 s] & w2 & E1 & E). apply timed_inv in E1. destruct E1 as (cl & E1 & ->).
    apply bind_ok in E. destruct E as (u & w3 & E2 & E). injection E2 as <- <-. injection E as <- <-.
    exists rest, s. rewrite <- Pre. split; [exact H6|]. split; [reflexivity|]. intros Hs.
    destruct (chronicle_life HX HA _ _ _ _ _ _ _ _ H5 _ _ _ T Hs) as (at' & gs2 & os & x' & W & L & (T' & K) & _).
    destruct (proj2 (located_site _) _ _ _ H7) as (j & p & rest' & gs1 & -> & Hj & S & Hl).
    destruct (driver_presents HX HY HA HB _ _ _ _ _ _ _ _ _ _ _ _ _ _ _ _ _ _ _ Hj S T' E1) as (p' & t'' & x'' & added & _ & _ & _ & Es & P).
    cbn [snapshot_default app] in Es. subst s. rewrite <- (seen_reaching _ _ _ W Fe).
    exists x', x'', (gs1 ++ gs2). split; [exact L|]. split; [exists gs1, gs2; auto|]. exact P.
  Qed.

  Lemma all_counted : forall k n d w d' w' path t at_ names gs on ct m b de d'' w'',
    let i := tp_receiver t in
    let queue := ch_queue (queue_of i w) in
    followed k n d w d' w' path t at_ names gs on (LInstrument (ICounter ct) m) b de d'' w'' -> in_u64 (c_count ct) -> attentive i t (dw_world w) ->
    dr_strategy d = ProcessAll -> dr_paused d = false -> steady w -> (length queue <= 1000 * n)%nat ->
    exists more added,
      moved (queue_of i w) (queue_of i w') (queue ++ more) /\ dw_answers w'' = dw_answers w' ++ [(b, added)]
      /\ (Forall (spares (owners at_ (layout t))) (queue ++ more) ->
          exists gs', guards_on path gs gs'
            /\ shown_unless_hidden (clock_of w') (opt_list (dr_name d) ++ names_on path ++ names) gs' added (clock_of w'')
                 (In (c_name ct, UInt ((c_count ct + total (map (taken_as m) (reaching on (observations_in (queue ++ more))))) mod two64)))).
  Proof.
    intros k n d w d' w' path t at_ names gs on ct m b de d'' w'' i queue H Hin At Ds Dp St Len.
    destruct (all_seen _ _ _ _ _ _ _ _ _ _ _ _ _ _ _ _ _ H At Ds Dp St Len) as (more & added & M & An & C).
    exists more, added. split; [exact M|]. split; [exact An|]. intros Hs. destruct (C Hs) as (x' & x'' & gs' & L & G & P). exists gs'. split; [exact G|].
    destruct (counter_life _ _ _ _ _ _ _ L Hin) as (-> & _).
    eapply presented_fields; [|exact P]. intros level fields c1 c2 Ep. apply counter_fields in Ep. destruct Ep as (_ & Ep). exact Ep.
  Qed.

  (** ** What a transmitter sends *)

  Lemma sent_all : forall tx os w, usable (queue_of (tx_sender tx) w) ->
    let w1 := sends_all tx os w in
    usable (queue_of (tx_sender tx) w1)
    /\ ch_queue (queue_of (tx_sender tx) w1) = ch_queue (queue_of (tx_sender tx) w) ++ map (fun o => MObservation o) os
    /\ dw_commands w1 = dw_commands w /\ dw_sched w1 = dw_sched w /\ w_mounts (dw_world w1) = w_mounts (dw_world w)
    /\ (forall i, i <> tx_sender tx -> queue_of i w1 = queue_of i w).
  Proof.
    intros tx os. induction os as [|o os IH]; intros w U; cbn [sends_all fold_left map].
    - rewrite app_nil_r. auto 10.
    - set (w0 := does (OnQueue (tx_sender tx) (transmit tx o)) w).
      assert (Ec : queue_of (tx_sender tx) w0 = chan_act (queue_of (tx_sender tx) w) (transmit tx o)).
      { unfold w0, queue_of, does, act. cbn [dw_world w_queues]. unfold set_chan. rewrite Nat.eqb_refl. reflexivity. }
      assert (Ea : usable (queue_of (tx_sender tx) w0) /\ ch_queue (queue_of (tx_sender tx) w0) = ch_queue (queue_of (tx_sender tx) w) ++ [MObservation o]).
      { rewrite Ec. destruct U as (U1 & U2 & U3). destruct (queue_of (tx_sender tx) w) as [cap q wt sn rc ac lo]. cbn [ch_cap ch_receiver ch_senders] in *.
        subst cap rc. destruct sn; [congruence|]. unfold transmit, tx_send. destruct (tx_use_send tx); (split; [split; [reflexivity | split; [reflexivity | discriminate]] | reflexivity]). }
      destruct Ea as (U0 & Q0). destruct (IH w0 U0) as (A1 & A2 & A3 & A4 & A5 & A6). unfold sends_all in *.
      split; [exact A1|]. split; [rewrite A2, Q0, <- app_assoc; reflexivity|]. split; [exact A3|]. split; [exact A4|]. split; [exact A5|].
      intros i Ni. rewrite (A6 i Ni). unfold w0, queue_of, does, act. cbn [dw_world w_queues]. unfold set_chan.
      destruct (Nat.eqb_spec i (tx_sender tx)); [congruence | reflexivity].
  Qed.

  Lemma sends_world : forall tx os w, let w1 := sends_all tx os w in
    dw_guards w1 = dw_guards w /\ dw_running w1 = dw_running w /\ dw_commands w1 = dw_commands w /\ dw_sched w1 = dw_sched w
    /\ w_mounts (dw_world w1) = w_mounts (dw_world w) /\ w_sched (dw_world w1) = w_sched (dw_world w) /\ w_clock (dw_world w1) = w_clock (dw_world w).
  Proof.
    intros tx os. induction os as [|o os IH]; intros w; cbn [sends_all fold_left]; [auto 10|].
    destruct (IH (does (OnQueue (tx_sender tx) (transmit tx o)) w)) as (A1 & A2 & A3 & A4 & A5 & A6 & A7). unfold sends_all in *. auto 10.
  Qed.

  Lemma observations_of : forall os : list (observation (lab X)), observations_in (map (fun o => MObservation o) os) = os.
  Proof. induction os as [|o os IH]; [reflexivity|]. cbn. f_equal. exact IH. Qed.

  Lemma transmitted_counted : forall k n d w d' w' path t at_ names gs on ct m b de d'' w'' tx os,
    let i := tp_receiver t in
    let w1 := sends_all tx os w in
    tx_sender tx = i -> usable (queue_of i w) -> ch_queue (queue_of i w) = [] -> attentive i t (dw_world w) ->
    followed k n d w1 d' w' path t at_ names gs on (LInstrument (ICounter ct) m) b de d'' w'' -> in_u64 (c_count ct) ->
    dr_strategy d = ProcessAll -> dr_paused d = false -> steady w -> (length os <= 1000 * n)%nat ->
    exists more added,
      moved (queue_of i w1) (queue_of i w') (map (fun o => MObservation o) os ++ more) /\ dw_answers w'' = dw_answers w' ++ [(b, added)]
      /\ (Forall (spares (owners at_ (layout t))) more ->
          exists gs', guards_on path gs gs'
            /\ shown_unless_hidden (clock_of w') (opt_list (dr_name d) ++ names_on path ++ names) gs' added (clock_of w'')
                 (In (c_name ct, UInt ((c_count ct + total (map (taken_as m) (reaching on os ++ reaching on (observations_in more)))) mod two64)))).
  Proof.
    intros k n d w d' w' path t at_ names gs on ct m b de d'' w'' tx os i w1 Tx U Q0 At H Hin Ds Dp St Len.
    rewrite <- Tx in U, Q0. destruct (sent_all tx os w U) as (U1 & Q1 & _). fold w1 in U1, Q1. rewrite Q0, Tx in Q1. cbn [app] in Q1. rewrite Tx in U1.
    assert (St1 : steady w1). { destruct (sends_world tx os w) as (_ & _ & C1 & S1 & _). unfold steady. fold w1 in C1, S1. rewrite C1, S1. exact St. }
    assert (At1 : attentive i t (dw_world w1)).
    { destruct At as (_ & At). destruct U1 as (_ & _ & Us). split; [intros Hs; exfalso; exact (Us Hs)|].
      intros D. exfalso. destruct (At D) as (Es & _). rewrite Tx in U. apply U. exact Es. }
    destruct (all_counted _ _ _ _ _ _ _ _ _ _ _ _ _ _ _ _ _ _ H Hin At1 Ds Dp St1) as (more & added & M & An & C).
    { fold i. rewrite Q1, map_length. exact Len. }
    fold i in M, C. rewrite Q1 in M, C. exists more, added. split; [exact M|]. split; [exact An|]. intros Hs. rewrite observations_app, observations_of in C. unfold reaching in *.
    rewrite filter_app in C. apply C. apply Forall_app. split; [|exact Hs]. apply Forall_forall. intros x Hx. apply in_map_iff in Hx. destruct Hx as (o & <- & _). exact I.
  Qed.
End Total.
