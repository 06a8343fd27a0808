(** Pairs, calls, handles and shorthands. *)
From Coq Require Import ZArith Bool String List Lia.
From Verif Require Import Base SpecRun MonadFacts ModelObservation ModelLabelFilter ModelSnapshot ModelSwitches ModelInstrument ModelTree ModelChannel
  ModelProcessor ModelTransmitter ModelDriver ModelHandle ModelConfig SpecQueue SpecCollect SpecDriver SpecConfig SpecHandle SpecShorthand
  QueueProofs CollectProofs DriverProofs DriverLoopProofs TreeEqs ConfigProofs.
Import ListNotations.
Open Scope list_scope.
Open Scope Z_scope.

(** ** Pairs *)

Section Pairs.
  Context {X : ext}.

  Lemma sent_unbounded : forall tx (ms : list (message X)) c,
    ch_senders c <> O -> ch_receiver c = true -> ch_cap c = None ->
    let c' := chan_run c (map (fun m => Acts (tx_send tx m)) ms) in
    ch_queue c' = ch_queue c ++ ms /\ ch_waiting c' = ch_waiting c /\ ch_lost c' = ch_lost c /\ ch_senders c' <> O /\ ch_receiver c' = true.
  Proof.
    intros tx ms. induction ms as [|m ms IH]; intros c S0 R C; cbn [map].
    - cbn. rewrite app_nil_r. auto.
    - change (chan_run c (Acts (tx_send tx m) :: ?l)) with (chan_run (chan_act c (tx_send tx m)) l).
      assert (E : chan_act c (tx_send tx m) = chan_enqueue c m).
      { unfold tx_send. destruct (tx_use_send tx); cbn; unfold chan_send, chan_try_send, chan_full; rewrite R, C; cbn;
          destruct (ch_senders c); [contradiction|reflexivity|contradiction|reflexivity]. }
      rewrite E. destruct (IH (chan_enqueue c m) S0 R C) as (H1 & H2). cbn [ch_queue chan_enqueue] in H1.
      rewrite <- app_assoc in H1. split; [exact H1 | exact H2].
  Qed.

  Lemma sent_bounded : forall tx n (ms : list (message X)) c,
    ch_senders c <> O -> ch_receiver c = true -> ch_cap c = Some n -> (length (ch_queue c) <= n)%nat ->
    let room := (n - length (ch_queue c))%nat in
    let c' := chan_run c (map (fun m => Acts (tx_send tx m)) ms) in
    ch_queue c' = ch_queue c ++ firstn room ms
    /\ (if tx_use_send tx then ch_waiting c' = ch_waiting c ++ skipn room ms /\ ch_lost c' = ch_lost c
        else ch_waiting c' = ch_waiting c /\ ch_lost c' = ch_lost c ++ skipn room ms)
    /\ ch_senders c' <> O /\ ch_receiver c' = true.
  Proof.
    intros tx n ms. induction ms as [|m ms IH]; intros c S0 R C L room; cbn [map].
    - unfold room. rewrite firstn_nil, skipn_nil. cbn. rewrite !app_nil_r. destruct (tx_use_send tx); auto.
    - change (chan_run c (Acts (tx_send tx m) :: ?l)) with (chan_run (chan_act c (tx_send tx m)) l).
      destruct (Nat.leb_spec n (length (ch_queue c))) as [F|F].
      + assert (R0 : room = O) by (unfold room; lia).
        destruct (tx_use_send tx) eqn:U.
        * assert (E : chan_act c (tx_send tx m) = Chan (ch_cap c) (ch_queue c) (ch_waiting c ++ [m]) (ch_senders c) (ch_receiver c) (ch_accepted c) (ch_lost c)).
          { unfold tx_send. rewrite U. cbn. unfold chan_send, chan_full. rewrite R, C. cbn. rewrite (proj2 (Nat.leb_le _ _) F).
            destruct (ch_senders c); [contradiction|reflexivity]. }
          rewrite E. destruct (IH (Chan (ch_cap c) (ch_queue c) (ch_waiting c ++ [m]) (ch_senders c) (ch_receiver c) (ch_accepted c) (ch_lost c)) S0 R C L)
            as (H1 & (H2 & H3) & H4). cbn [ch_queue ch_waiting ch_lost] in *. fold room in H1, H2. rewrite R0 in *.
          cbn [firstn skipn] in *. rewrite <- app_assoc in H2. auto.
        * assert (E : chan_act c (tx_send tx m) = chan_refuse c m).
          { unfold tx_send. rewrite U. cbn. unfold chan_try_send, chan_full. rewrite R, C. cbn. rewrite (proj2 (Nat.leb_le _ _) F).
            destruct (ch_senders c); [contradiction|reflexivity]. }
          rewrite E. destruct (IH (chan_refuse c m) S0 R C L)
            as (H1 & (H2 & H3) & H4). cbn [ch_queue ch_waiting ch_lost chan_refuse] in *. fold room in H1, H3. rewrite R0 in *.
          cbn [firstn skipn] in *. rewrite <- app_assoc in H3. auto.
      + assert (E : chan_act c (tx_send tx m) = chan_enqueue c m).
        { unfold tx_send. destruct (tx_use_send tx); cbn; unfold chan_send, chan_try_send, chan_full; rewrite R, C; cbn;
            rewrite (proj2 (Nat.leb_gt _ _) F); destruct (ch_senders c); [contradiction|reflexivity|contradiction|reflexivity]. }
        rewrite E. assert (L' : (length (ch_queue (chan_enqueue c m)) <= n)%nat) by (cbn; rewrite app_length; cbn; lia).
        destruct (IH (chan_enqueue c m) S0 R C L') as (H1 & H2 & H3).
        assert (R1 : room = S (n - length (ch_queue (chan_enqueue c m)))) by (unfold room; cbn; rewrite app_length; cbn; lia).
        rewrite R1. cbn [firstn skipn]. cbn [ch_queue ch_waiting ch_lost chan_enqueue] in H1, H2 |- *.
        rewrite <- app_assoc in H1. auto.
  Qed.

  Lemma pair_works : forall id n cap block m, makes_pair (X := X) id n cap block m ->
    forall k c, exists q tx t c', m k c = Ok (q, tx, t) c' /\ tp_name t = n
    /\ forall ms, let q' := chan_run q (map (fun m => Acts (tx_send tx m)) ms) in
       match cap with
       | None => ch_queue q' = ms /\ ch_waiting q' = [] /\ ch_lost q' = []
       | Some s => ch_queue q' = firstn s ms
           /\ if block then ch_waiting q' = skipn s ms /\ ch_lost q' = [] else ch_waiting q' = [] /\ ch_lost q' = skipn s ms
       end
       /\ forall (Y : pext) (w : world X Y) max s k2 t' o w', Z.of_nat max <= u64_max ->
            w_queues w (tx_sender tx) = q' -> tele_process t max s k2 w = Ok (t', o) w' ->
            exists more, collection k2 t s (w_clock w) (firstn max (ch_queue q') ++ more) t' o.
  Proof.
    intros id n cap block m H k c.
    assert (C : m = create id n cap block) by (destruct H; reflexivity).
    assert (B : cap = None -> block = true) by (destruct H; congruence). clear H. subst m.
    eexists _, _, _, _. split; [reflexivity|]. split; [reflexivity|]. intros ms q'. split.
    - subst q'. destruct cap as [s|].
      + destruct (sent_bounded (Transmitter id block) s ms (chan_new (Some s)) ltac:(discriminate) eq_refl eq_refl ltac:(cbn; lia)) as (H1 & H2 & _).
        cbn [ch_queue ch_waiting ch_lost chan_new length app tx_use_send] in H1, H2. rewrite PeanoNat.Nat.sub_0_r in H1, H2. auto.
      + destruct (sent_unbounded (Transmitter id block) ms (chan_new None) ltac:(discriminate) eq_refl eq_refl) as (H1 & H2 & H3 & _). auto.
    - intros Y w max s k2 t' o w' M Q E. destruct (process_spec _ _ _ _ _ _ _ _ E M) as (l & H1 & _ & _ & _ & H2 & _).
      destruct (H2 eq_refl) as (rest & ->). cbn [tp_receiver tx_sender] in *. rewrite Q in H1. exists rest. exact H1.
  Qed.
End Pairs.

(** ** Handles *)

Section Handles.
  Context {X : ext} {Y : pext}.

  Lemma handles_counted : forall l j (w : world X Y),
    ch_waiting (w_mounts w j) = [] ->
    let w' := fold_left act (map (fun b : bool => if b then handle_clone j else handle_drop j) l) w in
    ch_senders (w_mounts w' j) = handles_after (ch_senders (w_mounts w j)) l
    /\ ch_queue (w_mounts w' j) = ch_queue (w_mounts w j) /\ ch_receiver (w_mounts w' j) = ch_receiver (w_mounts w j)
    /\ ch_cap (w_mounts w' j) = ch_cap (w_mounts w j)
    /\ (forall i, i <> j -> w_mounts w' i = w_mounts w i) /\ w_queues w' = w_queues w.
  Proof.
    intros l j. induction l as [|b l IH]; intros w W; cbn [map fold_left].
    - destruct (ch_senders (w_mounts w j)); cbn; auto 8.
    - set (w1 := act w (if b then handle_clone j else handle_drop j)).
      assert (H : ch_senders (w_mounts w1 j) = handles_after (ch_senders (w_mounts w j)) [b] /\ ch_waiting (w_mounts w1 j) = []
        /\ ch_queue (w_mounts w1 j) = ch_queue (w_mounts w j) /\ ch_receiver (w_mounts w1 j) = ch_receiver (w_mounts w j)
        /\ ch_cap (w_mounts w1 j) = ch_cap (w_mounts w j)
        /\ (forall i, i <> j -> w_mounts w1 i = w_mounts w i) /\ w_queues w1 = w_queues w).
      { unfold w1, handle_clone, handle_drop.
        destruct b; cbn [act w_mounts w_queues]; unfold set_chan; rewrite Nat.eqb_refl; cbn [chan_act];
          unfold chan_clone_sender, chan_drop_sender; rewrite ?W;
          destruct (ch_senders (w_mounts w j)) as [|[|m]] eqn:S0; cbn; rewrite ?S0; repeat split; auto;
          intros i Hi; rewrite (proj2 (Nat.eqb_neq _ _)); auto. }
      destruct H as (H1 & H2 & H3 & H4 & H5 & H6 & H7).
      destruct (IH w1 H2) as (I1 & I2 & I3 & I4 & I5 & I6).
      split; [rewrite I1, H1; destruct (ch_senders (w_mounts w j)) as [|m]; [destruct l; reflexivity | destruct b; [reflexivity | destruct m; reflexivity]]|].
      split; [congruence|]. split; [congruence|]. split; [congruence|]. split; [|congruence].
      intros i Hi. rewrite I5, H6; auto.
  Qed.
End Handles.

(** ** Calls *)

Section CallsOnDrivers.
  Context {X : ext} {Y : pext}.

  Lemma call_taken : forall k n (d : driver X Y) w d' w' c,
    driver_ok w -> dw_guards w <> O -> let cq := ch_queue (dw_commands w) in (length cq < n)%nat ->
    iterates k n d (client_act w (Call c)) d' w' ->
    exists later, (length later < n - length cq)%nat
      /\ dr_paused d' = paused_after (dr_paused d) (cq ++ c :: later)
      /\ dr_strategy d' = strategy_after (dr_strategy d) (cq ++ c :: later).
  Proof.
    intros k n d w d' w' c Ok0 G cq Hn H.
    assert (Ok1 : driver_ok (client_act w (Call c)) /\ ch_queue (dw_commands (client_act w (Call c))) = cq ++ [c]).
    { destruct Ok0 as (A & B & C & D & E). cbn. destruct (dw_guards w) as [|g] eqn:Hg; [contradiction|].
      cbn. unfold driver_ok, dw_with. cbn. destruct (ch_senders (dw_commands w)) as [|s] eqn:Hs; [lia|].
      unfold chan_send, chan_full. rewrite C, A. cbn. rewrite A, B, C, Hs. cbn.
      repeat split; auto; try lia; intros; apply E; auto. }
    destruct Ok1 as [Ok1 Q]. destruct (iterates_spec _ _ _ _ _ _ H Ok1) as (cs & ans & [I1 I2 I3 I4 I5 I6] & L & (rest & P) & _).
    rewrite Q, firstn_all2 in P by (rewrite app_length; cbn; lia). rewrite <- app_assoc in P. cbn [app] in P.
    exists rest. subst cs. rewrite app_length in L. cbn [length] in L. split; [lia|].
    destruct I3 as (_ & _ & _ & _ & S1 & P1 & _). auto.
  Qed.
End CallsOnDrivers.

(** ** Shorthands *)

Lemma asked_snoc : forall A U (pick : setting -> option A) d (h : list (event U)) s,
  asked pick d (h ++ [Sets s]) = match pick s with Some b => b | None => asked pick d h end.
Proof. intros. unfold asked, latest. rewrite fold_left_app. reflexivity. Qed.

Lemma run_all_snoc : forall A Op (f : A -> Op -> M (A * Z)) h x o k c y ns c',
  run_all f x (h ++ [o]) k c = Ok (y, ns) c' -> exists x1 ns1 c1 n, run_all f x h k c = Ok (x1, ns1) c1 /\ f x1 o k c1 = Ok (y, n) c'.
Proof.
  intros A Op f h. induction h as [|e h IH]; intros x o k c y ns c' E; cbn [app run_all] in *.
  - apply bind_ok in E. destruct E as ([y1 n] & c1 & E & F). apply bind_ok in F. destruct F as ([y2 l] & c2 & F & G).
    injection F as <- <- <-. injection G as <- _ <-. exists x, [], c, n. auto.
  - apply bind_ok in E. destruct E as ([y1 n] & c1 & E & F). apply bind_ok in F. destruct F as ([y2 l] & c2 & F & G).
    injection G as <- _ <-. destruct (IH _ _ _ _ _ _ _ F) as (x1 & ns1 & c3 & m & H1 & H2).
    exists x1, (n :: ns1), c3, m. split; [|exact H2]. unfold bind. rewrite E. unfold ret. rewrite H1. reflexivity.
Qed.

Lemma flag_inverted : forall name h s inv k c x ns c',
  (exists p, s = show_inverted_prefixed p /\ forall n, inv n = (p ++ n)%string)
  \/ (exists p, s = show_inverted_postfixed p /\ forall n, inv n = (n ++ p)%string)
  \/ (exists p, s = show_inverted_renamed p /\ forall n, inv n = p) ->
  run_all (live flag_config (fun x u => ret (flag_update x u))) (flag_new name) (h ++ [Sets s]) k c = Ok (x, ns) c' ->
  forall de b, flag_get_state x = Some b ->
  exists texts, flag_put x de [] = texts ++ [(asked a_name name h, Boolean b); (inv (asked a_name name h), Boolean (negb b))].
Proof.
  intros name h s inv k c x ns c' Hs E de b Hb.
  destruct (flag_life _ _ _ _ _ _ _ E) as (y & ns' & Ey & Hput).
  assert (St : flag_get_state x = flag_get_state y).
  { pose proof (Hput false) as P. unfold flag_put in P. change (f_state x) with (flag_get_state x) in P. rewrite Hb in P. unfold descriptive_fields in P.
    rewrite Hb. destruct (flag_get_state y) as [v|].
    - cbn in P. destruct (f_show_inverted x), (asked a_show_inverted None (h ++ [Sets s])); injection P; intros; subst; reflexivity.
    - cbn in P. destruct (f_show_inverted x); discriminate P. }
  rewrite Hput. rewrite <- St, Hb. eexists. f_equal.
  destruct Hs as [(p & -> & Hi)|[(p & -> & Hi)|(p & -> & Hi)]]; rewrite !asked_snoc; cbn; rewrite Hi; reflexivity.
Qed.

Lemma default_driver : forall (X : ext) (Y : pext) k c (d : driver X Y) c1,
  telemetry_driver_default k c = Ok d c1 ->
  dr_name d = None /\ dr_descr d = Descr None None /\ dr_processors d = [] /\ dr_snapshooters d = []
  /\ dr_strategy d = DropOlderThan 30000000000 false /\ dr_paused d = false /\ dr_metrics d <> None.
Proof.
  intros X Y k c d c1 E. unfold telemetry_driver_default, telemetry_driver_new, driver_start in E.
  apply bind_ok in E. destruct E as (m & c2 & E1 & E). apply bind_ok in E. destruct E as (t & c3 & E2 & E).
  apply bind_ok in E. destruct E as (l & c4 & E3 & E). injection E as <- <-. cbn.
  apply bind_ok in E1. destruct E1 as (i & c5 & E4 & E1). injection E1 as <- <-.
  repeat split; discriminate.
Qed.

Lemma staircase_inverted : forall name h k c x ns c',
  run_all (live staircase_config staircase_update) (staircase_new name) (h ++ [Sets inverted]) k c = Ok (x, ns) c' ->
  exists y ns',
    run_all (live staircase_config staircase_update) (staircase_new name) (unadorned h) k c = Ok (y, ns') c' /\
    forall de k2 c2,
      staircase_put x de [] k2 c2 =
      switch_fields (staircase_state y) (descriptive_fields de (asked a_name name h) h) (asked a_name name h)
        true (asked a_show_inverted None h) k2 c2.
Proof.
  intros name h k c x ns c' E. destruct (staircase_life _ _ _ _ _ _ _ E) as (_ & y & ns' & R & P).
  exists y, ns'. split; [unfold unadorned in *; rewrite filter_app in R; cbn in R; rewrite app_nil_r in R; exact R|].
  intros de k2 c2. rewrite P. unfold descriptive_fields. rewrite !asked_snoc. reflexivity.
Qed.
