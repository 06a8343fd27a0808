(** Iterations of the thread of a driver. *)
From Coq Require Import ZArith Bool String List Lia.
From Verif Require Import Base SpecRun MonadFacts ModelObservation ModelSnapshot ModelSwitches ModelInstrument ModelTree
  ModelChannel ModelProcessor ModelDriver SpecQueue QueueProofs SpecCollect CollectProofs GroupProofs SpecDriver DriverProofs.
Import ListNotations.
Open Scope Z_scope.

Section Driver.
  Context {X : ext} {Y : pext}.
  Implicit Types (d : driver X Y) (w : dworld X Y) (cs : list (command X Y)).

  Lemma called_app : forall a b g, called (X := X) (Y := Y) g (a ++ b) = called g a ++ called (guards_after g a) b.
  Proof.
    induction a as [|x a IH]; intros b g; [reflexivity|]. destruct x; cbn [called guards_after app]; rewrite IH; [|reflexivity..].
    apply app_assoc.
  Qed.
  Lemma guards_after_app : forall a b g, guards_after (X := X) (Y := Y) g (a ++ b) = guards_after (guards_after g a) b.
  Proof. induction a as [|x a IH]; intros b g; [reflexivity|]. destruct x; cbn [guards_after app]; apply IH. Qed.
  Lemma guards_after_none : forall l, guards_after (X := X) (Y := Y) O l = O.
  Proof. induction l as [|x l IH]; [reflexivity|]. destruct x; exact IH. Qed.

  Lemma requests_in_app : forall a b pre, requests_in (X := X) (Y := Y) pre (a ++ b) = requests_in pre a ++ requests_in (pre ++ a) b.
  Proof.
    induction a as [|c a IH]; intros b pre; [cbn; rewrite app_nil_r; reflexivity|].
    cbn [requests_in app]. rewrite IH, <- !app_assoc. reflexivity.
  Qed.
  Lemma requests_in_pre : forall b pre p, requests_in (X := X) (Y := Y) (pre ++ p) b = map (fun r => (pre ++ fst r, snd r)) (requests_in p b).
  Proof.
    induction b as [|c b IH]; intros pre p; [reflexivity|]. cbn [requests_in]. rewrite map_app, <- IH, <- app_assoc. f_equal.
    destruct c; reflexivity.
  Qed.

  Lemma answered_later : forall k d cs d1 r a, grown k d cs d1 -> answered k d1 r a -> answered k d (cs ++ fst r, snd r) a.
  Proof.
    intros k d cs d1 r a G (into & de & d2 & c & d3 & c' & H1 & H2 & H3).
    exists into, de, d2, c, d3, c'. cbn [fst snd]. split; [exact H1|]. split; [|exact H3]. eapply grown_trans; eassumption.
  Qed.

  Lemma requested_in : forall k d cs ans, Forall2 (answered (X := X) (Y := Y) k d) (requests_in [] cs) ans -> map fst ans = requested cs.
  Proof.
    intros k d cs ans H.
    assert (R : forall cs pre, map (fun r : list (command X Y) * command X Y => snd r) (requests_in pre cs)
                = flat_map (fun c => match c with CGetSnapshotSync _ _ _ | CGetSnapshotAsync _ _ _ => [c] | _ => [] end) cs).
    { clear. induction cs as [|c cs IH]; intros pre; [reflexivity|]. cbn [requests_in flat_map]. rewrite map_app, IH.
      destruct c; reflexivity. }
    assert (Q : requested cs = requested (map (fun r : list (command X Y) * command X Y => snd r) (requests_in [] cs))).
    { rewrite R. clear. unfold requested. induction cs as [|c cs IH]; [reflexivity|]. cbn [flat_map]. rewrite flat_map_app, <- IH.
      destruct c; reflexivity. }
    rewrite Q. clear Q R. induction H as [|r a rs ans' Ha H IH]; [reflexivity|].
    cbn [map requested flat_map]. unfold requested in IH |- *. rewrite IH.
    destruct Ha as (into & de & d2 & c & d3 & c' & [E|E] & _); rewrite E; reflexivity.
  Qed.

  (** ** One iteration *)

  Record iterated k d w cs ans d1 w1 : Prop := Iterated {
    it_ok : driver_ok w1;
    it_moved : moved (dw_commands w) (dw_commands w1) cs;
    it_grown : grown k d cs d1;
    it_answers : dw_answers w1 = dw_answers w ++ ans;
    it_answered : Forall2 (answered k d) (requests_in [] cs) ans;
    it_unanswered : dw_unanswered w1 = dw_unanswered w
  }.

  Lemma iterated_trans : forall k d w cs ans d1 w1 cs' ans' d2 w2,
    iterated k d w cs ans d1 w1 -> iterated k d1 w1 cs' ans' d2 w2 -> iterated k d w (cs ++ cs') (ans ++ ans') d2 w2.
  Proof.
    intros k d w cs ans d1 w1 cs' ans' d2 w2 [A1 A2 A3 A4 A5 A6] [B1 B2 B3 B4 B5 B6]. split.
    - exact B1.
    - eapply moved_trans; eassumption.
    - eapply grown_trans; eassumption.
    - rewrite B4, A4, app_assoc. reflexivity.
    - rewrite requests_in_app. cbn [app]. apply Forall2_app; [exact A5|].
      assert (E : cs = cs ++ []) by (rewrite app_nil_r; reflexivity). rewrite E at 1. rewrite requests_in_pre.
      clear - A3 B5. induction B5 as [|r a rs as' H F IH]; [constructor|]. cbn [map]. constructor; [|exact IH].
      eapply answered_later; eassumption.
    - congruence.
  Qed.

  (** What the collection of an iteration does. *)
  Definition ran k d cs w d1 w1 : Prop :=
    if paused_after (dr_paused d) cs
    then resting (dw_world w) (dw_world w1)
         /\ Forall2 (asked k) (dr_processors d ++ added_processors cs) (dr_processors d1)
    else exists ps v1 os v2,
           Forall2 (asked k) (dr_processors d ++ added_processors cs) ps
           /\ resting (dw_world w) v1
           /\ collect_each k 1000 (strategy_after (dr_strategy d) cs) ps v1 (dr_processors d1) os v2
           /\ resting v2 (dw_world w1).

  Lemma with_ok : forall w c, driver_ok w -> ch_cap c = ch_cap (dw_commands w) -> ch_waiting c = ch_waiting (dw_commands w) ->
    ch_receiver c = ch_receiver (dw_commands w) -> ch_senders c = ch_senders (dw_commands w) ->
    driver_ok (dw_with w c (dw_guards w) (dw_running w)).
  Proof.
    intros w c (H1 & H2 & H3 & H4 & H5) E1 E2 E3 E4. unfold driver_ok. cbn. rewrite E1, E2, E3, E4. auto.
  Qed.

  Lemma recv_keeps : forall A (c c' : chan A) r, ch_cap c = None -> chan_try_recv c = (c', r) ->
    ch_cap c' = ch_cap c /\ ch_waiting c' = ch_waiting c /\ ch_receiver c' = ch_receiver c /\ ch_senders c' = ch_senders c
    /\ ch_accepted c' = ch_accepted c.
  Proof.
    intros A c c' r C E. unfold chan_try_recv in E. destruct (ch_queue c).
    - rewrite C in E. injection E as <- _. auto.
    - injection E as <- _. auto.
  Qed.

  Lemma ok_same : forall w w', driver_ok w -> dw_commands w' = dw_commands w -> dw_guards w' = dw_guards w ->
    dw_running w' = dw_running w -> driver_ok w'.
  Proof. intros w w' H E1 E2 E3. unfold driver_ok in *. rewrite E1, E2, E3. exact H. Qed.

  Lemma iteration_true : forall k d w d1 w1, driver_ok w -> driver_iteration d k w = Ok (d1, true) w1 ->
    exists cs ans,
      iterated k d w cs ans d1 w1
      /\ (length cs <= 1)%nat
      /\ (exists rest, cs = firstn 1 (ch_queue (dw_commands w)) ++ rest)
      /\ ran k d cs w d1 w1
      /\ ch_accepted (dw_commands w1) = ch_accepted (dw_commands w) ++ called (dw_guards w) (meanwhile w 2)
      /\ dw_guards w1 = guards_after (dw_guards w) (meanwhile w 2)
      /\ (forall i, dw_sched w1 i = dw_sched w (S (S i)))
      /\ guards_after (dw_guards w) (meanwhile w 1) <> O.
  Proof.
    intros k d w d1 w1 Hok E. unfold driver_iteration in E.
    apply bind_ok in E. destruct E as (b & wa & E1 & E). destruct (load_cases _ _ _ _ Hok E1) as (Wa & ->).
    destruct (dw_running wa) eqn:Rn; cbn [negb] in E; [|apply bind_ok in E; destruct E as (u & wx & _ & E); discriminate E].
    apply bind_ok in E. destruct E as (t0 & wb & E2 & E). apply timed_inv in E2. destruct E2 as (c2 & _ & ->).
    apply bind_ok in E. destruct E as (r & wd & E3 & E).
    set (wb := DWorld _ _ _ _ _ _ _) in E3.
    assert (Okb : driver_ok wb) by (apply (ok_same wa); [apply (wt_ok _ _ Wa) | reflexivity..]).
    destruct (recv_cases _ _ _ _ Okb E3) as (wc & Wc & Er & Ed). clear E3.
    assert (C : ch_cap (dw_commands wc) = None) by (apply (wt_ok _ _ Wc)).
    destruct (recv_keeps _ _ _ _ C Er) as (K1 & K2 & K3 & K4 & K5).
    assert (Okd : driver_ok wd) by (rewrite Ed; apply with_ok; auto; apply (wt_ok _ _ Wc)).
    assert (Md := recv_moved (dw_commands wc)). rewrite Er in Md. cbn [fst snd] in Md.
    assert (Mc : moved (dw_commands w) (dw_commands wc) []).
    { change (@nil (command X Y)) with ([] ++ @nil (command X Y)). eapply moved_trans; [apply (wt_moved _ _ Wa)|].
      exact (wt_moved _ _ Wc). }
    assert (Sc : forall i, dw_sched wd i = dw_sched w (S (S i))).
    { intros i. rewrite Ed. cbn [dw_with dw_sched]. rewrite (wt_sched _ _ Wc). exact (wt_sched _ _ Wa (S i)). }
    assert (Gd : dw_guards wd = guards_after (dw_guards w) (meanwhile w 2)).
    { rewrite Ed. cbn [dw_with dw_guards]. rewrite (wt_guards _ _ Wc). subst wb. cbn [dw_guards dw_sched].
      rewrite (wt_guards _ _ Wa), (wt_sched _ _ Wa O), <- guards_after_app. unfold meanwhile. cbn [seq flat_map].
      rewrite app_nil_r. reflexivity. }
    assert (Ad : ch_accepted (dw_commands wd) = ch_accepted (dw_commands w) ++ called (dw_guards w) (meanwhile w 2)).
    { rewrite K5, (wt_accepted _ _ Wc). subst wb. cbn [dw_guards dw_sched dw_commands].
      rewrite (wt_accepted _ _ Wa), (wt_guards _ _ Wa), (wt_sched _ _ Wa O), <- app_assoc, <- called_app. unfold meanwhile.
      cbn [seq flat_map]. rewrite app_nil_r. reflexivity. }
    assert (Run : guards_after (dw_guards w) (meanwhile w 1) <> O).
    { unfold meanwhile. cbn [seq flat_map]. rewrite app_nil_r, <- (wt_guards _ _ Wa). apply (wt_ok _ _ Wa). exact Rn. }
    assert (Wd : dw_answers wd = dw_answers w /\ dw_unanswered wd = dw_unanswered w /\ resting (dw_world w) (dw_world wd)).
    { rewrite Ed. cbn [dw_with dw_answers dw_unanswered dw_world].
      rewrite (wt_answers _ _ Wc), (wt_unanswered _ _ Wc), (wt_world _ _ Wc). subst wb. cbn [dw_answers dw_unanswered dw_world].
      rewrite (wt_answers _ _ Wa), (wt_unanswered _ _ Wa), (wt_world _ _ Wa). repeat split. }
    destruct Wd as (An & Un & Re).
    clearbody wb. clear Ed Okb Wa Wc E1 Rn Hok.
    (* the rest, for the commands that were received *)
    assert (Rest : forall cs, moved (dw_commands wc) (dw_commands wd) cs -> (length cs <= 1)%nat ->
      (ch_queue (dw_commands wc) = cs ++ ch_queue (dw_commands wd)) ->
      (cs = [] -> ch_queue (dw_commands wc) = []) ->
      (exists d2 w2, (let* d := (match cs with c :: _ => driver_command d c | [] => ret d end) in
        if dr_paused d then ret (d, true)
        else let* d := driver_run d t0 in ret (d, true)) k wd = Ok (d2, true) w2 /\ d1 = d2 /\ w1 = w2) ->
      exists ans,
        iterated k d w cs ans d1 w1
        /\ (exists rest, cs = firstn 1 (ch_queue (dw_commands w)) ++ rest)
        /\ ran k d cs w d1 w1
        /\ dw_commands w1 = dw_commands wd /\ dw_guards w1 = dw_guards wd /\ dw_sched w1 = dw_sched wd).
    { clear E Er Md. intros cs Mv Len Q Qn (d2' & w2' & E & <- & <-).
      assert (Mvw : moved (dw_commands w) (dw_commands wd) cs).
      { change cs with ([] ++ cs). eapply moved_trans; eassumption. }
      assert (Pre : exists rest, cs = firstn 1 (ch_queue (dw_commands w)) ++ rest).
      { destruct Mc as (new & _ & Mq). cbn [app] in Mq. destruct (ch_queue (dw_commands w)) as [|c q]; cbn [firstn app].
        - exists cs. reflexivity.
        - destruct cs as [|x cs]; [rewrite (Qn eq_refl) in Mq; discriminate Mq|].
          rewrite Q in Mq. injection Mq as -> _. exists []. destruct cs; [reflexivity|].
          cbn in Len. lia. }
      apply bind_ok in E. destruct E as (d2 & w2 & Ec & E).
      assert (Cm : grown k d cs d2
        /\ Forall2 (asked k) (dr_processors d ++ added_processors cs) (dr_processors d2)
        /\ resting (dw_world wd) (dw_world w2)
        /\ dw_commands w2 = dw_commands wd /\ dw_guards w2 = dw_guards wd /\ dw_running w2 = dw_running wd
        /\ dw_unanswered w2 = dw_unanswered wd /\ dw_sched w2 = dw_sched wd
        /\ exists ans, dw_answers w2 = dw_answers wd ++ ans
             /\ Forall2 (answered k d) (requests_in [] cs) ans).
      { destruct cs as [|c [|c' cs]]; [|exact (command_spec _ _ _ _ _ _ Ec)|cbn in Len; lia].
        injection Ec as <- <-. split; [apply grown_refl|]. cbn [added_processors flat_map]. rewrite app_nil_r.
        split; [apply forall2_refl; apply as_same|]. split; [apply resting_refl|]. do 5 (split; [reflexivity|]).
        exists []. rewrite app_nil_r. split; [reflexivity | constructor]. }
      destruct Cm as (G & As & R2 & F1 & F2 & F3 & F4 & F5 & ans & F6 & F7).
      assert (Pa : dr_paused d2 = paused_after (dr_paused d) cs) by apply G.
      assert (St : dr_strategy d2 = strategy_after (dr_strategy d) cs) by apply G.
      destruct (dr_paused d2) eqn:P.
      - injection E as <- <-. exists ans. split; [|split; [exact Pre|split; [|auto]]].
        + split; auto; try congruence. apply (ok_same wd); auto.
        + unfold ran. rewrite <- Pa. split; [|exact As]. eapply resting_trans; eassumption.
      - apply bind_ok in E. destruct E as (d3 & w3 & E4 & E). injection E as <- <-.
        destruct (run_spec _ _ _ _ _ _ E4) as (v1 & ps & os & v2 & H1 & H2 & H3 & H4 & H5 & H6 & H7 & H8 & H9 & H10 & I1 & I2 & I3 & I4 & I5 & I6).
        exists ans. split; [|split; [exact Pre|split; [|split; [|split]; congruence]]].
        + split; try congruence.
          * apply (ok_same wd); [exact Okd|congruence..].
          * destruct G as (G1 & G2 & G3 & G4 & G5 & G6 & G7). unfold grown.
            split; [congruence|]. split; [congruence|]. split.
            { rewrite H3. eapply forall2_trans; [apply evolves_trans|exact G3|]. eapply each_evolves; exact H2. }
            split; [rewrite H5; exact G4|]. split; [congruence|]. split; [congruence|]. tauto.
        + unfold ran. rewrite <- Pa. exists (dr_processors d2), v1, os, v2. split; [exact As|]. split.
          { eapply resting_trans; [exact Re|]. eapply resting_trans; eassumption. }
          split; [|exact H4]. rewrite <- St, H3. exact H2. }
    destruct r as [c| |]; [| |apply bind_ok in E; destruct E as (u & wx & _ & E); discriminate E].
    - destruct (Rest [c]) as (ans & H1 & H2 & H3 & H4 & H5 & H6); auto.
      + destruct Md as (new & M1 & M2). rewrite K5 in M1. rewrite <- (app_nil_r (ch_accepted (dw_commands wc))) in M1 at 1.
        apply app_inv_head in M1. rewrite <- M1, app_nil_r in M2. exact M2.
      + discriminate.
      + eauto.
      + exists [c], ans. rewrite H4, H5, H6. auto 10.
    - destruct (recv_empty _ _ Er) as (Q1 & Q2 & _).
      destruct (Rest []) as (ans & H1 & H2 & H3 & H4 & H5 & H6); auto.
      + rewrite Q1. reflexivity.
      + eauto.
      + exists [], ans. rewrite H4, H5, H6. auto 10.
  Qed.
  (** ** Any number of iterations *)

  Lemma meanwhile_shift : forall w w1 n, (forall i, dw_sched w1 i = dw_sched w (S (S i))) ->
    meanwhile w (S (S n)) = meanwhile w 2 ++ meanwhile w1 n.
  Proof.
    intros w w1 n H. unfold meanwhile. cbn [seq flat_map]. rewrite <- app_assoc. f_equal. cbn [app]. rewrite app_nil_r. f_equal.
    rewrite <- !seq_shift, !flat_map_concat_map, !map_map. f_equal. apply map_ext. intros i. symmetry. apply H.
  Qed.

  Lemma asked_trans : forall k (a b c : processor X Y), asked k a b -> asked k b c -> asked k a c.
  Proof. intros k a b c H. induction H; intros H'; [exact H'|]. eapply as_more; eauto. Qed.

  Lemma iterates_spec : forall k n d w d' w', iterates k n d w d' w' -> driver_ok w ->
    exists cs ans,
      iterated k d w cs ans d' w'
      /\ (length cs <= n)%nat
      /\ (exists rest, cs = firstn n (ch_queue (dw_commands w)) ++ rest)
      /\ ch_accepted (dw_commands w') = ch_accepted (dw_commands w) ++ called (dw_guards w) (meanwhile w (2 * n))
      /\ dw_guards w' = guards_after (dw_guards w) (meanwhile w (2 * n))
      /\ (dr_paused d = true -> ~ In CResume cs ->
            resting (dw_world w) (dw_world w')
            /\ Forall2 (asked k) (dr_processors d ++ added_processors cs) (dr_processors d')
            /\ dr_paused d' = true).
  Proof.
    intros k n d w d' w' H. induction H as [d w|n d w d1 w1 d2 w2 E H IH]; intros Hok.
    - exists [], []. split.
      { split; cbn [requests_in]; rewrite ?app_nil_r; auto using moved_refl, grown_refl. }
      split; [auto|]. split; [exists []; reflexivity|]. unfold meanwhile. cbn. rewrite !app_nil_r.
      split; [reflexivity|]. split; [reflexivity|]. intros P _. split; [apply resting_refl|]. split; [apply forall2_refl; apply as_same | exact P].
    - destruct (iteration_true _ _ _ _ _ Hok E) as (cs1 & ans1 & I1 & L1 & (r1 & Q1) & R1 & A1 & G1 & S1 & _).
      destruct (IH (it_ok _ _ _ _ _ _ _ I1)) as (cs2 & ans2 & I2 & L2 & (r2 & Q2) & A2 & G2 & P2).
      assert (Sh : meanwhile w (2 * S n) = meanwhile w 2 ++ meanwhile w1 (2 * n)).
      { replace (2 * S n)%nat with (S (S (2 * n))) by lia. apply meanwhile_shift. exact S1. }
      exists (cs1 ++ cs2), (ans1 ++ ans2). split; [eapply iterated_trans; eassumption|].
      split; [rewrite app_length; lia|]. split.
      { destruct (it_moved _ _ _ _ _ _ _ I1) as (new & _ & Mq).
        destruct (ch_queue (dw_commands w)) as [|c q]; [rewrite firstn_nil; eexists; reflexivity|].
        cbn [firstn app] in Q1 |- *. subst cs1. destruct r1; [|cbn in L1; lia]. cbn [app] in Mq |- *. injection Mq as Mq.
        rewrite <- Mq, firstn_app, <- app_assoc in Q2. eexists. rewrite Q2. reflexivity. }
      split. { rewrite A2, A1, G1, <- app_assoc, <- called_app, Sh. reflexivity. }
      split. { rewrite G2, G1, <- guards_after_app, Sh. reflexivity. }
      intros P N. rewrite in_app_iff in N.
      assert (P1 : paused_after (dr_paused d) cs1 = true).
      { rewrite P. destruct cs1 as [|c [|c' cs1]]; [reflexivity| |cbn in L1; lia]. destruct c; try reflexivity. cbn in N. tauto. }
      unfold ran in R1. rewrite P1 in R1. destruct R1 as (R1 & As1).
      assert (Pd : dr_paused d1 = true).
      { assert (G := it_grown _ _ _ _ _ _ _ I1). destruct G as (_ & _ & _ & _ & _ & G & _). congruence. }
      destruct (P2 Pd) as (R2 & As2 & Pe); [tauto|]. split; [eapply resting_trans; eassumption|]. split; [|exact Pe].
      unfold added_processors in *. rewrite flat_map_app. eapply evolves_extended; [apply as_same | apply asked_trans | exact As1 | exact As2].
  Qed.

  Lemma run_iterates : forall k n d w d' w', run_iterations n d k w = Ok (Some d') w' <-> iterates k n d w d' w'.
  Proof.
    intros k n d w d' w'. split.
    - revert d w. induction n as [|n IH]; intros d w E; cbn [run_iterations] in E.
      + injection E as <- <-. constructor.
      + apply bind_ok in E. destruct E as ([d1 more] & w1 & E1 & E). destruct more; [|discriminate E].
        eapply it_step; [exact E1 | exact (IH _ _ E)].
    - intros H. induction H as [|n d w d1 w1 d2 w2 E H IH]; [reflexivity|].
      cbn [run_iterations]. unfold bind. rewrite E. exact IH.
  Qed.

  (** ** The end *)

  Lemma iteration_false : forall k d w d1 w1, driver_ok w -> driver_iteration d k w = Ok (d1, false) w1 ->
    d1 = d /\ resting (dw_world w) (dw_world w1) /\ dw_answers w1 = dw_answers w
    /\ dw_guards w1 = O
    /\ moved (dw_commands w) (dw_commands w1) []
    /\ dw_unanswered w1 = dw_unanswered w ++ requested (ch_queue (dw_commands w1))
    /\ ch_receiver (dw_commands w1) = false.
  Proof.
    intros k d w d1 w1 Hok E. unfold driver_iteration in E.
    apply bind_ok in E. destruct E as (b & wa & E1 & E). destruct (load_cases _ _ _ _ Hok E1) as (Wa & ->).
    assert (Drop : forall A (c : chan A), moved c (chan_drop_receiver c) []) by (intros A c; apply (act_moved c DropReceiver)).
    destruct (dw_running wa) eqn:Rn; cbn [negb] in E.
    - apply bind_ok in E. destruct E as (t0 & wb & E2 & E). apply timed_inv in E2. destruct E2 as (c2 & _ & ->).
      apply bind_ok in E. destruct E as (r & wd & E3 & E).
      set (wb := DWorld _ _ _ _ _ _ _) in E3.
      assert (Okb : driver_ok wb) by (apply (ok_same wa); [apply (wt_ok _ _ Wa) | reflexivity..]).
      destruct (recv_cases _ _ _ _ Okb E3) as (wc & Wc & Er & Ed). clear E3.
      assert (F : forall m : St (dworld X Y) (driver X Y), (let* d := m in if dr_paused d then ret (d, true)
        else let* d := driver_run d t0 in ret (d, true)) k wd = Ok (d1, false) w1 -> False).
      { intros m H. apply bind_ok in H. destruct H as (d2 & w2 & _ & H). destruct (dr_paused d2); [discriminate H|].
        apply bind_ok in H. destruct H as (d3 & w3 & _ & H). discriminate H. }
      destruct r as [c| |]; [destruct (F _ E) | destruct (F _ E) |]. clear F.
      apply bind_ok in E. destruct E as (u & we & E4 & E). injection E as <- <-. injection E4 as _ <-.
      destruct (recv_disconnected _ _ Er) as (D1 & D2).
      assert (Zg : dw_guards wc = O).
      { destruct (wt_ok _ _ Wc) as (_ & _ & _ & G & _). destruct D2 as (_ & D2). lia. }
      rewrite D1 in Ed. rewrite Ed. cbn [dw_with dw_world dw_commands dw_guards dw_running dw_answers dw_unanswered chan_act].
      split; [reflexivity|]. split.
      { rewrite (wt_world _ _ Wc). subst wb. cbn [dw_world]. rewrite (wt_world _ _ Wa). repeat split. }
      split. { rewrite (wt_answers _ _ Wc). subst wb. cbn [dw_answers]. apply (wt_answers _ _ Wa). }
      split; [exact Zg|]. split.
      { change (@nil (command X Y)) with (([] ++ []) ++ @nil (command X Y)). eapply moved_trans; [|apply Drop].
        eapply moved_trans; [apply (wt_moved _ _ Wa) | exact (wt_moved _ _ Wc)]. }
      split; [|reflexivity]. rewrite (wt_unanswered _ _ Wc). subst wb. cbn [dw_unanswered]. rewrite (wt_unanswered _ _ Wa). reflexivity.
    - apply bind_ok in E. destruct E as (u & we & E4 & E). injection E as <- <-. injection E4 as _ <-.
      cbn [dw_world dw_commands dw_guards dw_running dw_answers dw_unanswered chan_act].
      split; [reflexivity|]. split; [rewrite (wt_world _ _ Wa); repeat split|]. split; [apply (wt_answers _ _ Wa)|].
      split.
      { destruct (wt_ok _ _ Wa) as (_ & _ & _ & _ & G). destruct (dw_guards wa); [reflexivity|].
        rewrite (proj2 G) in Rn; discriminate. }
      split.
      { change (@nil (command X Y)) with ([] ++ @nil (command X Y)). eapply moved_trans; [apply (wt_moved _ _ Wa) | apply Drop]. }
      split; [|reflexivity]. rewrite (wt_unanswered _ _ Wa). reflexivity.
  Qed.

  Lemma iteration_gone : forall k d w, driver_ok w -> guards_after (dw_guards w) (dw_sched w O) = O ->
    exists w1, driver_iteration d k w = Ok (d, false) w1 /\ dw_world w1 = dw_world w /\ dw_answers w1 = dw_answers w
      /\ dw_guards w1 = O.
  Proof.
    intros k d w Hok G. unfold driver_iteration, bind.
    destruct (load_running k w) as [b wa| |] eqn:E1; [|discriminate E1..].
    destruct (load_cases _ _ _ _ Hok E1) as (Wa & ->).
    assert (Ga : dw_guards wa = O) by (rewrite (wt_guards _ _ Wa); exact G).
    destruct (wt_ok _ _ Wa) as (_ & _ & _ & _ & R). destruct (dw_running wa); [destruct ((proj1 R) eq_refl Ga)|].
    cbn [negb]. eexists. split; [reflexivity|]. cbn. split; [apply (wt_world _ _ Wa)|]. split; [apply (wt_answers _ _ Wa) | exact Ga].
  Qed.

  Lemma iterates_gone : forall k n d w d' w', iterates k n d w d' w' -> driver_ok w ->
    forall m, guards_after (dw_guards w) (meanwhile w (2 * m + 1)) = O -> (n <= m)%nat.
  Proof.
    intros k n d w d' w' H. induction H as [d w|n d w d1 w1 d2 w2 E H IH]; intros Hok m G; [lia|].
    destruct (iteration_true _ _ _ _ _ Hok E) as (cs1 & ans1 & I1 & _ & _ & _ & _ & G1 & S1 & N).
    destruct m as [|m]; [destruct (N G)|].
    replace (2 * S m + 1)%nat with (S (S (2 * m + 1))) in G by lia.
    rewrite (meanwhile_shift w w1) in G by exact S1. rewrite guards_after_app, <- G1 in G.
    specialize (IH (it_ok _ _ _ _ _ _ _ I1) m G). lia.
  Qed.

  (** ** Requests *)

  Lemma requested_app : forall a b, requested (X := X) (Y := Y) (a ++ b) = requested a ++ requested b.
  Proof. intros a b. unfold requested. apply flat_map_app. Qed.

  Lemma answered_once : forall k n d v sched d' w', iterates k n d (new_world v sched) d' w' ->
    requested (ch_accepted (dw_commands w')) = map fst (dw_answers w') ++ requested (ch_queue (dw_commands w'))
    /\ dw_unanswered w' = [] /\ driver_ok w'.
  Proof.
    intros k n d v sched d' w' H.
    assert (Hok : driver_ok (new_world v sched)) by (unfold driver_ok; cbn; repeat split; auto; discriminate).
    destruct (iterates_spec _ _ _ _ _ _ H Hok) as (cs & ans & I & _).
    destruct I as [I1 (new & M1 & M2) I3 I4 I5 I6]. cbn in M1, M2, I4, I6.
    rewrite M1, M2, requested_app, I4, (requested_in _ _ _ _ I5). auto.
  Qed.

  Lemma answered_or_told : forall k n d v sched d' w1 w', iterates k n d (new_world v sched) d' w1 ->
    driver_iteration d' k w1 = Ok (d', false) w' ->
    requested (ch_accepted (dw_commands w')) = map fst (dw_answers w') ++ dw_unanswered w'.
  Proof.
    intros k n d v sched d' w1 w' H E. destruct (answered_once _ _ _ _ _ _ _ H) as (H1 & H2 & H3).
    destruct (iteration_false _ _ _ _ _ H3 E) as (_ & _ & F1 & _ & (new & M1 & M2) & F2 & _).
    rewrite F1, F2, H2, M1, requested_app, H1, <- app_assoc, <- requested_app, M2. reflexivity.
  Qed.

  Lemma answered_soon : forall k n d w d' w', iterates k n d w d' w' -> driver_ok w ->
    exists ans, dw_answers w' = dw_answers w ++ ans
      /\ exists rest, map fst ans = requested (firstn n (ch_queue (dw_commands w))) ++ rest.
  Proof.
    intros k n d w d' w' H Hok. destruct (iterates_spec _ _ _ _ _ _ H Hok) as (cs & ans & I & _ & (rest & ->) & _).
    exists ans. split; [apply (it_answers _ _ _ _ _ _ _ I)|]. exists (requested rest).
    rewrite <- requested_app. exact (requested_in _ _ _ _ (it_answered _ _ _ _ _ _ _ I)).
  Qed.
End Driver.
