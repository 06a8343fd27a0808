(** Channels. *)
From Coq Require Import ZArith Bool List Arith Lia Permutation.
From Verif Require Import Base ModelChannel SpecQueue.
Import ListNotations.

Section Queue.
  Context {A : Type}.
  Implicit Types c : chan A.

  Ltac chan_cases c :=
    destruct c as [cap q wt sn rc ac lo];
    unfold chan_step, chan_act, chan_send, chan_try_send, chan_wake, chan_clone_sender, chan_drop_sender,
      chan_drop_receiver, chan_enqueue, chan_refuse, chan_try_recv, chan_full in *;
    cbn [ch_cap ch_queue ch_waiting ch_senders ch_receiver ch_accepted ch_lost] in *.

  Ltac splits := repeat match goal with
    | |- context [match ?x with _ => _ end] =>
        match type of x with
        | list _ => destruct x eqn:?
        | nat => destruct x eqn:?
        | bool => destruct x eqn:?
        | option _ => destruct x eqn:?
        end; cbn [fst snd ch_cap ch_queue ch_waiting ch_senders ch_receiver ch_accepted ch_lost] in *
    end.

  Lemma chan_run_app : forall c a b, chan_run c (a ++ b) = chan_run (chan_run c a) b.
  Proof. intros. apply fold_left_app. Qed.

  Lemma taken_app : forall h1 h2 c, taken c (h1 ++ h2) = taken c h1 ++ taken (chan_run c h1) h2.
  Proof.
    induction h1 as [|e h1 IH]; intros h2 c; [reflexivity|]. cbn [app taken]. rewrite IH, app_assoc. reflexivity.
  Qed.

  (** ** Capacity *)

  Lemma step_cap : forall c e, ch_cap (chan_step c e) = ch_cap c.
  Proof. intros c [[]|]; chan_cases c; splits; reflexivity. Qed.

  Lemma run_cap : forall h c, ch_cap (chan_run c h) = ch_cap c.
  Proof.
    induction h as [|e h IH]; intros c; [reflexivity|]. cbn [chan_run fold_left]. fold (chan_run (chan_step c e) h).
    rewrite IH. apply step_cap.
  Qed.

  Definition fits c : Prop := forall n, ch_cap c = Some n -> (length (ch_queue c) <= n)%nat.

  Lemma step_fits : forall c e, fits c -> fits (chan_step c e).
  Proof.
    intros c e H. unfold fits in *. rewrite step_cap. intros n En. specialize (H n En).
    destruct e as [[]|]; chan_cases c; subst cap; splits; auto; try lia;
      rewrite ?app_length; cbn [length] in *; try (apply Nat.leb_gt in Heqb0); try (apply Nat.leb_gt in Heqb); try lia.
  Qed.

  Lemma run_fits : forall h c, fits c -> fits (chan_run c h).
  Proof.
    induction h as [|e h IH]; intros c H; [exact H|]. cbn [chan_run fold_left]. fold (chan_run (chan_step c e) h).
    apply IH, step_fits, H.
  Qed.

  Lemma new_fits : forall cap, fits (chan_new (A := A) cap).
  Proof. intros cap n E. cbn. lia. Qed.

  Lemma capacity_respected : forall n h, (length (ch_queue (chan_run (chan_new (A := A) (Some n)) h)) <= n)%nat.
  Proof. intros n h. apply (run_fits h _ (new_fits (Some n))). rewrite run_cap. reflexivity. Qed.

  (** ** Losses *)

  Lemma full_iff : forall c, chan_full c = true <-> crowded c.
  Proof.
    intros c. unfold chan_full, crowded. destruct (ch_cap c) as [n|].
    - rewrite Nat.leb_le. split; [eauto|]. intros (m & E & H). injection E as ->. exact H.
    - split; [discriminate|]. intros (m & E & _). discriminate E.
  Qed.

  Lemma loses_only : forall c e,
    ch_lost (chan_step c e) <> ch_lost c ->
    (exists m, e = Acts (TrySend m) /\ (crowded c \/ ch_receiver c = false))
    \/ (exists m, e = Acts (Send m) /\ ch_receiver c = false)
    \/ e = Acts DropReceiver.
  Proof.
    intros c e H. assert (F := proj1 (full_iff c)). destruct e as [[]|]; chan_cases c;
      revert H F; splits; intros H F; try (destruct (H eq_refl)); try discriminate; eauto;
      try (destruct rc; [discriminate|]); eauto 6.
  Qed.

  Lemma blocking_never_loses : forall h c,
    ch_receiver c = true ->
    (forall e, In e h -> e <> Acts DropReceiver /\ forall m, e = Acts (TrySend m) -> ch_cap c = None) ->
    ch_lost (chan_run c h) = ch_lost c /\ ch_receiver (chan_run c h) = true.
  Proof.
    induction h as [|e h IH]; intros c R H; [auto|]. cbn [chan_run fold_left]. fold (chan_run (chan_step c e) h).
    assert (R' : ch_receiver (chan_step c e) = true).
    { destruct (H e (or_introl eq_refl)) as [N _]. destruct e as [[]|]; try congruence; clear H;
        chan_cases c; splits; auto. }
    assert (L : ch_lost (chan_step c e) = ch_lost c).
    { destruct (H e (or_introl eq_refl)) as [N T]. clear IH R' H. destruct e as [[]|]; try congruence.
      - chan_cases c. subst rc. cbn [negb]. splits; reflexivity.
      - specialize (T m eq_refl). chan_cases c. subst. cbn [negb]. splits; reflexivity.
      - chan_cases c. splits; reflexivity.
      - chan_cases c. splits; reflexivity.
      - chan_cases c. splits; reflexivity.
      - chan_cases c. splits; reflexivity. }
    destruct (IH (chan_step c e) R') as [I1 I2].
    - intros e' Hin. destruct (H e' (or_intror Hin)) as [N T]. split; [exact N|]. intros m Em.
      rewrite step_cap. eauto.
    - split; [congruence | exact I2].
  Qed.

  (** ** Every message is somewhere *)

  Lemma nth_error_permutation : forall (l : list A) i m, nth_error l i = Some m ->
    Permutation l (m :: firstn i l ++ skipn (S i) l).
  Proof.
    intros l i m E. apply nth_error_split in E. destruct E as (a & b & -> & <-).
    rewrite firstn_app, Nat.sub_diag, firstn_all. cbn [firstn]. rewrite app_nil_r.
    replace (skipn (S (length a)) (a ++ m :: b)) with b.
    - symmetry. apply Permutation_middle.
    - rewrite skipn_app. replace (S (length a) - length a)%nat with 1%nat by lia.
      rewrite skipn_all2 by lia. reflexivity.
  Qed.

  Lemma step_conserves : forall c e,
    Permutation (ch_accepted (chan_step c e) ++ ch_waiting (chan_step c e) ++ ch_lost (chan_step c e))
      (ch_accepted c ++ ch_waiting c ++ ch_lost c
       ++ match e with
          | Acts (Send m) | Acts (TrySend m) => match ch_senders c with O => [] | S _ => [m] end
          | _ => []
          end).
  Proof.
    intros c e. destruct e as [[m|m|i| | |]|]; chan_cases c.
    - destruct sn; [rewrite ?app_nil_r; auto|]. destruct rc; cbn [negb];
        [destruct cap as [n|]; [destruct (n <=? length q)%nat|]|];
        cbn [ch_cap ch_queue ch_waiting ch_senders ch_receiver ch_accepted ch_lost];
        rewrite <- ?app_assoc; try reflexivity; apply Permutation_app_head.
      + apply Permutation_app_head. rewrite app_nil_r || idtac. apply Permutation_cons_append.
      + cbn [app]. rewrite app_assoc. apply Permutation_cons_append.
      + cbn [app]. rewrite app_assoc. apply Permutation_cons_append.
    - destruct sn; [rewrite ?app_nil_r; auto|]. destruct rc; cbn [negb];
        [destruct cap as [n|]; [destruct (n <=? length q)%nat|]|];
        cbn [ch_cap ch_queue ch_waiting ch_senders ch_receiver ch_accepted ch_lost];
        rewrite <- ?app_assoc; try reflexivity; apply Permutation_app_head;
        cbn [app]; rewrite app_assoc; apply Permutation_cons_append.
    - rewrite app_nil_r. destruct (nth_error wt i) as [m|] eqn:E; [|reflexivity].
      assert (P := nth_error_permutation _ _ _ E).
      destruct cap as [n|]; [destruct (n <=? length q)%nat; [reflexivity|]|];
        cbn [ch_cap ch_queue ch_waiting ch_senders ch_receiver ch_accepted ch_lost];
        rewrite <- app_assoc; apply Permutation_app_head; cbn [app];
        rewrite app_comm_cons; apply Permutation_app_tail; symmetry; exact P.
    - rewrite app_nil_r. destruct sn; reflexivity.
    - rewrite app_nil_r. destruct sn as [|[|]]; [reflexivity|destruct wt; reflexivity|].
      destruct wt; reflexivity.
    - rewrite app_nil_r. cbn [app]. apply Permutation_app_head. apply Permutation_app_comm.
    - rewrite app_nil_r. destruct q as [|x q]; [|reflexivity].
      destruct cap as [[|n]|]; try reflexivity. destruct wt as [|x wt]; [reflexivity|].
      cbn [fst ch_cap ch_queue ch_waiting ch_senders ch_receiver ch_accepted ch_lost].
      rewrite <- app_assoc. reflexivity.
  Qed.

  Lemma run_conserves : forall h c,
    Permutation (ch_accepted (chan_run c h) ++ ch_waiting (chan_run c h) ++ ch_lost (chan_run c h))
      (ch_accepted c ++ ch_waiting c ++ ch_lost c ++ sent c h).
  Proof.
    induction h as [|e h IH]; intros c.
    - cbn [chan_run fold_left sent]. rewrite app_nil_r. reflexivity.
    - cbn [chan_run fold_left sent]. fold (chan_run (chan_step c e) h).
      etransitivity; [apply IH|].
      replace (ch_accepted (chan_step c e) ++ ch_waiting (chan_step c e) ++ ch_lost (chan_step c e) ++ sent (chan_step c e) h)
        with ((ch_accepted (chan_step c e) ++ ch_waiting (chan_step c e) ++ ch_lost (chan_step c e)) ++ sent (chan_step c e) h)
        by (rewrite <- !app_assoc; reflexivity).
      etransitivity; [apply Permutation_app_tail, step_conserves|].
      rewrite <- !app_assoc. reflexivity.
  Qed.

  (** ** Order *)

  Lemma moved_refl : forall c, moved c c [].
  Proof. intros c. exists []. split; rewrite ?app_nil_r; reflexivity. Qed.

  Lemma moved_trans : forall c1 c2 c3 a b, moved c1 c2 a -> moved c2 c3 b -> moved c1 c3 (a ++ b).
  Proof.
    intros c1 c2 c3 a b (n1 & A1 & Q1) (n2 & A2 & Q2). exists (n1 ++ n2). split.
    - rewrite A2, A1, app_assoc. reflexivity.
    - rewrite app_assoc, Q1, <- app_assoc, Q2, app_assoc. reflexivity.
  Qed.

  Lemma act_moved : forall c a, moved c (chan_act c a) [].
  Proof.
    intros c a. unfold moved. destruct a; chan_cases c; splits; cbn [app];
      try (exists []; split; rewrite ?app_nil_r; reflexivity); eexists [_]; split; reflexivity.
  Qed.

  Lemma recv_moved : forall c, moved c (fst (chan_try_recv c)) (match snd (chan_try_recv c) with Message m => [m] | _ => [] end).
  Proof.
    intros c. unfold moved. chan_cases c. destruct q as [|x q].
    - destruct cap as [[|n]|]; [destruct wt as [|x wt]|..]; cbn [fst snd ch_queue ch_accepted];
        try (exists []; split; [rewrite app_nil_r; reflexivity|]; destruct sn; reflexivity).
      exists [x]. split; reflexivity.
    - cbn. exists []. split; rewrite ?app_nil_r; reflexivity.
  Qed.

  Lemma run_moved : forall h c, moved c (chan_run c h) (taken c h).
  Proof.
    induction h as [|e h IH]; intros c; [apply moved_refl|]. cbn [chan_run fold_left taken].
    fold (chan_run (chan_step c e) h). eapply moved_trans; [|apply IH].
    destruct e as [a|]; [apply act_moved | apply recv_moved].
  Qed.

  (** Without blocked senders the messages are accepted in the order in which they are sent. *)

  Lemma ss_app : forall (a b x y : list A), subsequence a b -> subsequence x y -> subsequence (a ++ x) (b ++ y).
  Proof. intros a b x y H1 H2. induction H1; cbn [app]; [exact H2 | constructor; assumption..]. Qed.

  Lemma ss_refl : forall l : list A, subsequence l l.
  Proof. induction l; constructor; assumption. Qed.

  Lemma ss_none : forall l : list A, subsequence [] l.
  Proof. induction l; constructor; assumption. Qed.

  Lemma order_kept : forall h c, ch_waiting c = [] -> (forall m, In (Acts (Send m)) h -> ch_cap c = None) ->
    exists new, ch_accepted (chan_run c h) = ch_accepted c ++ new /\ subsequence new (sent c h).
  Proof.
    induction h as [|e h IH]; intros c W H.
    - exists []. split; [rewrite app_nil_r; reflexivity | constructor].
    - cbn [chan_run fold_left sent]. fold (chan_run (chan_step c e) h).
      assert (S1 : ch_waiting (chan_step c e) = [] /\ exists n1, ch_accepted (chan_step c e) = ch_accepted c ++ n1
        /\ subsequence n1 (match e with
          | Acts (Send m) | Acts (TrySend m) => match ch_senders c with O => [] | S _ => [m] end
          | _ => []
          end)).
      { assert (Hs : forall m, e = Acts (Send m) -> ch_cap c = None) by (intros m ->; apply (H m); left; reflexivity).
        clear IH H. destruct e as [[m|m|i| | |]|]; chan_cases c; subst wt.
        - rewrite (Hs m eq_refl). splits; (split; [reflexivity|]);
            try (exists []; split; [rewrite app_nil_r; reflexivity | first [constructor; constructor | constructor]]);
            exists [m]; split; [reflexivity | apply ss_refl].
        - splits; (split; [reflexivity|]);
            try (exists []; split; [rewrite app_nil_r; reflexivity | apply ss_none]);
            exists [m]; split; try reflexivity; apply ss_refl.
        - replace (nth_error [] i) with (@None A) by (destruct i; reflexivity). cbn.
          split; [reflexivity|]. exists []. split; [rewrite app_nil_r; reflexivity | constructor].
        - splits; (split; [reflexivity|]); exists []; (split; [rewrite app_nil_r; reflexivity | constructor]).
        - splits; (split; [reflexivity|]); exists []; (split; [rewrite app_nil_r; reflexivity | constructor]).
        - split; [reflexivity|]. exists []. split; [rewrite app_nil_r; reflexivity | constructor].
        - splits; (split; [reflexivity|]); exists []; (split; [rewrite app_nil_r; reflexivity | constructor]). }
      destruct S1 as (W1 & n1 & A1 & S1).
      destruct (IH (chan_step c e) W1) as (n2 & A2 & S2).
      { intros m Hin. rewrite step_cap. apply (H m). right. exact Hin. }
      exists (n1 ++ n2). split; [rewrite A2, A1, app_assoc; reflexivity | apply ss_app; assumption].
  Qed.

  (** ** The end of a channel *)

  Lemma step_ok : forall c e, chan_ok c -> chan_ok (chan_step c e).
  Proof.
    intros c e H0. unfold chan_ok in *. intros H. destruct e as [[m|m|i| | |]|].
    - chan_cases c. destruct sn; [exact (H0 H)|].
      exfalso. revert H. splits; discriminate.
    - chan_cases c. destruct sn; [exact (H0 H)|].
      exfalso. revert H. splits; discriminate.
    - chan_cases c. destruct sn; [|exfalso; revert H; splits; discriminate].
      rewrite (H0 eq_refl). replace (nth_error [] i) with (@None A) by (destruct i; reflexivity). reflexivity.
    - chan_cases c. destruct sn; [exact (H0 H)|]. discriminate H.
    - chan_cases c. destruct sn as [|[|sn]]; [exact (H0 H)| |].
      + destruct wt; [reflexivity | discriminate H].
      + destruct wt; discriminate H.
    - chan_cases c. reflexivity.
    - chan_cases c. destruct q; [|apply H0; exact H].
      destruct cap as [[|]|]; [destruct wt as [|x wt]|..]; auto.
      exfalso. specialize (H0 H). discriminate H0.
  Qed.

  Lemma run_ok : forall h c, chan_ok c -> chan_ok (chan_run c h).
  Proof.
    induction h as [|e h IH]; intros c H; [exact H|]. cbn [chan_run fold_left]. fold (chan_run (chan_step c e) h).
    apply IH, step_ok, H.
  Qed.

  Lemma new_ok : forall cap, chan_ok (chan_new (A := A) cap).
  Proof. intros cap H. reflexivity. Qed.

  Lemma exhausted_step : forall c e, exhausted c -> exhausted (chan_step c e) /\ ch_accepted (chan_step c e) = ch_accepted c.
  Proof.
    intros c e (S0 & Q & W). unfold exhausted. destruct e as [[m|m|i| | |]|]; chan_cases c; subst; cbn; auto.
    - replace (nth_error [] i) with (@None A) by (destruct i; reflexivity). cbn. auto.
    - destruct cap as [[|]|]; cbn; auto.
  Qed.

  Lemma exhausted_run : forall h c, exhausted c -> exhausted (chan_run c h) /\ ch_accepted (chan_run c h) = ch_accepted c.
  Proof.
    induction h as [|e h IH]; intros c H; [auto|]. cbn [chan_run fold_left]. fold (chan_run (chan_step c e) h).
    destruct (exhausted_step c e H) as [H1 H2]. destruct (IH _ H1) as [H3 H4]. split; [exact H3 | congruence].
  Qed.

  Lemma step_senders : forall c e, ch_senders c = O -> ch_senders (chan_step c e) = O.
  Proof.
    intros c e H. destruct e as [[m|m|i| | |]|]; chan_cases c; subst; cbn; auto; splits; auto.
  Qed.

  Lemma run_senders : forall h c, ch_senders c = O -> ch_senders (chan_run c h) = O.
  Proof.
    induction h as [|e h IH]; intros c H; [exact H|]. cbn [chan_run fold_left]. fold (chan_run (chan_step c e) h).
    apply IH, step_senders, H.
  Qed.

  Lemma recv_message : forall c c' m, chan_try_recv c = (c', Message m) ->
    (ch_queue c = m :: ch_queue c' /\ ch_accepted c' = ch_accepted c)
    \/ (ch_queue c = [] /\ ch_queue c' = [] /\ ch_cap c = Some O /\ ch_waiting c = m :: ch_waiting c'
        /\ ch_accepted c' = ch_accepted c ++ [m]).
  Proof.
    intros c c' m E. chan_cases c. destruct q as [|x q].
    - destruct cap as [[|n]|]; [destruct wt as [|x wt]|..]; try (destruct sn; discriminate E).
      injection E as <- <-. right. auto 6.
    - injection E as <- <-. left. auto.
  Qed.

  Lemma recv_empty : forall c c', chan_try_recv c = (c', Empty) -> c' = c /\ ch_queue c = [] /\ ch_senders c <> O.
  Proof.
    intros c c' E. chan_cases c. destruct q as [|x q]; [|discriminate E].
    destruct cap as [[|n]|]; [destruct wt as [|x wt]|..]; destruct sn; try discriminate E;
      injection E as <-; auto.
  Qed.

  Lemma recv_disconnected : forall c c', chan_try_recv c = (c', Disconnected) ->
    c' = c /\ ch_queue c = [] /\ ch_senders c = O.
  Proof.
    intros c c' E. chan_cases c. destruct q as [|x q]; [|discriminate E].
    destruct cap as [[|n]|]; [destruct wt as [|x wt]|..]; destruct sn; try discriminate E;
      injection E as <-; auto.
  Qed.

  (** ** Queries *)

  Lemma empty_iff : forall c, chan_empty c = true <-> ch_queue c = [].
  Proof. intros c. unfold chan_empty. destruct (ch_queue c); split; congruence. Qed.

  Lemma full_exactly : forall cap h, let c := chan_run (chan_new (A := A) cap) h in
    chan_full c = true <-> cap = Some (length (ch_queue c)).
  Proof.
    intros cap h c. rewrite full_iff. unfold crowded.
    assert (Ec : ch_cap c = cap) by (unfold c; rewrite run_cap; reflexivity).
    assert (F := run_fits h _ (new_fits cap)). fold c in F. unfold fits in F. clearbody c.
    rewrite Ec in *. split.
    - intros (n & -> & H). f_equal. specialize (F n eq_refl). lia.
    - intros ->. eexists. split; [reflexivity | lia].
  Qed.

  (** ** Delivery *)

  Lemma try_send_accepted : forall c m, ch_senders c <> O -> ch_receiver c = true -> ch_queue c = [] ->
    ch_cap c <> Some O ->
    ch_queue (chan_act c (TrySend m)) = [m] /\ ch_accepted (chan_act c (TrySend m)) = ch_accepted c ++ [m]
    /\ ch_lost (chan_act c (TrySend m)) = ch_lost c.
  Proof.
    intros c m S0 R Q C. chan_cases c. subst. destruct sn as [|sn]; [destruct (S0 eq_refl)|]. cbn [negb].
    destruct cap as [[|n]|]; [destruct (C eq_refl)|..]; cbn; auto.
  Qed.
End Queue.

(** ** Transmitters *)
From Verif Require Import ModelInstrument ModelObservation ModelProcessor ModelTransmitter.

Section Transmitter.
  Context {X : ext}.
  Implicit Types c : chan (message X).

  Lemma nonblocking_send : forall tx c m, tx_use_send tx = false -> ch_senders c <> O ->
    let c' := chan_act c (tx_send tx m) in
    (ch_receiver c = true -> ~ crowded c ->
       ch_queue c' = ch_queue c ++ [m] /\ ch_accepted c' = ch_accepted c ++ [m] /\ ch_lost c' = ch_lost c)
    /\ (ch_receiver c = false \/ crowded c ->
       ch_queue c' = ch_queue c /\ ch_accepted c' = ch_accepted c /\ ch_lost c' = ch_lost c ++ [m]).
  Proof.
    intros tx c m T S0. unfold tx_send. rewrite T. assert (F := full_iff c). cbn [chan_act].
    destruct (ch_senders c) as [|n]; [destruct (S0 eq_refl)|]. unfold chan_try_send. cbv zeta. split.
    - intros R N. rewrite R. cbn [negb]. destruct (chan_full c) eqn:E; [destruct (N (proj1 F eq_refl))|]. auto.
    - intros [R|C]; [rewrite R; auto|]. apply F in C. rewrite C. destruct (ch_receiver c); auto.
  Qed.

  Lemma blocking_send : forall tx c m, tx_use_send tx = true -> ch_senders c <> O -> ch_receiver c = true ->
    let c' := chan_act c (tx_send tx m) in
    ch_lost c' = ch_lost c
    /\ (~ crowded c -> ch_queue c' = ch_queue c ++ [m] /\ ch_accepted c' = ch_accepted c ++ [m])
    /\ (crowded c -> ch_queue c' = ch_queue c /\ ch_waiting c' = ch_waiting c ++ [m]).
  Proof.
    intros tx c m T S0 R. unfold tx_send. rewrite T. assert (F := full_iff c). cbn [chan_act].
    destruct (ch_senders c) as [|n]; [destruct (S0 eq_refl)|]. unfold chan_send. cbv zeta. rewrite R. cbn [negb].
    destruct (chan_full c) eqn:E; split; auto; split; intros N; auto.
    - destruct (N (proj1 F eq_refl)).
    - apply F in N. discriminate N.
  Qed.

  Lemma unbounded_send : forall tx c m, ch_cap c = None -> ch_senders c <> O -> ch_receiver c = true ->
    let c' := chan_act c (tx_send tx m) in
    ch_queue c' = ch_queue c ++ [m] /\ ch_accepted c' = ch_accepted c ++ [m] /\ ch_lost c' = ch_lost c.
  Proof.
    intros tx c m C S0 R. assert (N : ~ crowded c) by (intros (n & E & _); congruence).
    destruct (tx_use_send tx) eqn:T.
    - destruct (blocking_send tx c m T S0 R) as (H1 & H2 & _). destruct (H2 N). auto.
    - exact (proj1 (nonblocking_send tx c m T S0) R N).
  Qed.

  Lemma created : forall id name bounded use_send k (cl : clock) q tx (t : tele X) cl',
    create id name bounded use_send k cl = Ok (q, tx, t) cl' ->
    q = chan_new bounded /\ tx_sender tx = id /\ tx_use_send tx = use_send /\ tp_receiver t = id
    /\ tp_name t = name /\ tp_disconnected t = false.
  Proof. intros id name bounded use_send k cl q tx t cl' E. injection E as <- <- <- <-. auto 7. Qed.

  Lemma queries : forall cap h, let c := chan_run (chan_new (A := message X) cap) h in
    (is_queue_full c = true <-> cap = Some (length (ch_queue c)))
    /\ (is_queue_empty c = true <-> ch_queue c = [])
    /\ queue_size c = length (ch_queue c)
    /\ queue_capacity c = cap.
  Proof.
    intros cap h c. split; [apply full_exactly|]. split; [apply empty_iff|]. split; [reflexivity|].
    unfold c, queue_capacity. rewrite run_cap. reflexivity.
  Qed.
End Transmitter.
