(** Several threads on one queue. *)
From Coq Require Import List Arith Bool Lia Permutation.
From Verif Require Import Base ModelInstrument ModelTree ModelChannel ModelProcessor ModelTransmitter SpecQueue QueueProofs SpecThreads.
Import ListNotations.

Section Threads.
  Context {X : ext}.
  Implicit Types c : chan (nat * message X).
  Implicit Types s : threads X.

  Lemma of_app : forall t (a b : list (nat * message X)), of_thread t (a ++ b) = of_thread t a ++ of_thread t b.
  Proof. intros t a b. unfold of_thread. rewrite filter_app, map_app. reflexivity. Qed.

  Lemma of_mine : forall t (m : message X), of_thread t [(t, m)] = [m].
  Proof. intros t m. unfold of_thread. cbn. rewrite Nat.eqb_refl. reflexivity. Qed.

  Lemma of_other : forall t u (m : message X), u <> t -> of_thread t [(u, m)] = [].
  Proof. intros t u m H. unfold of_thread. cbn. rewrite (proj2 (Nat.eqb_neq u t) H). reflexivity. Qed.

  Lemma of_none : forall t c, ~ blocked t c -> of_thread t (ch_waiting c) = [].
  Proof.
    intros t c H. unfold blocked in H. induction (ch_waiting c) as [|[u m] l IH]; [reflexivity|].
    change ((u, m) :: l) with ([(u, m)] ++ l). rewrite of_app, IH by (intros (x & Hx); apply H; exists x; right; exact Hx).
    rewrite of_other; [reflexivity|]. intros ->. apply H. exists m. left. reflexivity.
  Qed.

  Lemma nth_between : forall (l : list (nat * message X)) i x, nth_error l i = Some x ->
    l = firstn i l ++ [x] ++ skipn (S i) l.
  Proof.
    induction l as [|y l IH]; intros [|i] x H; cbn in *; try discriminate; [congruence|].
    rewrite <- (IH i x H). reflexivity.
  Qed.

  (** ** Without numbers *)

  Lemma untagged_full : forall c, chan_full (untagged c) = chan_full c.
  Proof. intros c. unfold chan_full. cbn. destruct (ch_cap c); [rewrite map_length|]; reflexivity. Qed.

  Definition plain (a : chan_action (nat * message X)) : chan_action (message X) :=
    match a with
    | Send m => Send (snd m)
    | TrySend m => TrySend (snd m)
    | Wake i => Wake i
    | CloneSender => CloneSender
    | DropSender => DropSender
    | DropReceiver => DropReceiver
    end.

  Lemma untagged_enqueue : forall c m, untagged (chan_enqueue c m) = chan_enqueue (untagged c) (snd m).
  Proof. intros c m. unfold untagged, chan_enqueue. cbn. rewrite !map_app. reflexivity. Qed.

  Lemma untagged_act : forall c a, untagged (chan_act c a) = chan_act (untagged c) (plain a).
  Proof.
    intros c [m|m|i| | |]; cbn [chan_act plain].
    - destruct (ch_senders c) eqn:S; cbn [untagged ch_senders]; rewrite S; [reflexivity|].
      unfold chan_send. rewrite untagged_full. cbn [untagged ch_receiver].
      destruct (negb (ch_receiver c)); [unfold untagged, chan_refuse; cbn; rewrite map_app; reflexivity|].
      destruct (chan_full c); [unfold untagged; cbn; rewrite map_app; reflexivity|]. apply untagged_enqueue.
    - destruct (ch_senders c) eqn:S; cbn [untagged ch_senders]; rewrite S; [reflexivity|].
      unfold chan_try_send. rewrite untagged_full. cbn [untagged ch_receiver].
      destruct (negb (ch_receiver c)); [unfold untagged, chan_refuse; cbn; rewrite map_app; reflexivity|].
      destruct (chan_full c); [unfold untagged, chan_refuse; cbn; rewrite map_app; reflexivity|]. apply untagged_enqueue.
    - unfold chan_wake. rewrite untagged_full. cbn [untagged ch_waiting]. rewrite nth_error_map.
      destruct (nth_error (ch_waiting c) i) as [m|]; cbn [option_map]; [|reflexivity].
      destruct (chan_full c); [reflexivity|]. rewrite untagged_enqueue. unfold untagged. cbn.
      rewrite map_app, firstn_map. f_equal. f_equal. f_equal. clear. revert i. induction (ch_waiting c) as [|x l IH]; intros i; [destruct i; reflexivity|].
      destruct i; [reflexivity|]. exact (IH i).
    - unfold chan_clone_sender. cbn. destruct (ch_senders c); reflexivity.
    - unfold chan_drop_sender. cbn. destruct (ch_senders c) as [|[|n]]; [reflexivity| |]; destruct (ch_waiting c); reflexivity.
    - unfold chan_drop_receiver, untagged. cbn. rewrite map_app. reflexivity.
  Qed.

  Lemma untagged_recv : forall c,
    fst (chan_try_recv (untagged c)) = untagged (fst (chan_try_recv c))
    /\ match snd (chan_try_recv (untagged c)) with Message m => [m] | _ => [] end
       = map snd (match snd (chan_try_recv c) with Message m => [m] | _ => [] end).
  Proof.
    intros c. unfold chan_try_recv. cbn [untagged ch_queue ch_cap ch_waiting ch_senders].
    destruct (ch_queue c) as [|m q] eqn:Q; cbn [map].
    - destruct (ch_cap c) as [[|n]|] eqn:C; [|destruct (ch_senders c); split; reflexivity..].
      destruct (ch_waiting c) as [|m l] eqn:W; cbn [map]; [destruct (ch_senders c); split; reflexivity|].
      cbn. unfold untagged. cbn. rewrite map_app. split; reflexivity.
    - cbn. unfold untagged. cbn. split; reflexivity.
  Qed.

  (** ** The invariant *)

  (** Nobody waits twice, and what is underway and what is to be done are in the order
      of the program; nothing is missing unless it is lost. *)
  Record orderly (cap : option nat) (P : nat -> program X) s : Prop := {
    or_once : forall t, (length (of_thread t (ch_waiting (th_queue s))) <= 1)%nat;
    or_cap : ch_cap (th_queue s) = cap;
    or_order : forall t, subsequence (of_thread t (th_received s ++ ch_queue (th_queue s) ++ ch_waiting (th_queue s)) ++ map snd (th_todo s t))
                           (map snd (P t));
    or_left : forall t, exists done, P t = done ++ th_todo s t;
    or_lost : forall t, Permutation (of_thread t (th_received s ++ ch_queue (th_queue s) ++ ch_waiting (th_queue s))
                           ++ of_thread t (ch_lost (th_queue s)) ++ map snd (th_todo s t)) (map snd (P t));
    or_safe : forall t, ch_receiver (th_queue s) = true -> cap = None \/ Forall (fun x => tx_use_send (fst x) = true) (P t) ->
                of_thread t (ch_lost (th_queue s)) = []
  }.

  Lemma orderly_start : forall cap P, orderly cap P (beginning cap P).
  Proof.
    intros cap P. constructor; cbn; intros; auto.
    - apply ss_refl.
    - exists []. reflexivity.
  Qed.

  (** [a]: underway before, [b]: after *)
  Lemma ss_drop_mid : forall (a x b l : list (message X)), subsequence (a ++ x ++ b) l -> subsequence (a ++ b) l.
  Proof.
    intros a x b l H. remember (a ++ x ++ b) as k eqn:E. revert a E. induction H as [|y k l H IH|y k l H IH]; intros a E.
    - symmetry in E. apply app_eq_nil in E. destruct E as [-> E]. apply app_eq_nil in E. destruct E as [_ ->]. constructor.
    - constructor. apply IH. exact E.
    - destruct a as [|z a].
      + cbn in *. assert (F : forall (u v l : list (message X)), subsequence (u ++ v) l -> subsequence v l).
        { clear. induction u as [|z u IH]; intros v l H; [exact H|]. cbn in H. remember (z :: u ++ v) as k eqn:E.
          revert E. induction H; intros E; try discriminate; [constructor; auto|]. injection E as -> ->. apply ss_skip. apply IH. assumption. }
        apply (F x b). rewrite <- E. apply ss_keep. exact H.
      + injection E as -> ->. cbn. apply ss_keep. apply IH. reflexivity.
  Qed.

  Lemma orderly_turn : forall cap P s s', orderly cap P s -> turn s s' -> orderly cap P s'.
  Proof.
    intros cap P s s' [O1 O2 O3 O4 O5 O6] H. destruct H as [c todo got t tx m rest T B S|c todo got a A1 A2|c todo got]; cbn [th_queue th_todo th_received] in *.
    - (* a call *)
      assert (N : of_thread t (ch_waiting c) = []) by (apply of_none; exact B).
      assert (D : exists d', P t = d' ++ rest /\ exists tl, P t = tl ++ (tx, m) :: rest).
      { destruct (O4 t) as (done & E). rewrite T in E. exists (done ++ [(tx, m)]). rewrite <- app_assoc. eauto. }
      destruct D as (d' & D1 & tl & D2).
      assert (K : chan_act c (tagged t (tx_send tx m)) = chan_enqueue c (t, m)
                  \/ (chan_act c (tagged t (tx_send tx m)) = chan_refuse c (t, m)
                      /\ (ch_receiver c = false \/ (cap <> None /\ tx_use_send tx = false)))
                  \/ chan_act c (tagged t (tx_send tx m))
                     = Chan (ch_cap c) (ch_queue c) (ch_waiting c ++ [(t, m)]) (ch_senders c) (ch_receiver c) (ch_accepted c) (ch_lost c)).
      { unfold tx_send. destruct (tx_use_send tx); cbn [tagged chan_act]; destruct (ch_senders c) as [|n] eqn:Sn; try (exfalso; apply S; reflexivity);
          unfold chan_send, chan_try_send, chan_full; destruct (ch_receiver c); cbn [negb]; auto; rewrite O2.
        - rewrite Sn. destruct cap as [k|]; [destruct (k <=? _)%nat; auto | auto].
        - destruct cap as [k|]; [destruct (k <=? _)%nat; auto | auto]. right. left. split; [reflexivity|]. right. split; [discriminate | reflexivity]. }
      constructor; cbn [th_queue th_todo th_received].
      + intros u. destruct K as [K|[[K _]|K]]; rewrite K; cbn [chan_enqueue chan_refuse ch_waiting]; auto.
        rewrite of_app. destruct (Nat.eq_dec t u) as [<-|Hu]; [rewrite N, of_mine; cbn; lia | rewrite of_other by congruence; rewrite app_nil_r; auto].
      + destruct K as [K|[[K _]|K]]; rewrite K; exact O2.
      + intros u. specialize (O3 u). destruct (Nat.eqb_spec u t) as [->|Hu].
        * rewrite T in O3. cbn [map snd] in O3. rewrite !of_app, N, app_nil_r in O3.
          destruct K as [K|[[K _]|K]]; rewrite K; cbn [chan_enqueue chan_refuse ch_waiting ch_queue]; rewrite !of_app, N, ?of_mine, ?app_nil_r, ?app_nil_l.
          -- rewrite <- !app_assoc in *. exact O3.
          -- apply (ss_drop_mid _ [m]). exact O3.
          -- rewrite <- !app_assoc in *. exact O3.
        * destruct K as [K|[[K _]|K]]; rewrite K; cbn [chan_enqueue chan_refuse ch_waiting ch_queue]; rewrite !of_app in *;
            rewrite ?(of_other u t m) by congruence; rewrite ?app_nil_r; exact O3.
      + intros u. destruct (Nat.eqb_spec u t) as [->|Hu]; [eauto | apply O4].
      + intros u. specialize (O5 u). destruct (Nat.eqb_spec u t) as [->|Hu].
        * rewrite T in O5. cbn [map snd] in O5. rewrite !of_app, N, app_nil_r in O5. rewrite <- O5.
          destruct K as [K|[[K _]|K]]; rewrite K; cbn [chan_enqueue chan_refuse ch_waiting ch_queue ch_lost]; rewrite !of_app, N, ?of_mine, ?app_nil_r, ?app_nil_l;
            rewrite <- !app_assoc; repeat apply Permutation_app_head; cbn [app]; auto; apply Permutation_middle.
        * destruct K as [K|[[K _]|K]]; rewrite K; cbn [chan_enqueue chan_refuse ch_waiting ch_queue ch_lost]; rewrite !of_app in *;
            rewrite ?(of_other u t m) by congruence; rewrite ?app_nil_r; exact O5.
      + intros u R F. destruct K as [K|[[K [Y|[Y1 Y2]]]|K]]; rewrite K in *; cbn [chan_enqueue chan_refuse ch_receiver ch_lost] in *; auto; [congruence|].
        rewrite of_app, (O6 u R F). destruct (Nat.eq_dec t u) as [<-|Hu]; [|apply of_other; exact Hu].
        exfalso. destruct F as [F|F]; [contradiction|]. rewrite D2 in F. apply Forall_app in F. destruct F as [_ F]. inversion F as [|? ? F1 _]; subst. cbn in F1. congruence.
    - (* another action *)
      destruct a as [m|m|i| | |]; try (exfalso; eapply A1; reflexivity); try (exfalso; eapply A2; reflexivity); cbn [chan_act].
      + unfold chan_wake. destruct (nth_error (ch_waiting c) i) as [[v m]|] eqn:E; [|constructor; auto].
        destruct (chan_full c); [constructor; auto|]. pose proof (nth_between _ _ _ E) as L.
        assert (W : forall u, of_thread u (ch_waiting c) = of_thread u [(v, m)] ++ of_thread u (firstn i (ch_waiting c) ++ skipn (S i) (ch_waiting c))).
        { intros u. specialize (O1 u). rewrite L in O1 at 1. rewrite L at 1. rewrite !of_app in *.
          destruct (Nat.eq_dec v u) as [<-|Hu].
          - rewrite of_mine in *. rewrite !app_length in O1. cbn [length] in O1.
            assert (Z1 : of_thread v (firstn i (ch_waiting c)) = []) by (apply length_zero_iff_nil; lia). rewrite Z1. reflexivity.
          - rewrite (of_other u v m Hu). reflexivity. }
        constructor; cbn [th_queue th_todo th_received chan_enqueue ch_waiting ch_queue ch_cap ch_lost ch_receiver]; auto.
        * intros u. specialize (O1 u). rewrite W, app_length in O1. lia.
        * intros u. specialize (O3 u). rewrite !of_app in *. rewrite W in O3. rewrite !of_app in O3. rewrite <- !app_assoc in *. exact O3.
        * intros u. specialize (O5 u). rewrite !of_app in *. rewrite W in O5. rewrite !of_app in O5. rewrite <- !app_assoc in *. exact O5.
      + unfold chan_clone_sender. destruct (ch_senders c); constructor; auto.
      + unfold chan_drop_sender. destruct (ch_senders c) as [|[|n]]; [constructor; auto| |]; destruct (ch_waiting c) eqn:W; constructor; cbn [th_queue th_todo th_received ch_waiting ch_queue ch_cap ch_lost ch_receiver]; rewrite ?W; auto.
      + constructor; cbn [th_queue th_todo th_received chan_drop_receiver ch_waiting ch_queue ch_cap ch_lost ch_receiver]; auto.
        * intros u. specialize (O3 u). rewrite !of_app in *. cbn [of_thread filter map]. rewrite <- !app_assoc in O3.
          rewrite app_nil_r, <- app_assoc. rewrite app_assoc. rewrite app_assoc in O3. exact (ss_drop_mid _ _ _ _ O3).
        * intros u. specialize (O5 u). rewrite !of_app in *. change (of_thread u []) with (@nil (message X)). rewrite <- O5. rewrite app_nil_r.
          rewrite <- !app_assoc. do 2 apply Permutation_app_head. rewrite !app_assoc. apply Permutation_app_tail. apply Permutation_app_comm.
        * intros u R. discriminate R.
    - (* a message is received *)
      unfold chan_try_recv. destruct (ch_queue c) as [|m q] eqn:Q.
      + destruct (ch_cap c) as [[|k]|] eqn:C; [|cbn [fst snd]; destruct (ch_senders c); rewrite app_nil_r; constructor; cbn [th_queue th_todo th_received]; rewrite ?Q; auto; congruence..].
        destruct (ch_waiting c) as [|m l] eqn:W.
        * cbn [fst snd]. destruct (ch_senders c); rewrite app_nil_r; constructor; cbn [th_queue th_todo th_received]; rewrite ?Q, ?W; auto; congruence.
        * cbn [fst snd]. constructor; cbn [th_queue th_todo th_received ch_waiting ch_queue ch_cap ch_lost ch_receiver]; auto.
          -- intros u. specialize (O1 u). change (m :: l) with ([m] ++ l) in O1. rewrite of_app, app_length in O1. lia.
          -- intros u. rewrite <- app_assoc. cbn [app]. exact (O3 u).
          -- intros u. rewrite <- app_assoc. cbn [app]. exact (O5 u).
      + cbn [fst snd]. constructor; cbn [th_queue th_todo th_received ch_waiting ch_queue ch_cap ch_lost ch_receiver]; auto.
        * intros u. rewrite <- app_assoc. cbn [app]. exact (O3 u).
        * intros u. rewrite <- app_assoc. cbn [app]. exact (O5 u).
  Qed.

  Lemma orderly_turns : forall cap P s, turns (beginning cap P) s -> orderly cap P s.
  Proof.
    intros cap P s H. remember (beginning cap P) as s0 eqn:E. induction H as [s|s1 s2 s3 H IH H1]; subst.
    - apply orderly_start.
    - exact (orderly_turn _ _ _ _ (IH eq_refl) H1).
  Qed.

  Lemma threads_order : forall cap (P : nat -> program X) s t, turns (beginning cap P) s ->
    subsequence (of_thread t (th_received s ++ ch_queue (th_queue s) ++ ch_waiting (th_queue s)) ++ map snd (th_todo s t)) (map snd (P t)).
  Proof. intros cap P s t H. exact (or_order _ _ _ (orderly_turns _ _ _ H) t). Qed.

  Lemma threads_complete : forall cap (P : nat -> program X) s t, turns (beginning cap P) s ->
    Permutation (of_thread t (th_received s ++ ch_queue (th_queue s) ++ ch_waiting (th_queue s))
      ++ of_thread t (ch_lost (th_queue s)) ++ map snd (th_todo s t)) (map snd (P t)).
  Proof. intros cap P s t H. exact (or_lost _ _ _ (orderly_turns _ _ _ H) t). Qed.

  Lemma ss_same : forall (a b : list (message X)), subsequence a b -> length a = length b -> a = b.
  Proof.
    assert (L : forall (a b : list (message X)), subsequence a b -> (length a <= length b)%nat).
    { intros a b H. induction H; cbn; lia. }
    intros a b H. induction H as [|x a b H IH|x a b H IH]; intros E; [reflexivity| |].
    - apply L in H. cbn in E. lia.
    - cbn in E. rewrite IH; [reflexivity | lia].
  Qed.

  Lemma threads_exact : forall cap (P : nat -> program X) s t, turns (beginning cap P) s ->
    ch_receiver (th_queue s) = true -> cap = None \/ Forall (fun x => tx_use_send (fst x) = true) (P t) ->
    of_thread t (th_received s ++ ch_queue (th_queue s) ++ ch_waiting (th_queue s)) ++ map snd (th_todo s t) = map snd (P t).
  Proof.
    intros cap P s t H R F. pose proof (orderly_turns _ _ _ H) as [_ _ O3 _ O5 O6]. apply ss_same; [apply O3|].
    specialize (O5 t). rewrite (O6 t R F) in O5. exact (Permutation_length O5).
  Qed.

  (** ** The real queue *)

  Lemma threads_real : forall cap (P : nat -> program X) s, turns (beginning cap P) s ->
    exists h, untagged (th_queue s) = chan_run (chan_new cap) h /\ map snd (th_received s) = taken (chan_new cap) h.
  Proof.
    intros cap P s H. remember (beginning cap P) as s0 eqn:E. induction H as [s|s1 s2 s3 H IH H1]; subst.
    - exists []. split; reflexivity.
    - destruct (IH eq_refl) as (h & E1 & E2). clear IH H. destruct H1 as [c todo got t tx m rest T B S|c todo got a A1 A2|c todo got];
        cbn [th_queue th_todo th_received] in *.
      + exists (h ++ [Acts (tx_send tx m)]). rewrite chan_run_app, taken_app, <- E1, <- E2, untagged_act. cbn. rewrite app_nil_r. split; [|reflexivity].
        unfold tx_send. destruct (tx_use_send tx); reflexivity.
      + exists (h ++ [Acts (plain a)]). rewrite chan_run_app, taken_app, <- E1, <- E2, untagged_act. cbn. rewrite app_nil_r. split; reflexivity.
      + exists (h ++ [Receives]). rewrite chan_run_app, taken_app, <- E1, <- E2. cbn. rewrite app_nil_r. destruct (untagged_recv c) as (U1 & U2).
        rewrite U1, map_app, U2. split; reflexivity.
  Qed.
End Threads.
