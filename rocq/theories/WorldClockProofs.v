(** The clock of the collecting thread; activity of processors and mounts. *)
From Coq Require Import ZArith Bool String List Lia.
From Verif Require Import Base SpecRun MonadFacts ModelObservation ModelSnapshot ModelHistogram
  ModelInstrument ModelTree ModelChannel ModelProcessor SpecWriting
  SpecClock ClockProofs SpecActivity.
Import ListNotations.
Open Scope Z_scope.

Section World.
  Context {X : ext} {Y : pext}.

  Definition wticks {A} (m : St (world X Y) A) : Prop :=
    forall k w a w', m k w = Ok a w' -> later (w_clock w) (w_clock w').

  Lemma wticks_ret : forall A (a : A), wticks (ret a).
  Proof. intros A a k w x w' E. injection E as <- <-. apply later_refl. Qed.

  Lemma wticks_bind : forall A B (m : St (world X Y) A) (f : A -> St (world X Y) B),
    wticks m -> (forall a, wticks (f a)) -> wticks (bind m f).
  Proof.
    intros A B m f Hm Hf k c b c' E. apply bind_ok in E. destruct E as (a & c1 & E1 & E2).
    eapply later_trans; [exact (Hm _ _ _ _ E1) | exact (Hf _ _ _ _ _ E2)].
  Qed.

  Lemma act_clock : forall (w : world X Y) a, w_clock (act w a) = w_clock w.
  Proof. intros w [ch a|ch a]; reflexivity. Qed.

  Lemma acts_clock : forall l (w : world X Y), w_clock (fold_left act l w) = w_clock w.
  Proof. induction l; intros; cbn [fold_left]; [reflexivity|]. rewrite IHl. apply act_clock. Qed.

  Lemma interleave_wticks : wticks interleave.
  Proof.
    intros k w a w' E. injection E as <- <-. cbn [w_clock]. rewrite acts_clock. apply later_refl.
  Qed.

  Lemma lift_wticks : forall A (m : M A), ticks m -> wticks (lift m).
  Proof.
    intros A m H k w a w' E. unfold lift in E. destruct (m k (w_clock w)) as [x c| |] eqn:E1; try discriminate E.
    injection E as <- <-. exact (H _ _ _ _ E1).
  Qed.

  Lemma queue_try_recv_wticks : forall i, wticks (queue_try_recv i).
  Proof.
    intros i. unfold queue_try_recv. apply wticks_bind; [apply interleave_wticks|].
    intros _ k w a w' E. destruct (chan_try_recv (w_queues w i)). injection E as <- <-. apply later_refl.
  Qed.

  Lemma mount_try_recv_wticks : forall i, wticks (mount_try_recv i).
  Proof.
    intros i. unfold mount_try_recv. apply wticks_bind; [apply interleave_wticks|].
    intros _ k w a w' E. destruct (chan_try_recv (w_mounts w i)). injection E as <- <-. apply later_refl.
  Qed.

  Lemma queue_len_wticks : forall i, wticks (queue_len i).
  Proof.
    intros i. unfold queue_len. apply wticks_bind; [apply interleave_wticks|].
    intros _ k w a w' E. injection E as <- <-. apply later_refl.
  Qed.

  Lemma add_usize_wticks : forall a b, wticks (add_usize a b).
  Proof.
    intros a b k w x w' E. unfold add_usize, u64_arith, arith in E.
    destruct (_ && _); [|destruct (overflow_checks k)]; try discriminate E; injection E as <- <-; apply later_refl.
  Qed.

  Lemma combine_wticks : forall a b, wticks (combine_with a b).
  Proof.
    intros. unfold combine_with. repeat (apply wticks_bind; [apply add_usize_wticks | intro]). apply wticks_ret.
  Qed.

  Lemma wticks_traverse : forall A S (f : A -> S -> St (world X Y) (A * S)) l s,
    (forall x s, wticks (f x s)) -> wticks (traverse f l s).
  Proof.
    intros A S f l. induction l as [|x l IH]; intros s H; cbn [traverse].
    - apply wticks_ret.
    - apply wticks_bind; [apply H|]. intros [x' s1]. apply wticks_bind; [apply IH, H|].
      intros [l' s2]. apply wticks_ret.
  Qed.

  Context (HX : parts_tick X) (HY : processors_tick Y).

  Lemma tele_collect_wticks : forall n d t acc, wticks (tele_collect n d t acc).
  Proof.
    induction n; intros; cbn [tele_collect].
    - apply wticks_ret.
    - apply wticks_bind; [apply queue_try_recv_wticks|]. intros [m| |].
      + apply wticks_bind; [apply lift_wticks, tele_message_ticks; exact HX|]. intros [t1 a1]. apply IHn.
      + apply IHn.
      + apply wticks_ret.
  Qed.

  Lemma tele_process_wticks : forall t max s, wticks (tele_process t max s).
  Proof.
    intros. unfold tele_process. destruct (tp_disconnected t); [apply wticks_ret|].
    apply wticks_bind; [apply lift_wticks, strategy_decider_ticks|]. intros d.
    apply wticks_bind; [apply tele_collect_wticks|]. intros [t1 acc].
    apply wticks_bind; [apply queue_len_wticks|]. intros e.
    destruct (something_happened _); [|apply wticks_ret].
    apply wticks_bind; [apply lift_wticks, ticks_now|]. intros. apply wticks_ret.
  Qed.

  Lemma mount_process_wticks : forall f m, (forall p, wticks (f p)) -> wticks (mount_process f m).
  Proof.
    intros f [d ps ss] H. cbn [mount_process]. apply wticks_bind.
    - apply wticks_traverse. intros x s. unfold collect_one. apply wticks_bind; [apply H|]. intros [p o].
      apply wticks_bind; [apply combine_wticks|]. intros. apply wticks_ret.
    - intros [ps1 o]. destruct (something_happened o); [|apply wticks_ret].
      apply wticks_bind; [apply lift_wticks, ticks_now|]. intros. apply wticks_ret.
  Qed.

  Lemma attached_take_wticks : forall r m, wticks (attached_take r m).
  Proof.
    intros [i|] m; unfold attached_take; [|apply wticks_ret].
    assert (H : forall n m, wticks (attached_drain n i m)).
    { clear. induction n; intros; cbn [attached_drain].
      - intros k w a w' E. discriminate E.
      - apply wticks_bind; [apply mount_try_recv_wticks|]. intros [x| |]; [apply IHn | apply wticks_ret | apply wticks_ret]. }
    intros k w a w' E. apply bind_ok in E. destruct E as ([m1 b] & w1 & E1 & E2). injection E2 as <- <-.
    exact (H _ _ _ _ _ _ E1).
  Qed.

  Lemma processor_process_wticks : forall n p max s, wticks (processor_process n p max s).
  Proof.
    induction n; intros p max s; cbn [processor_process].
    - intros k w a w' E. discriminate E.
    - destruct p.
      + apply wticks_bind; [apply tele_process_wticks|]. intros [? ?]. apply wticks_ret.
      + apply wticks_bind; [apply mount_process_wticks; auto|]. intros [? ?]. apply wticks_ret.
      + apply wticks_bind; [apply attached_take_wticks|]. intros [? ?].
        apply wticks_bind; [apply mount_process_wticks; auto|]. intros [? ?]. apply wticks_ret.
      + apply wticks_ret.
      + apply wticks_bind; [apply lift_wticks, (pt_proc_process Y HY)|]. intros [? ?]. apply wticks_ret.
  Qed.

  Lemma instant_later : forall e (w w' : world X Y), instant e w -> later (w_clock w) (w_clock w') -> instant e w'.
  Proof. intros e w w' H (n & Hn) i. rewrite Hn. apply H. Qed.

  Lemma happened_active : forall o, something_happened o = true <-> active o.
  Proof.
    intros o. unfold something_happened, active. rewrite orb_true_iff, !Z.ltb_lt. reflexivity.
  Qed.

  (** Settings that a collection does not change. *)
  Definition same_settings (t t' : tele X) : Prop :=
    tp_name t' = tp_name t /\ tp_descr t' = tp_descr t /\ tp_limit t' = tp_limit t
    /\ tp_show_activity t' = tp_show_activity t /\ tp_snapshooters t' = tp_snapshooters t
    /\ tp_receiver t' = tp_receiver t.

  Lemma tele_handle_settings : forall (t : tele X) o acc k c t' n c',
    tele_handle t o acc k c = Ok (t', n) c' ->
    same_settings t t' /\ tp_last_activity t' = tp_last_activity t /\ tp_disconnected t' = tp_disconnected t.
  Proof.
    intros t o acc k c t' n c' E. unfold tele_handle in E.
    apply bind_ok in E. destruct E as ([s2 a2] & c2 & E2 & E).
    apply bind_ok in E. destruct E as ([s3 a3] & c3 & E3 & E). injection E as <- <- <-.
    repeat split.
  Qed.

  Lemma tele_message_settings : forall d (t : tele X) n m k c t' n' c',
    tele_message d t n m k c = Ok (t', n') c' ->
    same_settings t t' /\ tp_last_activity t' = tp_last_activity t /\ tp_disconnected t' = tp_disconnected t.
  Proof.
    intros d t n m k c t' n' c' E. destruct m; cbn [tele_message] in E.
    - destruct (should_be_processed d o).
      + apply bind_ok in E. destruct E as ([s2 a2] & c2 & E2 & E).
        apply bind_ok in E. destruct E as (s3 & c3 & E3 & E). injection E as <- <- <-.
        exact (tele_handle_settings _ _ _ _ _ _ _ _ E2).
      + apply bind_ok in E. destruct E as (s3 & c3 & E3 & E). injection E as <- <- <-. repeat split.
    - apply bind_ok in E. destruct E as (s3 & c3 & E3 & E). injection E as <- <- <-.
      unfold tele_add_cockpit. destruct (cockpit_name c0); [destruct (existsb _ _)|]; repeat split.
    - apply bind_ok in E. destruct E as (s3 & c3 & E3 & E). injection E as <- <- <-. repeat split.
    - apply bind_ok in E. destruct E as (s3 & c3 & E3 & E). injection E as <- <- <-. repeat split.
    - apply bind_ok in E. destruct E as (s3 & c3 & E3 & E). injection E as <- <- <-. repeat split.
    - apply bind_ok in E. destruct E as (s3 & c3 & E3 & E). injection E as <- <- <-. repeat split.
  Qed.

  Lemma settings_trans : forall a b c, same_settings a b -> same_settings b c -> same_settings a c.
  Proof. unfold same_settings. intuition congruence. Qed.

  Lemma tele_collect_settings : forall n d t acc k (w : world X Y) t' acc' w',
    tele_collect n d t acc k w = Ok (t', acc') w' ->
    same_settings t t' /\ tp_last_activity t' = tp_last_activity t.
  Proof.
    induction n; intros d t acc k w t' acc' w' E; cbn [tele_collect] in E.
    - injection E as <- <- <-. repeat split.
    - apply bind_ok in E. destruct E as (r & w1 & E1 & E). destruct r.
      + apply bind_ok in E. destruct E as ([t1 a1] & w2 & E2 & E).
        destruct (IHn _ _ _ _ _ _ _ _ E) as (A1 & A2).
        unfold lift in E2. destruct (tele_message d t acc m k (w_clock w1)) as [[t3 a3] c3| |] eqn:E3; try discriminate E2.
        injection E2 as <- <- <-. destruct (tele_message_settings _ _ _ _ _ _ _ _ _ E3) as (B1 & B2 & _).
        split; [eapply settings_trans; eassumption | congruence].
      + exact (IHn _ _ _ _ _ _ _ _ E).
      + injection E as <- <- <-. repeat split.
  Qed.

  Lemma tele_process_activity : forall t max s k (w : world X Y) t' o w',
    tele_process t max s k w = Ok (t', o) w' ->
    same_settings t t'
    /\ (forall e, instant e w -> active o -> tp_last_activity t' = e)
    /\ (~ active o -> tp_last_activity t' = tp_last_activity t).
  Proof.
    intros t max s k w t' o w' E. unfold tele_process in E. destruct (tp_disconnected t).
    - injection E as <- <- <-. split; [repeat split|]. split; [|reflexivity].
      intros e _ [H|H]; discriminate H.
    - apply bind_ok in E. destruct E as (d & w1 & E1 & E).
      apply bind_ok in E. destruct E as ([t2 acc] & w2 & E2 & E).
      apply bind_ok in E. destruct E as (q & w3 & E3 & E).
      destruct (tele_collect_settings _ _ _ _ _ _ _ _ _ E2) as (A1 & A2).
      match type of E with context [something_happened ?x] => set (oc := x) in * end.
      destruct (something_happened oc) eqn:Eh.
      + apply bind_ok in E. destruct E as (t0 & w4 & E4 & E). injection E as <- <- <-.
        apply happened_active in Eh. split; [|split].
        * destruct A1 as (H1 & H2 & H3 & H4 & H5 & H6). repeat split; assumption.
        * intros e He _. cbn [tele_touch tp_last_activity]. injection E4 as <- <-.
          apply (instant_later e w); [exact He|].
          eapply later_trans; [exact (lift_wticks _ _ (strategy_decider_ticks s) _ _ _ _ E1)|].
          eapply later_trans; [exact (tele_collect_wticks _ _ _ _ _ _ _ _ E2)|].
          exact (queue_len_wticks _ _ _ _ _ E3).
        * intros H. contradiction.
      + injection E as <- <- <-. split; [exact A1|]. split.
        * intros e _ H. apply happened_active in H. congruence.
        * intros _. exact A2.
  Qed.

  Lemma last_active_cons : forall i e h x j,
    last_active j h x -> (match e with Some t => j = t | None => j = i end) -> last_active i (e :: h) x.
  Proof.
    intros i e h x j H Hj. destruct H as [h H|h1 t h2 H].
    - destruct e as [t|]; subst j.
      + exact (la_at i [] t h H).
      + apply la_never. constructor; auto.
    - exact (la_at i (e :: h1) t h2 H).
  Qed.

  Lemma last_active_fun : forall i h x y, last_active i h x -> last_active i h y -> x = y.
  Proof.
    assert (P : forall (h1 : list (option Z)) a h2 g1 b g2,
              h1 ++ Some a :: h2 = g1 ++ Some b :: g2 -> Forall (fun e => e = None) h2 ->
              Forall (fun e => e = None) g2 -> a = b).
    { induction h1 as [|u h1 IH]; intros a h2 [|v g1] b g2 E H G; cbn [app] in E; injection E as E1 E2.
      - exact E1.
      - subst. apply Forall_app in H. destruct H as [_ H]. inversion H; discriminate.
      - subst. apply Forall_app in G. destruct G as [_ G]. inversion G; discriminate.
      - eapply IH; eassumption. }
    intros i h x y H1 H2. inversion H1 as [h' F1|h1 t h2 F1]; inversion H2 as [g' F2|g1 s g2 F2]; subst; try reflexivity.
    - apply Forall_app in F1. destruct F1 as [_ F1]. inversion F1; discriminate.
    - apply Forall_app in F2. destruct F2 as [_ F2]. inversion F2; discriminate.
    - eapply P; [symmetry|..]; eassumption.
  Qed.

  Lemma tele_history_last : forall k (t : tele X) h t', tele_history (Y := Y) k t h t' ->
    same_settings t t' /\ last_active (tp_last_activity t) h (tp_last_activity t').
  Proof.
    intros k t h t' H. induction H.
    - split; [repeat split | apply la_never; constructor].
    - destruct (tele_process_activity _ _ _ _ _ _ _ _ H0) as (A1 & A2 & _).
      destruct IHtele_history as (B1 & B2). split; [eapply settings_trans; eassumption|].
      eapply last_active_cons; [exact B2|]. apply (A2 e); assumption.
    - destruct (tele_process_activity _ _ _ _ _ _ _ _ H) as (A1 & _ & A2).
      destruct IHtele_history as (B1 & B2). split; [eapply settings_trans; eassumption|].
      eapply last_active_cons; [exact B2|]. apply A2. assumption.
  Qed.

  Lemma mount_process_activity : forall n m max s k (w : world X Y) m' o w',
    processor_process n (PMount m) max s k w = Ok (PMount m', o) w' ->
    (exists t, m_data m' = mount_touch (m_data m) t)
    /\ (forall e, instant e w -> active o -> md_last_activity (m_data m') = e)
    /\ (~ active o -> md_last_activity (m_data m') = md_last_activity (m_data m)).
  Proof.
    intros [|n] m max s k w m' o w' E; [discriminate E|]. cbn [processor_process] in E.
    apply bind_ok in E. destruct E as ([m1 o1] & w1 & E & E'). injection E' as -> -> ->.
    destruct m as [d ps ss]. cbn [mount_process] in E.
    apply bind_ok in E. destruct E as ([ps1 o1] & w2 & E1 & E).
    destruct (something_happened o1) eqn:Eh.
    - apply bind_ok in E. destruct E as (t0 & w4 & E4 & E). injection E as <- <- <-.
      apply happened_active in Eh. cbn [m_data]. split; [eauto|]. split; [|contradiction].
      intros e He _. injection E4 as <- <-. cbn [mount_touch md_last_activity].
      apply (instant_later e w); [exact He|].
      refine (wticks_traverse _ _ _ _ _ _ _ _ _ _ E1). intros x acc. unfold collect_one.
      apply wticks_bind; [apply processor_process_wticks|]. intros [p q].
      apply wticks_bind; [apply combine_wticks|]. intros. apply wticks_ret.
    - injection E as <- <- <-. cbn [m_data]. split.
      + exists (md_last_activity d). destruct d; reflexivity.
      + split; [|reflexivity]. intros e _ H. apply happened_active in H. congruence.
  Qed.

  Lemma mount_history_last : forall k (m : mount X Y) h m', mount_history k m h m' ->
    (exists t, m_data m' = mount_touch (m_data m) t)
    /\ last_active (md_last_activity (m_data m)) h (md_last_activity (m_data m')).
  Proof.
    intros k m h m' H. induction H.
    - split; [|apply la_never; constructor]. exists (md_last_activity (m_data m)). destruct (m_data m); reflexivity.
    - destruct (mount_process_activity _ _ _ _ _ _ _ _ _ H0) as ((t & A1) & A2 & _).
      destruct IHmount_history as ((t' & B1) & B2). split; [exists t'; rewrite B1, A1; reflexivity|].
      eapply last_active_cons; [exact B2|]. apply (A2 e); assumption.
    - destruct (mount_process_activity _ _ _ _ _ _ _ _ _ H) as ((t & A1) & _ & A2).
      destruct IHmount_history as ((t' & B1) & B2). split; [exists t'; rewrite B1, A1; reflexivity|].
      eapply last_active_cons; [exact B2|]. apply A2. assumption.
  Qed.
End World.

From Verif Require Import ActivityProofs.

Section Theorems.
  Context {X : ext} {Y : pext} (HT : parts_tick X) (HP : processors_tick Y).

  Lemma tele_hidden_after : forall k (t0 : tele X) h t last limit de into c,
    tele_history (Y := Y) k t0 h t -> last_active (tp_last_activity t0) h last ->
    tp_limit t0 = Some limit -> tp_show_activity t0 = true -> limit < c O - last ->
    tele_put t de into k c = Ok (t, inactive_fields de (tp_name t0) (tp_descr t0) into) (clock_tail c).
  Proof.
    intros k t0 h t last limit de into c H Hlast Hl Hs Hd.
    destruct (tele_history_last HT _ _ _ _ H) as ((E1 & E2 & E3 & E4 & _) & L).
    rewrite <- (last_active_fun _ _ _ _ L Hlast) in Hd. rewrite <- E1, <- E2.
    apply (tele_hidden t limit); congruence.
  Qed.

  Lemma tele_shown_after : parts_write X -> forall k (t0 : tele X) h t last limit into c,
    tele_history (Y := Y) k t0 h t -> last_active (tp_last_activity t0) h last ->
    tp_limit t0 = Some limit -> tp_show_activity t0 = true -> 0 <= limit -> c O - last <= limit ->
    tele_put t false into k c
    = match tele_put (tele_bare t) false [] k (clock_tail c) with
      | Ok (q, values) c' => Ok (tele_like t q, placed (tp_name t0) into (shown_active ++ values)) c'
      | Panic => Panic
      | NoFuel => NoFuel
      end.
  Proof.
    intros HX k t0 h t last limit into c H Hlast Hl Hs H0 Hd.
    destruct (tele_history_last HT _ _ _ _ H) as ((E1 & E2 & E3 & E4 & _) & L).
    rewrite <- (last_active_fun _ _ _ _ L Hlast) in Hd. rewrite <- E1.
    apply (tele_shown HX t limit); congruence.
  Qed.

  Lemma mount_hidden_after : forall k (m0 : mount X Y) h m last limit de into c,
    mount_history k m0 h m -> last_active (md_last_activity (m_data m0)) h last ->
    md_limit (m_data m0) = Some limit -> limit < c O - last ->
    mount_put m de into k c
    = Ok (m, inactive_fields de (md_name (m_data m0)) (md_descr (m_data m0)) into) (clock_tail c).
  Proof.
    intros k m0 h m last limit de into c H Hlast Hl Hd.
    destruct (mount_history_last HT HP _ _ _ _ H) as ((t & E) & L).
    rewrite <- (last_active_fun _ _ _ _ L Hlast) in Hd.
    rewrite (mount_hidden _ m limit); rewrite ?E in *; auto.
  Qed.

  Lemma mount_shown_after : parts_write X -> (forall u, writes (user_proc_put Y u)) ->
    (forall h, writes (driver_put (Y := Y) h)) ->
    forall k (m0 : mount X Y) h m last limit into c,
    mount_history k m0 h m -> last_active (md_last_activity (m_data m0)) h last ->
    md_limit (m_data m0) = Some limit -> 0 <= limit -> c O - last <= limit ->
    mount_put m false into k c
    = match mount_put (mount_bare m) false [] k (clock_tail c) with
      | Ok (q, values) c' => Ok (mount_like m q, placed (md_name (m_data m0)) into (shown_active ++ values)) c'
      | Panic => Panic
      | NoFuel => NoFuel
      end.
  Proof.
    intros HX HU HD k m0 h m last limit into c H Hlast Hl H0 Hd.
    destruct (mount_history_last HT HP _ _ _ _ H) as ((t & E) & L).
    rewrite <- (last_active_fun _ _ _ _ L Hlast) in Hd.
    rewrite (mount_shown HX Y HU HD m limit); rewrite ?E in *; auto.
  Qed.
End Theorems.
