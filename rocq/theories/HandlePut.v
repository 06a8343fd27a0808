(** The effect of putting something through a handle. *)
From Coq Require Import ZArith Bool String List Lia.
From Verif Require Import Base SpecRun MonadFacts SpecClock ClockProofs ModelObservation ModelSnapshot ModelInstrument ModelTree
  ModelChannel ModelProcessor ModelDriver TreeEqs TreeInd SpecTree SpecQueue QueueProofs SpecCollect WorldClockProofs CollectProofs GroupProofs SpecDriver
  DriverProofs DriverLoopProofs DriverMetricsProofs DriverShapeProofs SpecChronicle ChronicleProofs ChronicleDriver SpecSite SpecShown ShownProofs SiteDriver
  SpecWriting ModelHandle SpecHandle HandleAway HandleProofs HandleDriver HandleArrives HandleGrows.
Import ListNotations.
Open Scope Z_scope.

Section Put.
  Context {X : ext} {Y : pext}.
  Context (HX : parts_tick X) (HY : processors_tick Y).
  Implicit Types (d : driver X Y) (w : dworld X Y).

  Lemma sent : forall (R : receiver -> Prop) j x w, R (MountReceiver j) -> usable (channel_of j w) -> (forall r, R r -> nobody_else r w) ->
    let w1 := does (OnMount j (Send x)) w in
    ch_queue (channel_of j w1) = ch_queue (channel_of j w) ++ [x]
    /\ valid (waits R j (ch_queue (channel_of j w)) x) (dw_world w1) /\ unsent R w1.
  Proof.
    intros R j x w Rj (Cap & Rc & Sn) N w1. apply nobody_iff in N. destruct N as (V & U).
    assert (Ec : channel_of j w1 = chan_act (channel_of j w) (Send x)).
    { unfold w1, channel_of, does, act. cbn [dw_world w_mounts]. unfold set_chan. rewrite Nat.eqb_refl. reflexivity. }
    assert (Ea : chan_act (channel_of j w) (Send x) = Chan None (ch_queue (channel_of j w) ++ [x]) (ch_waiting (channel_of j w)) (ch_senders (channel_of j w))
                   (ch_receiver (channel_of j w)) (ch_accepted (channel_of j w) ++ [x]) (ch_lost (channel_of j w))).
    { destruct (channel_of j w) as [cap q wt sn rc ac lo]. cbn [ch_cap ch_receiver ch_senders] in *. subst cap rc. destruct sn; [congruence|]. reflexivity. }
    split; [rewrite Ec, Ea; reflexivity|]. split; [|exact U].
    destruct V as (V1 & V2). split; [|split].
    - intros i Ni. unfold w1, does, act. cbn [dw_world w_mounts]. unfold set_chan. destruct (Nat.eqb_spec i j); [congruence | apply V1].
    - exists []. fold (channel_of j w1). rewrite Ec, Ea. cbn [ch_queue ch_waiting]. split; [reflexivity|]. exact (V1 j).
    - exact V2.
  Qed.

  Lemma does_ok : forall a w, driver_ok w -> driver_ok (does a w).
  Proof. intros a w H. apply (ok_same w); auto. Qed.

  (** ** A processor for telemetry data *)

  Lemma put_tele : forall k n d w d' w' path j md ps ss p path0 t,
    let i := tp_receiver t in
    let R := fun r => r = MountReceiver j \/ r = QueueReceiver i in
    driver_ok w -> (forall r, R r -> nobody_else r w) ->
    inside_one R (dr_processors d) path (PAttached (Some j) (Mount md ps ss)) -> Forall (fun p => ~ held R p) ps ->
    usable (channel_of j w) -> located (QueueReceiver i) p path0 t ->
    iterates k n d (does (handle_put_processor j p) w) d' w' ->
    exists css es t',
      length css = n /\ Forall (fun cs => (length cs <= 1)%nat) css /\ moved (dw_commands w) (dw_commands w') (concat css)
      /\ map (@en_strategy X) es = strategies (dr_strategy d) (dr_paused d) css
      /\ chronicle k (w_clock (dw_world w)) t es t' (w_clock (dw_world w'))
      /\ Forall (fun e => (length (en_messages e) <= 1000)%nat) es
      /\ moved (queue_of i w) (queue_of i w') (flat_map (@en_messages X) es)
      /\ (es = [] -> t' = t /\ ch_queue (channel_of j w') = ch_queue (channel_of j w) ++ [MProcessor p])
      /\ (es <> [] -> among (QueueReceiver i) (dr_processors d')
             (path ++ Level (md_name md) (md_limit md) :: Position (length ps + length (put_processors (ch_queue (channel_of j w)))) :: path0) t'
           /\ nobody_else (QueueReceiver i) w')
      /\ (attentive i t (dw_world w) -> attentive i t' (dw_world w')
           /\ exists rest, flat_map (@en_messages X) es = firstn (1000 * length es) (ch_queue (queue_of i w)) ++ rest).
  Proof.
    intros k n d w d' w' path j md ps ss p path0 t i R Ok0 N I F Us L H.
    destruct (sent R j (MProcessor p) w ltac:(left; reflexivity) Us N) as (Q & V & U).
    exact (tele_arrives HX HY k n d _ d' w' path j md ps ss p path0 t _ [] I F (does_ok _ _ Ok0) U V Q L H).
  Qed.

  (** ** Any processor *)

  Lemma put_any : forall (S : receiver -> Prop) k n d w d' w' path j md ps ss p,
    let R := fun r => r = MountReceiver j \/ S r in
    driver_ok w -> (forall r, R r -> nobody_else r w) ->
    inside_one R (dr_processors d) path (PAttached (Some j) (Mount md ps ss)) -> Forall (fun p => ~ held R p) ps ->
    usable (channel_of j w) -> ~ S (MountReceiver j) ->
    iterates k n d (does (handle_put_processor j p) w) d' w' ->
    exists css,
      length css = n /\ Forall (fun cs => (length cs <= 1)%nat) css /\ moved (dw_commands w) (dw_commands w') (concat css)
      /\ (strategies (dr_strategy d) (dr_paused d) css = [] -> ch_queue (channel_of j w') = ch_queue (channel_of j w) ++ [MProcessor p])
      /\ (strategies (dr_strategy d) (dr_paused d) css <> [] -> exists p', evolves k p p'
           /\ inside_one S (dr_processors d') (path ++ [Level (md_name md) (md_limit md); Position (length ps + length (put_processors (ch_queue (channel_of j w))))]) p'
           /\ driver_ok w' /\ forall r, S r -> nobody_else r w').
  Proof.
    intros S k n d w d' w' path j md ps ss p R Ok0 N I F Us NS H.
    assert (Rj : R (MountReceiver j)) by (left; reflexivity). assert (SR : forall r, S r -> R r) by (intros r Hr; right; exact Hr).
    destruct (sent R j (MProcessor p) w Rj Us N) as (Q & V & U).
    set (queue := ch_queue (channel_of j w)) in *. set (w1 := does (handle_put_processor j p) w) in *.
    assert (W : waiting R j path md (length ps) (length ss) queue (MProcessor p) d w1).
    { exists ps, ss. split; [exact I|]. split; [reflexivity|]. split; [reflexivity|]. split; [exact F|]. split; [exact V|]. split; [exact (does_ok _ _ Ok0) | exact U]. }
    destruct (waiting_iterates HX HY R j Rj _ _ _ _ _ _ _ _ _ _ _ _ H W) as [(css & A1 & A2 & A3 & A4 & A5 & A6 & A6' & A7 & A8)
            |(css & da & wa & db & wb & n2 & A1 & A2 & A3 & A4 & A5 & A5' & A6 & A7 & A8 & A9)].
    - exists css. split; [exact A1|]. split; [exact A2|]. split; [exact A3|]. split; [|congruence].
      intros _. unfold channel_of at 1. rewrite A6'. exact Q.
    - destruct A8 as (ps1 & ss1 & rest & v1 & m & m' & o & v2 & r & B1 & B2 & B3 & B4 & B5 & B6 & B7 & B8 & B9 & B10 & B11 & B12 & B13 & B14).
      destruct (put_place queue (MProcessor p) p ps1 rest eq_refl) as (Pl & Pn). rewrite Pl in B7.
      rewrite Forall_app in B4. destruct B4 as (Fq & Fr).
      set (pos := (length ps + length (put_processors queue))%nat).
      assert (Fs : forall l : list (processor X Y), Forall (fun p => ~ held R p) l -> Forall (fun p => ~ held S p) l).
      { intros l Fl. eapply Forall_impl; [|exact Fl]. intros x Hx (r0 & Hr0 & Hh). apply Hx. exists r0. auto. }
      assert (Im : inside S (PMount (Mount md ((ps1 ++ put_processors queue) ++ p :: put_processors rest)
                     (ss1 ++ put_snapshooters (queue ++ MProcessor p :: rest)))) [Level (md_name md) (md_limit md); Position pos] p).
      { constructor. replace pos with (length (ps1 ++ put_processors queue)) by (rewrite Pn; unfold pos; congruence). constructor; [| constructor |].
        - apply Forall_app. split; [apply Fs, B3 | apply Fs, put_unheld_all, Fq].
        - apply Fs, put_unheld_all, Fr. }
      assert (Vs : forall v, valid (clear R) v -> valid (X := X) (Y := Y) (clear S) v).
      { intros v Vv. apply clear_iff. intros r0 Hr0. apply (proj1 (clear_iff R v) Vv). auto. }
      destruct (through HX HY S (clear S) (clear S) (clear_kept S) (clear_kept S) 1000 (dr_strategy db) k _ _ _ _ _ _ _ _ B7 Im (clear_turns S _ _ _ _) (Vs _ B6))
        as (p1 & (m1 & u1 & o1 & u2 & _ & _ & Ep & _ & _) & I1).
      assert (Ip : inside S (PAttached r m') [Level (md_name md) (md_limit md); Position pos] p1).
      { inversion I1; subst. constructor; [|assumption]. intros j0 Ej. destruct B11 as [-> | ->]; [injection Ej as <-; exact NS | discriminate Ej]. }
      assert (Io := proj2 (inside_trans S) _ _ _ (proj2 (inside_sub R S SR) _ _ _ B10) _ _ Ip).
      assert (Nb : forall r0, S r0 -> nobody_else r0 wb).
      { intros r0 Hr0. apply (proj2 (nobody_iff R wb)); [auto | apply SR, Hr0]. }
      destruct (stays HX HY S k n2 db wb d' w' _ _ A9 B12 Nb Io) as (css2 & p2 & C1 & C2 & C3 & C4 & C5 & C6 & C7 & C8).
      exists (css ++ css2). split; [rewrite app_length; lia|]. split; [apply Forall_app; auto|].
      split; [rewrite concat_app; eapply moved_trans; eassumption|]. split; [rewrite A4; discriminate|]. intros _. exists p2.
      split; [eapply ev_collected; [exists m1; exact Ep | exact C4]|]. auto.
  Qed.

  (** ** A snapshooter *)

  Section Shooter.
    Context (HA : parts_append X) (HB : forall u, appends (user_proc_put Y u)).

    Lemma names_app : forall a b, names_on (a ++ b) = names_on a ++ names_on b.
    Proof. intros. unfold names_on. apply flat_map_app. Qed.

    Lemma nth_at : forall A (before : list A) x after, nth_error (before ++ x :: after) (length before) = Some x.
    Proof. intros A before x after. induction before; auto. Qed.

    (** Below a processor that is somewhere in the tree *)
    Lemma inside_shows : forall R,
      (forall p path q, inside (X := X) (Y := Y) R p path q -> forall path2 names gs s, processor_shows q path2 names gs s ->
         exists gs1, processor_shows p (path ++ path2) (names_on path ++ names) (gs1 ++ gs) s /\ map gu_limit gs1 = limits_on path)
      /\ (forall ps path q, inside_one (X := X) (Y := Y) R ps path q -> forall path2 names gs s, processor_shows q path2 names gs s ->
         exists i rest gs1 p, path = Position i :: rest /\ nth_error ps i = Some p
           /\ processor_shows p (rest ++ path2) (names_on path ++ names) (gs1 ++ gs) s /\ map gu_limit gs1 = limits_on path).
    Proof.
      intros R.
      set (P := fun (p : processor X Y) path (q : processor X Y) => forall path2 names gs s, processor_shows (X := X) (Y := Y) q path2 names gs s ->
         exists gs1, processor_shows p (path ++ path2) (names_on path ++ names) (gs1 ++ gs) s /\ map gu_limit gs1 = limits_on path).
      set (Q := fun (ps : list (processor X Y)) path (q : processor X Y) => forall path2 names gs s, processor_shows (X := X) (Y := Y) q path2 names gs s ->
         exists i rest gs1 p, path = Position i :: rest /\ nth_error ps i = Some p
           /\ processor_shows p (rest ++ path2) (names_on path ++ names) (gs1 ++ gs) s /\ map gu_limit gs1 = limits_on path).
      assert (A : forall p path q, inside (X := X) (Y := Y) R p path q -> P p path q).
      { apply (inside_mut X Y R P Q); unfold P, Q.
        - intros q path2 names gs s H. exists []. split; [exact H | reflexivity].
        - intros d ps ss path q _ IH path2 names gs s H. destruct (IH _ _ _ _ H) as (i & rest & gs1 & p & -> & Hn & Hs & Hl).
          exists (mount_guard d :: gs1). split; [|cbn [map]; rewrite Hl; reflexivity].
          cbn [app names_on flat_map]. rewrite <- app_assoc. constructor. eapply sh_below; [exact Hn | exact Hs].
        - intros i0 d ps ss path q _ _ IH path2 names gs s H. destruct (IH _ _ _ _ H) as (i & rest & gs1 & p & -> & Hn & Hs & Hl).
          exists (mount_guard d :: gs1). split; [|cbn [map]; rewrite Hl; reflexivity].
          cbn [app names_on flat_map]. rewrite <- app_assoc. constructor. eapply sh_below; [exact Hn | exact Hs].
        - intros before p after path q _ _ IH _ path2 names gs s H. destruct (IH _ _ _ _ H) as (gs1 & Hs & Hl).
          exists (length before), path, gs1, p. split; [reflexivity|]. split; [apply nth_at|]. auto. }
      split; [exact A|]. intros ps path q I path2 names gs s H. inversion I; subst.
      match goal with Hi : inside R _ _ _ |- _ => destruct (A _ _ _ Hi _ _ _ _ H) as (gs1 & Hs & Hl) end.
      do 4 eexists. split; [reflexivity|]. split; [apply nth_at|]. split; [exact Hs | exact Hl].
    Qed.

    Lemma put_shooter : forall k n d w d' w' path j md ps ss s,
      let R := fun r => r = MountReceiver j in
      driver_ok w -> nobody_else (MountReceiver j) w ->
      inside_one R (dr_processors d) path (PAttached (Some j) (Mount md ps ss)) -> Forall (fun p => ~ holds (MountReceiver j) p) ps ->
      usable (channel_of j w) ->
      iterates k n d (does (handle_put_snapshooter j s) w) d' w' ->
      exists css,
        length css = n /\ Forall (fun cs => (length cs <= 1)%nat) css /\ moved (dw_commands w) (dw_commands w') (concat css)
        /\ (strategies (dr_strategy d) (dr_paused d) css = [] -> ch_queue (channel_of j w') = ch_queue (channel_of j w) ++ [MSnapshooter s])
        /\ (strategies (dr_strategy d) (dr_paused d) css <> [] -> exists s' gs,
             leaf_life k (w_clock (dw_world w)) (LShown s) [] (LShown s') (w_clock (dw_world w'))
             /\ map gu_limit gs = limits_on path ++ [md_limit md]
             /\ driver_shows d' (path ++ [Level (md_name md) (md_limit md); Position (length ss + length (put_snapshooters (ch_queue (channel_of j w))))])
                  (opt_list (dr_name d) ++ names_on path ++ opt_list (md_name md)) gs s').
    Proof.
      intros k n d w d' w' path j md ps ss s R Ok0 N I F Us H.
      assert (Rj : R (MountReceiver j)) by reflexivity.
      destruct (sent R j (MSnapshooter s) w Rj Us ltac:(intros r ->; exact N)) as (Q & V & U).
      set (queue := ch_queue (channel_of j w)) in *. set (w1 := does (handle_put_snapshooter j s) w) in *.
      assert (W : waiting R j path md (length ps) (length ss) queue (MSnapshooter s) d w1).
      { exists ps, ss. split; [exact I|]. split; [reflexivity|]. split; [reflexivity|]. split; [|split; [exact V|split; [exact (does_ok _ _ Ok0) | exact U]]].
        eapply Forall_impl; [|exact F]. intros p Hp (r & -> & Hh). exact (Hp Hh). }
      destruct (waiting_iterates HX HY R j Rj _ _ _ _ _ _ _ _ _ _ _ _ H W) as [(css & A1 & A2 & A3 & A4 & A5 & A6 & A6' & A7 & A8)
              |(css & da & wa & db & wb & n2 & A1 & A2 & A3 & A4 & A5 & A5' & A6 & A7 & A8 & A9)].
      - exists css. split; [exact A1|]. split; [exact A2|]. split; [exact A3|]. split; [|congruence].
        intros _. unfold channel_of at 1. rewrite A6'. exact Q.
      - destruct A8 as (ps1 & ss1 & rest & v1 & m & m' & o & v2 & r & B1 & B2 & B3 & B4 & B5 & B6 & B7 & B8 & B9 & B10 & B11 & B12 & B13 & B14).
        destruct (put_shown queue (MSnapshooter s) s ss1 rest eq_refl) as (Pl & Pn). rewrite Pl in B7.
        set (pos := (length ss + length (put_snapshooters queue))%nat).
        assert (Sh : processor_shows (PMount (Mount md (ps1 ++ put_processors (queue ++ MSnapshooter s :: rest)) ((ss1 ++ put_snapshooters queue) ++ s :: put_snapshooters rest)))
                       [Level (md_name md) (md_limit md); Position pos] (opt_list (md_name md)) [mount_guard md] s).
        { constructor. apply sh_here. replace pos with (length (ss1 ++ put_snapshooters queue)) by (rewrite Pn; unfold pos; congruence). apply nth_at. }
        destruct (process_shows m _ _ _ _ _ Sh _ _ _ _ _ _ _ B7) as (gs1 & Sh1 & Al1).
        assert (Sh2 : processor_shows (PAttached r m') [Level (md_name md) (md_limit md); Position pos] (opt_list (md_name md)) gs1 s).
        { inversion Sh1; subst. constructor. assumption. }
        destruct (proj2 (inside_shows R) _ _ _ B10 _ _ _ _ Sh2) as (i & path1 & gs2 & p & Ep & Hn & Hs & Hl).
        assert (Ds : driver_shows db (path ++ [Level (md_name md) (md_limit md); Position pos]) (opt_list (dr_name db) ++ names_on path ++ opt_list (md_name md)) (gs2 ++ gs1) s).
        { rewrite Ep. cbn [app]. rewrite Ep in Hs. eapply sh_processor; [exact Hn|]. exact Hs. }
        destruct (iterates_shows HX HY HA HB k n2 db wb d' w' _ _ _ _ A9 Ds) as (s' & gs' & Li & Ds' & Al).
        assert (Nb : forall r0, R r0 -> nobody_else r0 wb) by (intros r0 Hr0; apply (proj2 (nobody_iff R wb)); auto).
        destruct (stays HX HY R k n2 db wb d' w' _ _ A9 B12 Nb B10) as (css2 & p2 & C1 & C2 & C3 & C4 & C5 & C6 & C7 & C8).
        exists (css ++ css2). split; [rewrite app_length; lia|]. split; [apply Forall_app; auto|].
        split; [rewrite concat_app; eapply moved_trans; eassumption|]. split; [rewrite A4; discriminate|]. intros _. exists s', gs'.
        assert (Lb : later (w_clock (dw_world w)) (w_clock (dw_world wb))).
        { eapply later_trans; [exact A6|]. destruct B5 as (_ & L1 & _). eapply later_trans; [exact L1|]. destruct B8 as (_ & L2 & _).
          eapply later_trans; [|exact L2]. exact (processor_process_wticks HX HY _ _ _ _ _ _ _ _ B7). }
        split; [eapply (life_app _ _ _ [] _ _ (ll_end _ _ _ _ Lb)); exact Li|]. split.
        + assert (Lg : forall a b, alike a b -> map gu_limit b = map gu_limit a).
          { intros a b Hab. induction Hab as [|x y a b (Hx & _) _ IHab]; [reflexivity|]. cbn [map]. congruence. }
          rewrite (Lg _ _ Al), map_app, Hl, (Lg _ _ Al1). reflexivity.
        + assert (Nn : dr_name db = dr_name d) by congruence. rewrite Nn in Ds'. exact Ds'.
    Qed.
  End Shooter.
End Put.
