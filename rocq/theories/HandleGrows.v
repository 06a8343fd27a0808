(** Processors that stay where they are in a driver; attached mounts that grow. *)
From Coq Require Import ZArith Bool String List Lia.
From Verif Require Import Base SpecRun MonadFacts SpecClock ClockProofs ModelObservation ModelSnapshot ModelInstrument ModelTree
  ModelChannel ModelProcessor ModelDriver TreeEqs TreeInd SpecQueue QueueProofs SpecCollect WorldClockProofs CollectProofs GroupProofs SpecDriver
  DriverProofs DriverLoopProofs DriverMetricsProofs DriverShapeProofs SpecChronicle ChronicleProofs ChronicleDriver
  ModelHandle SpecHandle HandleAway HandleProofs HandleDriver HandleArrives.
Import ListNotations.
Open Scope Z_scope.

Section Grows.
  Context {X : ext} {Y : pext}.
  Context (HX : parts_tick X) (HY : processors_tick Y).
  Implicit Types (d : driver X Y) (w : dworld X Y) (p q : processor X Y).

  Lemma asked_evolves : forall k c p p' c', asked_or_not (X := X) (Y := Y) k c p p' c' -> evolves k p p'.
  Proof.
    intros k c p p' c' [(-> & _)|(de & i & i' & c0 & c1 & _ & E & _)]; [apply ev_same|]. eapply ev_asked; [exact E | apply ev_same].
  Qed.

  (** ** Any processor *)

  Lemma stays : forall (R : receiver -> Prop) k n d w d' w' path q, iterates k n d w d' w' -> driver_ok w -> (forall r, R r -> nobody_else r w) ->
    inside_one R (dr_processors d) path q ->
    exists css q', length css = n /\ Forall (fun cs => (length cs <= 1)%nat) css /\ moved (dw_commands w) (dw_commands w') (concat css)
      /\ evolves k q q' /\ inside_one R (dr_processors d') path q' /\ driver_ok w' /\ (forall r, R r -> nobody_else r w')
      /\ dr_name d' = dr_name d.
  Proof.
    intros R k n d w d' w' path q H. revert q. induction H as [d w|n d w d1 w1 d2 w2 E H IH]; intros q Ok0 N I.
    - exists [], q. split; [reflexivity|]. split; [constructor|]. split; [apply moved_refl|]. split; [apply ev_same|]. auto.
    - destruct (proj1 (nobody_iff R w) N) as (V & U).
      destruct (iteration_through HX HY R (clear R) (clear R) (clear_kept R) (clear_kept R) k d w d1 w1 path q Ok0 U V I) as
        (cs & qm & c & H1 & H2 & H3 & H4 & H5 & _ & _ & H8 & H9); [intros; apply clear_turns | exact E|]. cbv zeta in H9.
      apply asked_evolves in H8.
      assert (S : exists q1, evolves k q q1 /\ inside_one R (dr_processors d1) path q1 /\ forall r, R r -> nobody_else r w1).
      { destruct (dr_paused d1).
        - destruct H9 as (Ew & I1). exists qm. split; [exact H8|]. split; [exact I1|].
          apply nobody_iff. split; [rewrite Ew; exact V | exact H4].
        - destruct H9 as (q1 & (m & v1 & o & v2 & _ & _ & Ep & _ & V2) & I1). exists q1.
          split; [eapply evolves_trans; [exact H8|]; eapply ev_collected; [exists m; exact Ep | apply ev_same]|].
          split; [exact I1|]. apply nobody_iff. auto. }
      destruct S as (q1 & Ev & I1 & N1). destruct (IH q1 H3 N1 I1) as (css & q' & A1 & A2 & A3 & A4 & A5 & A6 & A7 & A8).
      exists (cs :: css), q'. split; [cbn; congruence|]. split; [constructor; assumption|]. split; [cbn [concat]; eapply moved_trans; eassumption|].
      split; [eapply evolves_trans; eassumption|]. split; [exact A5|]. split; [exact A6|]. split; [exact A7 | congruence].
  Qed.

  (** ** Attached mounts *)

  Section Mount.
    Variable j : nat.
    Let R : receiver -> Prop := fun r => r = MountReceiver j.

    Local Notation node := (listens j).

    Definition grows k (q : processor X Y) (v : world X Y) q' (v' : world X Y) xs : Prop := forall r md ps ss,
      q = PAttached r (Mount md ps ss) -> node r ps v ->
      exists r' md' ps' ss', q' = PAttached r' (Mount md' ps' ss') /\ node r' ps' v'
        /\ md_name md' = md_name md /\ md_limit md' = md_limit md
        /\ moved (w_mounts v j) (w_mounts v' j) xs
        /\ Forall2 (evolves k) (ps ++ put_processors xs) ps' /\ Forall2 (snapshooter_evolves k) (ss ++ put_snapshooters xs) ss'.

    Lemma grows_refl : forall k q v, grows k q v q v [].
    Proof.
      intros k q v r md ps ss -> N. exists r, md, ps, ss. split; [reflexivity|]. split; [exact N|]. split; [reflexivity|]. split; [reflexivity|].
      split; [apply moved_refl|]. cbn [put_processors put_snapshooters flat_map]. rewrite !app_nil_r. split; apply forall2_refl; constructor.
    Qed.

    Lemma grows_trans : forall k q v q1 v1 q2 v2 xs ys, grows k q v q1 v1 xs -> grows k q1 v1 q2 v2 ys -> grows k q v q2 v2 (xs ++ ys).
    Proof.
      intros k q v q1 v1 q2 v2 xs ys G1 G2 r md ps ss Eq N.
      destruct (G1 _ _ _ _ Eq N) as (r1 & md1 & ps1 & ss1 & E1 & N1 & Nm1 & Nl1 & M1 & F1 & S1).
      destruct (G2 _ _ _ _ E1 N1) as (r2 & md2 & ps2 & ss2 & E2 & N2 & Nm2 & Nl2 & M2 & F2 & S2).
      exists r2, md2, ps2, ss2. split; [exact E2|]. split; [exact N2|]. split; [congruence|]. split; [congruence|].
      split; [eapply moved_trans; eassumption|].
      unfold put_processors, put_snapshooters in *. rewrite !flat_map_app, !app_assoc. split.
      - eapply forall2_trans; [apply evolves_trans | | exact F2]. apply forall2_app_l; [apply ev_same | exact F1].
      - eapply forall2_trans; [apply snap_evolves_trans | | exact S2]. apply forall2_app_l; [apply sv_same | exact S1].
    Qed.

    Lemma grows_world : forall k q (v v' : world X Y), alone R v v' -> runs v v' -> grows k q v q v' [].
    Proof.
      intros k q v v' A Rn r md ps ss -> (N1 & N2 & N3). exists r, md, ps, ss.
      assert (U : untouched (MountReceiver j) v v') by (apply A; reflexivity).
      split; [reflexivity|]. split.
      - split; [exact N1|]. destruct Rn as (_ & Rn). destruct (Rn j) as (h & Eh). rewrite Eh. split; [apply run_ok, N2|].
        destruct N3 as [->|(-> & Ex)]; [auto | right; split; [reflexivity | apply exhausted_run, Ex]].
      - split; [reflexivity|]. split; [reflexivity|]. split; [exact (keeps_mount_moved _ _ _ U)|].
        cbn [put_processors put_snapshooters flat_map]. rewrite !app_nil_r. split; apply forall2_refl; constructor.
    Qed.

    Lemma grows_asked : forall k c q q' c' (v : world X Y), asked_or_not k c q q' c' -> forall c1, grows k q v q' (World c1 (w_queues v) (w_mounts v) (w_sched v)) [].
    Proof.
      intros k c q q' c' v A c1 r md ps ss -> N. cbn [put_processors put_snapshooters flat_map]. rewrite !app_nil_r.
      destruct A as [(-> & _)|(de & i & i' & ca & cb & _ & E & _)].
      - exists r, md, ps, ss. split; [reflexivity|]. split; [exact N|]. split; [reflexivity|]. split; [reflexivity|]. split; [apply moved_refl|].
        split; apply forall2_refl; constructor.
      - assert (E' := E). change (wrap (PAttached r) (mount_put (Mount md ps ss) de i) k ca = Ok (q', i') cb) in E. unfold wrap in E.
        apply bind_ok in E. destruct E as ([m1 i1] & c2 & E1 & E). injection E as <- _ _.
        assert (Mh := proj2 (put_keeps_receivers (MountReceiver j)) _ _ _ _ _ _ _ _ E1). apply mount_put_evolves in E1. destruct E1 as (ps' & ss' & -> & F1 & F2).
        exists r, md, ps', ss'. split; [reflexivity|]. split.
        + destruct N as (N1 & N2 & N3). split; [|auto]. rewrite !mount_holds_iff in Mh. apply Forall_forall. intros p Ip (r0 & -> & Hp).
          assert (Ex : Exists (holds (MountReceiver j)) ps) by (apply Mh, Exists_exists; eauto). apply Exists_exists in Ex. destruct Ex as (p0 & I0 & H0).
          rewrite Forall_forall in N1. apply (N1 _ I0). exists (MountReceiver j). split; [reflexivity | exact H0].
        + split; [reflexivity|]. split; [reflexivity|]. split; [apply moved_refl|]. auto.
    Qed.

    Lemma collected_mount : forall n k md ps ss max s (v : world X Y) p' o v',
      processor_process n (PMount (Mount md ps ss)) max s k v = Ok (p', o) v' -> valid (clear R) v -> Forall (fun p => ~ held R p) ps ->
      exists md' ps', p' = PMount (Mount md' ps' ss) /\ Forall2 (evolves k) ps ps' /\ runs v v' /\ Forall (fun p => ~ held R p) ps'
        /\ untouched (MountReceiver j) v v' /\ md_name md' = md_name md /\ md_limit md' = md_limit md.
    Proof.
      intros n k md ps ss max s v p' o v' E V F.
      assert (Nh : ~ held R (PMount (Mount md ps ss))).
      { intros (r & Hr & H). apply not_exists in F. apply F. apply (mheld_iff R md ps ss). exists r. auto. }
      destruct (aways_process R (clear R) (clear_kept R) _ _ _ _ Nh _ _ _ _ E V) as (_ & U & N1). cbn [fst] in N1.
      assert (C : collects k (PMount (Mount md ps ss)) max s v p' o v') by (exists n; exact E).
      assert (Rn := wruns_process _ _ _ _ _ _ _ _ E). apply mount_collected in C. destruct C as (ps' & os & w1 & md' & H1 & -> & Hd & _ & _).
      exists md', ps'. split; [reflexivity|]. split; [exact (each_evolves _ _ _ _ _ _ _ _ H1)|]. split; [exact Rn|]. split.
      - apply not_exists. intros Ex. apply N1. apply (mheld_iff R md' ps' ss) in Ex. exact Ex.
      - split; [apply U; reflexivity|]. destruct Hd as [->| ->]; auto.
    Qed.

    Lemma grows_collected : forall n k r md ps ss max s (v : world X Y) p' o v',
      processor_process n (PAttached r (Mount md ps ss)) max s k v = Ok (p', o) v' -> valid (clear R) v -> node r ps v ->
      exists xs, grows k (PAttached r (Mount md ps ss)) v p' v' xs /\ exists new, xs = ch_queue (w_mounts v j) ++ new.
    Proof.
      intros n k r md ps ss max s v p' o v' E V N. destruct n as [|n]; [discriminate E|].
      cbn [processor_process] in E. apply bind_ok in E. destruct E as ([r1 m1] & v1 & E1 & E).
      apply bind_ok in E. destruct E as ([m2 o2] & v2 & E2 & E). injection E as <- <- <-. destruct N as (N1 & N2 & N3).
      destruct N3 as [->|(-> & Ex)]; cbn [attached_take] in E1.
      - apply bind_ok in E1. destruct E1 as ([m3 b] & w5 & E3 & E1). injection E1 as <- <- <-.
        assert (R3 := wruns_drain _ _ _ _ _ _ _ E3).
        destruct (drain_clear R j _ _ _ _ _ _ _ E3 V) as (ys & Hy & Fy & V5 & _).
        apply drain_spec in E3. destruct E3 as (xs & H1 & H2 & H3 & H4). rewrite mount_add_list in H1, Hy. rewrite Hy in H1.
        injection H1 as Hp Hs. apply app_inv_head in Hp. apply app_inv_head in Hs.
        assert (E5 : processor_process (S n) (PMount m3) max s k w5 = Ok (PMount m2, o2) v2).
        { cbn [processor_process]. unfold bind at 1. rewrite E2. reflexivity. }
        subst m3. rewrite Hp, Hs in E5.
        destruct (collected_mount _ _ _ _ _ _ _ _ _ _ _ E5 V5) as (md' & ps' & Em & F1 & R1 & N4 & U & Nm & Nl).
        { apply Forall_app. split; [exact N1|]. rewrite <- Hp. apply put_unheld_all. exact Fy. }
        injection Em as ->. exists xs. split.
        + intros r0 md0 ps0 ss0 Eq _. injection Eq as <- <- <- <-.
          exists (if b then Some j else None), md', ps', (ss ++ put_snapshooters xs). split; [reflexivity|]. split.
          * split; [exact N4|]. assert (Ok5 : chan_ok (w_mounts w5 j)) by (destruct R3 as (_ & R3); destruct (R3 j) as (h & ->); apply run_ok, N2).
            destruct R1 as (_ & R1). destruct (R1 j) as (h & Eh). rewrite Eh. split; [apply run_ok, Ok5|]. destruct b; [auto|]. right. split; [reflexivity|].
            apply exhausted_run. repeat split; auto.
          * split; [exact Nm|]. split; [exact Nl|]. split.
            { rewrite <- (app_nil_r xs). eapply moved_trans; [exact H2 | exact (keeps_mount_moved _ _ _ U)]. }
            split; [exact F1 | apply forall2_refl; constructor].
        + destruct (moved_all _ _ _ _ H2 H3) as (new & _ & H6). eauto.
      - unfold ret in E1. assert (Ee : r1 = None /\ m1 = Mount md ps ss /\ v1 = v) by (repeat split; congruence). destruct Ee as (-> & -> & ->). clear E1.
        assert (E5 : processor_process (S n) (PMount (Mount md ps ss)) max s k v = Ok (PMount m2, o2) v2).
        { cbn [processor_process]. unfold bind at 1. rewrite E2. reflexivity. }
        destruct (collected_mount _ _ _ _ _ _ _ _ _ _ _ E5 V N1) as (md' & ps' & Em & F1 & R1 & N4 & U & Nm & Nl). injection Em as ->.
        exists []. split.
        + intros r0 md0 ps0 ss0 Eq _. injection Eq as <- <- <- <-. exists None, md', ps', ss. split; [reflexivity|]. split.
          * split; [exact N4|]. destruct R1 as (_ & R1). destruct (R1 j) as (h & Eh). rewrite Eh. split; [apply run_ok, N2|]. right. split; [reflexivity|].
            apply exhausted_run, Ex.
          * split; [exact Nm|]. split; [exact Nl|]. split; [exact (keeps_mount_moved _ _ _ U)|].
            cbn [put_processors put_snapshooters flat_map]. rewrite !app_nil_r. split; [exact F1 | apply forall2_refl; constructor].
        + exists []. destruct Ex as (_ & Q & _). rewrite Q. reflexivity.
    Qed.

    Lemma moved_prefix : forall A (c c1 c2 : chan A) xs ys, moved c c1 xs -> moved c1 c2 ys -> (exists new, ys = ch_queue c1 ++ new) ->
      exists new, xs ++ ys = ch_queue c ++ new.
    Proof.
      intros A c c1 c2 xs ys (n1 & A1 & Q1) (n2 & A2 & Q2) (new & ->). exists (n1 ++ new). rewrite app_assoc, <- Q1, <- app_assoc. reflexivity.
    Qed.

    (** Any number of iterations *)
    Lemma mount_iterates : forall k n d w d' w' path r md ps ss, iterates k n d w d' w' -> driver_ok w -> nobody_else (MountReceiver j) w ->
      inside_one R (dr_processors d) path (PAttached r (Mount md ps ss)) -> node r ps (dw_world w) ->
      exists css xs r' md' ps' ss',
        length css = n /\ Forall (fun cs => (length cs <= 1)%nat) css /\ moved (dw_commands w) (dw_commands w') (concat css)
        /\ inside_one R (dr_processors d') path (PAttached r' (Mount md' ps' ss')) /\ node r' ps' (dw_world w')
        /\ md_name md' = md_name md /\ md_limit md' = md_limit md
        /\ moved (channel_of j w) (channel_of j w') xs
        /\ Forall2 (evolves k) (ps ++ put_processors xs) ps' /\ Forall2 (snapshooter_evolves k) (ss ++ put_snapshooters xs) ss'
        /\ (strategies (dr_strategy d) (dr_paused d) css <> [] -> exists new, xs = ch_queue (channel_of j w) ++ new)
        /\ driver_ok w' /\ nobody_else (MountReceiver j) w'.
    Proof.
      intros k n d w d' w' path r md ps ss H. revert r md ps ss. induction H as [d w|n d w d1 w1 d2 w2 E H IH]; intros r md ps ss Ok0 N I Nd.
      - exists [], [], r, md, ps, ss. split; [reflexivity|]. split; [constructor|]. split; [apply moved_refl|]. split; [exact I|]. split; [exact Nd|].
        split; [reflexivity|]. split; [reflexivity|]. split; [apply moved_refl|].
        cbn [put_processors put_snapshooters flat_map strategies]. rewrite !app_nil_r. split; [apply forall2_refl; constructor|].
        split; [apply forall2_refl; constructor|]. split; [congruence|]. auto.
      - assert (NR : forall r, R r -> nobody_else r w) by (intros r0 ->; exact N).
        destruct (proj1 (nobody_iff R w) NR) as (V & U).
        destruct (iteration_through HX HY R (clear R) (clear R) (clear_kept R) (clear_kept R) k d w d1 w1 path _ Ok0 U V I) as
          (cs & qm & c & H1 & H2 & H3 & H4 & H5 & H6 & H7 & H8 & H9); [intros; apply clear_turns | exact E|]. cbv zeta in H9.
        assert (Gm := grows_asked k _ _ _ _ (dw_world w) H8 c). set (vm := World c _ _ _) in Gm, H9.
        assert (S : exists q1 xs, inside_one R (dr_processors d1) path q1 /\ grows k (PAttached r (Mount md ps ss)) (dw_world w) q1 (dw_world w1) xs
                      /\ valid (clear R) (dw_world w1) /\ (dr_paused d1 = false -> exists new, xs = ch_queue (channel_of j w) ++ new)).
        { destruct (dr_paused d1) eqn:P.
          - destruct H9 as (Ew & I1). exists qm, []. rewrite Ew. split; [exact I1|]. split; [exact Gm|]. split; [exact V | discriminate].
          - destruct H9 as (q1 & (m & v1 & o & v2 & S1 & V1 & Ep & S2 & V2) & I1).
            destruct (Gm _ _ _ _ eq_refl Nd) as (rm & mdm & psm & ssm & -> & Nm & _).
            assert (G1 := grows_world k (PAttached rm (Mount mdm psm ssm)) _ _ (proj1 S1) (proj2 (proj2 S1))).
            destruct (G1 _ _ _ _ eq_refl Nm) as (r1 & md1 & ps1 & ss1 & E1 & N1 & _). injection E1 as <- <- <- <-.
            destruct (grows_collected _ _ _ _ _ _ _ _ _ _ _ _ Ep V1 N1) as (xs & G2 & Pr).
            assert (G3 := grows_world k q1 _ _ (proj1 S2) (proj2 (proj2 S2))).
            exists q1, xs. split; [exact I1|]. split; [|split; [exact V2|]].
            + assert (G4 := grows_trans _ _ _ _ _ _ _ _ _ (grows_trans _ _ _ _ _ _ _ _ _ (grows_trans _ _ _ _ _ _ _ _ _ Gm G1) G2) G3).
              cbn [app] in G4. rewrite app_nil_r in G4. exact G4.
            + intros _. assert (G4 := grows_trans _ _ _ _ _ _ _ _ _ Gm G1). destruct (G4 _ _ _ _ eq_refl Nd) as (? & ? & ? & ? & _ & _ & _ & _ & M4 & _).
              destruct (G2 _ _ _ _ eq_refl N1) as (? & ? & ? & ? & _ & _ & _ & _ & M5 & _).
              destruct (moved_prefix _ _ _ _ _ _ M4 M5 Pr) as (new & En). cbn [app] in En. exists new. exact En. }
        destruct S as (q1 & xs & I1 & G & V1 & Pr). destruct (G _ _ _ _ eq_refl Nd) as (r1 & md1 & ps1 & ss1 & -> & N1 & Nm1 & Nl1 & M1 & F1 & S1).
        assert (Nb : nobody_else (MountReceiver j) w1) by (apply (proj2 (nobody_iff R w1)); [auto | reflexivity]).
        destruct (IH r1 md1 ps1 ss1 H3 Nb I1 N1) as (css & ys & r2 & md2 & ps2 & ss2 & B1 & B2 & B3 & B4 & B5 & B6 & B7 & B8 & B9 & B10 & B11 & B12 & B13).
        exists (cs :: css), (xs ++ ys), r2, md2, ps2, ss2. split; [cbn; congruence|]. split; [constructor; assumption|].
        split; [cbn [concat]; eapply moved_trans; eassumption|]. split; [exact B4|]. split; [exact B5|]. split; [congruence|]. split; [congruence|].
        split; [eapply moved_trans; eassumption|].
        split; [|split; [|split; [|auto]]].
        + unfold put_processors in *. rewrite flat_map_app, app_assoc. eapply forall2_trans; [apply evolves_trans | | exact B9]. apply forall2_app_l; [apply ev_same | exact F1].
        + unfold put_snapshooters in *. rewrite flat_map_app, app_assoc. eapply forall2_trans; [apply snap_evolves_trans | | exact B10]. apply forall2_app_l; [apply sv_same | exact S1].
        + cbn [strategies]. rewrite <- H6, <- H7. destruct (dr_paused d1).
          * cbn [app]. intros Ne. exact (moved_prefix _ _ _ _ _ _ M1 B8 (B11 Ne)).
          * intros _. destruct (Pr eq_refl) as (new & ->). exists (new ++ ys). rewrite app_assoc. reflexivity.
    Qed.
  End Mount.
End Grows.
