From Coq Require Import ZArith Bool String List Lia.
From Verif Require Import Base SpecRun MonadFacts ModelObservation ModelLabelFilter ModelSnapshot ModelCounter ModelGauge ModelMeter
  ModelHistogram ModelSwitches ModelInstrument ModelTree ModelChannel ModelProcessor ModelDriver SpecClock SpecWriting SpecNames SpecTree SpecQueue
  SpecCollect SpecDriver SpecChronicle SpecSite SpecCounting SpecGauge SpecMeter SpecHistogram SpecSwitches SpecLife SpecLives TreeInd TreeEqs
  TreeProofs ClockProofs WritingProofs AppendProofs DriverProofs DriverShapeProofs FollowProofs ChronicleDriver SiteProofs LifeProofs SiteDriver MeterProofs MeterHistoryProofs LivesProofs
  LivesHistogram.
Import ListNotations.
Open Scope list_scope.
Open Scope Z_scope.

Section Ends.
  Context {X : ext} {Y : pext} (HX : parts_tick X) (HY : processors_tick Y) (HA : parts_append X) (HB : forall u, appends (user_proc_put Y u)).

  Lemma presented_then : forall k c names gs (x x' : leaf X) de added c' (P : snapshot -> Prop),
    (forall level fields c1 c2, later c c1 -> later c2 c' -> leaf_put x de level k c1 = Ok (x', level ++ fields) c2 -> P fields) ->
    presented k c names gs x x' de added c' -> shown_unless_hidden c names gs added c' P.
  Proof.
    intros k c names gs x x' de added c' P HP [(-> & h & c3 & Hin & M1 & M2 & Hh)|(level & fields & c3 & c4 & M1 & E & M2 & H)].
    - right. exists h, c3. auto.
    - left. exists fields. split; [exact H|]. exact (HP _ _ _ _ M1 M2 E).
  Qed.

  Lemma leaf_put_ticks : forall (x : leaf X) de into, ticks (leaf_put x de into).
  Proof.
    intros [i m|a|u|d|sn] de into; cbn [leaf_put].
    - apply ticks_bind; [exact (instrument_put_ticks HX _ _ _) | intros [? ?]; apply ticks_ret].
    - apply ticks_bind; [exact (ga_put_ticks _ _ _ _) | intros [? ?]; apply ticks_ret].
    - apply ticks_bind; [exact (pt_handler_put _ HX _ _ _) | intros [? ?]; apply ticks_ret].
    - apply ticks_ret.
    - apply ticks_bind; [exact (proj2 (proj2 (proj2 (tree_put_ticks HX))) _ _ _) | intros [? ?]; apply ticks_ret].
  Qed.

  Lemma leaf_life_later : forall k c (x : leaf X) os x' c', leaf_life k c x os x' c' -> later c c'.
  Proof.
    intros k c x os x' c' H. induction H as [c x c' L|c c0 o x x1 n c1 os x2 c2 L E H IH|c c0 x de into x1 s c1 os x2 c2 L E H IH]; [exact L| |].
    - exact (later_trans _ _ _ L (later_trans _ _ _ (leaf_handle_ticks HX _ _ _ _ _ _ E) IH)).
    - exact (later_trans _ _ _ L (later_trans _ _ _ (leaf_put_ticks _ _ _ _ _ _ _ E) IH)).
  Qed.

  Context (k : cfg) (n : nat) (d : driver X Y) (w : dworld X Y) (d' : driver X Y) (w' : dworld X Y) (path : list place) (t : tele X) (at_ : list nat)
    (names : list string) (gs : list guard) (on : lab X -> bool) (b : nat) (de : bool) (d'' : driver X Y) (w'' : dworld X Y).

  Lemma any_in_the_end : forall x (P : list (observation (lab X)) -> snapshot -> Prop),
    followed k n d w d' w' path t at_ names gs on x b de d'' w'' ->
    (forall os x' x'' level fields c1 c2, leaf_life k (clock_of w) x os x' (clock_of w') -> later (clock_of w') c1 ->
       leaf_put x' de level k c1 = Ok (x'', level ++ fields) c2 -> later c1 c2 -> later c2 (clock_of w'') -> P os fields) ->
    in_the_end n d w w' path t at_ names gs on b w'' P.
  Proof.
    intros x P [H Hok Hn A T E] HP.
    destruct (snapshot_in_the_end HX HY HA HB _ _ _ _ _ _ _ _ _ _ _ _ _ _ _ _ _ _ H Hok eq_refl Hn A T E) as (css & es & added & H1 & H2 & H3 & H4 & H5 & H6 & H7).
    exists css, es, added. do 6 (split; [assumption|]). intros Hs. destruct (H7 Hs) as (os & x' & x'' & gs' & W & L & G & Pr).
    exists os, gs'. split; [exact W|]. split; [exact G|]. eapply presented_then; [|exact Pr].
    intros level fields c1 c2 L1 L2 Ep. exact (HP _ _ _ _ _ _ _ L L1 Ep (leaf_put_ticks _ _ _ _ _ _ _ Ep) L2).
  Qed.

  Lemma flag_in_the_end : forall f m, followed k n d w d' w' path t at_ names gs on (LInstrument (IFlag f) m) b de d'' w'' ->
    in_the_end n d w w' path t at_ names gs on b w'' (fun os fields =>
      forall bs, Forall2 truth (map (taken_as m) os) bs ->
      exists st texts, last_of (f_state f) bs st /\ only_texts texts
        /\ fields = texts ++ match st with
                             | None => []
                             | Some b => switch_shows (f_name f) b (option_map (fun a => (a, negb b)) (f_show_inverted f))
                             end).
  Proof.
    intros f m F. apply (any_in_the_end _ _ F). intros os x' x'' level fields c1 c2 L _ Ep _ _ bs Hb. exact (flag_life _ _ _ _ _ _ _ _ _ _ _ _ _ _ L Hb Ep).
  Qed.

  Lemma time_of_showing : forall c1 c2, monotone (clock_of w') -> later (clock_of w') c1 -> later c1 c2 -> later c2 (clock_of w'') ->
    clock_of w' O <= c1 O <= clock_of w'' O.
  Proof.
    intros c1 c2 Hm L1 L2 L3. destruct (monotone_later _ _ Hm L1) as [Hm1 B1]. destruct (monotone_later _ _ Hm1 (later_trans _ _ _ L2 L3)) as [_ B2]. lia.
  Qed.

  Lemma staircase_in_the_end : forall s m, followed k n d w d' w' path t at_ names gs on (LInstrument (IStaircase s) m) b de d'' w'' ->
    monotone (clock_of w) -> st_stay_on_until s = None ->
    in_the_end n d w w' path t at_ names gs on b w'' (fun os fields =>
      exists ts q b i texts,
        List.length ts = List.length os /\ ascending (clock_of w O) (clock_of w' O) ts /\ clock_of w' O <= q <= clock_of w'' O /\ only_texts texts
        /\ fields = texts ++ switch_shows (st_name s) b i /\ option_map fst i = st_show_inverted s
        /\ (xorb (st_invert s) b = true <-> exists u, In u ts /\ q <= u + st_switch_off_after s)).
  Proof.
    intros s m F Hm H0. apply (any_in_the_end _ _ F). intros os x' x'' level fields c1 c2 L L1 Ep L2 L3.
    destruct (monotone_later _ _ Hm (leaf_life_later _ _ _ _ _ _ L)) as [Hm' _].
    destruct (staircase_life _ _ _ _ _ _ _ _ _ _ _ _ _ Hm L H0 Ep) as (ts & v & i & texts & A1 & A2 & A3 & A4 & A5 & A6).
    exists ts, (c1 O), v, i, texts. split; [exact A1|]. split; [exact A2|]. split; [exact (time_of_showing _ _ Hm' L1 L2 L3)|]. auto.
  Qed.

  Lemma occurrence_in_the_end : forall s m, followed k n d w d' w' path t at_ names gs on (LInstrument (IOccurrence s) m) b de d'' w'' ->
    monotone (clock_of w) -> oi_happened_last s <= clock_of w O ->
    in_the_end n d w w' path t at_ names gs on b w'' (fun os fields =>
      exists ts q b i texts,
        List.length ts = List.length os /\ ascending (clock_of w O) (clock_of w' O) ts /\ clock_of w' O <= q <= clock_of w'' O /\ only_texts texts
        /\ fields = texts ++ switch_shows (oi_name s) b i /\ option_map fst i = oi_show_inverted s
        /\ (xorb (oi_invert s) b = true <-> exists u, In u (oi_happened_last s :: ts) /\ q - u < oi_if_happened_within s)).
  Proof.
    intros s m F Hm H0. apply (any_in_the_end _ _ F). intros os x' x'' level fields c1 c2 L L1 Ep L2 L3.
    destruct (monotone_later _ _ Hm (leaf_life_later _ _ _ _ _ _ L)) as [Hm' _].
    destruct (occurrence_life _ _ _ _ _ _ _ _ _ _ _ _ _ Hm L H0 Ep) as (ts & v & i & texts & A1 & A2 & A3 & A4 & A5 & A6).
    exists ts, (c1 O), v, i, texts. split; [exact A1|]. split; [exact A2|]. split; [exact (time_of_showing _ _ Hm' L1 L2 L3)|]. auto.
  Qed.

  Lemma non_occurrence_in_the_end : forall s m, followed k n d w d' w' path t at_ names gs on (LInstrument (INonOccurrence s) m) b de d'' w'' ->
    monotone (clock_of w) -> ni_happened_last s <= clock_of w O ->
    in_the_end n d w w' path t at_ names gs on b w'' (fun os fields =>
      exists ts q b i texts,
        List.length ts = List.length os /\ ascending (clock_of w O) (clock_of w' O) ts /\ clock_of w' O <= q <= clock_of w'' O /\ only_texts texts
        /\ fields = texts ++ switch_shows (ni_name s) b i /\ option_map fst i = ni_show_inverted s
        /\ (xorb (ni_invert s) b = true <-> forall u, In u (ni_happened_last s :: ts) -> ni_if_not_happened_within s <= q - u)).
  Proof.
    intros s m F Hm H0. apply (any_in_the_end _ _ F). intros os x' x'' level fields c1 c2 L L1 Ep L2 L3.
    destruct (monotone_later _ _ Hm (leaf_life_later _ _ _ _ _ _ L)) as [Hm' _].
    destruct (non_occurrence_life _ _ _ _ _ _ _ _ _ _ _ _ _ Hm L H0 Ep) as (ts & v & i & texts & A1 & A2 & A3 & A4 & A5 & A6).
    exists ts, (c1 O), v, i, texts. split; [exact A1|]. split; [exact A2|]. split; [exact (time_of_showing _ _ Hm' L1 L2 L3)|]. auto.
  Qed.

  Lemma last_occurrence_in_the_end : forall s m, followed k n d w d' w' path t at_ names gs on (LInstrument (ILastOccurrence s) m) b de d'' w'' ->
    monotone (clock_of w) -> lt_happened_last s = None ->
    in_the_end n d w w' path t at_ names gs on b w'' (fun os fields =>
      exists ts q texts,
        List.length ts = List.length os /\ ascending (clock_of w O) (clock_of w' O) ts /\ clock_of w' O <= q <= clock_of w'' O /\ only_texts texts
        /\ match rev ts with
           | [] => fields = texts ++ (if lt_make_none_zero s then [(lt_name s, Int 0)] else [])
           | u :: _ => exists z, fields = texts ++ [(lt_name s, UInt z)] /\ z * 1000000000 <= q - u < (z + 1) * 1000000000
           end).
  Proof.
    intros s m F Hm H0. apply (any_in_the_end _ _ F). intros os x' x'' level fields c1 c2 L L1 Ep L2 L3.
    destruct (monotone_later _ _ Hm (leaf_life_later _ _ _ _ _ _ L)) as [Hm' _].
    destruct (last_occurrence_life _ _ _ _ _ _ _ _ _ _ _ _ _ Hm L H0 L1 Ep) as (ts & texts & A1 & A2 & A3 & A4).
    exists ts, (c1 O), texts. split; [exact A1|]. split; [exact A2|]. split; [exact (time_of_showing _ _ Hm' L1 L2 L3)|]. auto.
  Qed.

  Lemma display_in_the_end : forall s m, followed k n d w d' w' path t at_ names gs on (LInstrument (IDisplay s) m) b de d'' w'' ->
    monotone (clock_of w) -> dd_stay_on_until s = None ->
    in_the_end n d w w' path t at_ names gs on b w'' (fun os fields =>
      exists ts q v e texts,
        List.length ts = List.length os /\ ascending (clock_of w O) (clock_of w' O) ts /\ clock_of w' O <= q <= clock_of w'' O /\ only_texts texts
        /\ last_of (dd_value s) (map displayable (map (taken_as m) os)) v
        /\ last_of None (expiry (dd_reset_after s) ts (map (taken_as m) os)) e
        /\ fields = texts ++ match (match e with Some u => if q <=? u then v else dd_reset_value s | None => v end) with
                             | Some i => [(dd_name s, i)]
                             | None => []
                             end).
  Proof.
    intros s m F Hm H0. apply (any_in_the_end _ _ F). intros os x' x'' level fields c1 c2 L L1 Ep L2 L3.
    destruct (monotone_later _ _ Hm (leaf_life_later _ _ _ _ _ _ L)) as [Hm' _].
    destruct (display_life _ _ _ _ _ _ _ _ _ _ _ _ _ Hm L H0 Ep) as (ts & v & e & texts & A1 & A2 & A3 & A4 & A5 & A6).
    exists ts, (c1 O), v, e, texts. split; [exact A1|]. split; [exact A2|]. split; [exact (time_of_showing _ _ Hm' L1 L2 L3)|]. auto.
  Qed.

  Lemma histogram_in_the_end : forall contents s m, counting (ex_histo X) contents ->
    followed k n d w d' w' path t at_ names gs on (LInstrument (IHistogram s) m) b de d'' w'' ->
    monotone (clock_of w) -> (forall l, h_max_inactivity s = Some l -> 0 < l) ->
    in_the_end n d w w' path t at_ names gs on b w'' (fun os fields =>
      forall effects, Forall update_ok (map (taken_as m) os) -> Forall2 (update_effect (h_display_time_unit s)) (map (taken_as m) os) effects ->
      exists vs q inner a texts,
        map snd vs = effects /\ visits (clock_of w O) (clock_of w' O) vs /\ clock_of w' O <= q <= clock_of w'' O
        /\ retained (h_last_update s) (h_max_inactivity s) (h_reset_after_inactivity s) (contents (h_inner s)) vs (contents inner)
        /\ (a = true <-> awake (h_last_update s) (h_max_inactivity s) vs q)
        /\ only_texts texts
        /\ fields = texts ++ [(h_name s, ItemSnapshot
               ((match h_max_inactivity s with
                 | Some _ => if h_show_activity_state s then activity_fields a else []
                 | None => []
                 end)
                ++ (if a then statistics (histo_snapshot (ex_histo X) inner) (List.length (contents inner)) else [])))]).
  Proof.
    intros contents s m Hc F Hm H0. apply (any_in_the_end _ _ F). intros os x' x'' level fields c1 c2 L L1 Ep L2 L3 effects Hok He.
    destruct (monotone_later _ _ Hm (leaf_life_later _ _ _ _ _ _ L)) as [Hm' _].
    destruct (histogram_life contents Hc _ _ _ _ _ _ _ _ _ _ _ _ _ _ Hm L H0 Hok He Ep) as (vs & inner & a & texts & A1 & A2 & A3 & A4 & A5 & A6).
    exists vs, (c1 O), inner, a, texts. split; [exact A1|]. split; [exact A2|]. split; [exact (time_of_showing _ _ Hm' L1 L2 L3)|]. auto.
  Qed.

  Lemma meter_in_the_end : forall al name c0 m0 c1 s m, monotone c0 -> meter_new al name k c0 = Ok m0 c1 -> m_inner s = m_inner m0 -> later c1 (clock_of w) ->
    followed k n d w d' w' path t at_ names gs on (LInstrument (IMeter s) m) b de d'' w'' ->
    in_the_end n d w w' path t at_ names gs on b w'' (fun os fields =>
      Forall update_ok (map (taken_as m) os) ->
      exists start l q texts,
        read_during c0 c1 start /\ map snd l = marked_amounts (map (taken_as m) os) /\ between (clock_of w O) (clock_of w' O) l
        /\ clock_of w' O <= q <= clock_of w'' O /\ fields = texts ++ meter_shows s al start l q /\ only_texts texts).
  Proof.
    intros al name c0 m0 c1 s m H0 E0 Hi L0 F. apply (any_in_the_end _ _ F). intros os x' x'' level fields c2 c3 L L1 Ep L2 L3 Hok.
    destruct (meter_life _ _ _ _ _ _ _ _ _ _ _ _ _ _ _ _ _ _ H0 E0 Hi L0 L Hok L1 Ep) as (start & l & q & texts & A1 & A2 & A3 & A4 & A5 & A6).
    assert (P0 : later c0 c1) by (destruct (meter_new_inner _ _ _ _ _ _ E0) as (-> & _); exists 2%nat; reflexivity).
    destruct (monotone_later _ _ H0 (later_trans _ _ _ P0 L0)) as [Hm _]. destruct (monotone_later _ _ Hm (leaf_life_later _ _ _ _ _ _ L)) as [Hm' _].
    destruct (monotone_later _ _ Hm' L1) as [Hm1 B1]. destruct (read_during_le _ _ _ Hm1 A4) as [R1 R2]. destruct (monotone_later _ _ Hm1 L2) as [Hm2 _].
    destruct (monotone_later _ _ Hm2 L3) as [_ B3].
    exists start, l, q, texts. repeat (split; [assumption || lia|]). exact A6.
  Qed.

  Lemma value_meter_in_the_end : forall al name c0 v0 c1 s m amount, monotone c0 -> value_meter_new al name k c0 = Ok v0 c1 ->
    m_inner (vm_meter s) = m_inner (vm_meter v0) -> later c1 (clock_of w) ->
    followed k n d w d' w' path t at_ names gs on (LInstrument (IValueMeter s) m) b de d'' w'' ->
    in_the_end n d w w' path t at_ names gs on b w'' (fun os fields =>
      Forall (fun u => update_ok u /\ value_counts (vm_display_time_unit s) u (amount u)) (map (taken_as m) os) ->
      exists start l q texts,
        read_during c0 c1 start /\ map snd l = summed amount (map (taken_as m) os) /\ between (clock_of w O) (clock_of w' O) l
        /\ clock_of w' O <= q <= clock_of w'' O /\ fields = texts ++ meter_shows (vm_meter s) al start l q /\ only_texts texts).
  Proof.
    intros al name c0 m0 c1 s m amount H0 E0 Hi L0 F. apply (any_in_the_end _ _ F). intros os x' x'' level fields c2 c3 L L1 Ep L2 L3 Hok.
    destruct (value_meter_life _ _ _ _ _ _ _ _ _ _ _ _ _ _ _ _ _ _ _ H0 E0 Hi L0 L Hok L1 Ep) as (start & l & q & texts & A1 & A2 & A3 & A4 & A5 & A6).
    apply value_meter_new_inner in E0. destruct E0 as [E0 _].
    assert (P0 : later c0 c1) by (destruct (meter_new_inner _ _ _ _ _ _ E0) as (-> & _); exists 2%nat; reflexivity).
    destruct (monotone_later _ _ H0 (later_trans _ _ _ P0 L0)) as [Hm _]. destruct (monotone_later _ _ Hm (leaf_life_later _ _ _ _ _ _ L)) as [Hm' _].
    destruct (monotone_later _ _ Hm' L1) as [Hm1 B1]. destruct (read_during_le _ _ _ Hm1 A4) as [R1 R2]. destruct (monotone_later _ _ Hm1 L2) as [Hm2 _].
    destruct (monotone_later _ _ Hm2 L3) as [_ B3].
    exists start, l, q, texts. repeat (split; [assumption || lia|]). exact A6.
  Qed.
End Ends.
