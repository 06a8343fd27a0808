From Coq Require Import ZArith Bool String List Lia ZifyBool.
From Verif Require Import Base SpecRun MonadFacts SpecClock ClockProofs SpecCounting SpecGauge SpecMeter SpecHistogram SpecSwitches ModelObservation
  ModelLabelFilter ModelSnapshot ModelBuckets ModelCounter ModelGauge ModelMeter ModelHistogram ModelSwitches ModelInstrument ModelTree SpecNames
  SpecTree SpecSite SpecLife SpecLives ObservationProofs SwitchesProofs HistogramProofs MeterProofs MeterHistoryProofs WritingProofs LifeProofs.
Import ListNotations.
Open Scope Z_scope.

Lemma added_texts : forall d name de into, exists texts,
  put_postfixed_descriptives d name into de = into ++ texts /\ only_texts texts.
Proof.
  intros d name de into. destruct de; [|exists []; rewrite app_nil_r; split; [reflexivity | constructor]].
  destruct (postfixed_added d name into) as (q & Et & Hq). exists q. split; [exact Et|]. exact (texts_only _ _ _ Hq eq_refl).
Qed.

Lemma app_parts : forall A (into a b : list A) s, into ++ a = s -> s = into ++ b -> b = a.
Proof. intros A into a b s <- H. apply app_inv_head in H. symmetry. exact H. Qed.

(** ** What an instrument lives through, with clocks *)

(** Updates with the clocks at which they are made *)
Inductive along : clock -> list (clock * update) -> clock -> Prop :=
| al_nil : forall c c', later c c' -> along c [] c'
| al_cons : forall c c0 u h c', later c c0 -> along c0 h c' -> along c ((c0, u) :: h) c'.

Lemma along_before : forall c0 c h c', along c h c' -> later c0 c -> along c0 h c'.
Proof.
  intros c0 c h c' H L. destruct H as [c c' L'|c c1 u h c' L' H].
  - apply al_nil. eapply later_trans; eassumption.
  - apply al_cons; [eapply later_trans; eassumption | exact H].
Qed.

Lemma along_ascending : forall c h c', along c h c' -> monotone c ->
  ascending (c O) (c' O) (map (fun e => fst e O) h) /\ monotone c'.
Proof.
  intros c h c' H. induction H as [c c' L|c c0 u h c' L H IH]; intros Hm; cbn [map fst].
  - destruct (monotone_later _ _ Hm L) as [H1 H2]. split; [constructor; exact H2 | exact H1].
  - destruct (monotone_later _ _ Hm L) as [H1 H2]. destruct (IH H1) as [I1 I2]. split; [|exact I2]. constructor; assumption.
Qed.

Definition quietly {T} (upd : T -> update -> M (T * Z)) (x : T) (u : update) : M T := let* '(x', _) := upd x u in ret x'.

Section Stamped.
  Context {X : ext} {T : Type} (K : T -> instrument X) (upd : T -> update -> M (T * Z)) (put : T -> bool -> snapshot -> M snapshot).
  Hypothesis (Hu : forall x u, instrument_update (K x) u = wrap K (upd x u)).
  Hypothesis (Hp : forall x de s, instrument_put (K x) de s = keep (K x) (put x de s)).
  Hypothesis (Tu : forall x u, ticks (upd x u)).
  Hypothesis (Tp : forall x de s, ticks (put x de s)).

  Lemma stamped_life : forall k c x m os (y : leaf X) c',
    leaf_life k c (LInstrument (K x) m) os y c' ->
    exists h z, y = LInstrument (K z) m /\ map snd h = map (taken_as m) os /\ along c h c' /\ run_timed (quietly upd) k x h = Some z.
  Proof.
    intros k c x m os y c' H. remember (LInstrument (K x) m) as v eqn:Ev. revert x Ev.
    induction H as [c v c' L|c c0 o v v1 n c1 os v2 c2 L E H IH|c c0 v de into v1 s c1 os v2 c2 L E H IH]; intros x ->.
    - exists [], x. split; [reflexivity|]. split; [reflexivity|]. split; [apply al_nil; exact L | reflexivity].
    - cbn [leaf_handle] in E. rewrite taken_modify in E.
      apply bind_ok in E. destruct E as ([i n1] & c3 & E1 & E). injection E as <- <- <-.
      rewrite Hu in E1. unfold wrap in E1. apply bind_ok in E1. destruct E1 as ([x1 n2] & c4 & E2 & E1). injection E1 as <- <- <-.
      destruct (IH x1 eq_refl) as (h & z & -> & Hh & Ha & Hr).
      exists ((c0, taken_as m o) :: h), z. split; [reflexivity|]. split; [cbn [map snd]; f_equal; exact Hh|].
      split; [apply al_cons; [exact L|]; eapply along_before; [exact Ha | exact (Tu _ _ _ _ _ _ E2)]|].
      cbn [run_timed]. unfold quietly at 1, bind. rewrite E2. exact Hr.
    - cbn [leaf_put] in E. apply bind_ok in E. destruct E as ([i s1] & c3 & E1 & E). injection E as <- <- <-.
      rewrite Hp in E1. unfold keep in E1. apply bind_ok in E1. destruct E1 as (s2 & c4 & E2 & E1). injection E1 as <- <- <-.
      destruct (IH x eq_refl) as (h & z & -> & Hh & Ha & Hr).
      exists h, z. split; [reflexivity|]. split; [exact Hh|]. split; [|exact Hr].
      eapply along_before; [exact Ha|]. eapply later_trans; [exact L | exact (Tp _ _ _ _ _ _ _ E2)].
  Qed.

  Lemma stamped_put : forall x m de into k c (y : leaf X) s c',
    leaf_put (LInstrument (K x) m) de into k c = Ok (y, s) c' -> y = LInstrument (K x) m /\ put x de into k c = Ok s c'.
  Proof.
    intros x m de into k c y s c' E. cbn [leaf_put] in E. rewrite Hp in E. unfold keep in E.
    apply bind_ok in E. destruct E as ([i s1] & c3 & E1 & E). injection E as <- <- <-.
    apply bind_ok in E1. destruct E1 as (s2 & c4 & E2 & E1). injection E1 as <- <- <-. split; [reflexivity | exact E2].
  Qed.
End Stamped.

Lemma run_timed_snoc : forall T Op (step : T -> Op -> M T) k h x c o z, run_timed step k x (h ++ [(c, o)]) = Some z ->
  exists y c', run_timed step k x h = Some y /\ step y o k c = Ok z c'.
Proof.
  intros T Op step k h. induction h as [|[c1 o1] h IH]; intros x c o z E; cbn [app run_timed] in *.
  - destruct (step x o k c) as [x1 c1| |] eqn:E1; try discriminate E. injection E as <-. eauto.
  - destruct (step x o1 k c1) as [x1 c2| |] eqn:E1; try discriminate E. exact (IH _ _ _ _ E).
Qed.

Definition stamps (h : list (clock * update)) : list Z := map (fun e => fst e O) h.
Lemma stamps_app : forall h c u, stamps (h ++ [(c, u)]) = stamps h ++ [c O].
Proof. intros. unfold stamps. rewrite map_app. reflexivity. Qed.

Lemma stamps_length : forall X (m : update_modifier X) h os, map snd h = map (taken_as m) os -> List.length (stamps h) = List.length os.
Proof. intros X m h os H. unfold stamps. rewrite map_length. apply (f_equal (@List.length _)) in H. rewrite !map_length in H. exact H. Qed.

Lemma ascending_bounds : forall a b ts, ascending a b ts -> a <= b /\ Forall (fun t => a <= t <= b) ts.
Proof.
  intros a b ts H. induction H as [a b H|a b t ts Ha H [IH1 IH2]]; [split; [exact H | constructor]|].
  split; [lia|]. constructor; [lia|]. eapply Forall_impl; [|exact IH2]. cbn. intros; lia.
Qed.

Lemma ascending_last : forall a b ts t, ascending a b (ts ++ [t]) -> Forall (fun u => u <= t) ts.
Proof.
  intros a b ts. revert a. induction ts as [|u ts IH]; intros a t H; [constructor|].
  cbn [app] in H. inversion H as [|? ? Ha H']; subst. constructor; [|exact (IH _ _ H')].
  apply ascending_bounds in H'. destruct H' as [_ H']. apply Forall_app in H'. destruct H' as [_ H']. inversion H'; lia.
Qed.

(** ** Flags *)

Section Lives.
  Context {X : ext}.

  Lemma flag_timed : forall h k f g bs, run_timed (quietly (fun f u => ret (flag_update f u))) k f h = Some g ->
    Forall2 truth (map snd h) bs ->
    f_name g = f_name f /\ f_descr g = f_descr f /\ f_show_inverted g = f_show_inverted f /\ last_of (f_state f) bs (f_state g).
  Proof.
    induction h as [|[c u] h IH] using rev_ind; intros k f g bs E Hb.
    - cbn in E. injection E as <-. inversion Hb; subst. repeat (split; [reflexivity|]). apply last_none. constructor.
    - rewrite map_app in Hb. apply Forall2_app_inv_l in Hb. destruct Hb as (b1 & b2 & H1 & H2 & ->).
      inversion H2 as [|? b ? ? Ht H2']; subst. inversion H2'; subst. cbn [snd] in Ht.
      apply run_timed_snoc in E. destruct E as (y & c' & E1 & E2). destruct (IH _ _ _ _ E1 H1) as (N & D & S & Hl).
      unfold quietly, bind, ret in E2. destruct (flag_update y u) as [z n] eqn:Eu. injection E2 as -> _.
      assert (None_case : forall st, last_of (f_state f) b1 st -> last_of (f_state f) (b1 ++ [None]) st).
      { intros st Hs. destruct Hs as [l Hl'|l1 v l2 Hl'].
        - apply last_none. apply Forall_app. split; [exact Hl' | constructor; [reflexivity | constructor]].
        - rewrite <- app_assoc. cbn [app]. apply last_some. apply Forall_app. split; [exact Hl' | constructor; [reflexivity | constructor]]. }
      destruct Ht; cbn in Eu; injection Eu as <- <-; cbn [flag_with f_name f_descr f_show_inverted f_state];
        repeat (split; [assumption|]);
        solve [apply None_case; exact Hl
              |apply (last_some _ b1 _ []); constructor
              |rewrite (proj2 (Z.eqb_neq _ _)) by assumption; apply (last_some _ b1 _ []); constructor].
  Qed.

  Lemma flag_life : forall k c f m os (x' x'' : leaf X) c' c2 de into fields c3 bs,
    leaf_life k c (LInstrument (IFlag f) m) os x' c' -> Forall2 truth (map (taken_as m) os) bs ->
    leaf_put x' de into k c2 = Ok (x'', into ++ fields) c3 ->
    exists st texts, last_of (f_state f) bs st /\ only_texts texts
      /\ fields = texts ++ match st with
                           | None => []
                           | Some b => switch_shows (f_name f) b (option_map (fun a => (a, negb b)) (f_show_inverted f))
                           end.
  Proof.
    intros k c f m os x' x'' c' c2 de into fields c3 bs H Hb E.
    destruct (stamped_life (@IFlag X) (fun f u => ret (flag_update f u)) (fun f de s => ret (flag_put f de s)) (fun _ _ => eq_refl) (fun _ _ _ => eq_refl)
      (fun _ _ => ticks_ret _ _) (fun _ _ _ => ticks_ret _ _) _ _ _ _ _ _ _ H) as (h & g & -> & Hh & _ & Hr).
    rewrite <- Hh in Hb. destruct (flag_timed _ _ _ _ _ Hr Hb) as (N & D & S & Hl).
    apply (stamped_put (@IFlag X) (fun f de s => ret (flag_put f de s)) (fun _ _ _ => eq_refl)) in E. destruct E as [_ E]. injection E as E _.
    unfold flag_put in E. destruct (added_texts (f_descr g) (f_name g) de into) as (texts & Et & Ht). rewrite Et, N, S in E.
    exists (f_state g), texts. split; [exact Hl|]. split; [exact Ht|]. clear - E. unfold push in E.
    destruct (f_state g) as [b|].
    - destruct (f_show_inverted f) as [a|]; rewrite <- ?app_assoc in E; apply app_inv_head in E; subst fields;
        unfold switch_shows; cbn [option_map]; [|reflexivity]. destruct a; reflexivity.
    - apply app_inv_head in E. subst fields. rewrite app_nil_r. reflexivity.
  Qed.

  (** ** Timed switches *)

  Lemma timed_switch : forall name d state sh de into k c s c' fields,
    put_timed_switch name d state sh de into k c = Ok s c' -> s = into ++ fields ->
    exists b c1 i texts, state k c = Ok b c1 /\ only_texts texts /\ fields = texts ++ switch_shows name b i /\ option_map fst i = sh.
  Proof.
    intros name d state sh de into k c s c' fields E Hs. unfold put_timed_switch in E.
    destruct (added_texts d name de into) as (texts & Et & Ht). rewrite Et in E.
    apply bind_ok in E. destruct E as (b & c1 & E1 & E).
    assert (G : exists i, fields = texts ++ switch_shows name b i /\ option_map fst i = sh).
    { unfold push in E. destruct sh as [a|].
      - apply bind_ok in E. destruct E as (b2 & c2 & E2 & E). injection E as <- <-. rewrite <- !app_assoc in Hs. apply app_inv_head in Hs. subst fields.
        exists (Some (a, negb b2)). split; [|reflexivity]. destruct a; reflexivity.
      - injection E as <- <-. rewrite <- app_assoc in Hs. apply app_inv_head in Hs. subst fields. exists None. split; reflexivity. }
    destruct G as (i & Ef & Hi). exists b, c1, i, texts. repeat (split; [assumption|]). exact Hi.
  Qed.

  Lemma staircase_timed : forall h k t z, run_timed (quietly staircase_update) k t h = Some z ->
    z = StaircaseTimer (st_name t) (st_descr t) (st_switch_off_after t) (st_invert t)
          (last (map (fun u => Some (u + st_switch_off_after t)) (stamps h)) (st_stay_on_until t)) (st_show_inverted t).
  Proof.
    induction h as [|[c u] h IH] using rev_ind; intros k t z E.
    - cbn in E. injection E as <-. destruct t; reflexivity.
    - apply run_timed_snoc in E. destruct E as (y & c' & E1 & E2). apply IH in E1. subst y.
      unfold quietly, staircase_update in E2. apply bind_ok in E2. destruct E2 as ([z1 n] & c1 & E2 & E3). injection E3 as <- <-.
      apply bind_ok in E2. destruct E2 as (t1 & c2 & E2 & E3). injection E2 as <- <-.
      apply bind_ok in E3. destruct E3 as (t2 & c3 & E3 & E4). unfold instant_add in E3. cbn [st_switch_off_after] in E3.
      destruct (c O + st_switch_off_after t <=? max_instant k); [|discriminate E3]. injection E3 as <- <-. injection E4 as <- _.
      cbn [st_name st_descr st_switch_off_after st_invert st_show_inverted]. rewrite stamps_app, map_app. cbn [map]. rewrite last_last. reflexivity.
  Qed.

  Lemma last_option : forall (ts : list Z) (f : Z -> option Z) (init : option Z),
    last (map f ts) init = match rev ts with [] => init | t :: _ => f t end.
  Proof.
    intros ts f init. destruct ts as [|t ts _] using rev_ind; [reflexivity|]. rewrite map_app, rev_app_distr. change (map f [t]) with [f t]. rewrite last_last. reflexivity.
  Qed.

  Lemma staircase_life : forall k c t m os (x' x'' : leaf X) c' c2 de into fields c3,
    monotone c -> leaf_life k c (LInstrument (IStaircase t) m) os x' c' -> st_stay_on_until t = None ->
    leaf_put x' de into k c2 = Ok (x'', into ++ fields) c3 ->
    exists ts b i texts,
      List.length ts = List.length os /\ ascending (c O) (c' O) ts /\ only_texts texts
      /\ fields = texts ++ switch_shows (st_name t) b i /\ option_map fst i = st_show_inverted t
      /\ (xorb (st_invert t) b = true <-> exists u, In u ts /\ c2 O <= u + st_switch_off_after t).
  Proof.
    intros k c t m os x' x'' c' c2 de into fields c3 Hm H H0 E.
    destruct (stamped_life (@IStaircase X) staircase_update staircase_put (fun _ _ => eq_refl) (fun _ _ _ => eq_refl)
      staircase_update_ticks staircase_put_ticks _ _ _ _ _ _ _ H) as (h & z & -> & Hh & Ha & Hr).
    apply staircase_timed in Hr. destruct (along_ascending _ _ _ Ha Hm) as [Has Hm'].
    apply (stamped_put (@IStaircase X) staircase_put (fun _ _ _ => eq_refl)) in E. destruct E as [_ E].
    unfold staircase_put in E. destruct (timed_switch _ _ _ _ _ _ _ _ _ _ _ E eq_refl) as (b & c1 & i & texts & Es & Ht & Ef & Hi).
    exists (stamps h), b, i, texts. split; [exact (stamps_length _ _ _ _ Hh)|]. split; [exact Has|]. split; [exact Ht|].
    subst z. cbn [st_name st_show_inverted] in Ef, Hi. split; [exact Ef|]. split; [exact Hi|].
    unfold staircase_state in Es. cbn [st_stay_on_until st_invert] in Es. rewrite H0, last_option in Es. clear - Es Has.
    change (map (fun e => fst e O) h) with (stamps h) in Has.
    destruct (stamps h) as [|u ts _] using rev_ind.
    - cbn [rev] in Es. injection Es as <- _. split; [destruct (st_invert t); discriminate | intros (v & [] & _)].
    - rewrite rev_app_distr in Es. cbn [rev app] in Es.
      apply bind_ok in Es. destruct Es as (v & c4 & E1 & Es). apply bind_ok in E1. destruct E1 as (n & c5 & E1 & E2). injection E1 as <- <-.
      injection E2 as <- <-. injection Es as <- _.
      assert (X1 : (c2 O <=? u + st_switch_off_after t) = true <-> exists v, In v (ts ++ [u]) /\ c2 O <= v + st_switch_off_after t).
      { rewrite Z.leb_le. split; [intros Hle; exists u; split; [apply in_or_app; right; left; reflexivity | exact Hle]|].
        intros (v & Hv & Hle). apply in_app_or in Hv. destruct Hv as [Hv|[<-|[]]]; [|exact Hle].
        pose proof (proj1 (Forall_forall _ _) (ascending_last _ _ _ _ Has) _ Hv). cbn in H. lia. }
      rewrite <- X1. destruct (st_invert t), (c2 O <=? u + st_switch_off_after t); cbn; intuition congruence.
  Qed.

  (** The time of the last observation, [t0] without one *)
  Lemma last_stamp : forall (ts : list Z) t0, last ts t0 = match rev ts with [] => t0 | t :: _ => t end.
  Proof.
    intros ts t0. destruct ts as [|t ts _] using rev_ind; [reflexivity|]. rewrite rev_app_distr, last_last. reflexivity.
  Qed.

  Lemma last_is_latest : forall a b ts t0, t0 <= a -> ascending a b ts -> In (last ts t0) (t0 :: ts) /\ forall u, In u (t0 :: ts) -> u <= last ts t0.
  Proof.
    intros a b ts t0 H0 H. destruct ts as [|t ts _] using rev_ind; [split; [left; reflexivity | intros u [<-|[]]; cbn; lia]|].
    rewrite last_last. split; [right; apply in_or_app; right; left; reflexivity|]. pose proof (ascending_last _ _ _ _ H) as Hl.
    apply ascending_bounds in H. destruct H as [_ H]. apply Forall_app in H. destruct H as [_ H]. inversion H as [|? ? Hb _]; subst.
    intros u [<-|Hu]; [lia|]. apply in_app_or in Hu. destruct Hu as [Hu|[<-|[]]]; [|lia].
    exact (proj1 (Forall_forall _ _) Hl _ Hu).
  Qed.

  Lemma occurrence_timed : forall h k t z, run_timed (quietly occurrence_update) k t h = Some z ->
    z = OccurrenceIndicator (oi_name t) (oi_descr t) (oi_if_happened_within t) (last (stamps h) (oi_happened_last t)) (oi_invert t) (oi_show_inverted t).
  Proof.
    induction h as [|[c u] h IH] using rev_ind; intros k t z E.
    - cbn in E. injection E as <-. destruct t; reflexivity.
    - apply run_timed_snoc in E. destruct E as (y & c' & E1 & E2). apply IH in E1. subst y.
      cbv [quietly occurrence_update bind now ret] in E2. injection E2 as <- _.
      cbn [oi_name oi_descr oi_if_happened_within oi_happened_last oi_invert oi_show_inverted]. rewrite stamps_app, last_last. reflexivity.
  Qed.

  Lemma occurrence_life : forall k c t m os (x' x'' : leaf X) c' c2 de into fields c3,
    monotone c -> leaf_life k c (LInstrument (IOccurrence t) m) os x' c' -> oi_happened_last t <= c O ->
    leaf_put x' de into k c2 = Ok (x'', into ++ fields) c3 ->
    exists ts b i texts,
      List.length ts = List.length os /\ ascending (c O) (c' O) ts /\ only_texts texts
      /\ fields = texts ++ switch_shows (oi_name t) b i /\ option_map fst i = oi_show_inverted t
      /\ (xorb (oi_invert t) b = true <-> exists u, In u (oi_happened_last t :: ts) /\ c2 O - u < oi_if_happened_within t).
  Proof.
    intros k c t m os x' x'' c' c2 de into fields c3 Hm H H0 E.
    destruct (stamped_life (@IOccurrence X) occurrence_update occurrence_put (fun _ _ => eq_refl) (fun _ _ _ => eq_refl)
      occurrence_update_ticks occurrence_put_ticks _ _ _ _ _ _ _ H) as (h & z & -> & Hh & Ha & Hr).
    apply occurrence_timed in Hr. destruct (along_ascending _ _ _ Ha Hm) as [Has Hm'].
    apply (stamped_put (@IOccurrence X) occurrence_put (fun _ _ _ => eq_refl)) in E. destruct E as [_ E].
    unfold occurrence_put in E. destruct (timed_switch _ _ _ _ _ _ _ _ _ _ _ E eq_refl) as (b & c1 & i & texts & Es & Ht & Ef & Hi).
    exists (stamps h), b, i, texts. split; [exact (stamps_length _ _ _ _ Hh)|]. split; [exact Has|]. split; [exact Ht|].
    subst z. cbn [oi_name oi_show_inverted] in Ef, Hi. split; [exact Ef|]. split; [exact Hi|].
    destruct (last_is_latest _ _ _ _ H0 Has) as [L1 L2]. unfold occurrence_state in Es. cbn [oi_if_happened_within oi_happened_last oi_invert] in Es.
    apply bind_ok in Es. destruct Es as (n & c4 & E1 & Es). injection E1 as <- <-.
    apply bind_ok in Es. destruct Es as (v & c5 & E1 & Es). unfold instant_sub in E1.
    destruct (min_instant k <=? c2 O - oi_if_happened_within t); [|discriminate E1]. injection E1 as <- <-. injection Es as <- _.
    change (map (fun e => fst e O) h) with (stamps h) in *.
    assert (X1 : (c2 O - oi_if_happened_within t <? last (stamps h) (oi_happened_last t)) = true
      <-> exists u, In u (oi_happened_last t :: stamps h) /\ c2 O - u < oi_if_happened_within t).
    { rewrite Z.ltb_lt. split; [intros Hl; exists (last (stamps h) (oi_happened_last t)); split; [exact L1 | lia]|].
      intros (u & Hu & Hl). specialize (L2 _ Hu). lia. }
    rewrite <- X1. destruct (oi_invert t), (c2 O - oi_if_happened_within t <? last (stamps h) (oi_happened_last t)); cbn; intuition congruence.
  Qed.

  Lemma non_occurrence_timed : forall h k t z, run_timed (quietly non_occurrence_update) k t h = Some z ->
    z = NonOccurrenceIndicator (ni_name t) (ni_descr t) (ni_if_not_happened_within t) (last (stamps h) (ni_happened_last t)) (ni_invert t)
          (ni_show_inverted t).
  Proof.
    induction h as [|[c u] h IH] using rev_ind; intros k t z E.
    - cbn in E. injection E as <-. destruct t; reflexivity.
    - apply run_timed_snoc in E. destruct E as (y & c' & E1 & E2). apply IH in E1. subst y.
      cbv [quietly non_occurrence_update bind now ret] in E2. injection E2 as <- _.
      cbn [ni_name ni_descr ni_if_not_happened_within ni_happened_last ni_invert ni_show_inverted]. rewrite stamps_app, last_last. reflexivity.
  Qed.

  Lemma non_occurrence_life : forall k c t m os (x' x'' : leaf X) c' c2 de into fields c3,
    monotone c -> leaf_life k c (LInstrument (INonOccurrence t) m) os x' c' -> ni_happened_last t <= c O ->
    leaf_put x' de into k c2 = Ok (x'', into ++ fields) c3 ->
    exists ts b i texts,
      List.length ts = List.length os /\ ascending (c O) (c' O) ts /\ only_texts texts
      /\ fields = texts ++ switch_shows (ni_name t) b i /\ option_map fst i = ni_show_inverted t
      /\ (xorb (ni_invert t) b = true <-> forall u, In u (ni_happened_last t :: ts) -> ni_if_not_happened_within t <= c2 O - u).
  Proof.
    intros k c t m os x' x'' c' c2 de into fields c3 Hm H H0 E.
    destruct (stamped_life (@INonOccurrence X) non_occurrence_update non_occurrence_put (fun _ _ => eq_refl) (fun _ _ _ => eq_refl)
      non_occurrence_update_ticks non_occurrence_put_ticks _ _ _ _ _ _ _ H) as (h & z & -> & Hh & Ha & Hr).
    apply non_occurrence_timed in Hr. destruct (along_ascending _ _ _ Ha Hm) as [Has Hm'].
    apply (stamped_put (@INonOccurrence X) non_occurrence_put (fun _ _ _ => eq_refl)) in E. destruct E as [_ E].
    unfold non_occurrence_put in E. destruct (timed_switch _ _ _ _ _ _ _ _ _ _ _ E eq_refl) as (b & c1 & i & texts & Es & Ht & Ef & Hi).
    exists (stamps h), b, i, texts. split; [exact (stamps_length _ _ _ _ Hh)|]. split; [exact Has|]. split; [exact Ht|].
    subst z. cbn [ni_name ni_show_inverted] in Ef, Hi. split; [exact Ef|]. split; [exact Hi|].
    destruct (last_is_latest _ _ _ _ H0 Has) as [L1 L2]. unfold non_occurrence_state in Es.
    cbn [ni_if_not_happened_within ni_happened_last ni_invert] in Es.
    apply bind_ok in Es. destruct Es as (n & c4 & E1 & Es). injection E1 as <- <-.
    apply bind_ok in Es. destruct Es as (v & c5 & E1 & Es). unfold instant_sub in E1.
    destruct (min_instant k <=? c2 O - ni_if_not_happened_within t); [|discriminate E1]. injection E1 as <- <-. injection Es as <- _.
    change (map (fun e => fst e O) h) with (stamps h) in *.
    assert (X1 : (last (stamps h) (ni_happened_last t) <=? c2 O - ni_if_not_happened_within t) = true
      <-> forall u, In u (ni_happened_last t :: stamps h) -> ni_if_not_happened_within t <= c2 O - u).
    { rewrite Z.leb_le. split; [intros Hl u Hu; specialize (L2 _ Hu); lia|]. intros Hu. specialize (Hu _ L1). lia. }
    rewrite <- X1. destruct (ni_invert t), (last (stamps h) (ni_happened_last t) <=? c2 O - ni_if_not_happened_within t); cbn; intuition congruence.
  Qed.

  (** ** Last occurrences *)

  Lemma last_occurrence_timed : forall h k t z, run_timed (quietly last_occurrence_update) k t h = Some z ->
    z = LastOccurrenceTracker (lt_name t) (lt_descr t) (last (map Some (stamps h)) (lt_happened_last t)) (lt_invert t) (lt_make_none_zero t).
  Proof.
    induction h as [|[c u] h IH] using rev_ind; intros k t z E.
    - cbn in E. injection E as <-. destruct t; reflexivity.
    - apply run_timed_snoc in E. destruct E as (y & c' & E1 & E2). apply IH in E1. subst y.
      cbv [quietly last_occurrence_update bind now ret] in E2. injection E2 as <- _.
      cbn [lt_name lt_descr lt_happened_last lt_invert lt_make_none_zero]. rewrite stamps_app, map_app. cbn [map]. rewrite last_last. reflexivity.
  Qed.

  Lemma last_occurrence_life : forall k c t m os (x' x'' : leaf X) c' c2 de into fields c3,
    monotone c -> leaf_life k c (LInstrument (ILastOccurrence t) m) os x' c' -> lt_happened_last t = None -> later c' c2 ->
    leaf_put x' de into k c2 = Ok (x'', into ++ fields) c3 ->
    exists ts texts,
      List.length ts = List.length os /\ ascending (c O) (c' O) ts /\ only_texts texts
      /\ match rev ts with
         | [] => fields = texts ++ (if lt_make_none_zero t then [(lt_name t, Int 0)] else [])
         | u :: _ => exists n, fields = texts ++ [(lt_name t, UInt n)] /\ n * 1000000000 <= c2 O - u < (n + 1) * 1000000000
         end.
  Proof.
    intros k c t m os x' x'' c' c2 de into fields c3 Hm H H0 L E.
    destruct (stamped_life (@ILastOccurrence X) last_occurrence_update last_occurrence_put (fun _ _ => eq_refl) (fun _ _ _ => eq_refl)
      last_update_ticks last_put_ticks _ _ _ _ _ _ _ H) as (h & z & -> & Hh & Ha & Hr).
    apply last_occurrence_timed in Hr. destruct (along_ascending _ _ _ Ha Hm) as [Has Hm']. destruct (monotone_later _ _ Hm' L) as [_ Hc2].
    apply (stamped_put (@ILastOccurrence X) last_occurrence_put (fun _ _ _ => eq_refl)) in E. destruct E as [_ E].
    unfold last_occurrence_put in E. destruct (added_texts (lt_descr z) (lt_name z) de into) as (texts & Et & Ht). rewrite Et in E.
    exists (stamps h), texts. split; [exact (stamps_length _ _ _ _ Hh)|]. split; [exact Has|]. split; [exact Ht|].
    change (map (fun e => fst e O) h) with (stamps h) in *.
    subst z. cbn [lt_name lt_make_none_zero last_occurrence_elapsed lt_happened_last] in E.
    unfold last_occurrence_elapsed in E. cbn [lt_happened_last] in E. rewrite H0, last_option in E.
    destruct (stamps h) as [|u ts _] using rev_ind.
    - cbn [rev] in *. cbv [bind ret] in E. unfold push in E.
      destruct (lt_make_none_zero t); injection E as E _; rewrite <- ?app_assoc in E; apply app_inv_head in E; subst fields; rewrite ?app_nil_r; reflexivity.
    - rewrite rev_app_distr in *. cbn [rev app] in *.
      cbv [bind ret now] in E. unfold push in E. injection E as E _. rewrite <- app_assoc in E. apply app_inv_head in E. subst fields.
      eexists. split; [reflexivity|]. unfold as_secs.
      apply ascending_bounds in Has. destruct Has as [_ Hb]. apply Forall_app in Hb. destruct Hb as [_ Hb]. inversion Hb as [|? ? Hu _]; subst.
      rewrite Z.max_r by lia. pose proof (Z.div_mod (c2 O - u) 1000000000 ltac:(lia)).
      pose proof (Z.mod_pos_bound (c2 O - u) 1000000000 ltac:(lia)). lia.
  Qed.

  (** ** Displays *)

  Lemma last_of_snoc : forall A (init : option A) l st o, last_of init l st ->
    last_of init (l ++ [o]) (match o with Some v => Some v | None => st end).
  Proof.
    intros A init l st o H. destruct o as [v|]; [apply (last_some _ l _ []); constructor|].
    destruct H as [l Hl|l1 v l2 Hl].
    - apply last_none. apply Forall_app. split; [exact Hl | constructor; [reflexivity | constructor]].
    - rewrite <- app_assoc. cbn [app]. apply last_some. apply Forall_app. split; [exact Hl | constructor; [reflexivity | constructor]].
  Qed.

  Lemma last_of_fun : forall A (init : option A) l a b, last_of init l a -> last_of init l b -> a = b.
  Proof.
    intros A init l a b Ha Hb.
    assert (G : forall st, last_of init l st -> st = fold_left (fun st o => match o with Some v => Some v | None => st end) l init).
    { clear. assert (Skip : forall l st, Forall (fun o : option A => o = None) l -> fold_left (fun st o => match o with Some v => Some v | None => st end) l st = st).
      { intros r. induction r as [|o r IH]; intros st H; [reflexivity|]. inversion H; subst. apply IH. assumption. }
      intros st H. destruct H as [l Hl|l1 v l2 Hl]; [rewrite Skip by exact Hl; reflexivity|].
      rewrite fold_left_app. cbn [fold_left]. rewrite Skip by exact Hl. reflexivity. }
    rewrite (G _ Ha), (G _ Hb). reflexivity.
  Qed.

  Lemma to_item_displayable : forall u, displayable u = match upd_observed_value u with Some v => to_item_kind v | None => None end.
  Proof. intros u. destruct u; try reflexivity; destruct v; reflexivity. Qed.

  Lemma combine_snoc : forall A B (a : list A) (b : list B) x y, List.length a = List.length b -> combine (a ++ [x]) (b ++ [y]) = combine a b ++ [(x, y)].
  Proof.
    induction a as [|p a IH]; intros [|q b] x y H; try discriminate H; [reflexivity|]. cbn [app combine]. f_equal. apply IH. injection H as H. exact H.
  Qed.

  Lemma expiry_snoc : forall p ts us t u, List.length ts = List.length us ->
    expiry p (ts ++ [t]) (us ++ [u]) = expiry p ts us ++ [match displayable u, p with Some _, Some p => Some (t + p) | _, _ => None end].
  Proof. intros p ts us t u H. unfold expiry. rewrite combine_snoc by exact H. rewrite map_app. reflexivity. Qed.

  Lemma display_timed : forall h k t z, run_timed (quietly display_update) k t h = Some z -> dd_stay_on_until t = None ->
    exists v e, z = DataDisplay (dd_name t) (dd_descr t) v (dd_reset_after t) e (dd_reset_value t)
      /\ last_of (dd_value t) (map displayable (map snd h)) v /\ last_of None (expiry (dd_reset_after t) (stamps h) (map snd h)) e.
  Proof.
    induction h as [|[c u] h IH] using rev_ind; intros k t z E H0.
    - cbn in E. injection E as <-. exists (dd_value t), None. split; [rewrite <- H0; destruct t; reflexivity|]. split; apply last_none; constructor.
    - apply run_timed_snoc in E. destruct E as (y & c' & E1 & E2). destruct (IH _ _ _ E1 H0) as (v & e & -> & Hv & He).
      rewrite stamps_app, !map_app. cbn [map snd].
      rewrite expiry_snoc by (unfold stamps; rewrite !map_length; reflexivity).
      pose proof (last_of_snoc _ _ _ _ (displayable u) Hv) as Hv'.
      pose proof (last_of_snoc _ _ _ _ (match displayable u, dd_reset_after t with Some _, Some p => Some (c O + p) | _, _ => None end) He) as He'.
      unfold quietly, display_update in E2. rewrite to_item_displayable in *.
      destruct (upd_observed_value u) as [w|]; [|injection E2 as <- _; exists v, e; split; [reflexivity|]; split; assumption].
      destruct (to_item_kind w) as [i|]; [|injection E2 as <- _; exists v, e; split; [reflexivity|]; split; assumption].
      cbn [dd_reset_after dd_name dd_descr dd_reset_value dd_stay_on_until] in E2.
      apply bind_ok in E2. destruct E2 as ([z1 n] & c1 & E2 & E3). injection E3 as <- _.
      apply bind_ok in E2. destruct E2 as (until & c2 & E2 & E3). injection E3 as <- _ _.
      destruct (dd_reset_after t) as [p|].
      + apply bind_ok in E2. destruct E2 as (n1 & c3 & E2 & E3). injection E2 as <- <-.
        apply bind_ok in E3. destruct E3 as (u1 & c4 & E3 & E4). unfold instant_add in E3. destruct (c O + p <=? max_instant k); [|discriminate E3].
        injection E3 as <- <-. injection E4 as <- _. exists (Some i), (Some (c O + p)). split; [reflexivity|]. split; assumption.
      + injection E2 as <- _. exists (Some i), e. split; [reflexivity|]. split; assumption.
  Qed.

  Lemma display_life : forall k c t m os (x' x'' : leaf X) c' c2 de into fields c3,
    monotone c -> leaf_life k c (LInstrument (IDisplay t) m) os x' c' -> dd_stay_on_until t = None ->
    leaf_put x' de into k c2 = Ok (x'', into ++ fields) c3 ->
    exists ts v e texts,
      List.length ts = List.length os /\ ascending (c O) (c' O) ts /\ only_texts texts
      /\ last_of (dd_value t) (map displayable (map (taken_as m) os)) v
      /\ last_of None (expiry (dd_reset_after t) ts (map (taken_as m) os)) e
      /\ fields = texts ++ match (match e with Some u => if c2 O <=? u then v else dd_reset_value t | None => v end) with
                           | Some i => [(dd_name t, i)]
                           | None => []
                           end.
  Proof.
    intros k c t m os x' x'' c' c2 de into fields c3 Hm H H0 E.
    destruct (stamped_life (@IDisplay X) display_update display_put (fun _ _ => eq_refl) (fun _ _ _ => eq_refl)
      display_update_ticks display_put_ticks _ _ _ _ _ _ _ H) as (h & z & -> & Hh & Ha & Hr).
    destruct (display_timed _ _ _ _ Hr H0) as (v & e & Ez & Hv & He). rewrite Hh in Hv, He. destruct (along_ascending _ _ _ Ha Hm) as [Has Hm'].
    apply (stamped_put (@IDisplay X) display_put (fun _ _ _ => eq_refl)) in E. destruct E as [_ E].
    unfold display_put in E. destruct (added_texts (dd_descr z) (dd_name z) de into) as (texts & Et & Ht). rewrite Et in E.
    exists (stamps h), v, e, texts. split; [exact (stamps_length _ _ _ _ Hh)|]. split; [exact Has|]. split; [exact Ht|].
    split; [exact Hv|]. split; [exact He|]. subst z. unfold display_value in E. cbn [dd_name dd_stay_on_until dd_value dd_reset_value] in E.
    unfold push in E. destruct e as [u|]; cbv [bind ret now] in E.
    - destruct (if c2 O <=? u then v else dd_reset_value t); injection E as E _; rewrite <- ?app_assoc in E; apply app_inv_head in E; subst fields;
        rewrite ?app_nil_r; reflexivity.
    - destruct v; injection E as E _; rewrite <- ?app_assoc in E; apply app_inv_head in E; subst fields; rewrite ?app_nil_r; reflexivity.
  Qed.
End Lives.
