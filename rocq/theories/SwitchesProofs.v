From Coq Require Import ZArith Bool String List Lia ZifyBool.
From Verif Require Import Base SpecRun SpecSwitches MonadFacts
  ModelObservation ModelSnapshot ModelSwitches.
Import ListNotations.
Open Scope Z_scope.

(** ** Lists *)

Lemma last_of_snoc_some : forall A (i : option A) l x, last_of i (l ++ [Some x]) (Some x).
Proof. intros. apply last_some. constructor. Qed.

Lemma last_of_snoc_none : forall A (i : option A) l r, last_of i l r -> last_of i (l ++ [None]) r.
Proof.
  intros A i l r [l' H|l1 x l2 H].
  - apply last_none. apply Forall_app. auto.
  - rewrite <- app_assoc. cbn. apply last_some. apply Forall_app. auto.
Qed.

Lemma last_of_unique : forall A (i : option A) l a b, last_of i l a -> last_of i l b -> a = b.
Proof.
  intros A i l a b Ha. revert b. 
  assert (Hr : forall (l : list (option A)) a, last_of i l a -> a = fold_left (fun acc o => match o with Some x => Some x | None => acc end) l i).
  { clear. intros l a [l' H|l1 x l2 H].
    - clear - H. induction H as [|o l -> H IH]; [reflexivity|]. exact IH.
    - rewrite fold_left_app. cbn. clear - H. induction H as [|o l -> H IH]; [reflexivity|]. exact IH. }
  intros b Hb. rewrite (Hr _ _ Ha), (Hr _ _ Hb). reflexivity.
Qed.

Lemma in_order_app : forall Op (h1 : list (clock * Op)) c o h2 t q,
  in_order t (h1 ++ (c, o) :: h2) q -> in_order t h1 (happens c) /\ in_order (happens c) h2 q.
Proof.
  induction h1 as [|[c1 o1] h1 IH]; intros c o h2 t q H; cbn in H; inversion H; subst.
  - split; [constructor; assumption|assumption].
  - destruct (IH _ _ _ _ _ H6). split; [constructor; assumption|assumption].
Qed.

Lemma in_order_le : forall Op (h : list (clock * Op)) t q, in_order t h q -> t <= q.
Proof. induction 1; lia. Qed.

Lemma in_order_in : forall Op (h : list (clock * Op)) t q c o, in_order t h q -> In (c, o) h -> t <= happens c <= q.
Proof.
  induction 1 as [|t c' o' h q H H' IH]; intros Hin; [destruct Hin|]. destruct Hin as [E|Hin].
  - injection E as -> ->. pose proof (in_order_le _ _ _ _ H'). lia.
  - specialize (IH Hin). lia.
Qed.

(** ** Flags *)

Lemma flag_last : forall us f f' ns k (w : clock) w' bs,
  Forall2 truth us bs ->
  run_all (fun f u => ret (flag_update f u)) f us k w = Ok (f', ns) w' ->
  last_of (f_state f) bs (f_state f')
  /\ ns = map (fun b => match b with Some _ => 1 | None => 0 end) bs
  /\ f_name f' = f_name f /\ f_descr f' = f_descr f /\ f_show_inverted f' = f_show_inverted f.
Proof.
  intros us f f' ns k w w' bs Ht. revert f f' ns w w'.
  induction Ht as [|u b us bs Hu Ht IH]; intros f f' ns w w' E.
  - cbn in E. steps. split; [apply last_none; constructor|]. auto.
  - cbn [run_all] in E. apply bind_ok in E. destruct E as ([f1 n] & w1 & E1 & E).
    apply bind_ok in E. destruct E as ([f2 ns2] & w2 & E2 & E).
    injection E1 as E1 Ew. steps.
    destruct (IH _ _ _ _ _ E2) as (H1 & -> & H3 & H4 & H5).
    assert (Hstep : (f_state f1 = match b with Some x => Some x | None => f_state f end)
                    /\ n = match b with Some _ => 1 | None => 0 end
                    /\ f_name f1 = f_name f /\ f_descr f1 = f_descr f /\ f_show_inverted f1 = f_show_inverted f).
    { clear - E1 Hu. inversion Hu; subst; cbn in E1; try (injection E1 as <- <-); cbn; try (repeat split; reflexivity).
      - replace (z =? 0) with false by lia. repeat split; reflexivity.
      - replace (z =? 0) with false by lia. repeat split; reflexivity. }
    destruct Hstep as (S1 & -> & S3 & S4 & S5). rewrite S3 in H3. rewrite S4 in H4. rewrite S5 in H5.
    split; [|split; [reflexivity|auto]].
    rewrite S1 in H1. destruct b as [x|].
    + destruct H1 as [l Hl|l1 y l2 Hl].
      * apply (last_some _ []). exact Hl.
      * apply (last_some _ (Some x :: l1)). exact Hl.
    + destruct H1 as [l Hl|l1 y l2 Hl].
      * apply last_none. constructor; [reflexivity|exact Hl].
      * apply (last_some _ (None :: l1)). exact Hl.
Qed.

Lemma flag_shows : forall f d,
  match f_state f with
  | None => flag_put f d [] = put_postfixed_descriptives (f_descr f) (f_name f) [] d
  | Some b => flag_put f d [] = put_postfixed_descriptives (f_descr f) (f_name f) [] d
                ++ switch_shows (f_name f) b (option_map (fun a => (a, negb b)) (f_show_inverted f))
  end.
Proof.
  intros f d. unfold flag_put. destruct (f_state f) as [b|]; [|reflexivity].
  destruct (f_show_inverted f) as [a|]; unfold push, switch_shows; cbn [option_map].
  - rewrite <- app_assoc. f_equal. destruct a; reflexivity.
  - reflexivity.
Qed.

(** ** Putting a timed switch *)

Lemma put_timed_shape : forall name d state inv descriptive k q s q',
  put_timed_switch name d state inv descriptive [] k q = Ok s q' ->
  exists b q1, state k q = Ok b q1 /\
    match inv with
    | None => q' = q1 /\ s = put_postfixed_descriptives d name [] descriptive ++ switch_shows name b None
    | Some a => exists b2, state k q1 = Ok b2 q'
        /\ s = put_postfixed_descriptives d name [] descriptive ++ switch_shows name b (Some (a, negb b2))
    end.
Proof.
  intros name d state inv descriptive k q s q' E. unfold put_timed_switch in E.
  apply bind_ok in E. destruct E as (b & q1 & E1 & E). exists b, q1. split; [exact E1|].
  destruct inv as [a|].
  - apply bind_ok in E. destruct E as (b2 & q2 & E2 & E). steps. exists b2. split; [exact E2|].
    unfold push, switch_shows. rewrite <- app_assoc. f_equal. destruct a; reflexivity.
  - steps. split; reflexivity.
Qed.

Lemma put_timed_shows : forall name state inv descriptive k q s q',
  put_timed_switch name no_descr state inv descriptive [] k q = Ok s q' ->
  exists b q1 i, state k q = Ok b q1 /\ s = switch_shows name b i /\ option_map fst i = inv.
Proof.
  intros name state inv descriptive k q s q' P. apply put_timed_shape in P. destruct P as (b & q1 & S & P).
  exists b, q1. destruct inv as [a|].
  - destruct P as (b2 & _ & ->). exists (Some (a, negb b2)). split; [exact S|].
    destruct descriptive; split; reflexivity.
  - destruct P as (_ & ->). exists None. split; [exact S|]. destruct descriptive; split; reflexivity.
Qed.

(** ** Histories: last observation and period *)

Lemma run_timed_snoc : forall X Op (step : X -> Op -> M X) k x h c o x',
  run_timed step k x (h ++ [(c, o)]) = Some x' ->
  exists x1 c', run_timed step k x h = Some x1 /\ step x1 o k c = Ok x' c'.
Proof.
  intros X Op step k x h. revert x. induction h as [|[c1 o1] h IH]; intros x c o x' E; cbn in *.
  - destruct (step x o k c) eqn:E1; try discriminate E. injection E as <-. eauto.
  - destruct (step x o1 k c1); try discriminate E. apply IH. exact E.
Qed.

Lemma period_snoc_tap : forall d0 h c u d, period d0 h d -> period d0 (h ++ [(c, Tap u)]) d.
Proof.
  intros d0 h c u d [h' H|h1 c' d' h2 H].
  - apply period_initial. apply Forall_app. split; [exact H|]. constructor; [reflexivity|constructor].
  - rewrite <- app_assoc. cbn. apply period_configured. apply Forall_app. split; [exact H|].
    constructor; [reflexivity|constructor].
Qed.

Lemma period_snoc_config : forall d0 h c d, period d0 (h ++ [(c, Configure d)]) d.
Proof. intros. apply period_configured. constructor. Qed.

Lemma last_tap_snoc_tap : forall h c u, last_tap (h ++ [(c, Tap u)]) h (happens c).
Proof. intros. apply lt_intro. constructor. Qed.

Lemma last_tap_snoc_config : forall h h1 t c d, last_tap h h1 t -> last_tap (h ++ [(c, Configure d)]) h1 t.
Proof.
  intros h h1 t c d [h1' c' u h2 H]. rewrite <- app_assoc. cbn. apply lt_intro.
  apply Forall_app. split; [exact H|]. constructor; [reflexivity|constructor].
Qed.

Lemma no_taps_snoc : forall h c d, no_taps h -> no_taps (h ++ [(c, Configure d)]).
Proof. intros. apply Forall_app. split; [assumption|]. constructor; [reflexivity|constructor]. Qed.

Lemma last_tap_in : forall h h1 t, last_tap h h1 t -> tapped_at h t.
Proof.
  intros h h1 t [h1' c u h2 H]. exists c, u. split; [|reflexivity]. apply in_or_app. right. left. reflexivity.
Qed.

Lemma last_tap_latest : forall h h1 t t0 q u, last_tap h h1 t -> in_order t0 h q -> tapped_at h u -> u <= t.
Proof.
  intros h h1 t t0 q u [h1' c up h2 H] Ho (c' & u' & Hin & <-).
  apply in_order_app in Ho. destruct Ho as [Ho1 Ho2].
  apply in_app_or in Hin. destruct Hin as [Hin|[E|Hin]].
  - apply (in_order_in _ _ _ _ _ _ Ho1 Hin).
  - injection E as -> _. lia.
  - exfalso. unfold no_taps in H. rewrite Forall_forall in H. apply H in Hin. discriminate Hin.
Qed.

Lemma no_taps_not_tapped : forall h u, no_taps h -> ~ tapped_at h u.
Proof.
  intros h u H (c & up & Hin & _). unfold no_taps in H. rewrite Forall_forall in H. apply H in Hin. discriminate Hin.
Qed.

Lemma last_tap_unique : forall h a t b u, last_tap h a t -> last_tap h b u -> a = b /\ t = u.
Proof.
  assert (Hx : forall (a b : history) c u c' u' h2 h2', no_taps h2 -> no_taps h2' ->
            a ++ (c, Tap u) :: h2 = b ++ (c', Tap u') :: h2' -> a = b /\ c = c').
  { induction a as [|e a IH]; intros b c u c' u' h2 h2' Hn Hn' E; destruct b as [|e' b]; cbn in E.
    - injection E as -> -> ->. auto.
    - injection E as <- E. exfalso. subst h2. apply Forall_app in Hn. destruct Hn as [_ Hn].
      inversion Hn as [|? ? A]; subst. discriminate A.
    - injection E as -> E. exfalso. subst h2'. apply Forall_app in Hn'. destruct Hn' as [_ Hn'].
      inversion Hn' as [|? ? A]; subst. discriminate A.
    - injection E as <- E. destruct (IH _ _ _ _ _ _ _ Hn Hn' E) as [-> ->]. auto. }
  intros h a t b u H1 H2. destruct H1 as [h1 c up h2 Hn]. inversion H2 as [a c' u1 r Hn' E]; subst.
  destruct (Hx _ _ _ _ _ _ _ _ Hn' Hn E) as [-> ->]. auto.
Qed.

Lemma period_unique : forall d0 h p p', period d0 h p -> period d0 h p' -> p = p'.
Proof.
  assert (Hnc : forall h x, no_config h ->
    fold_left (fun acc (e : clock * switch_op) => match snd e with Configure d => d | Tap _ => acc end) h x = x).
  { induction h as [|e h IH]; intros x H; [reflexivity|]. inversion H; subst. cbn.
    destruct (snd e); [apply IH; assumption|discriminate]. }
  assert (Hr : forall d0 h p, period d0 h p ->
    p = fold_left (fun acc e => match snd e with Configure d => d | Tap _ => acc end) h d0).
  { intros d0 h p [h' H|h1 c d h2 H].
    - rewrite Hnc by exact H. reflexivity.
    - rewrite fold_left_app. cbn. rewrite Hnc by exact H. reflexivity. }
  intros d0 h p p' H H'. rewrite (Hr _ _ _ H), (Hr _ _ _ H'). reflexivity.
Qed.

(** ** Staircase timers *)

Definition staircase_same (a b : staircase_timer) : Prop :=
  st_name b = st_name a /\ st_descr b = st_descr a /\ st_invert b = st_invert a
  /\ st_show_inverted b = st_show_inverted a.

Lemma staircase_history : forall k t0 h t,
  st_stay_on_until t0 = None -> run_timed staircase_op k t0 h = Some t ->
  staircase_same t0 t /\ period (st_switch_off_after t0) h (st_switch_off_after t)
  /\ ((no_taps h /\ st_stay_on_until t = None)
      \/ exists h1 u d, last_tap h h1 u /\ period (st_switch_off_after t0) h1 d
         /\ st_stay_on_until t = Some (u + d)).
Proof.
  intros k t0 h t H0. revert t. induction h as [|[c o] h IH] using rev_ind; intros t E.
  - cbn in E. injection E as <-. split; [repeat split|]. split; [apply period_initial; constructor|].
    left. split; [constructor|exact H0].
  - apply run_timed_snoc in E. destruct E as (t1 & c' & E1 & E2). specialize (IH _ E1).
    destruct IH as (Hs & Hp & Hu). destruct o as [u|d]; cbn [staircase_op] in E2.
    + unfold staircase_update in E2. apply bind_ok in E2. destruct E2 as ([t2 n] & c2 & E2 & E3).
      apply bind_ok in E2. destruct E2 as (tm & c3 & E2 & E4). rewrite now_eq in E2. injection E2 as <- <-.
      apply bind_ok in E4. destruct E4 as (un & c4 & E4 & E5). apply instant_add_inv in E4. destruct E4 as (-> & -> & _).
      steps. split; [exact Hs|]. split; [apply period_snoc_tap; exact Hp|]. right.
      exists h, (c O), (st_switch_off_after t1). split; [apply last_tap_snoc_tap|]. split; [exact Hp|reflexivity].
    + steps. split; [exact Hs|]. split; [apply period_snoc_config|].
      destruct Hu as [[Hn Hu]|(h1 & u & d1 & H1 & H2 & H3)].
      * left. split; [apply no_taps_snoc; exact Hn|exact Hu].
      * right. exists h1, u, d1. split; [apply last_tap_snoc_config; exact H1|]. auto.
Qed.

Lemma last_tap_exists : forall h u, no_config h -> tapped_at h u -> exists h1 t1, last_tap h h1 t1.
Proof.
  intros h u Hnc (c & up & Hin & _). induction h as [|[c' o] h _] using rev_ind; [destruct Hin|].
  apply Forall_app in Hnc. destruct Hnc as [_ Hnc]. inversion Hnc as [|? ? A]; subst.
  destruct o as [u'|d]; [|discriminate A]. exists h, (happens c'). apply last_tap_snoc_tap.
Qed.

Lemma staircase_state_inv : forall t k q b q', staircase_state t k q = Ok b q' ->
  b = xorb (st_invert t) (match st_stay_on_until t with Some u => happens q <=? u | None => false end)
  /\ q' = match st_stay_on_until t with Some _ => clock_tail q | None => q end.
Proof.
  intros t k q b q' E. unfold staircase_state in E. apply bind_ok in E. destruct E as (v & q1 & E1 & E).
  steps. destruct (st_stay_on_until t).
  - apply bind_ok in E1. destruct E1 as (n & q2 & E1 & E2). rewrite now_eq in E1. injection E1 as <- <-. steps.
    split; [unfold happens; destruct (st_invert t), (q O <=? z); reflexivity|reflexivity].
  - steps. split; [destruct (st_invert t); reflexivity|reflexivity].
Qed.

(** The field is on (off, if inverted) iff the last observation is not older
    than the period that was in force when it arrived. *)
Lemma staircase_on : forall k t0 h t d q s q',
  st_stay_on_until t0 = None -> st_descr t0 = no_descr ->
  run_timed staircase_op k t0 h = Some t -> staircase_put t d [] k q = Ok s q' ->
  exists b i, s = switch_shows (st_name t0) b i /\ option_map fst i = st_show_inverted t0
    /\ (xorb (st_invert t0) b = true <->
        exists h1 u p, last_tap h h1 u /\ period (st_switch_off_after t0) h1 p /\ happens q <= u + p).
Proof.
  intros k t0 h t d q s q' H0 Hd E P. destruct (staircase_history _ _ _ _ H0 E) as ((Hn & Hd' & Hi & Hsi) & _ & Hu).
  unfold staircase_put in P. rewrite Hn, Hd', Hd, Hsi in P.
  apply put_timed_shows in P. destruct P as (b & q1 & i & S & Hs & Hinv).
  apply staircase_state_inv in S. destruct S as [Hb _].
  exists b, i. split; [exact Hs|]. split; [exact Hinv|]. rewrite Hb, Hi.
  rewrite <- xorb_assoc, xorb_nilpotent, xorb_false_l.
  destruct Hu as [[Hnt ->]|(h1 & u & p & H1 & H2 & ->)].
  - split; [discriminate|]. intros (h1 & u & p & H1 & _). exfalso. eapply no_taps_not_tapped; [exact Hnt|].
    eapply last_tap_in; exact H1.
  - split.
    + intros Hle. exists h1, u, p. split; [exact H1|]. split; [exact H2|]. lia.
    + intros (h1' & u' & p' & H1' & H2' & Hle).
      destruct (last_tap_unique _ _ _ _ _ H1 H1') as [<- <-].
      rewrite (period_unique _ _ _ _ H2 H2'). lia.
Qed.

(** With a fixed period: iff there was an observation within the period. *)
Lemma staircase_fixed : forall k t0 h t d start q s q',
  st_stay_on_until t0 = None -> st_descr t0 = no_descr -> no_config h -> in_order start h (happens q) ->
  run_timed staircase_op k t0 h = Some t -> staircase_put t d [] k q = Ok s q' ->
  exists b i, s = switch_shows (st_name t0) b i /\ option_map fst i = st_show_inverted t0
    /\ (xorb (st_invert t0) b = true <->
        exists u, tapped_at h u /\ u <= happens q <= u + st_switch_off_after t0).
Proof.
  intros k t0 h t d start q s q' H0 Hd Hnc Ho E P.
  destruct (staircase_on _ _ _ _ _ _ _ _ H0 Hd E P) as (b & i & Hs & Hinv & Hb).
  exists b, i. split; [exact Hs|]. split; [exact Hinv|]. rewrite Hb. split.
  - intros (h1 & u & p & H1 & H2 & Hle). exists u. pose proof (last_tap_in _ _ _ H1) as Hin.
    split; [exact Hin|]. destruct Hin as (c & up & Hin & Hc). pose proof (in_order_in _ _ _ _ _ _ Ho Hin).
    assert (p = st_switch_off_after t0).
    { eapply period_unique; [exact H2|]. apply period_initial. destruct H1 as [h1 c' u' h2 _].
      apply Forall_app in Hnc. apply Hnc. }
    lia.
  - intros (u & Hin & Hle).
    destruct (last_tap_exists _ _ Hnc Hin) as (h1 & t1 & H1). exists h1, t1, (st_switch_off_after t0).
    split; [exact H1|]. split.
    + apply period_initial. destruct H1 as [h1 c' u' h2 _]. apply Forall_app in Hnc. apply Hnc.
    + pose proof (last_tap_latest _ _ _ _ _ u H1 Ho Hin). lia.
Qed.

Lemma staircase_with_facts : forall name p invert sh,
  let t0 := staircase_with (staircase_set_switch_off_after (staircase_new name) p) invert sh in
  st_stay_on_until t0 = None /\ st_descr t0 = no_descr /\ st_name t0 = name /\ st_invert t0 = invert
  /\ st_show_inverted t0 = sh /\ st_switch_off_after t0 = p.
Proof. intros name p invert [a|]; cbn; repeat split; reflexivity. Qed.

Lemma staircase_new_fixed : forall k name p invert sh h t d start q s q',
  let t0 := staircase_with (staircase_set_switch_off_after (staircase_new name) p) invert sh in
  no_config h -> in_order start h (happens q) ->
  run_timed staircase_op k t0 h = Some t -> staircase_put t d [] k q = Ok s q' ->
  exists b i, s = switch_shows name b i /\ option_map fst i = sh
    /\ (xorb invert b = true <-> exists u, tapped_at h u /\ u <= happens q <= u + p).
Proof.
  intros k name p invert sh h t d start q s q' t0 Hnc Ho E P.
  destruct (staircase_with_facts name p invert sh) as (F1 & F2 & F3 & F4 & F5 & F6). fold t0 in F1, F2, F3, F4, F5, F6.
  rewrite <- F3, <- F4, <- F5, <- F6. eapply staircase_fixed; eassumption.
Qed.

Lemma staircase_new_on : forall k name p invert sh h t d q s q',
  let t0 := staircase_with (staircase_set_switch_off_after (staircase_new name) p) invert sh in
  run_timed staircase_op k t0 h = Some t -> staircase_put t d [] k q = Ok s q' ->
  exists b i, s = switch_shows name b i /\ option_map fst i = sh
    /\ (xorb invert b = true <->
        exists h1 u w, last_tap h h1 u /\ period p h1 w /\ happens q <= u + w).
Proof.
  intros k name p invert sh h t d q s q' t0 E P.
  destruct (staircase_with_facts name p invert sh) as (F1 & F2 & F3 & F4 & F5 & F6). fold t0 in F1, F2, F3, F4, F5, F6.
  rewrite <- F3, <- F4, <- F5, <- F6. eapply staircase_on; eassumption.
Qed.

Lemma switch_shows_inj : forall name b i b' i', switch_shows name b i = switch_shows name b' i' -> b = b'.
Proof. intros name b i b' i' H. unfold switch_shows in H. injection H. auto. Qed.

(** A further observation never shortens the time. *)
Lemma staircase_extends : forall k name p invert sh h1 c u h2 t t' d start q b i q' b' i' q'',
  let t0 := staircase_with (staircase_set_switch_off_after (staircase_new name) p) invert sh in
  no_config (h1 ++ h2) ->
  in_order start (h1 ++ (c, Tap u) :: h2) (happens q) -> in_order start (h1 ++ h2) (happens q) ->
  run_timed staircase_op k t0 (h1 ++ h2) = Some t ->
  run_timed staircase_op k t0 (h1 ++ (c, Tap u) :: h2) = Some t' ->
  staircase_put t d [] k q = Ok (switch_shows name b i) q' ->
  staircase_put t' d [] k q = Ok (switch_shows name b' i') q'' ->
  xorb invert b = true -> xorb invert b' = true.
Proof.
  intros k name p invert sh h1 c u h2 t t' d start q b i q' b' i' q'' t0 Hnc Ho Ho2 E E' P P' Hb.
  destruct (staircase_new_fixed _ _ _ _ _ _ _ _ _ _ _ _ Hnc Ho2 E P) as (b1 & i1 & Hs & _ & Hiff).
  apply switch_shows_inj in Hs. subst b1.
  assert (Hnc' : no_config (h1 ++ (c, Tap u) :: h2)).
  { apply Forall_app in Hnc. destruct Hnc. apply Forall_app. split; [assumption|]. constructor; [reflexivity|assumption]. }
  destruct (staircase_new_fixed _ _ _ _ _ _ _ _ _ _ _ _ Hnc' Ho E' P') as (b2 & i2 & Hs2 & _ & Hiff2).
  apply switch_shows_inj in Hs2. subst b2.
  apply Hiff2. apply Hiff in Hb. destruct Hb as (x & (c' & up & Hin & Hc) & Hle).
  exists x. split; [|exact Hle]. exists c', up. split; [|exact Hc].
  apply in_or_app. apply in_app_or in Hin. destruct Hin; [left|right; right]; assumption.
Qed.

(** ** Occurrence indicators *)

Definition occurrence_same (a b : occurrence_indicator) : Prop :=
  oi_name b = oi_name a /\ oi_descr b = oi_descr a /\ oi_invert b = oi_invert a
  /\ oi_show_inverted b = oi_show_inverted a.

Lemma since_config_snoc_tap : forall h r c u, since_config h r -> since_config (h ++ [(c, Tap u)]) (r ++ [(c, Tap u)]).
Proof.
  intros h r c u [h' H|h1 c' d h2 H].
  - apply sc_never. apply Forall_app. split; [exact H|]. constructor; [reflexivity|constructor].
  - rewrite <- app_assoc. cbn. apply sc_config. apply Forall_app. split; [exact H|]. constructor; [reflexivity|constructor].
Qed.

Lemma since_config_no_config : forall h r, since_config h r -> no_config r.
Proof. intros h r [h' H|h1 c' d h2 H]; exact H. Qed.

Lemma since_config_unique : forall h a b, since_config h a -> since_config h b -> a = b.
Proof.
  assert (Hx : forall (a b : history) c d c' d' r r', no_config r -> no_config r' ->
            a ++ (c, Configure d) :: r = b ++ (c', Configure d') :: r' -> r = r').
  { induction a as [|e a IH]; intros b c u c' u' h2 h2' Hn Hn' E; destruct b as [|e' b]; cbn in E.
    - injection E as _ _ ->. auto.
    - injection E as <- E. exfalso. subst h2. apply Forall_app in Hn. destruct Hn as [_ Hn].
      inversion Hn as [|? ? A]; subst. discriminate A.
    - injection E as -> E. exfalso. subst h2'. apply Forall_app in Hn'. destruct Hn' as [_ Hn'].
      inversion Hn' as [|? ? A]; subst. discriminate A.
    - injection E as _ E. eauto. }
  intros h a b Ha Hb. destruct Ha as [h H|h1 c d h2 H]; inversion Hb as [h' H' E|h1' c' d' h2' H' E]; subst.
  - reflexivity.
  - exfalso. apply Forall_app in H. destruct H as [_ H]. inversion H as [|? ? A]; subst. discriminate A.
  - exfalso. apply Forall_app in H'. destruct H' as [_ H']. inversion H' as [|? ? A]; subst. discriminate A.
  - eapply Hx; [exact H|exact H'|symmetry; exact E].
Qed.

Lemma since_config_exists : forall h, exists r, since_config h r.
Proof.
  induction h as [|[c o] h [r IH]] using rev_ind.
  - exists []. apply sc_never. constructor.
  - destruct o as [u|d].
    + eexists. apply since_config_snoc_tap. exact IH.
    + exists []. apply sc_config. constructor.
Qed.

Lemma since_config_incl : forall h r e, since_config h r -> In e r -> In e h.
Proof.
  intros h r e [h' H|h1 c d h2 H] Hin; [exact Hin|]. apply in_or_app. right. right. exact Hin.
Qed.

(** Between configurations, what the indicator remembers. *)
Lemma occurrence_history : forall k x0 h x start q,
  start <= q -> in_order start h q -> oi_happened_last x0 = start - oi_if_happened_within x0 ->
  run_timed occurrence_op k x0 h = Some x ->
  occurrence_same x0 x /\ period (oi_if_happened_within x0) h (oi_if_happened_within x)
  /\ exists r, since_config h r
     /\ ((r = [] /\ exists t, oi_happened_last x = t - oi_if_happened_within x /\ t <= q)
         \/ exists r1 u, last_tap r r1 u /\ oi_happened_last x = u).
Proof.
  intros k x0 h x start q Hle. revert x q Hle. induction h as [|[c o] h IH] using rev_ind; intros x q Hle Ho H0 E.
  - cbn in E. injection E as <-. split; [repeat split|]. split; [apply period_initial; constructor|].
    exists []. split; [apply sc_never; constructor|]. left. split; [reflexivity|]. exists start. auto.
  - apply in_order_app in Ho. destruct Ho as [Ho Ho2].
    apply run_timed_snoc in E. destruct E as (x1 & c' & E1 & E2).
    destruct (IH _ (happens c) (in_order_le _ _ _ _ Ho) Ho H0 E1) as (Hs & Hp & r & Hr & Hc).
    apply in_order_le in Ho2. destruct o as [u|d]; cbn [occurrence_op] in E2.
    + unfold occurrence_update in E2. apply bind_ok in E2. destruct E2 as ([x2 n] & c2 & E2 & E3).
      apply bind_ok in E2. destruct E2 as (tm & c3 & E2 & E4). rewrite now_eq in E2. injection E2 as <- <-.
      steps. split; [exact Hs|]. split; [apply period_snoc_tap; exact Hp|].
      exists (r ++ [(c, Tap u)]). split; [apply since_config_snoc_tap; exact Hr|].
      right. exists r, (c O). split; [apply last_tap_snoc_tap|reflexivity].
    + unfold occurrence_set_if_happened_within in E2.
      apply bind_ok in E2. destruct E2 as (tm & c3 & E2 & E4). rewrite now_eq in E2. injection E2 as <- <-.
      apply bind_ok in E4. destruct E4 as (un & c4 & E4 & E5). apply instant_sub_inv in E4. destruct E4 as (-> & -> & _).
      steps. split; [exact Hs|]. split; [apply period_snoc_config|].
      exists []. split; [apply sc_config; constructor|]. left. split; [reflexivity|]. exists (c O).
      split; [reflexivity|]. exact Ho2.
Qed.

Lemma occurrence_state_inv : forall x k q b q', occurrence_state x k q = Ok b q' ->
  b = xorb (oi_invert x) (happens q - oi_if_happened_within x <? oi_happened_last x) /\ q' = clock_tail q.
Proof.
  intros x k q b q' E. unfold occurrence_state in E.
  apply bind_ok in E. destruct E as (tm & c3 & E2 & E4). rewrite now_eq in E2. injection E2 as <- <-.
  apply bind_ok in E4. destruct E4 as (un & c4 & E4 & E5). apply instant_sub_inv in E4. destruct E4 as (-> & -> & _).
  cbv zeta in E5. steps. split; [|reflexivity]. unfold happens. destruct (oi_invert x), (_ <? _); reflexivity.
Qed.

Lemma in_order_suffix : forall h1 h2 (t : Z) q, @in_order switch_op t (h1 ++ h2) q -> exists t', in_order t' h2 q.
Proof.
  induction h1 as [|[c o] h1 IH]; intros h2 t q H; [eauto|]. inversion H; subst. eauto.
Qed.

Lemma since_config_in_order : forall h r t q, since_config h r -> in_order t h q -> exists t', in_order t' r q.
Proof.
  intros h r t q [h' H|h1 c d h2 H] Ho; [eauto|]. apply in_order_app in Ho. destruct Ho. eauto.
Qed.

Lemma occurrence_on : forall k name start x0 c1 invert sh h x d q s q',
  occurrence_new name k start = Ok x0 c1 ->
  in_order (happens start) h (happens q) ->
  run_timed occurrence_op k (occurrence_with x0 invert sh) h = Some x -> occurrence_put x d [] k q = Ok s q' ->
  exists b i r w, s = switch_shows name b i /\ option_map fst i = sh
    /\ since_config h r /\ period 60000000000 h w
    /\ (xorb invert b = true <-> exists u, tapped_at r u /\ happens q - u < w).
Proof.
  intros k name start x0 c1 invert sh h x d q s q' N Ho E P.
  unfold occurrence_new in N.
  apply bind_ok in N. destruct N as (tm & c3 & E2 & E4). rewrite now_eq in E2. injection E2 as <- <-.
  apply bind_ok in E4. destruct E4 as (un & c4 & E4 & E5). apply instant_sub_inv in E4. destruct E4 as (-> & -> & _).
  injection E5 as <- _.
  match type of E with run_timed _ _ ?y _ = _ => set (x1 := y) in E end.
  assert (F : oi_name x1 = name /\ oi_descr x1 = no_descr /\ oi_invert x1 = invert /\ oi_show_inverted x1 = sh
    /\ oi_if_happened_within x1 = 60000000000 /\ oi_happened_last x1 = happens start - oi_if_happened_within x1)
    by (destruct sh; cbn; repeat split; reflexivity).
  clearbody x1. destruct F as (F1 & F2 & F3 & F4 & F5 & F6).
  destruct (occurrence_history k _ h x (happens start) (happens q) (in_order_le _ _ _ _ Ho) Ho F6 E)
    as ((Hn & Hd & Hi & Hsi) & Hp & r & Hr & Hc).
  unfold occurrence_put in P. rewrite Hn, Hd, Hsi, F1, F2, F4 in P. rewrite F5 in Hp.
  apply put_timed_shows in P. destruct P as (b & q1 & i & S & Hs & Hinv).
  apply occurrence_state_inv in S. destruct S as [Hb _]. rewrite Hi, F3 in Hb.
  exists b, i, r, (oi_if_happened_within x).
  split; [exact Hs|]. split; [exact Hinv|]. split; [exact Hr|]. split; [exact Hp|].
  rewrite Hb, <- xorb_assoc, xorb_nilpotent, xorb_false_l.
  destruct (since_config_in_order _ _ _ _ Hr Ho) as [t' Ho'].
  destruct Hc as [[-> (t & Ht & Hle)]|(r1 & u & H1 & H2)].
  - split.
    + intros H. lia.
    + intros (u & (c & up & [] & _) & _).
  - split.
    + intros H. exists u. split; [eapply last_tap_in; exact H1|]. lia.
    + intros (u' & Hu' & Hlt). pose proof (last_tap_latest _ _ _ _ _ _ H1 Ho' Hu'). lia.
Qed.

(** ** Non-occurrence indicators *)

Definition non_occurrence_same (a b : non_occurrence_indicator) : Prop :=
  ni_name b = ni_name a /\ ni_descr b = ni_descr a /\ ni_invert b = ni_invert a
  /\ ni_show_inverted b = ni_show_inverted a.

Lemma non_occurrence_history : forall k x0 h x,
  run_timed non_occurrence_op k x0 h = Some x ->
  non_occurrence_same x0 x /\ period (ni_if_not_happened_within x0) h (ni_if_not_happened_within x)
  /\ ((no_taps h /\ ni_happened_last x = ni_happened_last x0)
      \/ exists h1 u, last_tap h h1 u /\ ni_happened_last x = u).
Proof.
  intros k x0 h. induction h as [|[c o] h IH] using rev_ind; intros x E.
  - cbn in E. injection E as <-. split; [repeat split|]. split; [apply period_initial; constructor|].
    left. split; [constructor|reflexivity].
  - apply run_timed_snoc in E. destruct E as (x1 & c' & E1 & E2).
    destruct (IH _ E1) as (Hs & Hp & Hc). destruct o as [u|d]; cbn [non_occurrence_op] in E2.
    + unfold non_occurrence_update in E2. apply bind_ok in E2. destruct E2 as ([x2 n] & c2 & E2 & E3).
      apply bind_ok in E2. destruct E2 as (tm & c3 & E2 & E4). rewrite now_eq in E2. injection E2 as <- <-.
      steps. split; [exact Hs|]. split; [apply period_snoc_tap; exact Hp|].
      right. exists h, (c O). split; [apply last_tap_snoc_tap|reflexivity].
    + steps. split; [exact Hs|]. split; [apply period_snoc_config|].
      destruct Hc as [[Hn Hc]|(h1 & u & H1 & H2)].
      * left. split; [apply no_taps_snoc; exact Hn|exact Hc].
      * right. exists h1, u. split; [apply last_tap_snoc_config; exact H1|exact H2].
Qed.

Lemma non_occurrence_state_inv : forall x k q b q', non_occurrence_state x k q = Ok b q' ->
  b = xorb (ni_invert x) (ni_happened_last x <=? happens q - ni_if_not_happened_within x) /\ q' = clock_tail q.
Proof.
  intros x k q b q' E. unfold non_occurrence_state in E.
  apply bind_ok in E. destruct E as (tm & c3 & E2 & E4). rewrite now_eq in E2. injection E2 as <- <-.
  apply bind_ok in E4. destruct E4 as (un & c4 & E4 & E5). apply instant_sub_inv in E4. destruct E4 as (-> & -> & _).
  cbv zeta in E5. steps. split; [|reflexivity]. unfold happens. destruct (ni_invert x), (_ <=? _); reflexivity.
Qed.

Lemma non_occurrence_on : forall k name start x0 c1 invert sh h x d q s q',
  non_occurrence_new name k start = Ok x0 c1 ->
  in_order (happens start) h (happens q) ->
  run_timed non_occurrence_op k (non_occurrence_with x0 invert sh) h = Some x ->
  non_occurrence_put x d [] k q = Ok s q' ->
  exists b i w, s = switch_shows name b i /\ option_map fst i = sh /\ period 60000000000 h w
    /\ (xorb invert b = true <->
        w <= happens q - happens start /\ forall u, tapped_at h u -> w <= happens q - u).
Proof.
  intros k name start x0 c1 invert sh h x d q s q' N Ho E P.
  unfold non_occurrence_new in N.
  apply bind_ok in N. destruct N as (tm & c3 & E2 & E4). rewrite now_eq in E2. injection E2 as <- <-.
  injection E4 as <- _.
  match type of E with run_timed _ _ ?y _ = _ => set (x1 := y) in E end.
  assert (F : ni_name x1 = name /\ ni_descr x1 = no_descr /\ ni_invert x1 = invert /\ ni_show_inverted x1 = sh
    /\ ni_if_not_happened_within x1 = 60000000000 /\ ni_happened_last x1 = happens start)
    by (destruct sh; cbn; repeat split; reflexivity).
  clearbody x1. destruct F as (F1 & F2 & F3 & F4 & F5 & F6).
  destruct (non_occurrence_history k _ h x E) as ((Hn & Hd & Hi & Hsi) & Hp & Hc).
  unfold non_occurrence_put in P. rewrite Hn, Hd, Hsi, F1, F2, F4 in P. rewrite F5 in Hp.
  apply put_timed_shows in P. destruct P as (b & q1 & i & S & Hs & Hinv).
  apply non_occurrence_state_inv in S. destruct S as [Hb _]. rewrite Hi, F3 in Hb.
  exists b, i, (ni_if_not_happened_within x).
  split; [exact Hs|]. split; [exact Hinv|]. split; [exact Hp|].
  rewrite Hb, <- xorb_assoc, xorb_nilpotent, xorb_false_l. rewrite F6 in Hc.
  destruct Hc as [[Hnt Hc]|(h1 & u & H1 & H2)].
  - split.
    + intros H. split; [lia|]. intros u Hu. exfalso. eapply no_taps_not_tapped; eassumption.
    + intros [H _]. lia.
  - pose proof (last_tap_in _ _ _ H1) as Hin. destruct Hin as (c & up & Hin & Hcu).
    pose proof (in_order_in _ _ _ _ _ _ Ho Hin) as Hge. split.
    + intros H. split; [lia|]. intros u' Hu'. pose proof (last_tap_latest _ _ _ _ _ _ H1 Ho Hu'). lia.
    + intros [_ H]. specialize (H u (ex_intro _ c (ex_intro _ up (conj Hin Hcu)))). lia.
Qed.

(** With equal settings and an observation last, the two indicators are opposites. *)
Lemma indicators_opposite : forall k name name' start start' x0 y0 c1 c2 invert sh sh' h1 c u x y d q bx ix by_ iy q1 q2,
  let h := h1 ++ [(c, Tap u)] in
  occurrence_new name k start = Ok x0 c1 -> non_occurrence_new name' k start' = Ok y0 c2 ->
  in_order (happens start) h (happens q) -> in_order (happens start') h (happens q) ->
  run_timed occurrence_op k (occurrence_with x0 invert sh) h = Some x ->
  run_timed non_occurrence_op k (non_occurrence_with y0 invert sh') h = Some y ->
  occurrence_put x d [] k q = Ok (switch_shows name bx ix) q1 ->
  non_occurrence_put y d [] k q = Ok (switch_shows name' by_ iy) q2 ->
  bx = negb by_.
Proof.
  intros k name name' start start' x0 y0 c1 c2 invert sh sh' h1 c u x y d q bx ix by_ iy q1 q2 h NX NY Ho Ho' RX RY PX PY.
  destruct (occurrence_on _ _ _ _ _ _ _ _ _ _ _ _ _ NX Ho RX PX) as (b & i & r & w & Hs & _ & Hr & Hp & Hiff).
  destruct (non_occurrence_on _ _ _ _ _ _ _ _ _ _ _ _ _ NY Ho' RY PY) as (b' & i' & w' & Hs' & _ & Hp' & Hiff').
  apply switch_shows_inj in Hs. subst b. apply switch_shows_inj in Hs'. subst b'.
  rewrite (period_unique _ _ _ _ Hp' Hp) in *.
  assert (Hlast : last_tap h h1 (happens c)) by apply last_tap_snoc_tap.
  destruct (since_config_exists h1) as [r1 Hr1].
  pose proof (since_config_unique _ _ _ Hr (since_config_snoc_tap _ _ c u Hr1)) as ->.
  assert (Hin : tapped_at (r1 ++ [(c, Tap u)]) (happens c)).
  { exists c, u. split; [apply in_or_app; right; left|]; reflexivity. }
  assert (Hin' : In (c, Tap u) h) by (apply in_or_app; right; left; reflexivity).
  pose proof (in_order_in _ _ _ _ _ _ Ho' Hin') as Hge.
  assert (HX : xorb invert bx = true <-> happens q - happens c < w).
  { rewrite Hiff. split; [|eauto]. intros (v & Hv & Hlt).
    assert (Hv' : tapped_at h v).
    { destruct Hv as (cv & uv & Hv & Hvc). exists cv, uv. split; [|exact Hvc].
      eapply since_config_incl; [exact Hr|exact Hv]. }
    pose proof (last_tap_latest _ _ _ _ _ _ Hlast Ho Hv'). lia. }
  assert (HY : xorb invert by_ = true <-> w <= happens q - happens c).
  { rewrite Hiff'. split.
    - intros [_ Ha]. apply Ha. exists c, u. auto.
    - intros Hle. split; [lia|]. intros v Hv. pose proof (last_tap_latest _ _ _ _ _ _ Hlast Ho Hv). lia. }
  destruct invert, bx, by_; cbn in *; try reflexivity; exfalso; destruct HX as [HX1 HX2], HY as [HY1 HY2];
    destruct (Z_lt_le_dec (happens q - happens c) w) as [Hc|Hc];
    first [discriminate (HX2 Hc)|discriminate (HY2 Hc)|specialize (HX1 eq_refl); lia|specialize (HY1 eq_refl); lia].
Qed.

(** ** The inverted field *)

Lemma staircase_inverted_same_reading : forall t d k q s q' a,
  st_show_inverted t = Some a -> st_descr t = no_descr -> q 1%nat = q 0%nat ->
  staircase_put t d [] k q = Ok s q' ->
  exists b, s = switch_shows (st_name t) b (Some (a, negb b)).
Proof.
  intros t d k q s q' a Ha Hd Hq P. unfold staircase_put in P. rewrite Hd, Ha in P.
  apply put_timed_shape in P. destruct P as (b & q1 & S1 & b2 & S2 & ->).
  apply staircase_state_inv in S1. destruct S1 as [-> ->]. apply staircase_state_inv in S2. destruct S2 as [-> _].
  destruct (st_stay_on_until t) as [z|]; eexists; [unfold happens, clock_tail; rewrite Hq|];
    destruct d; reflexivity.
Qed.

Lemma occurrence_inverted_same_reading : forall t d k q s q' a,
  oi_show_inverted t = Some a -> oi_descr t = no_descr -> q 1%nat = q 0%nat ->
  occurrence_put t d [] k q = Ok s q' ->
  exists b, s = switch_shows (oi_name t) b (Some (a, negb b)).
Proof.
  intros t d k q s q' a Ha Hd Hq P. unfold occurrence_put in P. rewrite Hd, Ha in P.
  apply put_timed_shape in P. destruct P as (b & q1 & S1 & b2 & S2 & ->).
  apply occurrence_state_inv in S1. destruct S1 as [-> ->]. apply occurrence_state_inv in S2. destruct S2 as [-> _].
  eexists. unfold happens, clock_tail. rewrite Hq. destruct d; reflexivity.
Qed.

Lemma non_occurrence_inverted_same_reading : forall t d k q s q' a,
  ni_show_inverted t = Some a -> ni_descr t = no_descr -> q 1%nat = q 0%nat ->
  non_occurrence_put t d [] k q = Ok s q' ->
  exists b, s = switch_shows (ni_name t) b (Some (a, negb b)).
Proof.
  intros t d k q s q' a Ha Hd Hq P. unfold non_occurrence_put in P. rewrite Hd, Ha in P.
  apply put_timed_shape in P. destruct P as (b & q1 & S1 & b2 & S2 & ->).
  apply non_occurrence_state_inv in S1. destruct S1 as [-> ->]. apply non_occurrence_state_inv in S2. destruct S2 as [-> _].
  eexists. unfold happens, clock_tail. rewrite Hq. destruct d; reflexivity.
Qed.

(** ** Last occurrence trackers *)

Lemma last_occurrence_history : forall k x0 h x,
  run_timed last_occurrence_op k x0 h = Some x ->
  last_of (lt_happened_last x0) (map (fun e => Some (happens (fst e))) h) (lt_happened_last x)
  /\ lt_name x = lt_name x0 /\ lt_descr x = lt_descr x0 /\ lt_make_none_zero x = lt_make_none_zero x0.
Proof.
  intros k x0 h. induction h as [|[c u] h IH] using rev_ind; intros x E.
  - cbn in E. injection E as <-. split; [apply last_none; constructor|auto].
  - apply run_timed_snoc in E. destruct E as (x1 & c' & E1 & E2). destruct (IH _ E1) as (_ & H2 & H3 & H4).
    unfold last_occurrence_op, last_occurrence_update in E2.
    apply bind_ok in E2. destruct E2 as ([x2 n] & c2 & E2 & E3).
    apply bind_ok in E2. destruct E2 as (tm & c3 & E2 & E4). rewrite now_eq in E2. injection E2 as <- <-.
    steps. split; [rewrite map_app; cbn; apply last_of_snoc_some|auto].
Qed.

Lemma last_occurrence_shows_before : forall k x0 x d q s q',
  lt_happened_last x0 = None -> lt_descr x0 = no_descr ->
  run_timed last_occurrence_op k x0 [] = Some x -> last_occurrence_put x d [] k q = Ok s q' ->
  s = if lt_make_none_zero x0 then [(lt_name x0, Int 0)] else [].
Proof.
  intros k x0 x d q s q' H0 Hd E P. cbn in E. injection E as <-.
  unfold last_occurrence_put, last_occurrence_elapsed in P. rewrite H0, Hd in P.
  destruct (lt_make_none_zero x0), d; cbn in P; injection P as <- _; reflexivity.
Qed.

Lemma last_occurrence_shows : forall k x0 h c u x d q s q',
  lt_descr x0 = no_descr -> happens c <= happens q ->
  run_timed last_occurrence_op k x0 (h ++ [(c, u)]) = Some x -> last_occurrence_put x d [] k q = Ok s q' ->
  exists n, s = [(lt_name x0, UInt n)]
    /\ n * 1000000000 <= happens q - happens c < (n + 1) * 1000000000.
Proof.
  intros k x0 h c u x d q s q' Hd Hle E P.
  destruct (last_occurrence_history _ _ _ _ E) as (H1 & H2 & H3 & _).
  rewrite map_app in H1. cbn in H1.
  pose proof (last_of_unique _ _ _ _ _ H1 (last_of_snoc_some _ _ _ _)) as Hl.
  unfold last_occurrence_put, last_occurrence_elapsed in P. rewrite Hl, H2, H3, Hd in P.
  apply bind_ok in P. destruct P as (v & q1 & P1 & P2).
  apply bind_ok in P1. destruct P1 as (tm & c3 & E2 & E4). rewrite now_eq in E2. injection E2 as <- <-.
  steps. exists (as_secs (Z.max 0 (q O - c O))). split; [destruct d; reflexivity|].
  unfold as_secs, happens in *. rewrite Z.max_r by lia.
  pose proof (Z.div_mod (q O - c O) 1000000000). pose proof (Z.mod_pos_bound (q O - c O) 1000000000).
  change nanos_per_sec with 1000000000. lia.
Qed.

(** ** Displays *)

Lemma displayable_update : forall u x k c x' n c',
  display_update x u k c = Ok (x', n) c' ->
  match displayable u with
  | None => x' = x
  | Some v => dd_value x' = Some v /\ dd_reset_after x' = dd_reset_after x /\ dd_reset_value x' = dd_reset_value x
              /\ dd_name x' = dd_name x /\ dd_descr x' = dd_descr x
              /\ dd_stay_on_until x' = match dd_reset_after x with Some r => Some (happens c + r) | None => dd_stay_on_until x end
  end.
Proof.
  intros u x k c x' n c' E. unfold display_update in E.
  assert (Hcase : match displayable u with
    | None => match upd_observed_value u with None => True | Some v => to_item_kind v = None end
    | Some w => exists v, upd_observed_value u = Some v /\ to_item_kind v = Some w end).
  { destruct u as [n' t|t|[z|z|f|b|d tu|dl] t]; cbn; eauto. }
  destruct (displayable u) as [w|].
  - destruct Hcase as (v & Hv & Hw). rewrite Hv, Hw in E.
    apply bind_ok in E. destruct E as (until & c1 & E1 & E2).
    destruct (dd_reset_after x) as [r|] eqn:Er.
    + apply bind_ok in E1. destruct E1 as (tm & c3 & E1 & E4). rewrite now_eq in E1. injection E1 as <- <-.
      apply bind_ok in E4. destruct E4 as (un & c4 & E4 & E5). apply instant_add_inv in E4. destruct E4 as (-> & -> & _).
      steps. cbn. auto 10.
    + steps. cbn. auto 10.
  - destruct (upd_observed_value u) as [v|]; [rewrite Hcase in E|]; steps; reflexivity.
Qed.

Lemma expires_snoc_other : forall h e c o,
  (forall u, o = Show u -> displayable u = None) -> expires h e -> expires (h ++ [(c, o)]) e.
Proof.
  intros h e c o Ho H. assert (Hf : Forall (fun e : clock * display_op => forall u, snd e = Show u -> displayable u = None) [(c, o)]).
  { constructor; [exact Ho|constructor]. }
  destruct H as [h H|h1 c1 u v h2 Hv H H'|h1 c1 u v h2 d Hv H H'].
  - apply exp_nothing. apply Forall_app. auto.
  - rewrite <- app_assoc. cbn. eapply exp_never; [exact Hv| |exact H']. apply Forall_app. auto.
  - rewrite <- app_assoc. cbn. eapply exp_at; [exact Hv| |exact H']. apply Forall_app. auto.
Qed.

Lemma last_of_none_all : forall A (l : list (option A)) , last_of None l None -> Forall (fun o => o = None) l.
Proof. intros A l H. inversion H; subst. assumption. Qed.

Lemma display_run : forall k x0 h x,
  dd_value x0 = None -> dd_reset_value x0 = None -> dd_reset_after x0 = None -> dd_stay_on_until x0 = None ->
  run_timed display_op_step k x0 h = Some x ->
  last_of None (map sets_value h) (dd_value x) /\ last_of None (map sets_reset_value h) (dd_reset_value x)
  /\ last_of None (map sets_reset_after h) (dd_reset_after x) /\ expires h (dd_stay_on_until x)
  /\ dd_name x = dd_name x0 /\ dd_descr x = dd_descr x0
  /\ (dd_reset_after x = None -> dd_stay_on_until x = None).
Proof.
  intros k x0 h x Z1 Z2 Z3 Z4. revert x. induction h as [|[c o] h IH] using rev_ind; intros x E.
  - cbn in E. injection E as <-. rewrite Z1, Z2, Z3, Z4.
    split; [apply last_none; constructor|]. split; [apply last_none; constructor|]. split; [apply last_none; constructor|].
    split; [apply exp_nothing; constructor|auto].
  - apply run_timed_snoc in E. destruct E as (x1 & c' & E1 & E2).
    destruct (IH _ E1) as (I1 & I2 & I3 & I4 & I5 & I6 & I7). rewrite !map_app. cbn [map].
    destruct o as [u|d|v]; cbn [display_op_step] in E2.
    + apply bind_ok in E2. destruct E2 as ([x2 n] & c2 & E2 & E3). steps.
      pose proof (displayable_update _ _ _ _ _ _ _ E2) as Hu.
      change (sets_value (c, Show u)) with (displayable u). change (sets_reset_value (c, Show u)) with (@None item_kind).
      change (sets_reset_after (c, Show u)) with (@None Z).
      destruct (displayable u) as [w|] eqn:Eu.
      * destruct Hu as (U1 & U2 & U3 & U4 & U5 & U6). rewrite U1, U2, U3, U4, U5, U6.
        split; [apply last_of_snoc_some|]. split; [apply last_of_snoc_none; exact I2|].
        split; [apply last_of_snoc_none; exact I3|].
        split; [|split; [exact I5|split; [exact I6|]]].
        -- destruct (dd_reset_after x1) as [r|].
           ++ eapply exp_at; [exact Eu|constructor|exact I3].
           ++ rewrite (I7 eq_refl). eapply exp_never; [exact Eu|constructor|].
              apply last_of_none_all in I3. rewrite Forall_map in I3. exact I3.
        -- intros Hr. rewrite Hr. auto.
      * subst x. split; [apply last_of_snoc_none; exact I1|]. split; [apply last_of_snoc_none; exact I2|].
        split; [apply last_of_snoc_none; exact I3|].
        split; [apply expires_snoc_other; [|exact I4]; intros u' Hu'; injection Hu' as <-; exact Eu|auto].
    + steps. cbn -[map].
      split; [apply last_of_snoc_none; exact I1|]. split; [apply last_of_snoc_none; exact I2|].
      split; [apply last_of_snoc_some|].
      split; [apply expires_snoc_other; [discriminate|exact I4]|]. split; [exact I5|]. split; [exact I6|]. discriminate.
    + steps. cbn -[map].
      split; [apply last_of_snoc_some|]. split; [apply last_of_snoc_some|].
      split; [apply last_of_snoc_none; exact I3|].
      split; [apply expires_snoc_other; [discriminate|exact I4]|]. auto.
Qed.

Lemma display_shows : forall k name h x d q s q' v r,
  run_timed display_op_step k (display_new name) h = Some x ->
  display_put x d [] k q = Ok s q' ->
  last_of None (map sets_value h) v -> last_of None (map sets_reset_value h) r ->
  exists e, expires h e /\
    s = match (match e with Some t => if happens q <=? t then v else r | None => v end) with
        | Some i => [(name, i)]
        | None => []
        end.
Proof.
  intros k name h x d q s q' v r E P Hv Hr.
  destruct (display_run k (display_new name) h x eq_refl eq_refl eq_refl eq_refl E) as (I1 & I2 & I3 & I4 & I5 & I6 & I7).
  rewrite (last_of_unique _ _ _ _ _ Hv I1), (last_of_unique _ _ _ _ _ Hr I2).
  exists (dd_stay_on_until x). split; [exact I4|].
  unfold display_put, display_value in P. rewrite I5, I6 in P. cbn [display_new dd_name dd_descr] in P.
  destruct (dd_stay_on_until x) as [t|].
  - apply bind_ok in P. destruct P as (w & q1 & P1 & P2).
    apply bind_ok in P1. destruct P1 as (tm & c3 & E2 & E4). rewrite now_eq in E2. injection E2 as <- <-. steps.
    unfold happens. destruct (if q O <=? t then dd_value x else dd_reset_value x); steps; destruct d; reflexivity.
  - apply bind_ok in P. destruct P as (w & q1 & P1 & P2). steps.
    destruct (dd_value x); steps; destruct d; reflexivity.
Qed.

(** ** Flags, from the updates to the snapshot *)

Lemma flag_shows_last : forall us f f' ns k (w : clock) w' bs d,
  f_descr f = no_descr -> Forall2 truth us bs ->
  run_all (fun f u => ret (flag_update f u)) f us k w = Ok (f', ns) w' ->
  exists st, last_of (f_state f) bs st
    /\ flag_put f' d [] = match st with
                          | None => []
                          | Some b => switch_shows (f_name f) b (option_map (fun a => (a, negb b)) (f_show_inverted f))
                          end
    /\ ns = map (fun b => match b with Some _ => 1 | None => 0 end) bs.
Proof.
  intros us f f' ns k w w' bs d Hd Ht E. destruct (flag_last _ _ _ _ _ _ _ _ Ht E) as (H1 & H2 & H3 & H4 & H5).
  exists (f_state f'). split; [exact H1|]. split; [|exact H2].
  pose proof (flag_shows f' d) as Hs. rewrite H3, H4, H5, Hd in Hs.
  destruct (f_state f'); rewrite Hs; destruct d; reflexivity.
Qed.
