(** Processors do not panic while their numbers are far from the limits. *)
From Coq Require Import ZArith Bool String List Lia.
From Verif Require Import Base SpecRun MonadFacts ModelObservation ModelLabelFilter ModelSnapshot ModelInstrument ModelTree SpecTree SpecSafe SpecRoom
  ModelChannel ModelProcessor SpecRoomWorld TreeInd TreeEqs SafeProofs SafeTreeProofs SafeWorldProofs RoomProofs RoomTreeProofs.
Import ListNotations.
Open Scope Z_scope.

Lemma act_size : forall A (c : chan A) a, (length (chan_messages (chan_act c a)) <= length (chan_messages c) + length (action_messages a))%nat.
Proof.
  intros A c a. unfold chan_messages. rewrite !app_length. destruct a as [m|m|i| | |]; cbn [chan_act action_messages length].
  - destruct (ch_senders c); [lia|]. unfold chan_send. destruct (negb _); [cbn; lia|].
    destruct (chan_full c); cbn; rewrite app_length; cbn; lia.
  - destruct (ch_senders c); [lia|]. unfold chan_try_send. destruct (negb _); [cbn; lia|].
    destruct (chan_full c); cbn; [lia|]. rewrite app_length; cbn; lia.
  - unfold chan_wake. destruct (nth_error (ch_waiting c) i) as [m|] eqn:E; [|lia]. destruct (chan_full c); [lia|].
    cbn. rewrite !app_length. cbn [length].
    assert (L : (i < length (ch_waiting c))%nat) by (apply nth_error_Some; congruence).
    rewrite firstn_length. destruct (ch_waiting c) as [|x w]; [cbn in L; lia|]. rewrite skipn_length. cbn [length] in *. lia.
  - unfold chan_clone_sender. destruct (ch_senders c); cbn; lia.
  - unfold chan_drop_sender. destruct (ch_senders c) as [|[|]]; [lia| |]; destruct (ch_waiting c) eqn:E; cbn; rewrite ?E; cbn; lia.
  - cbn. lia.
Qed.

Lemma recv_size : forall A (c : chan A), (length (chan_messages (fst (chan_try_recv c))) <= length (chan_messages c))%nat.
Proof.
  intros A c. unfold chan_try_recv, chan_messages. destruct (ch_queue c) as [|m q] eqn:E.
  - destruct (ch_cap c) as [[|n]|]; [destruct (ch_waiting c) as [|m w] eqn:Ew|..]; cbn; rewrite ?E, ?Ew; cbn; lia.
  - cbn. rewrite !app_length. lia.
Qed.

Section Room.
  Context {X : ext} {Y : pext}.
  Variables (k : cfg) (lo hi V N S P Q T : Z).
  Hypothesis HE : enough V N S P Q T.
  Hypothesis HN : 0 <= N.
  Hypothesis Htime : manageable k lo hi 0.
  Hypothesis Hspan : hi - lo <= u64_max.
  Hypothesis HX : parts_calm (X := X) k lo hi V.
  Hypothesis HY : processors_safe k lo hi Y.
  Notation safe := (safe k lo hi).
  Notation leaf_calm := (leaf_calm (X := X) k lo hi V).
  Notation world_room := (world_room (X := X) (Y := Y) k lo hi V S Q).
  Notation message_calm := (message_calm (X := X) k lo hi V S).
  Notation tele_room := (tele_room (X := X) k lo hi V N S P).
  Notation processor_room := (processor_room (X := X) (Y := Y) k lo hi V N S P).

  (** ** The world *)

  Definition wroom {A} (m : St (world X Y) A) (R : A -> Prop) : Prop :=
    forall w, world_room w -> match m k w with Ok a w' => world_room w' /\ R a | Panic => False | NoFuel => True end.

  Lemma wroom_ret : forall A (a : A) (R : A -> Prop), R a -> wroom (ret a) R.
  Proof. clear. intros A a R H w Hw. cbn. auto. Qed.

  Lemma wroom_bind : forall A B (m : St (world X Y) A) (f : A -> St (world X Y) B) R R',
    wroom m R -> (forall a, R a -> wroom (f a) R') -> wroom (bind m f) R'.
  Proof.
    clear. intros A B m f R R' Hm Hf w Hw. unfold bind. specialize (Hm w Hw). destruct (m k w) as [a w1| |]; auto.
    destruct Hm as [Hw1 Ha]. apply Hf; assumption.
  Qed.

  Lemma wroom_weak : forall A (m : St (world X Y) A) (R R' : A -> Prop), wroom m R -> (forall a, R a -> R' a) -> wroom m R'.
  Proof. clear. intros A m R R' H HR w Hw. specialize (H w Hw). destruct (m k w); intuition. Qed.

  Lemma wroom_lift : forall A (m : M A) (R : A -> Prop), safe m R -> wroom (lift m) R.
  Proof.
    clear. intros A m R H w Hw. unfold lift. destruct (H _ (wr_clock _ _ _ _ _ _ _ Hw)) as (a & c & -> & Hc & Ha).
    split; [|exact Ha]. destruct Hw. constructor; assumption.
  Qed.

  Lemma wroom_u64 : forall r, 0 <= r <= u64_max -> wroom (u64_arith r) (fun x => x = r).
  Proof.
    clear. intros r H w Hw. unfold u64_arith, arith.
    rewrite (proj2 (Z.leb_le _ _) (proj1 H)), (proj2 (Z.leb_le _ _) (proj2 H)). cbn [andb]. auto.
  Qed.

  Lemma acts_room : forall l (w : world X Y),
    (forall i, Forall message_calm (chan_messages (w_queues w i))) -> (forall i, Forall message_calm (flat_map (sent_to i) l)) ->
    let w' := fold_left act l w in
    (forall i, Forall message_calm (chan_messages (w_queues w' i)))
    /\ (forall i, (length (chan_messages (w_queues w' i)) <= length (chan_messages (w_queues w i)) + length (flat_map (sent_to i) l))%nat)
    /\ w_clock w' = w_clock w.
  Proof.
    clear. induction l as [|a l IH]; intros w Hq Hl; cbn [fold_left]; [split; [exact Hq|]; split; [intros i; cbn; lia | reflexivity]|].
    assert (H1 : (forall i, Forall message_calm (chan_messages (w_queues (act w a) i)))
      /\ (forall i, (length (chan_messages (w_queues (act w a) i)) <= length (chan_messages (w_queues w i)) + length (sent_to i a))%nat)
      /\ w_clock (act w a) = w_clock w).
    { destruct a as [j a|j a]; cbn [act w_queues w_clock sent_to]; [|split; [exact Hq|]; split; [intros i; cbn; lia | reflexivity]].
      unfold set_chan. split; [|split; [|reflexivity]]; intros i; rewrite Nat.eqb_sym; specialize (Hl i); cbn [flat_map sent_to] in Hl; apply Forall_app in Hl;
        destruct Hl as [Hl _]; destruct (Nat.eqb_spec j i) as [->|Hj]; [|apply Hq| |cbn; lia].
      - apply Forall_forall. intros m Hm. apply act_messages in Hm. pose proof (Hq i) as Hi. rewrite Forall_forall in Hi, Hl. destruct Hm; auto.
      - apply act_size. }
    destruct H1 as (A1 & A2 & A3). destruct (IH (act w a) A1) as (B1 & B2 & B3).
    { intros i. specialize (Hl i). cbn [flat_map] in Hl. apply Forall_app in Hl. apply Hl. }
    split; [exact B1|]. split; [|congruence]. intros i. specialize (A2 i). specialize (B2 i). cbn [flat_map]. rewrite app_length. lia.
  Qed.

  Lemma sched_unchanged : forall l (w : world X Y), w_sched (fold_left act l w) = w_sched w.
  Proof. clear. induction l as [|[i a|i a] l IH]; intros w; [reflexivity|..]; cbn [fold_left]; rewrite IH; reflexivity. Qed.

  Lemma wroom_interleave : wroom interleave (fun _ => True).
  Proof.
    clear. intros w [H1 H2 H3 H4]. unfold interleave. cbv zeta. split; [|exact I].
    destruct (acts_room (w_sched w O) w H2 (fun i => H3 i O)) as (A1 & A2 & A3).
    constructor; cbn [w_clock w_queues w_sched]; rewrite ?sched_unchanged.
    - rewrite A3. exact H1.
    - exact A1.
    - intros i n. apply H3.
    - intros i n. specialize (H4 i (Datatypes.S n)). specialize (A2 i). cbn [seq flat_map] in H4. rewrite flat_map_app, app_length in H4.
      rewrite <- seq_shift, (flat_map_concat_map _ (map _ _)), map_map, <- flat_map_concat_map in H4. lia.
  Qed.

  Lemma wroom_recv : forall i, wroom (queue_try_recv i) (fun r => forall m, r = Message m -> message_calm m).
  Proof.
    clear. intros i. unfold queue_try_recv. eapply wroom_bind; [apply wroom_interleave|]. intros _ _ w [H1 H2 H3 H4].
    pose proof (recv_size _ (w_queues w i)) as Hs.
    destruct (chan_try_recv (w_queues w i)) as [c r] eqn:E. apply recv_messages in E. destruct E as [E1 E2]. cbn [fst] in Hs.
    pose proof (H2 i) as Hi. rewrite Forall_forall in Hi. split; [|intros m Hm; auto].
    constructor; cbn [w_clock w_queues w_sched]; auto; intros j; unfold set_chan; destruct (Nat.eqb_spec j i) as [->|Hj]; auto.
    - apply Forall_forall. auto.
    - intros n. specialize (H4 i n). lia.
  Qed.

  Lemma wroom_len : forall i, wroom (queue_len i) (fun n => 0 <= n <= Q).
  Proof.
    clear. intros i. unfold queue_len. eapply wroom_bind; [apply wroom_interleave|]. intros _ _ w Hw. split; [exact Hw|].
    pose proof (wr_total _ _ _ _ _ _ _ Hw i O) as H. unfold chan_len, chan_messages in *. rewrite app_length in H. lia.
  Qed.

  (** ** The processor for telemetry data *)

  Notation pl := (panel_leaves (X := X)).
  Notation hl := (handler_leaves (X := X)).
  Notation cl := (cockpit_leaves (X := X)).
  Notation sl := (snapshooter_leaves (X := X)).
  Let HV := en_value _ _ _ _ _ _ HE.
  Let HS := proj1 (en_parts _ _ _ _ _ _ HE).
  Let HP := proj2 (en_parts _ _ _ _ _ _ HE).
  Let HPV : 0 <= P * V := Z.mul_nonneg_nonneg _ _ HP (Z.le_trans _ _ _ Z.le_0_1 (proj1 HV)).

  Lemma square_N : forall n, 0 <= n <= N -> n * n * V <= i64_max.
  Proof.
    intros n Hn. etransitivity; [|exact (en_square _ _ _ _ _ _ HE)]. apply Z.mul_le_mono_nonneg_r; [lia|]. apply Z.mul_le_mono_nonneg; lia.
  Qed.

  Lemma room_later : forall n n' t, 0 <= n <= n' -> n' <= N -> tele_room n t -> tele_room n' t.
  Proof.
    intros n n' t Hn HN' [A B]. split; [exact (leaves_mono k lo hi V HV n n' _ Hn A)|].
    assert ((N - n') * S <= (N - n) * S) by (apply Z.mul_le_mono_nonneg_r; lia). lia.
  Qed.

  Lemma handle_room : forall n t o acc, 0 <= n -> n + 1 <= N -> fits V (snd (split_observation o)) -> tele_room n t ->
    0 <= acc -> acc + P * V <= u64_max ->
    safe (tele_handle t o acc) (fun r => tele_room (n + 1) (fst r) /\ acc <= snd r <= acc + P * V).
  Proof.
    intros n t o acc Hn Hn1 Ho [Ht Hs] H0 H1. unfold tele_handle.
    destruct (tree_handle_room k lo hi V HV Htime HX n o Hn (square_N _ (conj (Z.le_trans _ _ _ Hn (Z.le_succ_diag_r n)) Hn1)) Ho) as (_ & Th & Tc & _).
    unfold tele_leaves in Ht, Hs. rewrite !Forall_app in Ht. destruct Ht as (Fc & Fh & Fs). rewrite !app_length in Hs.
    assert (B : (size (flat_map cl (tp_cockpits t)) + size (flat_map hl (tp_handlers t))) * V <= P * V).
    { apply Z.mul_le_mono_nonneg_r; [lia|]. assert (0 <= (N - n) * S) by (apply Z.mul_nonneg_nonneg; lia). unfold size. lia. }
    rewrite Z.mul_add_distr_r in B. pose proof (size_nonneg V HV (flat_map cl (tp_cockpits t))) as S1. pose proof (size_nonneg V HV (flat_map hl (tp_handlers t))) as S2.
    eapply safe_bind.
    { apply (tally_all k lo hi V HV cl n (n + 1)); [exact Fc | apply Forall_forall; intros c _; apply Tc | exact H0 | lia]. }
    intros [cs m] [[Gc Lc] Bc]. cbn [fst snd] in Gc, Lc, Bc. eapply safe_bind.
    { apply (tally_all k lo hi V HV hl n (n + 1)); [exact Fh | apply Forall_forall; intros c _; apply Th | lia | lia]. }
    intros [hs m1] [[Gh Lh] Bh]. cbn [fst snd] in Gh, Lh, Bh. apply safe_ret. cbn [fst snd]. split; [|lia].
    split; unfold tele_leaves; cbn [tele_with tp_cockpits tp_handlers tp_snapshooters].
    - rewrite !Forall_app. split; [exact Gc|]. split; [exact Gh|]. exact (leaves_mono k lo hi V HV n (n + 1) _ ltac:(lia) Fs).
    - rewrite !app_length, Lc, Lh. assert (E : (N - (n + 1)) * S = (N - n) * S - S) by ring. rewrite E. lia.
  Qed.

  (** What messages do to the parts: [grown L L']: at most [S] more *)
  Definition grown (n : Z) (L L' : list (leaf X)) : Prop :=
    Forall (leaf_calm n) L' /\ Z.of_nat (length L') <= Z.of_nat (length L) + S.

  Lemma few_later : forall n L, 0 <= n -> few_calm k lo hi V S L -> Forall (leaf_calm n) L /\ Z.of_nat (length L) <= S.
  Proof. intros n L Hn [A B]. split; [exact (leaves_mono k lo hi V HV 0 n _ ltac:(lia) A) | exact B]. Qed.

  Lemma add_panel_room : forall n c p, 0 <= n -> Forall (leaf_calm n) (cl c) -> few_calm k lo hi V S (pl p) -> grown n (cl c) (cl (cockpit_add_panel c p)).
  Proof.
    intros n [d ps hs ss] p Hn Hc Hp. apply (few_later n _ Hn) in Hp. destruct Hp as [Hp1 Hp2]. unfold cockpit_add_panel.
    assert (Same : grown n (cl (Cockpit d ps hs ss)) (cl (Cockpit d ps hs ss))) by (split; [exact Hc | lia]).
    assert (Add : grown n (cl (Cockpit d ps hs ss)) (cl (Cockpit d (ps ++ [p]) hs ss))).
    { unfold grown. rewrite !cockpit_leaves_eq in *. rewrite flat_map_app. cbn [flat_map]. rewrite app_nil_r. rewrite !Forall_app in *. rewrite !app_length.
      split; [tauto | lia]. }
    destruct (panel_name p); [|exact Add]. destruct (existsb _ _); [exact Same | exact Add].
  Qed.

  Lemma flat_filter : forall A (f : A -> list (leaf X)) g l (R : leaf X -> Prop), Forall R (flat_map f l) ->
    Forall R (flat_map f (filter g l)) /\ (length (flat_map f (filter g l)) <= length (flat_map f l))%nat.
  Proof.
    clear. intros A f g l R. induction l as [|x l IH]; intros H; [split; [exact H | cbn; lia]|]. cbn [flat_map filter] in *. apply Forall_app in H.
    destruct H as [H1 H2]. destruct (IH H2) as [I1 I2]. destruct (g x); cbn [flat_map]; rewrite ?app_length.
    - split; [apply Forall_app; auto | lia].
    - split; [exact I1 | lia].
  Qed.

  Lemma remove_panel_room : forall n c pn, Forall (leaf_calm n) (cl c) -> grown n (cl c) (cl (cockpit_remove_panel c pn)).
  Proof.
    intros n [d ps hs ss] pn H. unfold cockpit_remove_panel, grown. rewrite !cockpit_leaves_eq in *. rewrite !Forall_app in *. destruct H as (A & B & C).
    destruct (flat_filter _ pl (fun q => negb (is_named pn (panel_name q))) ps _ A) as [F1 F2]. rewrite !app_length.
    split; [split; [exact F1 | split; assumption] | lia].
  Qed.

  Lemma update_first_room : forall n name f cs, Forall (leaf_calm n) (flat_map cl cs) ->
    (forall c, Forall (leaf_calm n) (cl c) -> grown n (cl c) (cl (f c))) ->
    grown n (flat_map cl cs) (flat_map cl (update_first name f cs)).
  Proof.
    intros n name f cs H Hf. induction cs as [|c cs IH]; [split; [exact H | cbn; lia]|]. cbn [flat_map update_first] in *. apply Forall_app in H.
    destruct H as [H1 H2]. destruct (is_named name (cockpit_name c)); cbn [flat_map].
    - destruct (Hf c H1) as [F1 F2]. split; [apply Forall_app; auto|]. rewrite !app_length. lia.
    - destruct (IH H2) as [F1 F2]. split; [apply Forall_app; auto|]. rewrite !app_length. lia.
  Qed.

  Lemma changed_room : forall n t cs hs, 0 <= n -> n + 1 <= N -> tele_room n t ->
    grown n (flat_map cl (tp_cockpits t) ++ flat_map hl (tp_handlers t)) (flat_map cl cs ++ flat_map hl hs) ->
    tele_room (n + 1) (tele_with t cs hs).
  Proof.
    intros n t cs hs Hn Hn1 [Ht Hs] [G L]. unfold tele_leaves in Ht, Hs. split; unfold tele_leaves; cbn [tele_with tp_cockpits tp_handlers tp_snapshooters].
    - rewrite !Forall_app in *. destruct G as [G1 G2]. destruct Ht as (_ & _ & Fs).
      pose proof (fun (L : list (leaf X)) H => leaves_mono k lo hi V HV n (n + 1) L ltac:(lia) H) as M. auto.
    - rewrite !app_length in *. assert (E : (N - (n + 1)) * S = (N - n) * S - S) by ring. rewrite E. lia.
  Qed.

  (** [j] messages were handled in this collection. *)
  Definition counted (j : Z) (c : ModelProcessor.counts) : Prop :=
    0 <= ct_processed c <= j /\ 0 <= ct_dropped c <= j /\ 0 <= ct_updated c <= j * (P * V).

  Lemma message_room : forall d n j t c m, 0 <= n -> n + 1 <= N -> 0 <= j -> j + 1 <= N -> N <= u64_max -> N * (P * V) <= u64_max ->
    tele_room n t -> message_calm m -> counted j c ->
    safe (tele_message d t c m) (fun r => tele_room (n + 1) (fst r) /\ counted (j + 1) (snd r)).
  Proof.
    intros d n j t c m Hn Hn1 Hj Hj1 B1 B2 Ht Hm (C1 & C2 & C3).
    assert (E : (j + 1) * (P * V) = j * (P * V) + P * V) by lia.
    assert (B3 : j * (P * V) + P * V <= u64_max).
    { rewrite <- E. etransitivity; [|exact B2]. apply Z.mul_le_mono_nonneg_r; lia. }
    assert (Hadd : forall t', tele_room (n + 1) t' -> safe (let* p := add_usize (ct_processed c) 1 in ret (t', Counts p (ct_dropped c) (ct_updated c)))
      (fun r => tele_room (n + 1) (fst r) /\ counted (j + 1) (snd r))).
    { intros t' Ht'. eapply safe_bind; [apply safe_u64; lia|]. intros p ->. apply safe_ret. cbn [fst snd]. split; [exact Ht'|].
      unfold counted. cbn [ct_processed ct_dropped ct_updated]. lia. }
    assert (Hsame : tele_room (n + 1) t) by (apply (room_later n); [lia | lia | exact Ht]).
    pose proof Ht as [Fl _]. unfold tele_leaves in Fl. rewrite !Forall_app in Fl. destruct Fl as (Fc & Fh & Fs).
    unfold tele_message. cbv zeta. destruct m as [o|ck|nm|h|cn p|cn pn]; cbn [SpecRoomWorld.message_calm] in Hm.
    - destruct (should_be_processed d o).
      + eapply safe_bind; [apply (handle_room n); [exact Hn | exact Hn1 | exact Hm | exact Ht | lia | lia]|].
        intros [t' u] [Ht' Hu]. cbn [fst snd] in Ht', Hu. eapply safe_bind; [apply safe_u64; lia|]. intros p ->. apply safe_ret. cbn [fst snd].
        split; [exact Ht'|]. unfold counted. cbn [ct_processed ct_dropped ct_updated]. lia.
      + eapply safe_bind; [apply safe_u64; lia|]. intros p ->. apply safe_ret. cbn [fst snd]. split; [exact Hsame|].
        unfold counted. cbn [ct_processed ct_dropped ct_updated]. lia.
    - apply Hadd. unfold tele_add_cockpit.
      assert (Add : tele_room (n + 1) (tele_with t (tp_cockpits t ++ [ck]) (tp_handlers t))).
      { apply (changed_room n); try assumption. apply (few_later n _ Hn) in Hm. destruct Hm as [M1 M2].
        unfold grown. rewrite flat_map_app. cbn [flat_map]. rewrite app_nil_r, !Forall_app, !app_length. split; [tauto | lia]. }
      destruct (cockpit_name ck); [|exact Add]. destruct (existsb _ _); [exact Hsame | exact Add].
    - apply Hadd. apply (changed_room n); try assumption.
      destruct (flat_filter _ cl (fun q => negb (is_named nm (cockpit_name q))) (tp_cockpits t) _ Fc) as [F1 F2].
      unfold grown. rewrite Forall_app, !app_length. split; [tauto | lia].
    - apply Hadd. apply (changed_room n); try assumption. apply (few_later n _ Hn) in Hm. destruct Hm as [M1 M2].
      unfold grown. rewrite flat_map_app. cbn [flat_map]. rewrite app_nil_r, !Forall_app, !app_length. split; [tauto | lia].
    - apply Hadd. apply (changed_room n); try assumption.
      destruct (update_first_room n cn (fun c => cockpit_add_panel c p) (tp_cockpits t) Fc (fun c Hc => add_panel_room n c p Hn Hc Hm)) as [F1 F2].
      unfold grown. rewrite Forall_app, !app_length. split; [tauto | lia].
    - apply Hadd. apply (changed_room n); try assumption.
      destruct (update_first_room n cn (fun c => cockpit_remove_panel c pn) (tp_cockpits t) Fc (fun c Hc => remove_panel_room n c pn Hc)) as [F1 F2].
      unfold grown. rewrite Forall_app, !app_length. split; [tauto | lia].
  Qed.

  Lemma collect_room : forall m d n j t c, 0 <= n -> n + Z.of_nat m <= N -> 0 <= j -> j + Z.of_nat m <= N -> N <= u64_max -> N * (P * V) <= u64_max ->
    tele_room n t -> counted j c ->
    wroom (tele_collect m d t c) (fun r => tele_room (n + Z.of_nat m) (fst r) /\ counted (j + Z.of_nat m) (snd r)).
  Proof.
    assert (Cm : forall j j' c, j <= j' -> counted j c -> counted j' c).
    { intros j j' c Hj (C1 & C2 & C3). assert (j * (P * V) <= j' * (P * V)) by (apply Z.mul_le_mono_nonneg_r; lia). repeat split; lia. }
    induction m as [|m IH]; intros d n j t c Hn Hn1 Hj Hj1 B1 B2 Ht Hc; cbn [tele_collect].
    - apply wroom_ret. cbn [fst snd]. rewrite !Z.add_0_r. split; assumption.
    - rewrite Nat2Z.inj_succ in Hn1, Hj1 |- *.
      assert (En : n + Z.succ (Z.of_nat m) = n + 1 + Z.of_nat m) by lia. assert (Ej : j + Z.succ (Z.of_nat m) = j + 1 + Z.of_nat m) by lia. rewrite En, Ej.
      eapply wroom_bind; [apply wroom_recv|]. intros r Hr. cbv beta in Hr. destruct r as [x| |].
      + eapply wroom_bind; [apply wroom_lift, (message_room d n j); try assumption; try lia; apply Hr; reflexivity|].
        intros [t' c'] [Ht' Hc']. cbn [fst snd] in Ht', Hc'. apply IH; try assumption; lia.
      + apply IH; try assumption; try lia; [apply (room_later n); [lia | lia | exact Ht] | apply (Cm j); [lia | exact Hc]].
      + apply wroom_ret. cbn [fst snd]. split; [|apply (Cm j); [lia | exact Hc]].
        apply (room_later n) with (n' := n + 1 + Z.of_nat m) in Ht; [exact Ht | lia | lia].
  Qed.

  (** The outcome of [c] processors for telemetry data with up to [b] messages each *)
  Definition bounded (b c : Z) (o : outcome) : Prop :=
    0 <= oc_processed o <= c * b /\ 0 <= oc_dropped o <= c * b /\ 0 <= oc_instruments_updated o <= c * (b * (P * V)) /\ 0 <= oc_enqueued o <= c * Q.

  Lemma tele_process_room : forall n t max s, 1 <= T -> 0 <= n -> n + Z.of_nat max <= N -> tele_room n t -> strategy_sound k lo hi s ->
    wroom (tele_process t max s) (fun r => tele_room (n + Z.of_nat max) (fst r) /\ bounded (Z.of_nat max) 1 (snd r)).
  Proof.
    intros n t max s HT Hn Hn1 Ht Hs.
    assert (HNPV : 0 <= N * (P * V)) by (apply Z.mul_nonneg_nonneg; assumption).
    assert (B1 : N <= u64_max).
    { etransitivity; [|exact (en_counts _ _ _ _ _ _ HE)]. rewrite <- (Z.mul_1_l N) at 1. apply Z.mul_le_mono_nonneg_r; assumption. }
    assert (B2 : N * (P * V) <= u64_max).
    { etransitivity; [|exact (en_updates _ _ _ _ _ _ HE)]. rewrite <- (Z.mul_1_l (N * (P * V))) at 1. apply Z.mul_le_mono_nonneg_r; assumption. }
    unfold tele_process. destruct (tp_disconnected t).
    - apply wroom_ret. cbn [fst snd]. split; [apply (room_later n); [lia | lia | exact Ht]|]. unfold bounded, outcome_default. cbn [oc_processed oc_dropped oc_instruments_updated oc_enqueued]. rewrite !Z.mul_1_l. pose proof (proj1 (en_queues _ _ _ _ _ _ HE)).
      pose proof (Z.mul_nonneg_nonneg _ _ (Nat2Z.is_nonneg max) HPV). lia.
    - eapply wroom_bind; [apply wroom_lift, (decider_safe k lo hi); exact Hs|]. intros d _.
      eapply wroom_bind; [apply (collect_room max d n 0 t (Counts 0 0 0)); try assumption; try lia; unfold counted; cbn; lia|].
      intros [t' c] [Ht' (C1 & C2 & C3)]. cbn [fst snd] in Ht', C1, C2, C3.
      eapply wroom_bind; [apply wroom_len|]. intros e He. cbv beta in He. cbv zeta.
      assert (Bo : bounded (Z.of_nat max) 1 (Outcome (ct_processed c) (ct_dropped c) (ct_updated c) e)).
      { unfold bounded. cbn [oc_processed oc_dropped oc_instruments_updated oc_enqueued].
        rewrite !Z.mul_1_l. lia. }
      destruct (something_happened _); [|apply wroom_ret; split; assumption].
      eapply wroom_bind; [apply wroom_lift, safe_now|]. intros t0 _. apply wroom_ret. split; assumption.
  Qed.

  (** ** Processors *)

  Notation teles := (fun p : processor X Y => Z.of_nat (length (processor_teles p))).

  Lemma combine_room : forall z a b x y, 0 <= z <= N -> 0 <= x -> 0 <= y -> x + y <= T -> bounded z x a -> bounded z y b ->
    wroom (combine_with a b) (bounded z (x + y)).
  Proof.
    intros z a b x y Hz Hx Hy HT (A1 & A2 & A3 & A4) (B1 & B2 & B3 & B4).
    assert (HzPV : 0 <= z * (P * V) <= N * (P * V)) by (split; [apply Z.mul_nonneg_nonneg; lia | apply Z.mul_le_mono_nonneg_r; lia]).
    assert (HNPV : 0 <= N * (P * V)) by (apply Z.mul_nonneg_nonneg; assumption).
    pose proof (en_queues _ _ _ _ _ _ HE) as [Q0 Q1].
    assert (E1 : x * z + y * z <= u64_max).
    { rewrite <- Z.mul_add_distr_r. etransitivity; [|exact (en_counts _ _ _ _ _ _ HE)]. apply Z.mul_le_mono_nonneg; lia. }
    assert (E2 : x * (z * (P * V)) + y * (z * (P * V)) <= u64_max).
    { rewrite <- Z.mul_add_distr_r. etransitivity; [|exact (en_updates _ _ _ _ _ _ HE)]. apply Z.mul_le_mono_nonneg; lia. }
    assert (E3 : x * Q + y * Q <= u64_max).
    { rewrite <- Z.mul_add_distr_r. etransitivity; [|exact Q1]. apply Z.mul_le_mono_nonneg_r; assumption. }
    unfold combine_with.
    eapply wroom_bind; [apply wroom_u64; lia|]. intros p ->. eapply wroom_bind; [apply wroom_u64; lia|]. intros d ->.
    eapply wroom_bind; [apply wroom_u64; lia|]. intros i ->. eapply wroom_bind; [apply wroom_u64; lia|]. intros e ->.
    apply wroom_ret. unfold bounded. cbn [oc_processed oc_dropped oc_instruments_updated oc_enqueued]. rewrite !Z.mul_add_distr_r. lia.
  Qed.

  Lemma bounded_zero : forall z, bounded z 0 outcome_default.
  Proof. clear. intros z. unfold bounded. cbn. lia. Qed.

  Definition processed (n z : Z) (p : processor X Y) (r : processor X Y * outcome) : Prop :=
    processor_room n (fst r) /\ length (processor_teles (fst r)) = length (processor_teles p) /\ bounded z (teles p) (snd r).

  Lemma collect_all_room : forall n z f ps x o, 0 <= z <= N -> 0 <= x -> x + Z.of_nat (length (flat_map processor_teles ps)) <= T -> bounded z x o ->
    Forall (fun p => teles p <= T -> wroom (f p) (processed n z p)) ps ->
    wroom (traverse (collect_one f) ps o)
      (fun r => Forall (processor_room n) (fst r) /\ length (flat_map processor_teles (fst r)) = length (flat_map processor_teles ps)
                /\ bounded z (x + Z.of_nat (length (flat_map processor_teles ps))) (snd r)).
  Proof.
    intros n z f ps. induction ps as [|p ps IH]; intros x o Hz Hx HT Ho Hf; cbn [traverse].
    - apply wroom_ret. cbn. rewrite Z.add_0_r. auto.
    - inversion Hf as [|? ? Hp Hps]; subst. cbn [flat_map] in HT |- *. rewrite app_length, Nat2Z.inj_add in HT.
      eapply wroom_bind.
      { unfold collect_one. eapply wroom_bind; [apply Hp; lia|]. intros [p' o'] (R1 & R2 & R3). cbn [fst snd] in R1, R2, R3.
        eapply wroom_bind; [apply (combine_room z o o' x (teles p)); [exact Hz | exact Hx | lia | lia | exact Ho | exact R3]|]. intros acc Hacc.
        apply wroom_ret with (R := fun r => processor_room n (fst r) /\ length (processor_teles (fst r)) = length (processor_teles p) /\ bounded z (x + teles p) (snd r)).
        auto. }
      intros [p' acc] (R1 & R2 & R3). cbn [fst snd] in R1, R2, R3.
      eapply wroom_bind; [apply (IH (x + teles p)); [exact Hz | lia | lia | exact R3 | exact Hps]|]. intros [ps' acc'] (S1 & S2 & S3). cbn [fst snd] in S1, S2, S3.
      apply wroom_ret. cbn [fst snd flat_map]. rewrite !app_length, R2, S2, Nat2Z.inj_add, Z.add_assoc. auto.
  Qed.

  Lemma mount_process_room : forall n n' z f d ps ss, 0 <= n <= n' -> 0 <= z <= N -> Z.of_nat (length (flat_map processor_teles ps)) <= T ->
    Forall (fun p => teles p <= T -> wroom (f p) (processed n' z p)) ps -> Forall (leaf_calm n) (flat_map sl ss) ->
    wroom (mount_process f (Mount d ps ss))
      (fun r => (exists d' ps', fst r = Mount d' ps' ss /\ Forall (processor_room n') ps' /\ length (flat_map processor_teles ps') = length (flat_map processor_teles ps))
                /\ Forall (leaf_calm n') (flat_map sl ss)
                /\ bounded z (Z.of_nat (length (flat_map processor_teles ps))) (snd r)).
  Proof.
    intros n n' z f d ps ss Hn Hz HT Hf Hs. unfold mount_process.
    eapply wroom_bind; [apply (collect_all_room n' z f ps 0 outcome_default); [exact Hz | lia | exact HT | apply bounded_zero | exact Hf]|].
    intros [ps' o] (R1 & R2 & R3). cbn [fst snd] in R1, R2, R3. rewrite Z.add_0_l in R3.
    pose proof (leaves_mono k lo hi V HV n n' _ Hn Hs) as Hs'.
    destruct (something_happened o).
    - eapply wroom_bind; [apply wroom_lift, safe_now|]. intros t _. apply wroom_ret. cbn [fst snd]. split; [|split; assumption]. eexists _, _. auto.
    - apply wroom_ret. cbn [fst snd]. split; [|split; assumption]. eexists _, _. auto.
  Qed.

  Lemma process_room : forall depth n p max s, 0 <= n -> n + Z.of_nat max <= N -> processor_room n p -> strategy_sound k lo hi s -> teles p <= T ->
    wroom (processor_process depth p max s) (processed (n + Z.of_nat max) (Z.of_nat max) p).
  Proof.
    induction depth as [|depth IH]; intros n p max s Hn Hn1 Hp Hs HT; cbn [processor_process]; [intros w Hw; exact I|].
    destruct Hp as [t Ht|d ps ss Hps Hss|d ps ss Hps Hss|h].
    - assert (HT1 : 1 <= T) by exact HT. eapply wroom_bind; [apply (tele_process_room n); [lia | exact Hn | exact Hn1 | exact Ht | exact Hs]|].
      intros [t' o] [R1 R2]. apply wroom_ret. split; [constructor; exact R1|]. split; [reflexivity | exact R2].
    - assert (HT1 : Z.of_nat (length (flat_map processor_teles ps)) <= T) by exact HT.
      eapply wroom_bind; [apply (mount_process_room n (n + Z.of_nat max) (Z.of_nat max)); [lia | lia | exact HT1 | | exact Hss]|].
      { apply Forall_forall. intros q Hq. rewrite Forall_forall in Hps. apply IH; auto. }
      intros [m o] ((d' & ps' & E & R1 & R2) & R3 & R4). cbn [fst snd] in E, R1, R2, R3, R4. subst m. apply wroom_ret.
      split; [constructor; assumption|]. split; [exact R2 | exact R4].
    - assert (HT1 : Z.of_nat (length (flat_map processor_teles ps)) <= T) by exact HT. cbn [attached_take].
      eapply wroom_bind; [apply wroom_ret with (R := fun x => x = (None, Mount d ps ss)); reflexivity|]. intros [r m0] E0. injection E0 as -> ->.
      eapply wroom_bind; [apply (mount_process_room n (n + Z.of_nat max) (Z.of_nat max)); [lia | lia | exact HT1 | | exact Hss]|].
      { apply Forall_forall. intros q Hq. rewrite Forall_forall in Hps. apply IH; auto. }
      intros [m o] ((d' & ps' & E & R1 & R2) & R3 & R4). cbn [fst snd] in E, R1, R2, R3, R4. subst m. apply wroom_ret.
      split; [constructor; assumption|]. split; [exact R2 | exact R4].
    - apply wroom_ret. split; [constructor|]. split; [reflexivity|]. apply bounded_zero.
  Qed.

  (** Room at a later time *)
  Lemma processor_later : forall n n', 0 <= n <= n' -> n' <= N ->
    (forall p, processor_room n p -> processor_room n' p)
    /\ (forall m : mount X Y, let '(Mount _ ps ss) := m in Forall (processor_room n) ps -> Forall (processor_room n') ps).
  Proof.
    intros n n' Hn Hn'. apply processor_ind'.
    - intros t H. inversion H; subst. constructor. apply (room_later n); assumption.
    - intros [d ps ss] Hm H. inversion H; subst. constructor; [auto | apply (leaves_mono k lo hi V HV n n' _ Hn); assumption].
    - intros r [d ps ss] Hm H. inversion H; subst. constructor; [auto | apply (leaves_mono k lo hi V HV n n' _ Hn); assumption].
    - intros h _. constructor.
    - intros u H. inversion H.
    - intros d ps ss Hps H. rewrite Forall_forall in *. auto.
  Qed.

  (** ** Snapshots *)

  Lemma tele_put_room : forall n t de into, 0 <= n <= N -> tele_room n t ->
    safe (tele_put t de into) (fun r => tele_room n (fst r)).
  Proof.
    intros n t de into Hn Ht. pose proof Ht as [H Hsz]. unfold tele_leaves in H, Hsz. rewrite !Forall_app in H. destruct H as (Fc & Fh & Fs).
    destruct (tree_put_room k lo hi V HV Htime Hspan HX n (proj1 Hn) (square_N n Hn)) as (_ & Th & Tc & Ts). unfold tele_put.
    apply safe_put_named. intros into1. cbv zeta. apply safe_check; [exact Ht|]. intros into2.
    eapply safe_bind; [apply (put_all k lo hi V cl _ n n); [exact Fc | apply Forall_forall; intros x _ s; apply Tc]|]. intros [cs i1] [G1 L1].
    eapply safe_bind; [apply (put_all k lo hi V hl _ n n); [exact Fh | apply Forall_forall; intros x _ s; apply Th]|]. intros [hs i2] [G2 L2].
    eapply safe_bind; [apply (put_all k lo hi V sl _ n n); [exact Fs | apply Forall_forall; intros x _ s; apply Ts]|]. intros [ss i3] [G3 L3].
    apply safe_ret. cbn [fst] in *. split; unfold tele_leaves; cbn [tp_cockpits tp_handlers tp_snapshooters].
    - rewrite !Forall_app. auto.
    - rewrite !app_length in *. lia.
  Qed.

  Definition put_ok (n : Z) (p : processor X Y) : Prop := forall de into, processor_room n p ->
    safe (processor_put p de into) (fun r => processor_room n (fst r) /\ length (processor_teles (fst r)) = length (processor_teles p)).
  Definition mount_put_ok (n : Z) (m : mount X Y) : Prop := forall de into,
    (let '(Mount _ ps ss) := m in Forall (processor_room n) ps /\ Forall (leaf_calm n) (flat_map sl ss)) ->
    safe (mount_put m de into) (fun r => let '(Mount _ ps ss) := fst r in
      Forall (processor_room n) ps /\ Forall (leaf_calm n) (flat_map sl ss) /\ length (flat_map processor_teles ps) = length (mount_teles m)).

  Lemma traverse_put_room : forall n de ps, Forall (put_ok n) ps -> Forall (processor_room n) ps -> forall into,
    safe (traverse (fun x => processor_put x de) ps into)
      (fun r => Forall (processor_room n) (fst r) /\ length (flat_map processor_teles (fst r)) = length (flat_map processor_teles ps)).
  Proof.
    clear. intros n de ps H. induction H as [|p ps Hp Hps IH]; intros R into; cbn [traverse].
    - apply safe_ret. cbn. auto.
    - inversion R as [|? ? R1 R2]; subst. eapply safe_bind; [apply Hp, R1|]. intros [p' i1] [A1 A2]. eapply safe_bind; [apply (IH R2)|]. intros [ps' i2] [B1 B2].
      apply safe_ret. cbn [fst flat_map] in *. rewrite !app_length, A2, B2. auto.
  Qed.

  Lemma put_room : forall n, 0 <= n <= N -> (forall p, put_ok n p) /\ (forall m, mount_put_ok n m).
  Proof.
    intros n Hn. apply processor_ind'.
    - intros t de into H. change (processor_put (PTele t) de into) with (wrap (PTele (X := X) (Y := Y)) (tele_put t de into)).
      inversion H as [? Ht|?|?|?]; subst.
      apply (safe_wrap _ _ _ _ _ _ _ _ (fun q => processor_room n q /\ length (processor_teles q) = length (processor_teles (PTele t)))).
      eapply safe_weak; [apply (tele_put_room n); assumption|]. intros r Hr. split; [constructor; exact Hr | reflexivity].
    - intros m Hm de into H. change (processor_put (PMount m) de into) with (wrap (PMount (X := X) (Y := Y)) (mount_put m de into)).
      inversion H as [?|d ps ss Hps Hss|?|?]; subst.
      apply (safe_wrap _ _ _ _ _ _ _ _ (fun q => processor_room n q /\ length (processor_teles q) = length (processor_teles (PMount (Mount d ps ss))))).
      eapply safe_weak; [apply Hm; split; assumption|]. intros [[d' ps' ss'] i] (A & B & C). split; [constructor; assumption | exact C].
    - intros r m Hm de into H. change (processor_put (PAttached r m) de into) with (wrap (PAttached (X := X) (Y := Y) r) (mount_put m de into)).
      inversion H as [?|?|d ps ss Hps Hss|?]; subst.
      apply (safe_wrap _ _ _ _ _ _ _ _ (fun q => processor_room n q /\ length (processor_teles q) = length (processor_teles (PAttached None (Mount d ps ss))))).
      eapply safe_weak; [apply Hm; split; assumption|]. intros [[d' ps' ss'] i] (A & B & C). split; [constructor; assumption | exact C].
    - intros h de into H. change (processor_put (PDriver h) de into) with (wrap (PDriver (X := X) (Y := Y)) (driver_put h de into)).
      apply (safe_wrap _ _ _ _ _ _ _ _ (fun q => processor_room n q /\ length (processor_teles q) = length (processor_teles (PDriver h)))).
      unfold driver_put. eapply safe_bind; [apply (ps_driver_snapshot _ _ _ _ HY)|]. intros [h' a] _. apply safe_ret. split; [constructor | reflexivity].
    - intros u de into H. inversion H.
    - intros d ps ss Hps de into [Hp Hs]. rewrite mount_put_eq.
      apply (safe_put_named _ _ _ _ _ _ _ (fun m => let '(Mount _ ps' ss') := m in
        Forall (processor_room n) ps' /\ Forall (leaf_calm n) (flat_map sl ss') /\ length (flat_map processor_teles ps') = length (mount_teles (Mount d ps ss)))).
      intros into1. apply (safe_check _ _ _ _ _ _ _ _ _ _ (fun m => let '(Mount _ ps' ss') := m in
        Forall (processor_room n) ps' /\ Forall (leaf_calm n) (flat_map sl ss') /\ length (flat_map processor_teles ps') = length (mount_teles (Mount d ps ss))));
        [repeat split; assumption|]. intros into2.
      eapply safe_bind; [apply (traverse_put_room n de ps Hps Hp)|]. intros [ps' n1] [A1 A2].
      eapply safe_bind; [apply (put_all k lo hi V sl _ n n); [exact Hs | apply Forall_forall; intros x _ s; apply (tree_put_room k lo hi V HV Htime Hspan HX n (proj1 Hn) (square_N n Hn))]|].
      intros [ss' n2] [G2 L2]. apply safe_ret. cbn [fst] in *. auto.
  Qed.

  Lemma handles_nonneg : forall l, 0 <= handles l.
  Proof. clear. induction l as [|[m s|de into] l IH]; cbn [handles]; lia. Qed.

  Theorem serve_room : forall depth l n p, 0 <= n -> n + handles l <= N -> teles p <= T -> processor_room n p -> Forall (request_sound k lo hi) l ->
    wroom (serve depth p l) (fun p' => processor_room (n + handles l) p').
  Proof.
    intros depth. induction l as [|r l IH]; intros n p Hn Hn1 HT Hp Hl; cbn [serve].
    - apply wroom_ret. cbn [handles]. rewrite Z.add_0_r. exact Hp.
    - inversion Hl as [|? ? Hr Hl']; subst. pose proof (handles_nonneg l) as H0. destruct r as [max s|de into]; cbn [handles] in Hn1 |- *.
      + eapply wroom_bind; [apply (process_room depth n p max s); try assumption; lia|]. intros [p' o] (R1 & R2 & _). cbn [fst] in R1, R2.
        rewrite Z.add_assoc. apply IH; [lia | lia | rewrite R2; exact HT | exact R1 | exact Hl'].
      + eapply wroom_bind; [apply wroom_lift, (proj1 (put_room n ltac:(lia))); exact Hp|]. intros [p' o] [R1 R2]. cbn [fst] in R1, R2.
        apply IH; [lia | lia | rewrite R2; exact HT | exact R1 | exact Hl'].
  Qed.
End Room.

Lemma process_bounded : forall (X : ext) (Y : pext) k lo hi V N S P Q depth n (p : processor X Y) max s w,
  let c := Z.of_nat (length (processor_teles p)) in
  enough V N S P Q c -> manageable k lo hi 0 -> parts_calm (X := X) k lo hi V ->
  0 <= n -> n + Z.of_nat max <= N -> processor_room k lo hi V N S P n p -> strategy_sound k lo hi s -> world_room k lo hi V S Q w ->
  match processor_process depth p max s k w with
  | Ok (p', o) w' =>
      world_room k lo hi V S Q w' /\ processor_room k lo hi V N S P (n + Z.of_nat max) p'
      /\ 0 <= oc_processed o <= c * Z.of_nat max /\ 0 <= oc_dropped o <= c * Z.of_nat max
      /\ 0 <= oc_instruments_updated o <= c * (Z.of_nat max * (P * V)) /\ 0 <= oc_enqueued o <= c * Q
  | Panic => False
  | NoFuel => True
  end.
Proof.
  intros X Y k lo hi V N S P Q depth n p max s w c HE H1 H3 Hn Hn1 Hp Hs Hw.
  pose proof (process_room k lo hi V N S P Q c HE ltac:(lia) H1 H3 depth n p max s Hn Hn1 Hp Hs (Z.le_refl _) w Hw) as H.
  destruct (processor_process depth p max s k w) as [[p' o] w'| |]; auto.
  destruct H as (A & B & C & D). cbn [fst snd] in B, D. split; [exact A|]. split; [exact B | exact D].
Qed.

Lemma new_room : forall (X : ext) (Y : pext) k lo hi V N S P name mname i, N * S <= P ->
  safe k lo hi (tele_new (X := X) name i) (fun t => processor_room (X := X) (Y := Y) k lo hi V N S P 0 (PTele t))
  /\ safe k lo hi (mount_new (X := X) (Y := Y) mname) (fun m => processor_room k lo hi V N S P 0 (PMount m)).
Proof.
  intros X Y k lo hi V N S P name mname i H. split; (eapply safe_bind; [apply safe_now|]; intros t _; apply safe_ret); constructor.
  - split; [constructor|]. cbn [tele_leaves tp_cockpits tp_handlers tp_snapshooters flat_map app length]. change (Z.of_nat 0) with 0. lia.
  - constructor.
  - constructor.
Qed.
