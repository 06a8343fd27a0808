(** Proofs about drivers that are mounted into each other. *)
From Coq Require Import ZArith Bool String List Arith Lia Permutation.
From Verif Require Import Base ModelSnapshot ModelNest SpecNest.
Import ListNotations.
Open Scope nat_scope.

Scheme shows_mut := Induction for shows Sort Prop
  with shows_parts_mut := Induction for shows_parts Sort Prop.

Lemma set_same : forall A (f : nat -> A) i a, set f i a i = a.
Proof. intros. unfold set. rewrite Nat.eqb_refl. reflexivity. Qed.

Lemma set_other : forall A (f : nat -> A) i a x, x <> i -> set f i a x = f x.
Proof. intros. unfold set. rewrite (proj2 (Nat.eqb_neq _ _) H). reflexivity. Qed.

Ltac at_driver m i := destruct (Nat.eq_dec m i) as [->|?N]; [rewrite ?set_same in * | rewrite ?set_other in * by assumption].

(** ** The log *)

Definition asked (log : list (nat * ncommand)) (i b : nat) : Prop := In (i, Ask b) log.

Lemma sent_to_app : forall i l1 l2, sent_to i (l1 ++ l2) = sent_to i l1 ++ sent_to i l2.
Proof. intros. unfold sent_to. rewrite filter_app, map_app. reflexivity. Qed.

Lemma in_sent_to : forall i c l, In c (sent_to i l) <-> In (i, c) l.
Proof.
  intros i c l. unfold sent_to. rewrite in_map_iff. split.
  - intros ([j c'] & <- & H). apply filter_In in H. destruct H as [H E]. cbn in E. apply Nat.eqb_eq in E. subst j. exact H.
  - intros H. exists (i, c). split; [reflexivity|]. apply filter_In. split; [exact H|]. apply Nat.eqb_refl.
Qed.

Lemma before_app : forall b l1 l2, In (Ask b) l1 -> before b (l1 ++ l2) = before b l1.
Proof.
  intros b l1 l2. induction l1 as [|c l1 IH]; intros H; [destruct H|].
  destruct c as [b'|p|p]; cbn [app before].
  - destruct (Nat.eqb b' b) eqn:E; [reflexivity|]. f_equal. apply IH. destruct H as [H|H]; [|exact H].
    injection H as <-. rewrite Nat.eqb_refl in E. discriminate E.
  - f_equal. apply IH. destruct H as [H|H]; [discriminate H|exact H].
  - f_equal. apply IH. destruct H as [H|H]; [discriminate H|exact H].
Qed.

Lemma before_here : forall b l1 l2, ~ In (Ask b) l1 -> before b (l1 ++ Ask b :: l2) = l1.
Proof.
  intros b l1 l2. induction l1 as [|c l1 IH]; intros H; cbn [app before].
  - rewrite Nat.eqb_refl. reflexivity.
  - destruct c as [b'|p|p].
    + destruct (Nat.eqb b' b) eqn:E; [apply Nat.eqb_eq in E; subst b'; destruct H; left; reflexivity|].
      f_equal. apply IH. intros Hb. apply H. right. exact Hb.
    + f_equal. apply IH. intros Hb. apply H. right. exact Hb.
    + f_equal. apply IH. intros Hb. apply H. right. exact Hb.
Qed.

Section Nest.
  Context (net : nat -> identity).

  Lemma shows_mono : forall log x,
    (forall i b s, shows net log i b s -> shows net (log ++ x) i b s)
    /\ (forall b ps pieces, shows_parts net log b ps pieces -> shows_parts net (log ++ x) b ps pieces).
  Proof.
    intros log x.
    split; intros *; [intros H; apply (shows_mut net log (fun i b s _ => shows net (log ++ x) i b s) (fun b ps pieces _ => shows_parts net (log ++ x) b ps pieces))
                     | intros H; apply (shows_parts_mut net log (fun i b s _ => shows net (log ++ x) i b s) (fun b ps pieces _ => shows_parts net (log ++ x) b ps pieces))];
      auto; intros; try (econstructor; eauto; fail).
    all: constructor; [apply in_or_app; auto|]; rewrite sent_to_app, before_app by (apply in_sent_to; assumption); assumption.
  Qed.

  Lemma shows_parts_app : forall log b p1 q1 p2 q2,
    shows_parts net log b p1 q1 -> shows_parts net log b p2 q2 -> shows_parts net log b (p1 ++ p2) (q1 ++ q2).
  Proof. intros log b p1 q1 p2 q2 H1 H2. induction H1; cbn; auto; econstructor; eauto. Qed.

  (** What a stack of levels can become. *)
  Inductive becomes (log : list (nat * ncommand)) (b : nat) : list frame -> snapshot -> Prop :=
  | be_last : forall n rest level pieces, shows_parts net log b rest pieces ->
      becomes log b [Frame n rest level] (grouped n (level ++ concat pieces))
  | be_up : forall n rest level pieces m rest' level' below s, shows_parts net log b rest pieces ->
      becomes log b (Frame m rest' (level' ++ grouped n (level ++ concat pieces)) :: below) s ->
      becomes log b (Frame n rest level :: Frame m rest' level' :: below) s.

  Lemma becomes_piece : forall log b n p rest level below piece s,
    shows_parts net log b [p] [piece] ->
    becomes log b (Frame n rest (level ++ piece) :: below) s -> becomes log b (Frame n (p :: rest) level :: below) s.
  Proof.
    intros log b n p rest level below piece s Hp H.
    inversion H as [n0 r0 l0 pieces Hr|n0 r0 l0 pieces m rest' level' below0 s0 Hr Hb]; subst.
    - replace ((level ++ piece) ++ concat pieces) with (level ++ concat (piece :: pieces)) by (cbn [concat]; rewrite app_assoc; reflexivity).
      constructor. exact (shows_parts_app log b [p] [piece] rest pieces Hp Hr).
    - apply (be_up log b n (p :: rest) level (piece :: pieces) m rest' level' below0 s).
      + exact (shows_parts_app log b [p] [piece] rest pieces Hp Hr).
      + cbn [concat]. rewrite app_assoc. exact Hb.
  Qed.

  Lemma becomes_group : forall log b n m head active inner rest level below s,
    becomes log b (Frame m (if active b : bool then inner else []) (head b) :: Frame n rest level :: below) s ->
    becomes log b (Frame n (Group m head active inner :: rest) level :: below) s.
  Proof.
    intros log b n m head active inner rest level below s H.
    inversion H as [|n0 r0 l0 pieces m0 rest' level' below0 s0 Hr Hb]; subst.
    eapply becomes_piece; [|exact Hb].
    destruct (active b) eqn:E.
    - apply sp_active; [exact E | exact Hr | constructor].
    - inversion Hr; subst. cbn [concat]. rewrite app_nil_r. apply sp_inactive; [exact E | constructor].
  Qed.

  Lemma becomes_leave : forall log b n m inside rest level below s,
    becomes log b (Frame n rest (level ++ finished m inside) :: below) s ->
    becomes log b (Frame m [] inside :: Frame n rest level :: below) s.
  Proof.
    intros log b n m inside rest level below s H. apply (be_up log b m [] inside []); [constructor|].
    cbn [concat]. rewrite app_nil_r. exact H.
  Qed.

  (** ** The invariant *)

  Definition stack_ok (st : nstate) (i b : nat) (frames : list frame) : Prop :=
    asked (ns_log st) i b
    /\ (forall x s, becomes (ns_log st ++ x) b frames s -> shows net (ns_log st ++ x) i b s)
    /\ (forall f p j, In f frames -> In p (fr_rest f) -> In j (drivers_in p) ->
          In j (flat_map drivers_in (ns_processors st i ++ ns_snapshooters st i))).

  Definition thread_ok (st : nstate) (i : nat) : Prop :=
    match ns_threads st i with
    | Looping | Ended => True
    | Writing b top below => stack_ok st i b (top :: below)
    | Waiting a b (Frame n rest level) below =>
        exists j, asked (ns_log st) j a /\ b < a /\ stack_ok st i b (Frame n (Mounted j :: rest) level :: below)
    end.

  Definition serves (t : thread) (b : nat) : Prop :=
    match t with Looping | Ended => False | Writing b' _ _ | Waiting _ b' _ _ => b' = b end.

  Record ninv (st : nstate) : Prop := NInv {
    nv_fresh : forall i b, asked (ns_log st) i b -> b < length (ns_log st);
    nv_once : forall i j b, asked (ns_log st) i b -> asked (ns_log st) j b -> i = j;
    nv_unique : forall i b l1 l2, sent_to i (ns_log st) = l1 ++ Ask b :: l2 -> ~ In (Ask b) l1;
    nv_done : forall i, ns_threads st i <> Ended -> exists done, sent_to i (ns_log st) = done ++ ns_queues st i
      /\ ns_processors st i = added_processors done /\ ns_snapshooters st i = added_snapshooters done;
    nv_empty : forall i, ns_threads st i = Ended -> ns_queues st i = [] /\ ns_processors st i = [] /\ ns_snapshooters st i = [];
    nv_where : forall b i, asked (ns_log st) i b ->
      ns_replies st b <> Pending \/ In (Ask b) (ns_queues st i) \/ serves (ns_threads st i) b;
    nv_thread : forall i, thread_ok st i;
    nv_pending : forall b, (forall i, ~ asked (ns_log st) i b) -> ns_replies st b = Pending;
    nv_waits : forall i b, In (Ask b) (ns_queues st i) \/ serves (ns_threads st i) b -> ns_replies st b = Pending;
    nv_served : forall i b, In (Ask b) (ns_queues st i) -> ~ serves (ns_threads st i) b;
    nv_answer : forall i b s, ns_replies st b = Answered s -> asked (ns_log st) i b -> shows net (ns_log st) i b s;
    nv_dropped : forall i b, ns_replies st b = Dropped -> asked (ns_log st) i b -> ns_threads st i = Ended;
    nv_alive : forall i j, In j (handles_of st i) -> ns_threads st j <> Ended
  }.

  Lemma asked_queue : forall st i b, ninv st -> In (Ask b) (ns_queues st i) -> asked (ns_log st) i b.
  Proof.
    intros st i b HI Hb. destruct (ns_threads st i) eqn:Et.
    4: { destruct (nv_empty _ HI i Et) as [Eq _]. rewrite Eq in Hb. destruct Hb. }
    all: destruct (nv_done _ HI i) as (done & E & _); [congruence|]; apply in_sent_to; rewrite E; apply in_or_app; right; exact Hb.
  Qed.

  Lemma asked_serves : forall st i b, ninv st -> serves (ns_threads st i) b -> asked (ns_log st) i b.
  Proof.
    intros st i b HI Hb. pose proof (nv_thread _ HI i) as Ht. unfold thread_ok in Ht.
    destruct (ns_threads st i) as [|b' top below|a b' [n rest level] below|]; try destruct Hb.
    - destruct Ht as [H _]. exact H.
    - destruct Ht as (j & _ & _ & H & _). exact H.
  Qed.

  Lemma stack_ok_log : forall st st' i b frames x,
    ns_log st' = ns_log st ++ x -> ns_processors st' i = ns_processors st i -> ns_snapshooters st' i = ns_snapshooters st i ->
    stack_ok st i b frames -> stack_ok st' i b frames.
  Proof.
    intros st st' i b frames x El Ep Es (H1 & H2 & H3). unfold stack_ok. rewrite El, Ep, Es. split; [|split].
    - apply in_or_app. left. exact H1.
    - intros y s H. rewrite <- app_assoc in *. apply H2. exact H.
    - exact H3.
  Qed.

  Lemma thread_ok_mono : forall st st' i x,
    ns_log st' = ns_log st ++ x -> ns_processors st' i = ns_processors st i -> ns_snapshooters st' i = ns_snapshooters st i ->
    ns_threads st' i = ns_threads st i -> thread_ok st i -> thread_ok st' i.
  Proof.
    intros st st' i x El Ep Es Et H. unfold thread_ok in *. rewrite Et.
    destruct (ns_threads st i) as [|b' top below|a b' [n rest level] below|]; auto.
    - eapply stack_ok_log; eassumption.
    - destruct H as (j & Hj & Hlt & H). exists j. split; [rewrite El; apply in_or_app; left; exact Hj|]. split; [exact Hlt|].
      eapply stack_ok_log; eassumption.
  Qed.

  Lemma start_inv : ninv start.
  Proof.
    split; cbn; try contradiction; try discriminate; auto.
    - intros i b [|? ?] l2 H; discriminate H.
    - intros i _. exists []. auto.
  Qed.

  Lemma call_log : forall st i c, ns_log (call st i c) = ns_log st ++ [(i, c)].
  Proof. intros. unfold call. destruct (ns_threads st i); reflexivity. Qed.
  Lemma call_threads : forall st i c, ns_threads (call st i c) = ns_threads st.
  Proof. intros. unfold call. destruct (ns_threads st i); reflexivity. Qed.
  Lemma call_processors : forall st i c, ns_processors (call st i c) = ns_processors st.
  Proof. intros. unfold call. destruct (ns_threads st i); reflexivity. Qed.
  Lemma call_snapshooters : forall st i c, ns_snapshooters (call st i c) = ns_snapshooters st.
  Proof. intros. unfold call. destruct (ns_threads st i); reflexivity. Qed.

  Lemma call_queue : forall st i c j, ns_queues (call st i c) j = ns_queues st j
    \/ (j = i /\ ns_threads st i <> Ended /\ ns_queues (call st i c) j = ns_queues st j ++ [c]).
  Proof.
    intros. unfold call. destruct (ns_threads st i) eqn:E; cbn [ns_queues]; auto.
    all: at_driver j i; auto; right; repeat split; auto; discriminate.
  Qed.

  Lemma call_queue_live : forall st i c, ns_threads st i <> Ended -> ns_queues (call st i c) i = ns_queues st i ++ [c].
  Proof. intros. unfold call. destruct (ns_threads st i) eqn:E; cbn [ns_queues]; rewrite ?set_same; congruence. Qed.

  Lemma call_reply : forall st i c b, (forall j, ~ In (j, Ask b) [(i, c)]) -> ns_replies (call st i c) b = ns_replies st b.
  Proof.
    intros st i c b H. unfold call. destruct (ns_threads st i); cbn [ns_replies]; auto. destruct c as [b'|p|p]; auto.
    apply set_other. intros ->. apply (H i). left. reflexivity.
  Qed.

  Lemma sent_to_one : forall i j c, sent_to i [(j, c)] = if Nat.eqb j i then [c] else [].
  Proof. intros. unfold sent_to. cbn. destruct (Nat.eqb j i); reflexivity. Qed.

  Lemma app_one_split : forall A (x y : A) l1 l2 l, l ++ [x] = l1 ++ y :: l2 ->
    (l2 = [] /\ x = y /\ l = l1) \/ exists l2', l = l1 ++ y :: l2'.
  Proof.
    intros A x y l1 l2 l E. destruct l2 as [|z l2] using rev_ind.
    - apply app_inj_tail in E. left. destruct E as [-> ->]. auto.
    - right. clear IHl2. rewrite app_comm_cons, app_assoc in E. apply app_inj_tail in E. destruct E as [-> _]. eauto.
  Qed.

  Lemma call_inv : forall st i c, ninv st -> (c = Ask (new_request st) \/ forall b, c <> Ask b) ->
    (forall j, In j (command_drivers c) -> ns_threads st j <> Ended) -> ninv (call st i c).
  Proof.
    intros st i c HI Hc Hd.
    assert (Hnew : forall b j, c = Ask b -> asked (ns_log st) j b -> False).
    { intros b j E Hb. destruct Hc as [Hc | Hc]; [|exact (Hc b E)]. rewrite E in Hc. injection Hc as ->.
      apply (nv_fresh _ HI) in Hb. unfold new_request in Hb. lia. }
    assert (Hor : forall j b, asked (ns_log st ++ [(i, c)]) j b -> asked (ns_log st) j b \/ (j = i /\ c = Ask b)).
    { intros j b H. apply in_app_or in H. destruct H as [H | [E | []]]; [auto|]. injection E as -> ->. auto. }
    assert (Hrep : forall j b, asked (ns_log st) j b -> ns_replies (call st i c) b = ns_replies st b).
    { intros j b Hb. apply call_reply. intros j' [E | []]. injection E as -> ->. exact (Hnew b j eq_refl Hb). }
    assert (Hq : forall j x, In x (ns_queues (call st i c) j) -> In x (ns_queues st j) \/ (j = i /\ x = c /\ ns_threads st i <> Ended)).
    { intros j x Hx. destruct (call_queue st i c j) as [E | (-> & He & E)]; rewrite E in Hx; [auto|].
      apply in_app_or in Hx. destruct Hx as [Hx | [<- | []]]; auto. }
    assert (Hq' : forall j x, In x (ns_queues st j) -> In x (ns_queues (call st i c) j)).
    { intros j x Hx. destruct (call_queue st i c j) as [E | (-> & He & E)]; rewrite E; [auto | apply in_or_app; auto]. }
    split; rewrite ?call_log, ?call_threads, ?call_processors, ?call_snapshooters.
    - intros j b H. rewrite app_length. cbn [length]. apply Hor in H. destruct H as [H | [-> E]].
      + apply (nv_fresh _ HI) in H. lia.
      + destruct Hc as [Hc | Hc]; [|destruct (Hc b E)]. rewrite E in Hc. injection Hc as ->. unfold new_request. lia.
    - intros j j' b H H'. apply Hor in H. apply Hor in H'. destruct H as [H | [-> E]], H' as [H' | [-> E']]; auto.
      + exact (nv_once _ HI j j' b H H').
      + destruct (Hnew b j E' H).
      + destruct (Hnew b j' E H').
    - intros j b l1 l2 E. rewrite sent_to_app, sent_to_one in E. destruct (Nat.eqb i j) eqn:Ei.
      + apply Nat.eqb_eq in Ei. subst j. apply app_one_split in E. destruct E as [(-> & E & El) | (l2' & E)].
        * intros Hb. rewrite <- El in Hb. apply (Hnew b i E). apply in_sent_to. exact Hb.
        * exact (nv_unique _ HI i b l1 l2' E).
      + rewrite app_nil_r in E. exact (nv_unique _ HI j b l1 l2 E).
    - intros j Hj. destruct (nv_done _ HI j Hj) as (done & E & H). exists done. split; [|exact H].
      rewrite sent_to_app, sent_to_one, E. destruct (Nat.eqb i j) eqn:Ei.
      + apply Nat.eqb_eq in Ei. subst j. rewrite (call_queue_live st i c Hj), app_assoc. reflexivity.
      + apply Nat.eqb_neq in Ei. rewrite app_nil_r. f_equal.
        destruct (call_queue st i c j) as [-> | (-> & _)]; [reflexivity | congruence].
    - intros j Hj. destruct (nv_empty _ HI j Hj) as (H1 & H2 & H3). split; [|auto].
      destruct (call_queue st i c j) as [-> | (-> & He & _)]; [exact H1 | contradiction].
    - intros b j H. apply Hor in H. destruct H as [H | [-> E]].
      + rewrite (Hrep j b H). destruct (nv_where _ HI b j H) as [H' | [H' | H']]; auto.
      + subst c. destruct (ns_threads st i) eqn:Et.
        4: { left. unfold call. rewrite Et. cbn [ns_replies]. rewrite set_same. discriminate. }
        all: right; left; rewrite call_queue_live by congruence; apply in_or_app; right; left; reflexivity.
    - intros j. apply (thread_ok_mono st _ j [(i, c)]); rewrite ?call_log, ?call_threads, ?call_processors, ?call_snapshooters; auto.
      apply (nv_thread _ HI).
    - intros b H. rewrite call_reply; [apply (nv_pending _ HI)|].
      + intros j Hj. apply (H j). apply in_or_app. left. exact Hj.
      + intros j Hj. apply (H j). apply in_or_app. right. exact Hj.
    - intros j b [H | H].
      + apply Hq in H. destruct H as [H | (-> & E & He)].
        * rewrite (Hrep j b (asked_queue st j b HI H)). apply (nv_waits _ HI j). auto.
        * subst c. unfold call. destruct (ns_threads st i) eqn:Et; try congruence; cbn [ns_replies]; apply (nv_pending _ HI); intros j Hj; exact (Hnew b j eq_refl Hj).
      + rewrite (Hrep j b (asked_serves st j b HI H)). apply (nv_waits _ HI j). auto.
    - intros j b H Hs. apply Hq in H. destruct H as [H | (-> & E & He)].
      + exact (nv_served _ HI j b H Hs).
      + subst c. exact (Hnew b i eq_refl (asked_serves st i b HI Hs)).
    - intros j b s Hs H. apply Hor in H. destruct H as [H | [-> ->]].
      + rewrite (Hrep j b H) in Hs. apply (proj1 (shows_mono _ _)). exact (nv_answer _ HI j b s Hs H).
      + exfalso. unfold call in Hs. assert (P : ns_replies st b = Pending) by (apply (nv_pending _ HI); intros j Hj; exact (Hnew b j eq_refl Hj)).
        destruct (ns_threads st i); cbn [ns_replies] in Hs; rewrite ?set_same in Hs; congruence.
    - intros j b Hs H. apply Hor in H. destruct H as [H | [-> ->]].
      + rewrite (Hrep j b H) in Hs. exact (nv_dropped _ HI j b Hs H).
      + unfold call in Hs. assert (P : ns_replies st b = Pending) by (apply (nv_pending _ HI); intros j Hj; exact (Hnew b j eq_refl Hj)).
        destruct (ns_threads st i); cbn [ns_replies] in Hs; congruence.
    - intros j m Hm. unfold handles_of in Hm. rewrite call_processors, call_snapshooters in Hm. apply in_app_or in Hm. destruct Hm as [Hm | Hm].
      + apply (nv_alive _ HI j). apply in_or_app. left. exact Hm.
      + apply in_flat_map in Hm. destruct Hm as (x & Hx & Hm). apply Hq in Hx. destruct Hx as [Hx | (-> & -> & _)].
        * apply (nv_alive _ HI j). apply in_or_app. right. apply in_flat_map. eauto.
        * exact (Hd m Hm).
  Qed.

  (** A thread goes on with the same request. *)
  Lemma move_inv : forall st i b t, ninv st -> serves (ns_threads st i) b -> serves t b -> thread_ok (with_thread st i t) i ->
    ninv (with_thread st i t).
  Proof.
    intros st i b t HI Hb Ht Hok.
    assert (Hl : ns_threads st i <> Ended) by (intros E; rewrite E in Hb; exact Hb).
    assert (Hl' : t <> Ended) by (intros E; rewrite E in Ht; exact Ht).
    assert (Hsv : forall j b', serves (set (ns_threads st) i t j) b' <-> serves (ns_threads st j) b').
    { intros j b'. at_driver j i; [|reflexivity]. split; intros H.
      - assert (b' = b) as -> by (destruct t; cbn in H, Ht; congruence || contradiction). exact Hb.
      - assert (b' = b) as -> by (destruct (ns_threads st i); cbn in H, Hb; congruence || contradiction). exact Ht. }
    assert (He : forall j, set (ns_threads st) i t j = Ended <-> ns_threads st j = Ended).
    { intros j. at_driver j i; [|reflexivity]. split; contradiction. }
    destruct HI as [H1 H2 H3 H4 H5 H6 H7 H8 H9 H10 H11 H12 H13].
    split; cbn [with_thread ns_queues ns_threads ns_replies ns_processors ns_snapshooters ns_log]; auto.
    - intros j Hj. apply H4. rewrite <- He. exact Hj.
    - intros j Hj. apply H5. apply He. exact Hj.
    - intros b' j Hj. rewrite Hsv. auto.
    - intros j. destruct (Nat.eq_dec j i) as [->|N]; [exact Hok|].
      apply (thread_ok_mono st _ j []); cbn [with_thread ns_threads ns_log]; rewrite ?app_nil_r, ?set_other by exact N; auto.
    - intros j b' H. apply (H9 j). rewrite <- Hsv. exact H.
    - intros j b' H. rewrite Hsv. auto.
    - intros j b' Hd Hj. apply He. eauto.
    - intros j m Hm. rewrite He. apply (H13 j). exact Hm.
  Qed.

  Lemma shows_parts_split : forall log b p1 p2 pieces, shows_parts net log b (p1 ++ p2) pieces ->
    exists q1 q2, pieces = q1 ++ q2 /\ shows_parts net log b p1 q1 /\ shows_parts net log b p2 q2.
  Proof.
    intros log b p1 p2. induction p1 as [|p p1 IH]; intros pieces H.
    - exists [], pieces. split; [reflexivity|]. split; [constructor | exact H].
    - cbn [app] in H. inversion H as [|b0 f ps pieces0 H0|b0 j a s ps pieces0 Hlt Hs H0|b0 n head active inner inside ps pieces0 Ha Hi H0|b0 n head active inner ps pieces0 Ha H0]; subst;
        destruct (IH _ H0) as (q1 & q2 & -> & H1 & H2).
      + exists (f b :: q1), q2. repeat split; [constructor; exact H1 | exact H2].
      + exists (s :: q1), q2. repeat split; [econstructor; eassumption | exact H2].
      + eexists (_ :: q1), q2. repeat split; [apply sp_active; eassumption | exact H2].
      + eexists (_ :: q1), q2. repeat split; [apply sp_inactive; eassumption | exact H2].
  Qed.

  Lemma becomes_first : forall log b n f ps g s,
    becomes log b [Frame n (Own f :: ps ++ [Own g]) []] s ->
    exists pieces, shows_parts net log b ps pieces /\ s = grouped n (f b ++ concat pieces ++ g b).
  Proof.
    intros log b n f ps g s H. inversion H as [n0 r0 l0 pieces Hr|]; subst. inversion Hr as [|b0 f0 ps0 pieces0 H0| | |]; subst.
    apply shows_parts_split in H0. destruct H0 as (q1 & q2 & -> & H1 & H2).
    inversion H2 as [|b0 f0 ps0 pieces1 H3| | |]; subst. inversion H3; subst.
    exists q1. split; [exact H1|]. cbn [app concat]. rewrite concat_app. cbn [concat]. rewrite app_nil_r. reflexivity.
  Qed.

  Lemma stack_ok_up : forall st i b frames frames', stack_ok st i b frames ->
    (forall x s, becomes (ns_log st ++ x) b frames' s -> becomes (ns_log st ++ x) b frames s) ->
    (forall f p j, In f frames' -> In p (fr_rest f) -> In j (drivers_in p) ->
       exists f' p', In f' frames /\ In p' (fr_rest f') /\ In j (drivers_in p')) ->
    stack_ok st i b frames'.
  Proof.
    intros st i b frames frames' (H1 & H2 & H3) Hb Hd. split; [exact H1|]. split; [auto|].
    intros f p j Hf Hp Hj. destruct (Hd f p j Hf Hp Hj) as (f' & p' & Hf' & Hp' & Hj'). eauto.
  Qed.

  Lemma with_thread_ok : forall st i t,
    match t with
    | Looping | Ended => True
    | Writing b top below => stack_ok st i b (top :: below)
    | Waiting a b (Frame n rest level) below =>
        exists j, asked (ns_log st) j a /\ b < a /\ stack_ok st i b (Frame n (Mounted j :: rest) level :: below)
    end -> thread_ok (with_thread st i t) i.
  Proof.
    intros st i t H. unfold thread_ok. cbn [with_thread ns_threads]. rewrite set_same. destruct t as [|b' top below|a b' [n rest level] below|]; auto.
  Qed.

  (** A command is taken up. *)
  Lemma command_inv : forall st i c q, ninv st -> ns_threads st i = Looping -> ns_queues st i = c :: q -> (forall b, c <> Ask b) ->
    ninv (NState (set (ns_queues st) i q) (ns_threads st) (ns_replies st)
            (set (ns_processors st) i (ns_processors st i ++ added_processors [c]))
            (set (ns_snapshooters st) i (ns_snapshooters st i ++ added_snapshooters [c])) (ns_log st)).
  Proof.
    intros st i c q HI Et Eq Hc.
    assert (Hq : forall j x, In x (set (ns_queues st) i q j) -> In x (ns_queues st j)).
    { intros j x Hx. at_driver j i; [rewrite Eq; right|]; exact Hx. }
    assert (Hq' : forall j b, In (Ask b) (ns_queues st j) -> In (Ask b) (set (ns_queues st) i q j)).
    { intros j b Hx. at_driver j i; [|exact Hx]. rewrite Eq in Hx. destruct Hx as [E | Hx]; [destruct (Hc b E) | exact Hx]. }
    pose proof HI as [H1 H2 H3 H4 H5 H6 H7 H8 H9 H10 H11 H12 H13].
    split; cbn [ns_queues ns_threads ns_replies ns_processors ns_snapshooters ns_log]; auto.
    - intros j Hj. destruct (H4 j Hj) as (done & E & Ep & Es). at_driver j i; [|eauto].
      exists (done ++ [c]). rewrite E, Eq, Ep, Es. unfold added_processors, added_snapshooters. rewrite !flat_map_app, <- app_assoc. auto.
    - intros j Hj. at_driver j i; [congruence | auto].
    - intros b j Hb. destruct (H6 b j Hb) as [H | [H | H]]; auto.
    - intros j. destruct (Nat.eq_dec j i) as [->|N].
      + unfold thread_ok. cbn [ns_threads]. rewrite Et. exact I.
      + apply (thread_ok_mono st _ j []); cbn; rewrite ?app_nil_r, ?set_other by exact N; auto.
    - intros j b H. apply (H9 j). destruct H; auto.
    - intros j m Hm. apply (H13 j). unfold handles_of in *. cbn [ns_queues ns_processors ns_snapshooters] in Hm. at_driver j i; [|exact Hm].
      rewrite Eq. rewrite !flat_map_app in *. cbn [flat_map].
      assert (Hx : In m (flat_map drivers_in (added_processors [c])) \/ In m (flat_map drivers_in (added_snapshooters [c])) -> In m (command_drivers c)).
      { destruct c; cbn; rewrite ?app_nil_r; tauto. }
      rewrite !in_app_iff in *. tauto.
  Qed.

  Lemma take_inv : forall st i b q, ninv st -> ns_threads st i = Looping -> ns_queues st i = Ask b :: q ->
    ninv (with_thread (with_queue st i q) i (Writing b (Frame (id_name (net i)) (parts net st i) []) [])).
  Proof.
    intros st i b q HI Et Eq.
    pose proof HI as [H1 H2 H3 H4 H5 H6 H7 H8 H9 H10 H11 H12 H13].
    assert (Hin : In (Ask b) (ns_queues st i)) by (rewrite Eq; left; reflexivity).
    pose proof (asked_queue st i b HI Hin) as Hask.
    assert (Hl : ns_threads st i <> Ended) by congruence.
    destruct (H4 i Hl) as (done & Ed & Ep & Es). rewrite Eq in Ed.
    assert (Hnd : ~ In (Ask b) done) by exact (H3 i b done q Ed).
    assert (Hnq : ~ In (Ask b) q).
    { intros Hb. apply in_split in Hb. destruct Hb as (q1 & q2 & ->).
      apply (H3 i b (done ++ Ask b :: q1) q2); [rewrite Ed, <- app_assoc; reflexivity|]. apply in_or_app. right. left. reflexivity. }
    assert (Hq : forall j x, In x (set (ns_queues st) i q j) -> In x (ns_queues st j)).
    { intros j x Hx. at_driver j i; [rewrite Eq; right|]; exact Hx. }
    split; cbn [with_thread with_queue ns_queues ns_threads ns_replies ns_processors ns_snapshooters ns_log]; auto.
    - intros j Hj. at_driver j i.
      + exists (done ++ [Ask b]). rewrite Ed, Ep, Es. unfold added_processors, added_snapshooters. rewrite !flat_map_app, <- app_assoc. cbn. rewrite !app_nil_r. auto.
      + exact (H4 j Hj).
    - intros j Hj. at_driver j i; [discriminate Hj | auto].
    - intros b' j Hb. destruct (H6 b' j Hb) as [H | [H | H]]; auto.
      + at_driver j i; [|auto]. rewrite Eq in H. destruct H as [E | H]; [injection E as <-; right; right; reflexivity | auto].
      + at_driver j i; [|auto]. rewrite Et in H. destruct H.
    - intros j. destruct (Nat.eq_dec j i) as [->|N].
      + apply with_thread_ok. split; [exact Hask|]. cbn [with_queue ns_log ns_processors ns_snapshooters]. split.
        * intros x s H. unfold parts in H. rewrite app_assoc in H. apply becomes_first in H. destruct H as (pieces & Hp & ->).
          apply sh; [apply in_or_app; left; exact Hask|].
          rewrite sent_to_app, Ed, <- app_assoc. cbn [app]. rewrite (before_here b done _ Hnd), <- Ep, <- Es. exact Hp.
        * intros f p j [<- | []] Hp Hj. cbn [fr_rest] in Hp. unfold parts in Hp. apply in_flat_map.
          destruct Hp as [<- | Hp]; [destruct Hj|]. rewrite app_assoc in Hp. apply in_app_or in Hp. destruct Hp as [Hp | [<- | []]]; [eauto | destruct Hj].
      + apply (thread_ok_mono st _ j []); cbn; rewrite ?app_nil_r, ?set_other by exact N; auto.
    - intros j b' [H | H]; [apply (H9 j); auto|]. at_driver j i; [|apply (H9 j); auto]. cbn in H. subst b'. apply (H9 i). auto.
    - intros j b' H Hs. at_driver j i; [cbn in Hs; subst b'; contradiction | exact (H10 j b' H Hs)].
    - intros j b' Hd Hj. pose proof (H12 j b' Hd Hj) as E. at_driver j i; [congruence | exact E].
    - intros j m Hm. assert (Hm' : In m (handles_of st j)).
      { unfold handles_of in *. cbn [with_thread with_queue ns_queues ns_processors ns_snapshooters] in Hm. at_driver j i; [|exact Hm].
        rewrite Eq. exact Hm. }
      pose proof (H13 j m Hm'). at_driver m i; [discriminate | assumption].
  Qed.

  Lemma answer_inv : forall st i b n level, ninv st -> ns_threads st i = Writing b (Frame n [] level) [] ->
    ninv (NState (ns_queues st) (set (ns_threads st) i Looping) (set (ns_replies st) b (Answered (finished n level)))
            (ns_processors st) (ns_snapshooters st) (ns_log st)).
  Proof.
    intros st i b n level HI Et.
    assert (Hs : serves (ns_threads st i) b) by (rewrite Et; reflexivity).
    pose proof (asked_serves st i b HI Hs) as Hask.
    pose proof HI as [H1 H2 H3 H4 H5 H6 H7 H8 H9 H10 H11 H12 H13].
    assert (Hl : ns_threads st i <> Ended) by congruence.
    assert (He : forall j, set (ns_threads st) i Looping j = Ended <-> ns_threads st j = Ended).
    { intros j. at_driver j i; [|reflexivity]. split; [discriminate | contradiction]. }
    assert (Hrep : forall j b', asked (ns_log st) j b' -> b' = b /\ j = i \/ b' <> b).
    { intros j b' Hb. destruct (Nat.eq_dec b' b) as [->|N]; [left; split; [reflexivity | exact (H2 j i b Hb Hask)] | right; exact N]. }
    split; cbn [ns_queues ns_threads ns_replies ns_processors ns_snapshooters ns_log]; auto.
    - intros j Hj. apply H4. rewrite <- He. exact Hj.
    - intros j Hj. apply H5. apply He. exact Hj.
    - intros b' j Hb. destruct (Nat.eq_dec b' b) as [->|N]; [left; rewrite set_same; discriminate|]. rewrite (set_other _ _ b _ b' N).
      destruct (H6 b' j Hb) as [H | [H | H]]; auto. at_driver j i; [|auto]. rewrite Et in H. cbn in H. congruence.
    - intros j. destruct (Nat.eq_dec j i) as [->|N].
      + unfold thread_ok. cbn [ns_threads]. rewrite set_same. exact I.
      + apply (thread_ok_mono st _ j []); cbn; rewrite ?app_nil_r, ?set_other by exact N; auto.
    - intros b' Hb. rewrite set_other; [apply H8; exact Hb|]. intros ->. exact (Hb i Hask).
    - intros j b' H. assert (Hb : In (Ask b') (ns_queues st j) \/ (j <> i /\ serves (ns_threads st j) b')).
      { destruct H as [H | H]; [auto|]. at_driver j i; [destruct H | auto]. }
      assert (N : b' <> b).
      { intros ->. destruct Hb as [Hb | [Nj Hb]].
        - pose proof (H2 j i b (asked_queue st j b HI Hb) Hask) as ->. exact (H10 i b Hb Hs).
        - exact (Nj (H2 j i b (asked_serves st j b HI Hb) Hask)). }
      rewrite set_other by exact N. apply (H9 j). tauto.
    - intros j b' H Hs'. at_driver j i; [destruct Hs' | exact (H10 j b' H Hs')].
    - intros j b' s E Hb. destruct (Hrep j b' Hb) as [[-> ->] | N].
      + rewrite set_same in E. injection E as <-. pose proof (H7 i) as Ht. unfold thread_ok in Ht. rewrite Et in Ht. destruct Ht as (_ & Ht & _).
        specialize (Ht [] (finished n level)). rewrite app_nil_r in Ht. apply Ht.
        replace (finished n level) with (grouped n (level ++ concat [])) by (cbn [concat]; rewrite app_nil_r; reflexivity).
        constructor. constructor.
      + rewrite set_other in E by exact N. exact (H11 j b' s E Hb).
    - intros j b' Hd Hb. apply He. destruct (Hrep j b' Hb) as [[-> ->] | N]; [rewrite set_same in Hd; discriminate Hd|].
      rewrite set_other in Hd by exact N. eauto.
    - intros j m Hm. rewrite He. apply (H13 j). exact Hm.
  Qed.

  Lemma ended_inv : forall st i, ninv st -> ns_threads st i = Looping -> (forall j, ~ In i (handles_of st j)) -> ninv (ended st i).
  Proof.
    intros st i HI Et Hh.
    pose proof HI as [H1 H2 H3 H4 H5 H6 H7 H8 H9 H10 H11 H12 H13].
    assert (Hask : forall b, existsb (is_ask b) (ns_queues st i) = true <-> In (Ask b) (ns_queues st i)).
    { intros b. rewrite existsb_exists. split.
      - intros (c & Hc & E). destruct c; try discriminate E. apply Nat.eqb_eq in E. subst b0. exact Hc.
      - intros Hb. exists (Ask b). split; [exact Hb | apply Nat.eqb_refl]. }
    assert (Hrep : forall j b, asked (ns_log st) j b -> j <> i ->
              existsb (is_ask b) (ns_queues st i) = false).
    { intros j b Hb N. destruct (existsb _ _) eqn:E; [|reflexivity]. apply Hask in E. destruct (N (H2 j i b Hb (asked_queue st i b HI E))). }
    split; cbn [ended ns_queues ns_threads ns_replies ns_processors ns_snapshooters ns_log]; auto.
    - intros j Hj. at_driver j i; [congruence | auto].
    - intros j Hj. at_driver j i; auto.
    - intros b j Hb. destruct (H6 b j Hb) as [H | [H | H]].
      + left. destruct (existsb _ _); [discriminate | exact H].
      + at_driver j i; [|auto]. left. rewrite (proj2 (Hask b) H). discriminate.
      + at_driver j i; [|auto]. rewrite Et in H. destruct H.
    - intros j. destruct (Nat.eq_dec j i) as [->|N].
      + unfold thread_ok. cbn [ended ns_threads]. rewrite set_same. exact I.
      + apply (thread_ok_mono st _ j []); cbn; rewrite ?app_nil_r, ?set_other by exact N; auto.
    - intros b Hb. destruct (existsb _ _) eqn:E; [|auto]. apply Hask in E. destruct (Hb i (asked_queue st i b HI E)).
    - intros j b H. assert (N : j <> i) by (intros ->; rewrite !set_same in H; destruct H as [[] | []]). rewrite !set_other in H by exact N.
      assert (Hb : asked (ns_log st) j b) by (destruct H; [apply asked_queue | apply asked_serves]; assumption).
      rewrite (Hrep j b Hb N). apply (H9 j). exact H.
    - intros j b H Hs. at_driver j i; [destruct H | exact (H10 j b H Hs)].
    - intros j b s E Hb. destruct (existsb _ _); [discriminate E | eauto].
    - intros j b Hd Hb. at_driver j i; [reflexivity|]. rewrite (Hrep j b Hb N) in Hd. eauto.
    - intros j m Hm.
      assert (N : j <> i) by (intros ->; unfold handles_of in Hm; cbn in Hm; rewrite !set_same in Hm; destruct Hm).
      assert (Hm' : In m (handles_of st j)) by (unfold handles_of in *; cbn in Hm; rewrite !set_other in Hm by exact N; exact Hm).
      rewrite set_other; [exact (H13 j m Hm')|]. intros ->. exact (Hh j Hm').
  Qed.

  (** The invariant does not distinguish between states with the same values. *)
  Lemma same_inv : forall st st', ns_queues st' = ns_queues st -> ns_threads st' = ns_threads st -> ns_replies st' = ns_replies st ->
    (forall i, ns_processors st' i = ns_processors st i) -> (forall i, ns_snapshooters st' i = ns_snapshooters st i) -> ns_log st' = ns_log st ->
    ninv st -> ninv st'.
  Proof.
    intros st st' Eq Et Er Ep Es El [H1 H2 H3 H4 H5 H6 H7 H8 H9 H10 H11 H12 H13].
    split; rewrite ?Eq, ?Et, ?Er, ?El; auto.
    - intros i. rewrite Ep, Es. auto.
    - intros i. rewrite Ep, Es. auto.
    - intros i. apply (thread_ok_mono st st' i []); rewrite ?app_nil_r, ?Et; auto.
    - intros i j. unfold handles_of. rewrite Ep, Es, Eq. apply H13.
  Qed.

  Lemma thread_inv : forall st i st', ninv st -> thread_step net st i = Some st' -> ninv st'.
  Proof.
    intros st i st' HI E. unfold thread_step in E. pose proof (nv_thread _ HI i) as Ht. unfold thread_ok in Ht.
    destruct (ns_threads st i) as [|b [n [|[f|j|m head active inner] rest] level] below|a b [n rest level] below|] eqn:Et.
    - destruct (ns_queues st i) as [|[b|p|p] q] eqn:Eq; [discriminate E| | |]; injection E as <-.
      + apply take_inv; assumption.
      + pose proof (command_inv st i (AddProcessor p) q HI Et Eq ltac:(discriminate)) as H. cbn in H. rewrite app_nil_r in H.
        revert H. apply same_inv; cbn; auto. intros j. at_driver j i; reflexivity.
      + pose proof (command_inv st i (AddSnapshooter p) q HI Et Eq ltac:(discriminate)) as H. cbn in H. rewrite app_nil_r in H.
        revert H. apply same_inv; cbn; auto. intros j. at_driver j i; reflexivity.
    - destruct below as [|[n' rest' level'] below]; injection E as <-; [apply answer_inv; assumption|].
      apply (move_inv st i b); [exact HI | rewrite Et; reflexivity | reflexivity|]. apply with_thread_ok. apply (stack_ok_up _ _ _ _ _ Ht).
      + intros x s. apply becomes_leave.
      + intros f p j [<- | Hf] Hp Hj; [exists (Frame n' rest' level'), p | exists f, p]; cbn; auto.
    - injection E as <-. apply (move_inv st i b); [exact HI | rewrite Et; reflexivity | reflexivity|]. apply with_thread_ok. apply (stack_ok_up _ _ _ _ _ Ht).
      + intros x s. apply becomes_piece. apply sp_own. constructor.
      + intros f' p j [<- | Hf] Hp Hj; [exists (Frame n (Own f :: rest) level), p | exists f', p]; cbn; auto.
    - injection E as <-. unfold request.
      assert (HI' : ninv (call st j (Ask (new_request st)))).
      { apply call_inv; [exact HI | auto | intros m []]. }
      apply (move_inv _ i b); [exact HI' | rewrite call_threads, Et; reflexivity | reflexivity|]. apply with_thread_ok.
      exists j. rewrite call_log. split; [apply in_or_app; right; left; reflexivity|]. split.
      + destruct Ht as [Ht _]. exact (nv_fresh _ HI i b Ht).
      + apply (stack_ok_log st _ i b _ [(j, Ask (new_request st))]); rewrite ?call_log, ?call_processors, ?call_snapshooters; auto.
    - injection E as <-. apply (move_inv st i b); [exact HI | rewrite Et; reflexivity | reflexivity|]. apply with_thread_ok. apply (stack_ok_up _ _ _ _ _ Ht).
      + intros x s. apply becomes_group.
      + intros f p j Hf Hp Hj. destruct Hf as [<- | [<- | Hf]].
        * exists (Frame n (Group m head active inner :: rest) level), (Group m head active inner). split; [left; reflexivity|]. split; [left; reflexivity|].
          cbn [fr_rest] in Hp. destruct (active b); [|destruct Hp]. cbn [drivers_in]. apply in_flat_map. eauto.
        * exists (Frame n (Group m head active inner :: rest) level), p. cbn in *. auto.
        * exists f, p. cbn. auto.
    - destruct Ht as (j & Hj & Hlt & Ht).
      destruct (ns_replies st a) as [|s|] eqn:Er; [discriminate E| |].
      + injection E as <-. apply (move_inv st i b); [exact HI | rewrite Et; reflexivity | reflexivity|]. apply with_thread_ok. apply (stack_ok_up _ _ _ _ _ Ht).
        * intros x s'. apply becomes_piece. apply (sp_mounted net _ b j a s); [exact Hlt | | constructor].
          apply (proj1 (shows_mono _ _)). exact (nv_answer _ HI j a s Er Hj).
        * intros f p k [<- | Hf] Hp Hk; [exists (Frame n (Mounted j :: rest) level), p | exists f, p]; cbn; auto.
      + exfalso. apply (nv_alive _ HI i j).
        * destruct Ht as (_ & _ & Ht). apply in_or_app. left.
          apply (Ht (Frame n (Mounted j :: rest) level) (Mounted j) j); cbn; auto.
        * exact (nv_dropped _ HI j a Er Hj).
    - discriminate E.
  Qed.

  Lemma step_inv : forall st st', ninv st -> nstep net st st' -> ninv st'.
  Proof.
    intros st st' HI H. destruct H as [st i|st i c Hc Hd|st i st' E|st i Et Hh].
    - apply call_inv; [exact HI | auto | intros m []].
    - apply call_inv; auto.
    - exact (thread_inv st i st' HI E).
    - exact (ended_inv st i HI Et Hh).
  Qed.

  Lemma later_inv : forall st0 st, ninv st0 -> nlater net st0 st -> ninv st.
  Proof. intros st0 st H0 H. induction H as [|st st' H IH Hs]; [exact H0 | exact (step_inv st st' IH Hs)]. Qed.

  Lemma reach_inv : forall st, nreach net st -> ninv st.
  Proof. intros st H. exact (later_inv start st start_inv H). Qed.

  (** ** What is mounted *)

  Lemma mounts_handles : forall st i j, mounts st i j <-> In j (handles_of st i).
  Proof.
    intros st i j. unfold handles_of. rewrite in_app_iff, !in_flat_map. split.
    - intros [p Hp Hj|p Hp Hj|p Hp Hj|p Hp Hj].
      + left. exists p. rewrite in_app_iff. auto.
      + left. exists p. rewrite in_app_iff. auto.
      + right. exists (AddProcessor p). auto.
      + right. exists (AddSnapshooter p). auto.
    - intros [(p & Hp & Hj) | ([b|p|p] & Hp & Hj)]; [| destruct Hj | exact (mo_add_processor st i j p Hp Hj) | exact (mo_add_snapshooter st i j p Hp Hj)].
      apply in_app_or in Hp. destruct Hp as [Hp | Hp]; [exact (mo_processor st i j p Hp Hj) | exact (mo_snapshooter st i j p Hp Hj)].
  Qed.

  Lemma call_handles : forall st i c k m, In m (handles_of (call st i c) k) <->
    In m (handles_of st k) \/ (k = i /\ ns_threads st i <> Ended /\ In m (command_drivers c)).
  Proof.
    intros st i c k m. unfold handles_of. rewrite call_processors, call_snapshooters. unfold call.
    destruct (ns_threads st i) eqn:Et; cbn [ns_queues]; try (rewrite in_app_iff; intuition congruence).
    all: at_driver k i; [rewrite !flat_map_app; cbn [flat_map]; rewrite app_nil_r; rewrite !in_app_iff|].
    all: try (split; [tauto | intros [H | (_ & _ & H)]; tauto]).
    all: try (split; [intros H; destruct H as [H | [H | H]]; auto; right; repeat split; auto; discriminate | intros [H | (_ & _ & H)]; tauto]).
    all: rewrite in_app_iff; intuition congruence.
  Qed.

  Lemma step_handles : forall st i st' k m, thread_step net st i = Some st' -> In m (handles_of st' k) <-> In m (handles_of st k).
  Proof.
    intros st i st' k m E. unfold thread_step in E.
    destruct (ns_threads st i) as [|b [n [|[f|j|g head active inner] rest] level] below|a b [n rest level] below|] eqn:Et.
    - destruct (ns_queues st i) as [|[b|p|p] q] eqn:Eq; [discriminate E| | |]; injection E as <-;
        unfold handles_of; cbn [with_thread with_queue ns_queues ns_processors ns_snapshooters]; at_driver k i; try reflexivity;
        rewrite Eq; rewrite ?flat_map_app; cbn [flat_map command_drivers app]; rewrite ?app_nil_r, ?in_app_iff; tauto.
    - destruct below as [|[n' rest' level'] below]; injection E as <-; reflexivity.
    - injection E as <-. reflexivity.
    - injection E as <-. change (In m (handles_of (call st j (Ask (new_request st))) k) <-> In m (handles_of st k)).
      rewrite call_handles. cbn. tauto.
    - injection E as <-. reflexivity.
    - destruct (ns_replies st a) as [|s|]; [discriminate E| |]; injection E as <-; reflexivity.
    - discriminate E.
  Qed.

  Lemma ended_handles : forall st i k m, In m (handles_of (ended st i) k) <-> k <> i /\ In m (handles_of st k).
  Proof.
    intros st i k m. unfold handles_of. cbn [ended ns_queues ns_processors ns_snapshooters]. at_driver k i; [cbn; tauto | tauto].
  Qed.

  Lemma step_ended : forall st i st' k, thread_step net st i = Some st' -> ns_threads st' k = Ended -> ns_threads st k = Ended.
  Proof.
    intros st i st' k E H. unfold thread_step in E.
    destruct (ns_threads st i) as [|b [n [|[f|j|g head active inner] rest] level] below|a b [n rest level] below|] eqn:Et.
    - destruct (ns_queues st i) as [|[b|p|p] q] eqn:Eq; [discriminate E| | |]; injection E as <-; cbn in H; auto; at_driver k i; congruence.
    - destruct below as [|[n' rest' level'] below]; injection E as <-; cbn in H; at_driver k i; congruence.
    - injection E as <-; cbn in H; at_driver k i; congruence.
    - injection E as <-. cbn [with_thread ns_threads] in H. unfold request in H. rewrite call_threads in H. at_driver k i; congruence.
    - injection E as <-; cbn in H; at_driver k i; congruence.
    - destruct (ns_replies st a) as [|s|]; [discriminate E| |]; injection E as <-; cbn in H; at_driver k i; congruence.
    - discriminate E.
  Qed.

  Lemma tied_step : forall st st' S, tied st S -> nstep net st st' -> tied st' S.
  Proof.
    intros st st' S HS H i Hi. destruct (HS i Hi) as (He & j & Hj & Hm). apply mounts_handles in Hm.
    destruct H as [st k|st k c Hc Hd|st k st' E|st k Et Hh].
    - unfold request. rewrite call_threads. split; [exact He|]. exists j. split; [exact Hj|]. apply mounts_handles, call_handles. auto.
    - rewrite call_threads. split; [exact He|]. exists j. split; [exact Hj|]. apply mounts_handles, call_handles. auto.
    - split; [intros E'; exact (He (step_ended st k st' i E E'))|]. exists j. split; [exact Hj|].
      apply mounts_handles. apply (step_handles st k st' j i E). exact Hm.
    - assert (Hk : forall x, S x -> x <> k).
      { intros x Hx ->. destruct (HS k Hx) as (_ & y & _ & Hy). apply mounts_handles in Hy. exact (Hh y Hy). }
      split; [cbn [ended ns_threads]; rewrite set_other by auto; exact He|]. exists j. split; [exact Hj|].
      apply mounts_handles, ended_handles. auto.
  Qed.

  Lemma tied_later : forall st0 st S i, tied st0 S -> nlater net st0 st -> S i -> ns_threads st i <> Ended /\ tied st S.
  Proof.
    intros st0 st S i HS H Hi. assert (HT : tied st S) by (induction H; [exact HS | eapply tied_step; eauto]).
    split; [exact (proj1 (HT i Hi)) | exact HT].
  Qed.

  Lemma mounted_runs : forall st i j, nreach net st -> mounts st i j -> ns_threads st j <> Ended.
  Proof. intros st i j H Hm. apply (nv_alive _ (reach_inv st H) i). apply mounts_handles. exact Hm. Qed.

  Lemma end_answers : forall st i b, nreach net st -> ns_threads st i = Ended -> In (i, Ask b) (ns_log st) -> ns_replies st b <> Pending.
  Proof.
    intros st i b H Et Hb. pose proof (reach_inv st H) as HI. destruct (nv_empty _ HI i Et) as [Eq _].
    destruct (nv_where _ HI b i Hb) as [Hr | [Hr | Hr]]; [exact Hr | rewrite Eq in Hr; destruct Hr | rewrite Et in Hr; destruct Hr].
  Qed.

  Lemma answers_right : forall st i b s, nreach net st -> In (i, Ask b) (ns_log st) -> ns_replies st b = Answered s -> shows net (ns_log st) i b s.
  Proof. intros st i b s H Hb Hs. exact (nv_answer _ (reach_inv st H) i b s Hs Hb). Qed.

  (** A request to a driver that has not ended is never dropped. *)
  Lemma not_dropped : forall st i b, nreach net st -> In (i, Ask b) (ns_log st) -> ns_threads st i <> Ended -> ns_replies st b <> Dropped.
  Proof. intros st i b H Hb He Hd. exact (He (nv_dropped _ (reach_inv st H) i b Hd Hb)). Qed.

  (** ** Cycles *)

  Lemma later_log : forall st0 st, nlater net st0 st -> exists x, ns_log st = ns_log st0 ++ x.
  Proof.
    intros st0 st H. induction H as [|st st' H [x IH] Hs]; [exists []; rewrite app_nil_r; reflexivity|].
    destruct Hs as [st i|st i c Hc Hd|st i st' E|st i Et Hh].
    - unfold request. rewrite call_log, IH, <- app_assoc. eauto.
    - rewrite call_log, IH, <- app_assoc. eauto.
    - unfold thread_step in E.
      destruct (ns_threads st i) as [|b [n [|[f|j|g head active inner] rest] level] below|a b [n rest level] below|] eqn:Et.
      + destruct (ns_queues st i) as [|[b|p|p] q] eqn:Eq; [discriminate E| | |]; injection E as <-; eauto.
      + destruct below as [|[n' rest' level'] below]; injection E as <-; eauto.
      + injection E as <-; eauto.
      + injection E as <-. cbn [with_thread ns_log]. unfold request. rewrite call_log, IH, <- app_assoc. eauto.
      + injection E as <-; eauto.
      + destruct (ns_replies st a) as [|s|]; [discriminate E| |]; injection E as <-; eauto.
      + discriminate E.
    - eauto.
  Qed.

  Definition pending_in (S : nat -> Prop) (frames : list frame) : Prop :=
    exists f p j, In f frames /\ In p (fr_rest f) /\ S j /\ surely_in j p.

  Definition stuck_thread (S : nat -> Prop) (st0 st : nstate) (t : thread) : Prop :=
    match t with
    | Looping | Ended => True
    | Writing _ top below => pending_in S (top :: below)
    | Waiting a _ top below => pending_in S (top :: below) \/ exists j, S j /\ asked (ns_log st) j a /\ not_taken_up st0 j a
    end.

  Record cycling (S : nat -> Prop) (st0 st : nstate) : Prop := Cycling {
    cy_mounted : forall i, S i -> ns_threads st i = Ended
      \/ exists j p, S j /\ In p (ns_processors st i ++ ns_snapshooters st i) /\ surely_in j p;
    cy_reply : forall i b s, S i -> asked (ns_log st) i b -> not_taken_up st0 i b -> ns_replies st b <> Answered s;
    cy_thread : forall i b, S i -> serves (ns_threads st i) b -> not_taken_up st0 i b -> stuck_thread S st0 st (ns_threads st i)
  }.

  Lemma stuck_thread_log : forall S st0 st st' t x, ns_log st' = ns_log st ++ x -> stuck_thread S st0 st t -> stuck_thread S st0 st' t.
  Proof.
    intros S st0 st st' t x El H. destruct t; auto. destruct H as [H | (j & Hj & Ha & Hn)]; [left; exact H|].
    right. exists j. split; [exact Hj|]. split; [rewrite El; apply in_or_app; left; exact Ha | exact Hn].
  Qed.

  Lemma cycling_call : forall S st0 st i c, ninv st -> (c = Ask (new_request st) \/ forall b, c <> Ask b) ->
    cycling S st0 st -> cycling S st0 (call st i c).
  Proof.
    intros S st0 st i c HI Hc [H1 H2 H3]. split.
    - intros k Hk. rewrite call_threads, call_processors, call_snapshooters. auto.
    - intros k b s Hk Hb Hn. unfold asked in Hb. rewrite call_log in Hb. apply in_app_or in Hb. destruct Hb as [Hb | [E | []]].
      + rewrite call_reply; [eauto|]. intros j [E | []]. injection E as -> ->. destruct Hc as [Hc | Hc]; [|exact (Hc b eq_refl)].
        injection Hc as ->. apply (nv_fresh _ HI) in Hb. unfold new_request in Hb. lia.
      + injection E as -> ->. destruct Hc as [Hc | Hc]; [|destruct (Hc b eq_refl)]. injection Hc as ->.
        assert (P : ns_replies st (new_request st) = Pending).
        { apply (nv_pending _ HI). intros j Hj. apply (nv_fresh _ HI) in Hj. unfold new_request in Hj. lia. }
        unfold call. destruct (ns_threads st k); cbn [ns_replies]; rewrite ?set_same; congruence.
    - intros k b Hk. rewrite call_threads. intros Hs Hn. eapply stuck_thread_log; [apply call_log | exact (H3 k b Hk Hs Hn)].
  Qed.

  Lemma cycling_move : forall S st0 st i b t, serves (ns_threads st i) b -> serves t b -> cycling S st0 st ->
    (S i -> not_taken_up st0 i b -> stuck_thread S st0 st (ns_threads st i) -> stuck_thread S st0 st t) ->
    cycling S st0 (with_thread st i t).
  Proof.
    intros S st0 st i b t Hb Ht [H1 H2 H3] Hstep. split; cbn [with_thread ns_queues ns_threads ns_replies ns_processors ns_snapshooters ns_log]; auto.
    - intros k Hk. destruct (H1 k Hk) as [E | H]; [left | right; exact H]. at_driver k i; [|exact E]. rewrite E in Hb. destruct Hb.
    - intros k b' Hk Hs Hn. eapply (stuck_thread_log S st0 st _ _ []); [cbn; rewrite app_nil_r; reflexivity|].
      at_driver k i; [|eauto]. assert (b' = b) as -> by (destruct t; cbn in Hs, Ht; congruence || contradiction). eauto.
  Qed.

  Lemma cycling_thread : forall S st0 st i st', ninv st0 -> (exists x, ns_log st = ns_log st0 ++ x) -> ninv st -> cycling S st0 st ->
    thread_step net st i = Some st' -> cycling S st0 st'.
  Proof.
    intros S st0 st i st' HI0 [x Hx] HI HC E. pose proof (nv_thread _ HI i) as Ht. unfold thread_ok in Ht.
    pose proof HC as [H1 H2 H3]. unfold thread_step in E.
    destruct (ns_threads st i) as [|b [n [|[f|j|m head active inner] rest] level] below|a b [n rest level] below|] eqn:Et.
    - destruct (ns_queues st i) as [|[b|p|p] q] eqn:Eq; [discriminate E| | |]; injection E as <-.
      + split; cbn [with_thread with_queue ns_queues ns_threads ns_replies ns_processors ns_snapshooters ns_log]; auto.
        * intros k Hk. destruct (H1 k Hk) as [E | H]; [left | right; exact H]. at_driver k i; [congruence | exact E].
        * intros k b' Hk Hs Hn. eapply (stuck_thread_log S st0 st _ _ []); [cbn; rewrite app_nil_r; reflexivity|].
          at_driver k i; [|eauto]. destruct (H1 i Hk) as [E | (j & p & Hj & Hp & Hsu)]; [congruence|].
          exists (Frame (id_name (net i)) (parts net st i) []), p, j. split; [left; reflexivity|]. split; [|auto].
          right. rewrite app_assoc. apply in_or_app. left. exact Hp.
      + split; cbn [ns_queues ns_threads ns_replies ns_processors ns_snapshooters ns_log]; auto.
        * intros k Hk. destruct (H1 k Hk) as [E | (j & p' & Hj & Hp & Hsu)]; [left; exact E | right]. exists j, p'. split; [exact Hj|]. split; [|exact Hsu].
          at_driver k i; [|exact Hp]. rewrite !in_app_iff in *. tauto.
      + split; cbn [ns_queues ns_threads ns_replies ns_processors ns_snapshooters ns_log]; auto.
        * intros k Hk. destruct (H1 k Hk) as [E | (j & p' & Hj & Hp & Hsu)]; [left; exact E | right]. exists j, p'. split; [exact Hj|]. split; [|exact Hsu].
          at_driver k i; [|exact Hp]. rewrite !in_app_iff in *. tauto.
    - destruct below as [|[n' rest' level'] below]; injection E as <-.
      + assert (Hs : serves (ns_threads st i) b) by (rewrite Et; reflexivity).
        pose proof (asked_serves st i b HI Hs) as Hask.
        split; cbn [ns_queues ns_threads ns_replies ns_processors ns_snapshooters ns_log].
        * intros k Hk. destruct (H1 k Hk) as [E | H]; [left | right; exact H]. at_driver k i; [congruence | exact E].
        * intros k b' s Hk Hb Hn. destruct (Nat.eq_dec b' b) as [->|N]; [|rewrite set_other by exact N; eauto].
          pose proof (nv_once _ HI k i b Hb Hask) as ->. pose proof (H3 i b Hk Hs Hn) as H. rewrite Et in H.
          destruct H as (f & p & j & [<- | []] & [] & _).
        * intros k b' Hk Hs' Hn. eapply (stuck_thread_log S st0 st _ _ []); [cbn; rewrite app_nil_r; reflexivity|].
          at_driver k i; [destruct Hs' | eauto].
      + apply (cycling_move S st0 st i b); [rewrite Et; reflexivity | reflexivity | exact HC|]. rewrite Et. cbn [stuck_thread].
        intros _ _ (f & p & j & Hf & Hp & Hj & Hsu). destruct Hf as [<- | [<- | Hf]]; [destruct Hp | |].
        * exists (Frame n' rest' (level' ++ finished n level)), p, j. cbn in *. auto.
        * exists f, p, j. cbn. auto.
    - injection E as <-. apply (cycling_move S st0 st i b); [rewrite Et; reflexivity | reflexivity | exact HC|]. rewrite Et. cbn [stuck_thread].
      intros _ _ (f' & p & j & Hf & Hp & Hj & Hsu). destruct Hf as [<- | Hf].
      + cbn [fr_rest] in Hp. destruct Hp as [<- | Hp]; [inversion Hsu|]. exists (Frame n rest (level ++ f b)), p, j. cbn. auto.
      + exists f', p, j. cbn. auto.
    - injection E as <-. unfold request.
      apply (cycling_move S st0 _ i b); [rewrite call_threads, Et; reflexivity | reflexivity | apply cycling_call; auto|]. rewrite call_threads, Et. cbn [stuck_thread].
      intros Hi Hn (f & p & k & Hf & Hp & Hk & Hsu). destruct Hf as [<- | Hf].
      + cbn [fr_rest] in Hp. destruct Hp as [<- | Hp].
        * right. inversion Hsu; subst k. exists j. split; [exact Hk|]. rewrite call_log. split; [apply in_or_app; right; left; reflexivity|].
          right. intros Ha. apply (nv_fresh _ HI0) in Ha. unfold new_request in Ha. rewrite Hx, app_length in Ha. lia.
        * left. exists (Frame n rest level), p, k. cbn. auto.
      + left. exists f, p, k. cbn. auto.
    - injection E as <-. apply (cycling_move S st0 st i b); [rewrite Et; reflexivity | reflexivity | exact HC|]. rewrite Et. cbn [stuck_thread].
      intros _ _ (f & p & j & Hf & Hp & Hj & Hsu). destruct Hf as [<- | Hf].
      + cbn [fr_rest] in Hp. destruct Hp as [<- | Hp].
        * inversion Hsu as [|n0 h0 a0 i0 p Hact Hp Hsu']; subst. exists (Frame m (if active b then inner else []) (head b)), p, j.
          split; [left; reflexivity|]. cbn [fr_rest]. rewrite Hact. auto.
        * exists (Frame n rest level), p, j. cbn. auto.
      + exists f, p, j. cbn. auto.
    - destruct Ht as (j & Hj & Hlt & Ht).
      destruct (ns_replies st a) as [|s|] eqn:Er; [discriminate E| |].
      + injection E as <-. apply (cycling_move S st0 st i b); [rewrite Et; reflexivity | reflexivity | exact HC|]. rewrite Et. cbn [stuck_thread].
        intros Hi Hn [(f & p & k & Hf & Hp & Hk & Hsu) | (k & Hk & Ha & Hna)].
        * destruct Hf as [<- | Hf]; [exists (Frame n rest (level ++ s)), p, k | exists f, p, k]; cbn in *; auto.
        * destruct (H2 k a s Hk Ha Hna Er).
      + exfalso. apply (nv_alive _ HI i j).
        * destruct Ht as (_ & _ & Ht). apply in_or_app. left.
          apply (Ht (Frame n (Mounted j :: rest) level) (Mounted j) j); cbn; auto.
        * exact (nv_dropped _ HI j a Er Hj).
    - discriminate E.
  Qed.

  Lemma cycling_later : forall S st0 st, nreach net st0 -> endless st0 S -> nlater net st0 st -> cycling S st0 st.
  Proof.
    intros S st0 st H0 HS H. pose proof (reach_inv st0 H0) as HI0. induction H as [|st st' H IH Hs].
    - split.
      + intros i Hi. right. destruct (HS i Hi) as (_ & j & p & Hj). eauto.
      + intros i b s Hi Hb [Hn | Hn] E; [|exact (Hn Hb)]. rewrite (nv_waits _ HI0 i b) in E by auto. discriminate E.
      + intros i b Hi Hs [Hn | Hn]; [destruct (nv_served _ HI0 i b Hn Hs) | destruct (Hn (asked_serves st0 i b HI0 Hs))].
    - pose proof (later_inv st0 st HI0 H) as HI.
      destruct Hs as [st i|st i c Hc Hd|st i st' E|st i Et Hh].
      + apply cycling_call; auto.
      + apply cycling_call; auto.
      + exact (cycling_thread S st0 st i st' HI0 (later_log st0 st H) HI IH E).
      + destruct IH as [H1 H2 H3]. split; cbn [ended ns_queues ns_threads ns_replies ns_processors ns_snapshooters ns_log].
        * intros k Hk. at_driver k i; [auto | auto].
        * intros k b s Hk Hb Hn. destruct (existsb _ _); [discriminate | eauto].
        * intros k b Hk Hs Hn. eapply (stuck_thread_log S st0 st _ _ []); [cbn; rewrite app_nil_r; reflexivity|].
          at_driver k i; [destruct Hs | eauto].
  Qed.

  Lemma cycles_never_answer : forall S st0 st i b s, nreach net st0 -> endless st0 S -> nlater net st0 st ->
    S i -> In (i, Ask b) (ns_log st) -> not_taken_up st0 i b -> ns_replies st b <> Answered s.
  Proof. intros S st0 st i b s H0 HS H Hi Hb Hn. exact (cy_reply _ _ _ (cycling_later S st0 st H0 HS H) i b s Hi Hb Hn). Qed.

  (** ** Without cycles *)

  (** An upper bound of the steps for a part if those for a request are known. *)
  Fixpoint weight (c : nat -> nat) (p : part) : nat :=
    match p with
    | Own _ => 1
    | Mounted j => 2 + c j
    | Group _ _ _ inner => 2 + list_sum (map (weight c) inner)
    end.

  Definition weights (c : nat -> nat) (ps : list part) : nat := list_sum (map (weight c) ps).

  Definition queued_parts (q : list ncommand) : list part :=
    flat_map (fun x => match x with Ask _ => [] | AddProcessor p | AddSnapshooter p => [p] end) q.

  Definition all_parts (st : nstate) (i : nat) : list part := ns_processors st i ++ ns_snapshooters st i ++ queued_parts (ns_queues st i).

  Lemma weights_app : forall c l1 l2, weights c (l1 ++ l2) = weights c l1 + weights c l2.
  Proof. intros. unfold weights. rewrite map_app. apply list_sum_app. Qed.

  Lemma weights_cons : forall c p ps, weights c (p :: ps) = weight c p + weights c ps.
  Proof. reflexivity. Qed.

  Lemma weight_group : forall c n h a inner, weight c (Group n h a inner) = 2 + weights c inner.
  Proof. reflexivity. Qed.

  Lemma weight_same : forall c c' p, (forall j, In j (drivers_in p) -> c j = c' j) -> weight c p = weight c' p.
  Proof.
    intros c c'. fix IH 1. intros [f|j|n h a inner] H.
    - reflexivity.
    - cbn. rewrite (H j); [reflexivity | left; reflexivity].
    - assert (E : map (weight c) inner = map (weight c') inner).
      { cbn [drivers_in] in H. revert H. generalize inner. fix IHl 1. intros [|p ps] H; [reflexivity|].
        cbn [map flat_map] in *. rewrite (IH p), (IHl ps); [reflexivity| |].
        - intros j Hj. apply H. apply in_or_app. right. exact Hj.
        - intros j Hj. apply H. apply in_or_app. left. exact Hj. }
      cbn [weight]. rewrite E. reflexivity.
  Qed.

  Lemma all_parts_mounts : forall st i p j, In p (all_parts st i) -> In j (drivers_in p) -> mounts st i j.
  Proof.
    intros st i p j Hp Hj. unfold all_parts in Hp. rewrite !in_app_iff in Hp. destruct Hp as [Hp | [Hp | Hp]].
    - exact (mo_processor st i j p Hp Hj).
    - exact (mo_snapshooter st i j p Hp Hj).
    - unfold queued_parts in Hp. apply in_flat_map in Hp. destruct Hp as ([b|p'|p'] & Hc & Hp); [destruct Hp| |]; destruct Hp as [-> | []].
      + exact (mo_add_processor st i j p Hc Hj).
      + exact (mo_add_snapshooter st i j p Hc Hj).
  Qed.

  Lemma weights_same : forall c c' ps, (forall p j, In p ps -> In j (drivers_in p) -> c j = c' j) -> weights c ps = weights c' ps.
  Proof.
    intros c c' ps H. unfold weights. f_equal. apply map_ext_in. intros p Hp. apply weight_same. intros j Hj. exact (H p j Hp Hj).
  Qed.

  (** The steps for a request, taking everything into account that will have been mounted. *)
  Lemma costs_below : forall st ws rank, acyclic st ws rank -> forall R, exists c, forall i, In i ws -> rank i < R -> c i = 4 + weights c (all_parts st i).
  Proof.
    intros st ws rank HA R. induction R as [|R [c IH]]; [exists (fun _ => 0); intros; lia|].
    set (c' := fun i => if rank i <? R then c i else 4 + weights c (all_parts st i)). exists c'. intros i Hi Hr.
    assert (E : weights c' (all_parts st i) = weights c (all_parts st i)).
    { apply weights_same. intros p j Hp Hj. destruct (HA i j Hi (all_parts_mounts st i p j Hp Hj)) as [_ Hlt].
      unfold c'. rewrite (proj2 (Nat.ltb_lt _ _)) by lia. reflexivity. }
    rewrite E. unfold c'. destruct (rank i <? R) eqn:El; [|reflexivity]. apply IH; [exact Hi | apply Nat.ltb_lt; exact El].
  Qed.

  Lemma costs : forall st ws rank, acyclic st ws rank -> exists c, forall i, In i ws -> c i = 4 + weights c (all_parts st i).
  Proof.
    intros st ws rank HA. destruct (costs_below st ws rank HA (S (list_max (map rank ws)))) as [c Hc]. exists c. intros i Hi. apply Hc; [exact Hi|].
    apply Nat.lt_succ_r. apply (proj1 (Forall_forall _ _) (proj1 (list_max_le (map rank ws) (list_max (map rank ws))) (le_n _))).
    apply in_map. exact Hi.
  Qed.

  Lemma list_sum_cons : forall x l, list_sum (x :: l) = x + list_sum l.
  Proof. reflexivity. Qed.
  Lemma weights_nil : forall c, weights c [] = 0.
  Proof. reflexivity. Qed.

  (** *** Sums over the drivers *)

  Definition total (ws : list nat) (f : nat -> nat) : nat := list_sum (map f ws).

  Lemma total_le : forall ws f g, (forall k, In k ws -> f k <= g k) -> total ws f <= total ws g.
  Proof.
    intros ws f g H. induction ws as [|k ws IH]; [apply le_n|]. unfold total in *. cbn [map list_sum fold_right].
    assert (H0 := H k (or_introl eq_refl)). assert (H1 := IH (fun x Hx => H x (or_intror Hx))). unfold list_sum in H1. lia.
  Qed.

  Lemma total_less : forall ws f g i d, In i ws -> (forall k, In k ws -> f k <= g k) -> f i + d <= g i -> total ws f + d <= total ws g.
  Proof.
    intros ws f g i d Hi H Hd. induction ws as [|k ws IH]; [destruct Hi|]. unfold total in *. cbn [map list_sum fold_right].
    assert (H0 := H k (or_introl eq_refl)). destruct Hi as [-> | Hi].
    - assert (H1 := total_le ws f g (fun x Hx => H x (or_intror Hx))). unfold total, list_sum in H1. lia.
    - assert (H1 := IH Hi (fun x Hx => H x (or_intror Hx))). unfold list_sum in H1. lia.
  Qed.

  Lemma total_more : forall ws f g i d, NoDup ws -> (forall k, In k ws -> k <> i -> f k <= g k) -> (In i ws -> f i <= g i + d) -> total ws f <= total ws g + d.
  Proof.
    intros ws f g i d Hn H Hd. induction ws as [|k ws IH]; [apply Nat.le_0_l|]. inversion Hn as [|k' ws' Hk Hn']; subst.
    unfold total in *. cbn [map list_sum fold_right]. destruct (Nat.eq_dec k i) as [->|N].
    - assert (H0 := Hd (or_introl eq_refl)).
      assert (H1 : total ws f <= total ws g) by (apply total_le; intros x Hx; apply H; [right; exact Hx | intros ->; contradiction]).
      unfold total, list_sum in H1. lia.
    - assert (H0 := H k (or_introl eq_refl) N).
      assert (H1 := IH Hn' (fun x Hx => H x (or_intror Hx)) (fun Hi => Hd (or_intror Hi))). unfold list_sum in H1. lia.
  Qed.

  (** *** What is left to do *)
  Section Acyclic.
    Context (st0 : nstate) (ws : list nat) (rank c : nat -> nat).
    Context (Hac : acyclic st0 ws rank) (Hnd : NoDup ws) (Hc : forall i, In i ws -> c i = 4 + weights c (all_parts st0 i)).

    Definition command_cost (i : nat) (x : ncommand) : nat := match x with Ask _ => c i | _ => 1 end.
    Definition frames_cost (frames : list frame) : nat := list_sum (map (fun f => 1 + weights c (fr_rest f)) frames).
    Definition thread_cost (t : thread) : nat :=
      match t with
      | Looping | Ended => 0
      | Writing _ top below => frames_cost (top :: below)
      | Waiting _ _ top below => 1 + frames_cost (top :: below)
      end.
    Definition load (st : nstate) (i : nat) : nat := list_sum (map (command_cost i) (ns_queues st i)) + thread_cost (ns_threads st i).
    Definition left_over (st : nstate) : nat := total ws (load st).

    Record bounded (st : nstate) : Prop := Bounded {
      bo_inv : ninv st;
      bo_handles : forall i j, In i ws -> In j (handles_of st i) -> In j (handles_of st0 i);
      bo_parts : forall i, In i ws -> weights c (all_parts st i) <= weights c (all_parts st0 i)
    }.

    Lemma bounded_acyclic : forall st, bounded st -> acyclic st ws rank.
    Proof. intros st HB i j Hi Hm. apply (Hac i j Hi). apply mounts_handles. apply (bo_handles _ HB i j Hi). apply mounts_handles. exact Hm. Qed.

    Lemma queued_app : forall q1 q2, queued_parts (q1 ++ q2) = queued_parts q1 ++ queued_parts q2.
    Proof. intros. unfold queued_parts. apply flat_map_app. Qed.

    Lemma all_weights : forall st i, weights c (all_parts st i)
      = weights c (ns_processors st i) + weights c (ns_snapshooters st i) + weights c (queued_parts (ns_queues st i)).
    Proof. intros. unfold all_parts. rewrite !weights_app. lia. Qed.

    Lemma call_parts : forall st i b k, all_parts (call st i (Ask b)) k = all_parts st k.
    Proof.
      intros st i b k. unfold all_parts. rewrite call_processors, call_snapshooters.
      destruct (call_queue st i (Ask b) k) as [E | (-> & _ & E)]; rewrite E; [reflexivity|]. rewrite queued_app. cbn. rewrite app_nil_r. reflexivity.
    Qed.

    Lemma step_parts : forall st i st' k, thread_step net st i = Some st' -> weights c (all_parts st' k) = weights c (all_parts st k).
    Proof.
      intros st i st' k E. unfold thread_step in E.
      destruct (ns_threads st i) as [|b [n [|[f|j|g head active inner] rest] level] below|a b [n rest level] below|] eqn:Et.
      - destruct (ns_queues st i) as [|[b|p|p] q] eqn:Eq; [discriminate E| | |]; injection E as <-;
          unfold all_parts; cbn [with_thread with_queue ns_queues ns_processors ns_snapshooters]; at_driver k i; try reflexivity;
          rewrite Eq; unfold queued_parts; cbn [flat_map]; rewrite !weights_app; fold (queued_parts q); unfold weights; cbn [map list_sum fold_right]; lia.
      - destruct below as [|[n' rest' level'] below]; injection E as <-; reflexivity.
      - injection E as <-. reflexivity.
      - injection E as <-. change (weights c (all_parts (call st j (Ask (new_request st))) k) = weights c (all_parts st k)). rewrite call_parts. reflexivity.
      - injection E as <-. reflexivity.
      - destruct (ns_replies st a) as [|s|]; [discriminate E| |]; injection E as <-; reflexivity.
      - discriminate E.
    Qed.

    Lemma bounded_step : forall st st', bounded st -> nstep net st st' ->
      (forall i x, In i ws -> ns_log st' = ns_log st ++ [(i, x)] -> exists b, x = Ask b) -> bounded st'.
    Proof.
      intros st st' HB H Hx. pose proof HB as [H1 H2 H3]. split; [exact (step_inv st st' H1 H)| |].
      - intros k m Hk Hm. apply (H2 k m Hk). destruct H as [st i|st i x Hxa Hd|st i st' E|st i Et Hh].
        + unfold request in Hm. apply call_handles in Hm. destruct Hm as [Hm | (_ & _ & [])]; exact Hm.
        + apply call_handles in Hm. destruct Hm as [Hm | (-> & _ & Hm)]; [exact Hm|].
          destruct (Hx i x Hk (call_log st i x)) as [b ->]. destruct Hm.
        + apply (step_handles st i st' k m E). exact Hm.
        + apply ended_handles in Hm. exact (proj2 Hm).
      - intros k Hk. refine (Nat.le_trans _ _ _ _ (H3 k Hk)). destruct H as [st i|st i x Hxa Hd|st i st' E|st i Et Hh].
        + unfold request. rewrite call_parts. apply le_n.
        + destruct (Nat.eq_dec k i) as [->|N].
          * destruct (Hx i x Hk (call_log st i x)) as [b ->]. rewrite call_parts. apply le_n.
          * unfold all_parts. rewrite call_processors, call_snapshooters. destruct (call_queue st i x k) as [E | (E & _)]; [|contradiction].
            rewrite E. apply le_n.
        + rewrite (step_parts st i st' k E). apply le_n.
        + unfold all_parts. cbn [ended ns_queues ns_processors ns_snapshooters]. at_driver k i; [apply Nat.le_0_l | apply le_n].
    Qed.

    Lemma call_load : forall st j b, left_over (call st j (Ask b)) <= left_over st + c j.
    Proof.
      intros st j b. apply (total_more ws _ _ j); [exact Hnd| |].
      - intros k _ N. unfold load. rewrite call_threads. destruct (call_queue st j (Ask b) k) as [E | (E & _)]; [rewrite E; apply le_n | contradiction].
      - intros _. unfold load. rewrite call_threads. destruct (call_queue st j (Ask b) j) as [E | (_ & _ & E)]; rewrite E; [lia|].
        rewrite map_app, list_sum_app. cbn [map list_sum fold_right command_cost]. lia.
    Qed.

    Lemma thread_load : forall st i t d, In i ws -> thread_cost t + d <= thread_cost (ns_threads st i) -> left_over (with_thread st i t) + d <= left_over st.
    Proof.
      intros st i t d Hi Hd. apply (total_less ws _ _ i); [exact Hi| |].
      - intros k _. unfold load. cbn [with_thread ns_queues ns_threads]. at_driver k i; lia.
      - unfold load. cbn [with_thread ns_queues ns_threads]. rewrite set_same. lia.
    Qed.

    Lemma step_load : forall st i st', bounded st -> In i ws -> thread_step net st i = Some st' -> left_over st' + 1 <= left_over st.
    Proof.
      intros st i st' HB Hi E. unfold thread_step in E.
      destruct (ns_threads st i) as [|b [n [|[f|j|g head active inner] rest] level] below|a b [n rest level] below|] eqn:Et.
      - destruct (ns_queues st i) as [|[b|p|p] q] eqn:Eq; [discriminate E| | |]; injection E as <-;
          (apply (total_less ws _ _ i 1); [exact Hi | |]); try (intros k _); unfold load; cbn [with_thread with_queue ns_queues ns_threads].
        1: at_driver k i; [|apply le_n].
        2: rewrite !set_same.
        1-2: rewrite Et, Eq; unfold parts, thread_cost, frames_cost; cbn [map fr_rest command_cost]; rewrite !list_sum_cons, weights_cons, !weights_app, weights_cons, !weights_nil; cbn [weight list_sum fold_right];
            pose proof (bo_parts _ HB i Hi) as Hp; rewrite all_weights in Hp; rewrite (Hc i Hi); lia.
        all: try (at_driver k i; [|apply le_n]); rewrite ?set_same, Eq; cbn [map command_cost]; rewrite list_sum_cons; lia.
      - destruct below as [|[n' rest' level'] below]; injection E as <-.
        + apply (total_less ws _ _ i 1); [exact Hi | |]; try (intros k _); unfold load; cbn [ns_queues ns_threads].
          * at_driver k i; [cbn; lia | apply le_n].
          * rewrite set_same, Et. cbn. lia.
        + apply (thread_load st i _ 1 Hi). rewrite Et. unfold thread_cost, frames_cost. cbn [map fr_rest]. rewrite !list_sum_cons, weights_nil. lia.
      - injection E as <-. apply (thread_load st i _ 1 Hi). rewrite Et. unfold thread_cost, frames_cost. cbn [map fr_rest]; rewrite !list_sum_cons, weights_cons. cbn [weight]. lia.
      - injection E as <-. unfold request. pose proof (call_load st j (new_request st)) as H1.
        assert (H2 : left_over (with_thread (call st j (Ask (new_request st))) i (Waiting (new_request st) b (Frame n rest level) below)) + (1 + c j)
                     <= left_over (call st j (Ask (new_request st)))).
        { apply thread_load; [exact Hi|]. rewrite call_threads, Et. unfold thread_cost, frames_cost. cbn [map fr_rest]; rewrite !list_sum_cons.
          rewrite weights_cons. cbn [weight]. lia. }
        lia.
      - injection E as <-. apply (thread_load st i _ 1 Hi). rewrite Et. unfold thread_cost, frames_cost. cbn [map fr_rest]; rewrite !list_sum_cons.
        rewrite weights_cons, weight_group. assert (weights c (if active b then inner else []) <= weights c inner) by (destruct (active b); [apply le_n | apply Nat.le_0_l]). lia.
      - destruct (ns_replies st a) as [|s|]; [discriminate E| |]; injection E as <-; apply (thread_load st i _ 1 Hi); rewrite Et; unfold thread_cost, frames_cost; cbn [map fr_rest]; rewrite !list_sum_cons; lia.
      - discriminate E.
    Qed.

    Lemma total_in : forall l f i, In i l -> f i <= total l f.
    Proof.
      intros l f i Hi. induction l as [|k l IH]; [destruct Hi|]. unfold total in *. cbn [map]. rewrite list_sum_cons. destruct Hi as [-> | Hi]; [lia|].
      apply IH in Hi. lia.
    Qed.

    Lemma call_load_any : forall st j b, left_over (call st j (Ask b)) <= left_over st + total ws c.
    Proof.
      intros st j b. destruct (in_dec Nat.eq_dec j ws) as [Hj | Hj].
      - pose proof (call_load st j b). pose proof (total_in ws c j Hj). lia.
      - assert (left_over (call st j (Ask b)) <= left_over st); [|lia]. apply total_le. intros k Hk. unfold load. rewrite call_threads.
        destruct (call_queue st j (Ask b) k) as [E | (E & _)]; [rewrite E; apply le_n | subst k; contradiction].
    Qed.

    (** Threads outside of [ws] leave those in [ws] alone. *)
    Lemma foreign_load : forall st i st', ~ In i ws -> thread_step net st i = Some st' -> left_over st' <= left_over st + total ws c.
    Proof.
      intros st i st' Hi E.
      assert (Hset : forall A (f : nat -> A) a k, In k ws -> set f i a k = f k) by (intros A f a k Hk; apply set_other; intros ->; contradiction).
      assert (HT : forall s t, left_over (with_thread s i t) = left_over s).
      { intros s t. unfold left_over, total. f_equal. apply map_ext_in. intros k Hk. unfold load. cbn [with_thread ns_queues ns_threads]. rewrite Hset by exact Hk. reflexivity. }
      unfold thread_step in E.
      destruct (ns_threads st i) as [|b [n [|[f|j|g head active inner] rest] level] below|a b [n rest level] below|] eqn:Et.
      - destruct (ns_queues st i) as [|[b|p|p] q] eqn:Eq; [discriminate E| | |]; injection E as <-; rewrite ?HT;
          (refine (Nat.le_trans _ _ _ _ (Nat.le_add_r _ _))); apply total_le; intros k Hk; unfold load; cbn [with_queue ns_queues ns_threads]; rewrite Hset by exact Hk; apply le_n.
      - destruct below as [|[n' rest' level'] below]; injection E as <-; [|rewrite HT; lia].
        refine (Nat.le_trans _ _ _ _ (Nat.le_add_r _ _)). apply total_le; intros k Hk; unfold load; cbn [ns_queues ns_threads]; rewrite Hset by exact Hk; apply le_n.
      - injection E as <-. rewrite HT. lia.
      - injection E as <-. rewrite HT. apply call_load_any.
      - injection E as <-. rewrite HT. lia.
      - destruct (ns_replies st a) as [|s|]; [discriminate E| |]; injection E as <-; rewrite HT; lia.
      - discriminate E.
    Qed.

    Lemma any_load : forall st st', bounded st -> nstep net st st' ->
      (forall i x, In i ws -> ns_log st' = ns_log st ++ [(i, x)] -> exists b, x = Ask b) -> left_over st' <= left_over st + total ws c.
    Proof.
      intros st st' HB H Hx. destruct H as [st i|st i x Hxa Hd|st i st' E|st i Et Hh].
      - apply call_load_any.
      - refine (Nat.le_trans _ _ _ _ (Nat.le_add_r _ _)). apply total_le. intros k Hk. unfold load. rewrite call_threads.
        destruct (call_queue st i x k) as [E | (E & _)]; [rewrite E; apply le_n|]. subst k.
        destruct (Hx i x Hk (call_log st i x)) as [b ->]. destruct (Hxa b eq_refl).
      - destruct (in_dec Nat.eq_dec i ws) as [Hi | Hi]; [|exact (foreign_load st i st' Hi E)].
        pose proof (step_load st i st' HB Hi E). lia.
      - refine (Nat.le_trans _ _ _ _ (Nat.le_add_r _ _)). apply total_le. intros k Hk. unfold load. cbn [ended ns_queues ns_threads].
        at_driver k i; [cbn; lia | apply le_n].
    Qed.

    Lemma log_one : forall st st' i x, ninv st -> nstep net st st' -> ns_log st' = ns_log st ++ [(i, x)] -> (exists j, thread_step net st j = Some st') -> exists b, x = Ask b.
    Proof.
      intros st st' i x HI H El (j & E). unfold thread_step in E.
      assert (Hno : ns_log st = ns_log st ++ [(i, x)] -> exists b, x = Ask b).
      { intros E0. apply (f_equal (@length _)) in E0. rewrite app_length in E0. cbn in E0. lia. }
      destruct (ns_threads st j) as [|b [n [|[f|k|g head active inner] rest] level] below|a b [n rest level] below|] eqn:Et.
      - destruct (ns_queues st j) as [|[b|p|p] q] eqn:Eq; [discriminate E| | |]; injection E as <-; apply Hno; exact El.
      - destruct below as [|[n' rest' level'] below]; injection E as <-; apply Hno; exact El.
      - injection E as <-; apply Hno; exact El.
      - injection E as <-. cbn [with_thread ns_log] in El. unfold request in El. rewrite call_log in El. apply app_inv_head in El. injection El as _ <-. eauto.
      - injection E as <-; apply Hno; exact El.
      - destruct (ns_replies st a) as [|s|]; [discriminate E| |]; injection E as <-; apply Hno; exact El.
      - discriminate E.
    Qed.

    Lemma runs_bounded : forall n m st, bounded st0 -> runs net ws st0 n m st -> bounded st /\ left_over st + n <= left_over st0 + m * total ws c.
    Proof.
      intros n m st H0 H. induction H as [|n m st i st' H [IH1 IH2] Hi E|n m st st' H [IH1 IH2] Hs Hx]; [split; [exact H0 | lia]| |].
      - assert (Hs : nstep net st st') by (eapply ns_thread; exact E). split.
        + apply (bounded_step st st' IH1 Hs). intros k x _ El. exact (log_one st st' k x (bo_inv _ IH1) Hs El (ex_intro _ i E)).
        + pose proof (step_load st i st' IH1 Hi E). lia.
      - split; [exact (bounded_step st st' IH1 Hs Hx)|]. pose proof (any_load st st' IH1 Hs Hx). lia.
    Qed.

    (** If no driver can go on, nothing is left to be answered. *)
    Lemma idle_answered : forall st, bounded st -> idle net ws st -> all_answered ws st.
    Proof.
      intros st HB Hidle.
      assert (HR : forall R i b, rank i < R -> In (i, Ask b) (ns_log st) -> In i ws -> ns_threads st i <> Ended -> exists s, ns_replies st b = Answered s).
      { pose proof (bo_inv _ HB) as HI. induction R as [|R IH]; intros i b HR Hb Hi He; [lia|].
        destruct (nv_where _ HI b i Hb) as [H | H].
        { destruct (ns_replies st b) as [|s|] eqn:Er; [congruence | eauto | destruct (He (nv_dropped _ HI i b Er Hb))]. }
        exfalso. pose proof (Hidle i Hi) as E. unfold thread_step in E. pose proof (nv_thread _ HI i) as Ht. unfold thread_ok in Ht.
        destruct (ns_threads st i) as [|b' [n [|[f|j|g head active inner] rest] level] below|a b' [n rest level] below|] eqn:Et.
        - destruct (ns_queues st i) as [|[b'|p|p] q]; [destruct H as [[] | []] | discriminate E | discriminate E | discriminate E].
        - destruct below as [|[n' rest' level'] below]; discriminate E.
        - discriminate E.
        - discriminate E.
        - discriminate E.
        - destruct Ht as (j & Ha & _ & _ & _ & Ht).
          assert (Hm : In j (handles_of st i)).
          { apply in_or_app. left. apply (Ht (Frame n (Mounted j :: rest) level) (Mounted j) j); cbn; auto. }
          destruct (bounded_acyclic st HB i j Hi (proj2 (mounts_handles st i j) Hm)) as [Hj Hlt].
          destruct (IH j a) as [s Es]; [lia | exact Ha | exact Hj | exact (nv_alive _ HI i j Hm)|]. rewrite Es in E. discriminate E.
        - contradiction. }
      intros b i Hb Hi He. exact (HR (S (rank i)) i b (le_n _) Hb Hi He).
    Qed.

    Lemma idle_or : forall st l, (forall i, In i l -> thread_step net st i = None) \/ exists i st', In i l /\ thread_step net st i = Some st'.
    Proof.
      intros st l. induction l as [|i l [IH | (k & st' & Hk & E)]]; [left; intros i []| |].
      - destruct (thread_step net st i) as [st'|] eqn:E; [right; exists i, st'; split; [left; reflexivity | exact E]|].
        left. intros k [<- | Hk]; auto.
      - right. exists k, st'. split; [right; exact Hk | exact E].
    Qed.

    Lemma runs_first : forall st i st1 n m st2, In i ws -> thread_step net st i = Some st1 -> runs net ws st1 n m st2 -> runs net ws st (S n) m st2.
    Proof.
      intros st i st1 n m st2 Hi E H. induction H as [|n m st' k st'' H IH Hk E'|n m st' st'' H IH Hs Hx].
      - apply (ru_own net ws st 0 0 st i st1); [constructor | exact Hi | exact E].
      - eapply ru_own; eassumption.
      - eapply ru_other; eassumption.
    Qed.

    Lemma runs_on : forall N st, bounded st -> left_over st <= N -> exists n st', runs net ws st n 0 st' /\ idle net ws st'.
    Proof.
      intros N. induction N as [|N IH]; intros st HB HN; destruct (idle_or st ws) as [H | (i & st' & Hi & E)].
      - exists 0, st. split; [constructor | exact H].
      - pose proof (step_load st i st' HB Hi E). lia.
      - exists 0, st. split; [constructor | exact H].
      - assert (Hs : nstep net st st') by (eapply ns_thread; exact E). pose proof (step_load st i st' HB Hi E) as Hl.
        destruct (IH st') as (n & st2 & Hr & Hid).
        + apply (bounded_step st st' HB Hs). intros k x _ El. exact (log_one st st' k x (bo_inv _ HB) Hs El (ex_intro _ i E)).
        + lia.
        + exists (S n), st2. split; [exact (runs_first st i st' n 0 st2 Hi E Hr) | exact Hid].
    Qed.
  End Acyclic.

  Lemma completes : forall st ws rank, nreach net st -> NoDup ws -> acyclic st ws rank ->
    exists N C, forall n m st', runs net ws st n m st' ->
      n <= N + m * C
      /\ (idle net ws st' -> all_answered ws st')
      /\ exists n' st'', runs net ws st' n' 0 st'' /\ idle net ws st''.
  Proof.
    intros st ws rank HR Hnd Hac. destruct (costs st ws rank Hac) as [c Hc].
    assert (H0 : bounded st ws c st) by (split; [exact (reach_inv st HR) | auto | auto]).
    exists (left_over ws c st), (total ws c). intros n m st' H.
    destruct (runs_bounded st ws c Hnd Hc n m st' H0 H) as [HB Hl]. split; [lia|]. split.
    - exact (idle_answered st ws rank c Hac st' HB).
    - exact (runs_on st ws c Hnd Hc (left_over ws c st') st' HB (le_n _)).
  Qed.

  (** ** Ends *)

  Lemma highest : forall (f : nat -> nat) (P : nat -> Prop) (dec : forall i, {P i} + {~ P i}) l, (forall i, In i l -> ~ P i)
    \/ exists i, In i l /\ P i /\ forall j, In j l -> P j -> f j <= f i.
  Proof.
    intros f P dec l. induction l as [|x l [IH | (i & Hi & HP & Hm)]]; [left; intros i []| |].
    - destruct (dec x) as [Hx | Hx]; [right; exists x | left; intros i [<- | Hi]; auto].
      split; [left; reflexivity|]. split; [exact Hx|]. intros j [<- | Hj] HPj; [apply le_n | destruct (IH j Hj HPj)].
    - right. destruct (dec x) as [Hx | Hx].
      + destruct (Nat.le_gt_cases (f x) (f i)) as [Hle | Hgt].
        * exists i. split; [right; exact Hi|]. split; [exact HP|]. intros j [<- | Hj] HPj; auto.
        * exists x. split; [left; reflexivity|]. split; [exact Hx|]. intros j [<- | Hj] HPj; [apply le_n|]. specialize (Hm j Hj HPj). lia.
      + exists i. split; [right; exact Hi|]. split; [exact HP|]. intros j [<- | Hj] HPj; [contradiction | auto].
  Qed.

  Definition thread_ended (t : thread) : {t <> Ended} + {~ t <> Ended}.
  Proof. destruct t; [left | left | left | right]; congruence. Defined.

  Definition running (ws : list nat) (st : nstate) : nat := list_sum (map (fun i => match ns_threads st i with Ended => 0 | _ => 1 end) ws).

  Lemma all_end : forall ws rank N st, ninv st -> acyclic st ws rank -> (forall i j, mounts st i j -> In j ws -> In i ws) ->
    (forall i, In i ws -> ns_threads st i = Looping \/ ns_threads st i = Ended) -> running ws st <= N ->
    exists st', nlater net st st' /\ forall i, In i ws -> ns_threads st' i = Ended.
  Proof.
    intros ws rank N. induction N as [|N IH]; intros st HI Hac Hcl Hth HN;
      (destruct (highest rank (fun i => ns_threads st i <> Ended) (fun i => thread_ended (ns_threads st i)) ws) as [He | (i & Hi & Hne & Hm)];
       [exists st; split; [constructor|]; intros i Hi; destruct (Hth i Hi) as [E | E]; [destruct (He i Hi); rewrite E; discriminate | exact E]|]).
    - exfalso. assert (H : (match ns_threads st i with Ended => 0 | _ => 1 end) <= running ws st) by exact (total_in ws (fun k => match ns_threads st k with Ended => 0 | _ => 1 end) i Hi).
      destruct (ns_threads st i); try lia. congruence.
    - assert (Et : ns_threads st i = Looping) by (destruct (Hth i Hi); [assumption | contradiction]).
      assert (Hh : forall j, ~ In i (handles_of st j)).
      { intros j Hj. assert (Hmo : mounts st j i) by (apply mounts_handles; exact Hj).
        pose proof (Hcl j i Hmo Hi) as Hjw. destruct (Hac j i Hjw Hmo) as [_ Hlt].
        assert (Hje : ns_threads st j <> Ended).
        { intros E. destruct (nv_empty _ HI j E) as (E1 & E2 & E3). unfold handles_of in Hj. rewrite E1, E2, E3 in Hj. destruct Hj. }
        specialize (Hm j Hjw Hje). lia. }
      assert (Hs : nstep net st (ended st i)) by (apply ns_end; assumption).
      destruct (IH (ended st i)) as (st' & Hl & He).
      + exact (step_inv st _ HI Hs).
      + intros k m Hk Hmo. apply (Hac k m Hk). apply mounts_handles in Hmo. apply ended_handles in Hmo. apply mounts_handles. exact (proj2 Hmo).
      + intros k m Hmo Hmw. apply (Hcl k m); [|exact Hmw]. apply mounts_handles in Hmo. apply ended_handles in Hmo. apply mounts_handles. exact (proj2 Hmo).
      + intros k Hk. cbn [ended ns_threads]. at_driver k i; auto.
      + assert (running ws (ended st i) + 1 <= running ws st); [|lia].
        apply (total_less ws _ _ i 1 Hi).
        * intros k _. cbn [ended ns_threads]. at_driver k i; [apply Nat.le_0_l | apply le_n].
        * cbn [ended ns_threads]. rewrite set_same, Et. apply le_n.
      + exists st'. split; [|exact He]. clear - Hl Hs. induction Hl as [|st1 st2 Hl IH Hs']; [eapply nl_step; [constructor | exact Hs] | eapply nl_step; eassumption].
  Qed.

  Lemma runs_handles : forall ws st n m st', runs net ws st n m st' -> m = 0 -> nlater net st st' /\ forall k j, In j (handles_of st' k) <-> In j (handles_of st k).
  Proof.
    intros ws st n m st' H. induction H as [|n m st1 i st2 H IH Hi E|n m st1 st2 H IH Hs Hx]; intros Em; [split; [constructor | reflexivity] | | discriminate Em].
    destruct (IH Em) as [IH1 IH2]. split; [eapply nl_step; [exact IH1 | eapply ns_thread; exact E]|].
    intros k j. rewrite (step_handles st1 i st2 k j E). apply IH2.
  Qed.

  Lemma idle_threads : forall st ws rank, ninv st -> acyclic st ws rank -> idle net ws st -> all_answered ws st ->
    forall i, In i ws -> ns_threads st i = Looping \/ ns_threads st i = Ended.
  Proof.
    intros st ws rank HI Hac Hidle Hall i Hi. pose proof (Hidle i Hi) as E. unfold thread_step in E. pose proof (nv_thread _ HI i) as Ht. unfold thread_ok in Ht.
    destruct (ns_threads st i) as [|b' [n [|[f|j|g head active inner] rest] level] below|a b' [n rest level] below|] eqn:Et; auto; exfalso.
    - destruct below as [|[n' rest' level'] below]; discriminate E.
    - discriminate E.
    - discriminate E.
    - discriminate E.
    - destruct Ht as (j & Ha & _ & _ & _ & Ht).
      assert (Hm : In j (handles_of st i)).
      { apply in_or_app. left. apply (Ht (Frame n (Mounted j :: rest) level) (Mounted j) j); cbn; auto. }
      destruct (Hac i j Hi (proj2 (mounts_handles st i j) Hm)) as [Hj _].
      destruct (Hall a j Ha Hj (nv_alive _ HI i j Hm)) as [s Es]. rewrite Es in E. discriminate E.
  Qed.

  Lemma can_all_end : forall st ws rank, nreach net st -> NoDup ws -> acyclic st ws rank -> (forall i j, mounts st i j -> In j ws -> In i ws) ->
    exists st', nlater net st st' /\ forall i, In i ws -> ns_threads st' i = Ended.
  Proof.
    intros st ws rank HR Hnd Hac Hcl. destruct (completes st ws rank HR Hnd Hac) as (N & C & H).
    destruct (H 0 0 st (ru_start net ws st)) as (_ & _ & n1 & st1 & Hr & Hid). destruct (H n1 0 st1 Hr) as (_ & Hall & _). specialize (Hall Hid).
    destruct (runs_handles ws st n1 0 st1 Hr eq_refl) as [Hl Hh].
    assert (HI : ninv st1) by exact (later_inv st st1 (reach_inv st HR) Hl).
    assert (Hmo : forall i j, mounts st1 i j <-> mounts st i j) by (intros i j; rewrite !mounts_handles; apply Hh).
    assert (Hac1 : acyclic st1 ws rank) by (intros i j Hi Hm; apply (Hac i j Hi); apply Hmo; exact Hm).
    destruct (all_end ws rank (running ws st1) st1 HI Hac1) as (st2 & Hl2 & He).
    - intros i j Hm. apply Hcl. apply Hmo. exact Hm.
    - exact (idle_threads st1 ws rank HI Hac1 Hid Hall).
    - apply le_n.
    - exists st2. split; [|exact He]. clear - Hl Hl2. induction Hl2; [exact Hl | eapply nl_step; eassumption].
  Qed.

  (** ** What a snapshot contains *)

  Lemma shows_parts_in : forall log b ps pieces j, shows_parts net log b ps pieces -> In (Mounted j) ps ->
    exists a s, b < a /\ shows net log j a s /\ In s pieces.
  Proof.
    intros log b ps pieces j H. induction H; intros Hj; try (destruct Hj as [Hj | Hj]); try discriminate Hj; try (destruct Hj; fail).
    all: try (destruct (IHshows_parts Hj) as (a' & s' & Ha & Hs & Hp); exists a', s'; cbn; auto).
    all: try (destruct (IHshows_parts2 Hj) as (a' & s' & Ha & Hs & Hp); exists a', s'; cbn; auto).
    injection Hj as ->. exists a, s. cbn. auto.
  Qed.

  Lemma in_concat_split : forall (l : list snapshot) s, In s l -> exists x y, concat l = x ++ s ++ y.
  Proof. intros l s H. apply in_split in H. destruct H as (l1 & l2 & ->). exists (concat l1), (concat l2). rewrite concat_app. reflexivity. Qed.

  Lemma before_cut : forall st i b x y c, ninv st -> ns_log st = x ++ (i, Ask b) :: y -> In (i, c) x -> In c (before b (sent_to i (ns_log st))).
  Proof.
    intros st i b x y c HI El Hc. rewrite El, sent_to_app. change ((i, Ask b) :: y) with ([(i, Ask b)] ++ y). rewrite sent_to_app, sent_to_one, Nat.eqb_refl. cbn [app].
    rewrite before_here; [apply in_sent_to; exact Hc|]. apply (nv_unique _ HI i b _ (sent_to i y)). rewrite El, sent_to_app.
    change ((i, Ask b) :: y) with ([(i, Ask b)] ++ y). rewrite sent_to_app, sent_to_one, Nat.eqb_refl. reflexivity.
  Qed.

  (** What has been mounted before the request is in the answer. *)
  Lemma mounted_in_time : forall st i j b x y s, nreach net st -> ns_log st = x ++ (i, Ask b) :: y ->
    In (i, AddProcessor (Mounted j)) x \/ In (i, AddSnapshooter (Mounted j)) x -> ns_replies st b = Answered s ->
    exists a s' u v, b < a /\ shows net (ns_log st) j a s' /\ s = grouped (id_name (net i)) (u ++ s' ++ v).
  Proof.
    intros st i j b x y s HR El Hm Hs. pose proof (reach_inv st HR) as HI.
    assert (Hb : In (i, Ask b) (ns_log st)) by (rewrite El; apply in_or_app; right; left; reflexivity).
    pose proof (answers_right st i b s HR Hb Hs) as Hsh. inversion Hsh as [i0 b0 pieces Hb' Hp E1 E2 E3]; subst i0 b0.
    destruct (shows_parts_in _ _ _ _ j Hp) as (a & s' & Ha & Hs' & Hin).
    { apply in_or_app. destruct Hm as [Hm | Hm]; [left | right]; apply in_flat_map; eexists; (split; [exact (before_cut st i b x y _ HI El Hm) | left; reflexivity]). }
    destruct (in_concat_split pieces s' Hin) as (u & v & E). exists a, s', (id_descriptives (net i) b ++ u), (v ++ id_metrics (net i) b).
    split; [exact Ha|]. split; [exact Hs'|]. rewrite E, <- !app_assoc. reflexivity.
  Qed.
End Nest.
(** ** The drivers mounted into a processor *)

From Verif Require Import MonadFacts ModelInstrument ModelTree ModelChannel ModelProcessor SpecQueue SpecCollect QueueProofs GroupProofs AppendProofs.

Section Handles.
  Context {X : ext} {Y : pext}.

  Lemma driver_not_collected : forall k (h : driver_handle Y) max s (w : world X Y) p' o w',
    collects k (PDriver h) max s w p' o w' <-> p' = PDriver h /\ o = outcome_default /\ w' = w.
  Proof.
    intros. split.
    - intros ([|n] & E); [discriminate E|]. cbn [processor_process] in E. injection E as <- <- <-. auto.
    - intros (-> & -> & ->). exists 1%nat. reflexivity.
  Qed.

  Lemma drivers_flat : forall n max s k (ps : list (processor X Y)) acc (w : world X Y) ps' acc' w',
    (forall p k (w : world X Y) p' o w', processor_process n p max s k w = Ok (p', o) w' -> subsequence (mounted_drivers p) (mounted_drivers p')) ->
    traverse (collect_one (fun p => processor_process n p max s)) ps acc k w = Ok (ps', acc') w' ->
    subsequence (flat_map mounted_drivers ps) (flat_map mounted_drivers ps').
  Proof.
    intros n max s k ps acc w ps' acc' w' IH. revert acc w ps' acc' w'.
    induction ps as [|p ps IHp]; intros acc w ps' acc' w' E; cbn [traverse] in E.
    - injection E as <- <- <-. constructor.
    - apply bind_ok in E. destruct E as ([p1 a1] & w1 & E1 & E).
      apply bind_ok in E. destruct E as ([ps1 a2] & w2 & E2 & E). injection E as <- <- <-.
      unfold collect_one in E1. apply bind_ok in E1. destruct E1 as ([p2 o] & w3 & E1 & E3).
      apply bind_ok in E3. destruct E3 as (a3 & w4 & E3 & E4). injection E4 as <- <- <-.
      cbn [flat_map]. apply ss_app; [eapply IH; exact E1 | eapply IHp; exact E2].
  Qed.

  Lemma mount_drivers_stay : forall n max s k (m : mount X Y) (w : world X Y) m' o w',
    (forall p k (w : world X Y) p' o w', processor_process n p max s k w = Ok (p', o) w' -> subsequence (mounted_drivers p) (mounted_drivers p')) ->
    mount_process (fun p => processor_process n p max s) m k w = Ok (m', o) w' ->
    subsequence (mount_drivers m) (mount_drivers m').
  Proof.
    intros n max s k [d ps ss] w m' o w' IH E. cbn [mount_process] in E.
    apply bind_ok in E. destruct E as ([ps1 o1] & w1 & E1 & E).
    assert (G : exists d', m' = Mount d' ps1 ss).
    { destruct (something_happened o1).
      - apply bind_ok in E. destruct E as (t & w2 & E2 & E). injection E as <- <- <-. eexists. reflexivity.
      - injection E as <- <- <-. eexists. reflexivity. }
    destruct G as (d' & ->). cbn [mount_drivers]. eapply drivers_flat; eassumption.
  Qed.

  Lemma drain_drivers : forall k n i (m : mount X Y) w m' b w',
    attached_drain n i m k w = Ok (m', b) w' -> subsequence (mount_drivers m) (mount_drivers m').
  Proof.
    intros k n i. induction n as [|n IH]; intros m w m' b w' E; cbn [attached_drain] in E; [discriminate E|].
    apply bind_ok in E. destruct E as (r & w1 & E1 & E). destruct r as [x| |].
    - apply IH in E. destruct m as [d ps ss]. destruct x as [p|s]; cbn [mount_add mount_drivers] in E; [|exact E].
      rewrite flat_map_app in E. cbn [mount_drivers].
      assert (T : forall (a b c : list (driver_handle Y)), subsequence (a ++ b) c -> subsequence a c).
      { clear. intros a b c. revert a. induction c as [|x c IHc]; intros a H.
        - inversion H as [E0| |]. symmetry in E0. apply app_eq_nil in E0. destruct E0 as [-> _]. constructor.
        - destruct a as [|y a]; [apply ss_none|]. cbn [app] in H. inversion H; subst; [apply ss_skip; auto | apply ss_keep; auto]. }
      eapply T. exact E.
    - injection E as <- <- <-. apply ss_refl.
    - injection E as <- <- <-. apply ss_refl.
  Qed.

  Lemma ss_trans : forall A (a b c : list A), subsequence a b -> subsequence b c -> subsequence a c.
  Proof.
    intros A a b c H1 H2. revert a H1. induction H2 as [|x b c H2 IH|x b c H2 IH]; intros a H1; [exact H1 | apply ss_skip; auto |].
    inversion H1; subst; [apply ss_skip; auto | apply ss_keep; auto].
  Qed.

  (** A collection leaves the mounted drivers as they are; an attached mount may receive more. *)
  Lemma drivers_stay : forall n max s (p : processor X Y) k (w : world X Y) p' o w',
    processor_process n p max s k w = Ok (p', o) w' -> subsequence (mounted_drivers p) (mounted_drivers p').
  Proof.
    intros n max s. induction n as [|n IH]; intros p k w p' o w' E; [discriminate E|].
    destruct p as [t|m|r m|h|u]; cbn [processor_process] in E.
    - apply bind_ok in E. destruct E as ([t1 o1] & w1 & E1 & E). injection E as <- <- <-. constructor.
    - apply bind_ok in E. destruct E as ([m1 o1] & w1 & E1 & E). injection E as <- <- <-.
      exact (mount_drivers_stay _ _ _ _ _ _ _ _ _ IH E1).
    - apply bind_ok in E. destruct E as ([r1 m1] & w1 & E1 & E).
      apply bind_ok in E. destruct E as ([m2 o1] & w2 & E2 & E). injection E as <- <- <-.
      cbn [mounted_drivers]. refine (ss_trans _ _ _ _ _ (mount_drivers_stay _ _ _ _ _ _ _ _ _ IH E2)).
      unfold attached_take in E1. destruct r as [i|].
      + apply bind_ok in E1. destruct E1 as ([m3 b] & w3 & E3 & E1). injection E1 as <- <- <-. exact (drain_drivers _ _ _ _ _ _ _ _ E3).
      + injection E1 as <- <- <-. apply ss_refl.
    - injection E as <- <- <-. apply ss_refl.
    - apply bind_ok in E. destruct E as ([t1 o1] & w1 & E1 & E). injection E as <- <- <-. constructor.
  Qed.

  Lemma drivers_stay_collected : forall k (p : processor X Y) max s (w : world X Y) p' o w',
    collects k p max s w p' o w' -> subsequence (mounted_drivers p) (mounted_drivers p').
  Proof. intros k p max s w p' o w' (n & E). eapply drivers_stay. exact E. Qed.

  (** A mounted driver writes the items of its answer. *)
  Lemma driver_writes_answer : forall (h : driver_handle Y) de into k c,
    processor_put (X := X) (PDriver h) de into k c
    = match driver_snapshot Y h de k c with
      | Ok (h', Some s) c' => Ok (PDriver h', into ++ s) c'
      | Ok (h', None) c' => Ok (PDriver h', into) c'
      | Panic => Panic
      | NoFuel => NoFuel
      end.
  Proof.
    intros. cbn [processor_put]. unfold wrap, driver_put, bind.
    destruct (driver_snapshot Y h de k c) as [[h' [s|]] c'| |]; try reflexivity.
    cbn. do 2 f_equal. rewrite fold_push. reflexivity.
  Qed.
End Handles.
