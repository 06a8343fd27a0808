(** Writing snapshots only appends; descriptions are additions. *)
From Coq Require Import ZArith Bool String List Lia.
From Verif Require Import Base SpecRun MonadFacts ModelObservation ModelSnapshot ModelCounter ModelGauge
  ModelMeter ModelHistogram ModelSwitches ModelInstrument ModelTree ModelProcessor SpecWriting TreeInd.
Import ListNotations.
Open Scope string_scope.
Open Scope list_scope.
Open Scope Z_scope.

Lemma keys_app : forall a b, keys (a ++ b) = keys a ++ keys b.
Proof. intros. apply map_app. Qed.

Lemma adds_texts_app : forall seen a b a2 b2,
  adds_texts seen a b -> adds_texts (seen ++ keys b) a2 b2 -> adds_texts seen (a ++ a2) (b ++ b2).
Proof.
  intros seen a b a2 b2 H. induction H; intros H2; cbn [app keys map] in *.
  - rewrite app_nil_r in H2. exact H2.
  - apply at_item; [assumption|]. apply IHadds_texts. rewrite <- app_assoc. exact H2.
  - apply at_text; [assumption|assumption|]. apply IHadds_texts. rewrite <- app_assoc. exact H2.
Qed.

Lemma adds_texts_refl : forall s seen, adds_texts seen s s.
Proof.
  induction s as [|[k v] s IH]; intros seen; constructor; auto. apply si_same.
Qed.

Lemma lookup_none : forall k s, lookup k s = None -> ~ In k (keys s).
Proof.
  induction s as [|[n v] s IH]; cbn; intros H Hin; [exact Hin|].
  destruct (String.eqb_spec n k) as [->|Hn]; [discriminate|].
  destruct Hin as [Hin|Hin]; [congruence|]. exact (IH H Hin).
Qed.

(** ** Descriptions *)

Definition text_added (into s : snapshot) : Prop :=
  exists t, s = into ++ t /\ adds_texts (keys into) [] t.

Lemma text_once_added : forall k t into, description_key k -> text_added into (put_text_once k t into).
Proof.
  intros k t into Hk. unfold put_text_once, push. destruct t as [t|].
  - destruct (lookup k into) eqn:E.
    + exists []. rewrite app_nil_r. split; [reflexivity | constructor].
    + exists [(k, Text t)]. split; [reflexivity|].
      apply at_text; [apply lookup_none; exact E | exact Hk | constructor].
  - exists []. rewrite app_nil_r. split; [reflexivity | constructor].
Qed.

Lemma text_added_trans : forall a b c, text_added a b -> text_added b c -> text_added a c.
Proof.
  intros a b c (t1 & -> & H1) (t2 & -> & H2). exists (t1 ++ t2). rewrite app_assoc.
  split; [reflexivity|]. rewrite keys_app in H2. exact (adds_texts_app _ [] t1 [] t2 H1 H2).
Qed.

Lemma default_added : forall ds into, text_added into (put_default_descriptives ds into true).
Proof.
  intros. unfold put_default_descriptives, put_descriptives.
  eapply text_added_trans; apply text_once_added; exists ""; cbn; auto.
Qed.

Lemma postfixed_added : forall ds n into, text_added into (put_postfixed_descriptives ds n into true).
Proof.
  intros. unfold put_postfixed_descriptives. cbn [negb].
  eapply text_added_trans; apply text_once_added; exists ("_" ++ n)%string; auto.
Qed.

(** ** Closure properties of [writes] *)

Definition pushes {A} (m : snapshot -> M (A * snapshot)) : Prop :=
  forall k c,
    (exists x plain c', forall into, m into k c = Ok (x, into ++ plain) c')
    \/ (forall into, m into k c = Panic) \/ (forall into, m into k c = NoFuel).

Lemma pushes_writes : forall A (m : snapshot -> M (A * snapshot)), pushes m -> writes (fun _ => m).
Proof.
  intros A m H k c. destruct (H k c) as [(x & a & c' & E)|[E|E]].
  - left. exists x, a, c'. split; [exact E|]. intros into. exists a. split; [apply E | apply adds_texts_refl].
  - right; left. intros _ into. apply E.
  - right; right. intros _ into. apply E.
Qed.

Lemma writes_ext : forall A (f g : bool -> snapshot -> M (A * snapshot)),
  (forall d into k c, f d into k c = g d into k c) -> writes f -> writes g.
Proof.
  intros A f g H Hf k c. destruct (Hf k c) as [(x & a & c' & E1 & E2)|[E|E]].
  - left. exists x, a, c'. split.
    + intros into. rewrite <- H. apply E1.
    + intros into. destruct (E2 into) as (b & E & Hb). exists b. rewrite <- H. auto.
  - right; left. intros. rewrite <- H. apply E.
  - right; right. intros. rewrite <- H. apply E.
Qed.

Lemma writes_bind : forall A B (f : bool -> snapshot -> M (A * snapshot))
  (g : A -> bool -> snapshot -> M (B * snapshot)),
  writes f -> (forall a, writes (g a)) ->
  writes (fun d into => let* '(a, into) := f d into in g a d into).
Proof.
  intros A B f g Hf Hg k c. unfold bind. destruct (Hf k c) as [(x & a & c1 & E1 & E2)|[E|E]].
  - destruct (Hg x k c1) as [(y & b & c2 & F1 & F2)|[F|F]].
    + left. exists y, (a ++ b), c2. split.
      * intros into. rewrite E1, F1, app_assoc. reflexivity.
      * intros into. destruct (E2 into) as (a' & Ea & Ha). rewrite Ea.
        destruct (F2 (into ++ a')) as (b' & Eb & Hb). rewrite Eb.
        exists (a' ++ b'). rewrite app_assoc. split; [reflexivity|].
        rewrite keys_app in Hb. apply adds_texts_app; assumption.
    + right; left. intros d into. destruct d.
      * destruct (E2 into) as (a' & Ea & Ha). rewrite Ea. apply F.
      * rewrite E1. apply F.
    + right; right. intros d into. destruct d.
      * destruct (E2 into) as (a' & Ea & Ha). rewrite Ea. apply F.
      * rewrite E1. apply F.
  - right; left. intros. rewrite E. reflexivity.
  - right; right. intros. rewrite E. reflexivity.
Qed.

Lemma writes_ret : forall A (a : A), writes (fun _ into => ret (a, into)).
Proof.
  intros A a. apply pushes_writes. intros k c. left. exists a, [], c. intros.
  rewrite app_nil_r. reflexivity.
Qed.

Lemma writes_wrap : forall A B (g : A -> B) f, writes f -> writes (fun d into => wrap g (f d into)).
Proof.
  intros A B g f H. unfold wrap.
  apply (writes_bind _ _ f (fun a _ into => ret (g a, into))); [exact H|].
  intros. apply writes_ret.
Qed.

Lemma writes_traverse : forall A (put : A -> bool -> snapshot -> M (A * snapshot)) l,
  Forall (fun x => writes (put x)) l ->
  writes (fun d into => traverse (fun x => put x d) l into).
Proof.
  intros A put l H. induction H as [|x l Hx H IH]; cbn [traverse].
  - apply writes_ret.
  - apply (writes_bind _ _ (put x)
             (fun x' d into => let* '(l', into) := traverse (fun x => put x d) l into in ret (x' :: l', into)));
      [exact Hx|].
    intros x'.
    apply (writes_bind _ _ (fun d into => traverse (fun x => put x d) l into)
             (fun l' _ into => ret (x' :: l', into))); [exact IH|].
    intros. apply writes_ret.
Qed.

Lemma writes_traverse_opt : forall A (put : A -> bool -> snapshot -> M (A * snapshot)) o,
  (forall x, writes (put x)) ->
  writes (fun d into => traverse_opt (fun x => put x d) o into).
Proof.
  intros A put [x|] H; cbn [traverse_opt].
  - apply (writes_bind _ _ (put x) (fun x' _ into => ret (Some x', into))); [apply H|].
    intros. apply writes_ret.
  - apply writes_ret.
Qed.

Lemma writes_described : forall A (f : bool -> snapshot -> M (A * snapshot))
  (descr : bool -> snapshot -> snapshot),
  (forall into, descr false into = into) -> (forall into, text_added into (descr true into)) ->
  writes f -> writes (fun d into => f d (descr d into)).
Proof.
  intros A f descr H0 H1 Hf k c. destruct (Hf k c) as [(x & a & c' & E1 & E2)|[E|E]].
  - left. exists x, a, c'. split.
    + intros. rewrite H0. apply E1.
    + intros into. destruct (H1 into) as (t & Et & Ht). rewrite Et.
      destruct (E2 (into ++ t)) as (b & Eb & Hb). exists (t ++ b). rewrite app_assoc.
      split; [exact Eb|]. rewrite keys_app in Hb.
      exact (adds_texts_app _ [] t a b Ht Hb).
  - right; left. intros. apply E.
  - right; right. intros. apply E.
Qed.

Lemma writes_default_described : forall A ds (f : bool -> snapshot -> M (A * snapshot)),
  writes f -> writes (fun d into => f d (put_default_descriptives ds into d)).
Proof.
  intros. apply (writes_described _ f (fun d into => put_default_descriptives ds into d));
    [reflexivity | apply default_added | assumption].
Qed.

Lemma writes_postfix_described : forall A ds n (f : bool -> snapshot -> M (A * snapshot)),
  writes f -> writes (fun d into => f d (put_postfixed_descriptives ds n into d)).
Proof.
  intros. apply (writes_described _ f (fun d into => put_postfixed_descriptives ds n into d));
    [reflexivity | apply postfixed_added | assumption].
Qed.

Lemma writes_group : forall A n (f : bool -> snapshot -> M (A * snapshot)),
  writes f ->
  writes (fun d into => let* '(a, level) := f d snapshot_default in
                        ret (a, push into n (ItemSnapshot level))).
Proof.
  intros A n f Hf k c. unfold bind, snapshot_default. destruct (Hf k c) as [(x & a & c' & E1 & E2)|[E|E]].
  - left. exists x, [(n, ItemSnapshot a)], c'. split.
    + intros. rewrite E1. reflexivity.
    + intros into. destruct (E2 []) as (b & Eb & Hb). rewrite Eb.
      exists [(n, ItemSnapshot b)]. split; [reflexivity|].
      apply at_item; [apply si_group; exact Hb | constructor].
  - right; left. intros. rewrite E. reflexivity.
  - right; right. intros. rewrite E. reflexivity.
Qed.

Lemma writes_named : forall A n (f : bool -> snapshot -> M (A * snapshot)),
  writes f -> writes (fun d into => put_named n (f d) into).
Proof.
  intros A [n|] f Hf; unfold put_named; [apply writes_group; exact Hf | exact Hf].
Qed.

Lemma writes_push : forall A l (f : bool -> snapshot -> M (A * snapshot)),
  writes f -> writes (fun d into => f d (into ++ l)).
Proof.
  intros A l f Hf.
  apply (writes_ext _ (fun d into => let* '(_, into) := ret (tt, into ++ l) in f d into)).
  - reflexivity.
  - apply (writes_bind _ _ (fun _ into => ret (tt, into ++ l)) (fun _ => f)); [|intros; exact Hf].
    apply pushes_writes. intros k c. left. exists tt, l, c. reflexivity.
Qed.

Lemma push_activity_app : forall into b,
  push_activity into b = into ++ [("_inactive", Boolean (negb b)); ("_active", Boolean b)].
Proof. intros. unfold push_activity, push. rewrite <- app_assoc. reflexivity. Qed.

Lemma writes_activity : forall A limit show last (a : A) (f : bool -> snapshot -> M (A * snapshot)),
  writes f -> writes (fun d into => check_activity limit show last a (f d) into).
Proof.
  intros A limit show last a f Hf. unfold check_activity.
  destruct limit as [lim|]; [|exact Hf]. destruct show; [|exact Hf].
  intros k c. unfold bind. rewrite elapsed_eq.
  destruct (lim <? Z.max 0 (c O - last)).
  - left. exists a, [("_inactive", Boolean true); ("_active", Boolean false)], (clock_tail c). split.
    + intros. rewrite push_activity_app. reflexivity.
    + intros into. eexists. rewrite push_activity_app. split; [reflexivity | apply adds_texts_refl].
  - pose proof (writes_push _ [("_inactive", Boolean (negb true)); ("_active", Boolean true)] _ Hf k
                  (clock_tail c)) as H.
    destruct H as [(x & b & c' & E1 & E2)|[E|E]].
    + left. exists x, b, c'. split.
      * intros. rewrite push_activity_app. apply E1.
      * intros into. rewrite push_activity_app. apply E2.
    + right; left. intros. rewrite push_activity_app. apply E.
    + right; right. intros. rewrite push_activity_app. apply E.
Qed.

(** ** Instruments *)

(** A computation that does not look at the snapshot, followed by pushes. *)
Lemma pushes_bind : forall A B (m : M A) (g : A -> snapshot -> M (B * snapshot)),
  (forall a, pushes (g a)) -> pushes (fun into => let* a := m in g a into).
Proof.
  intros A B m g Hg k c. unfold bind. destruct (m k c) as [a c1| |] eqn:E.
  - exact (Hg a k c1).
  - right; left. reflexivity.
  - right; right. reflexivity.
Qed.

Lemma pushes_ret : forall A (a : A) l, pushes (fun into => ret (a, into ++ l)).
Proof. intros A a l k c. left. exists a, l, c. reflexivity. Qed.

Lemma pushes_ext : forall A (f g : snapshot -> M (A * snapshot)),
  (forall into k c, f into k c = g into k c) -> pushes f -> pushes g.
Proof.
  intros A f g H Hf k c. destruct (Hf k c) as [(x & a & c' & E)|[E|E]].
  - left. exists x, a, c'. intros. rewrite <- H. apply E.
  - right; left. intros. rewrite <- H. apply E.
  - right; right. intros. rewrite <- H. apply E.
Qed.

Lemma pushes_same : forall A (a : A), pushes (fun into => ret (a, into)).
Proof.
  intros. apply (pushes_ext _ (fun into => ret (a, into ++ []))); [|apply pushes_ret].
  intros. rewrite app_nil_r. reflexivity.
Qed.

Lemma counter_writes : forall i, writes (fun d into => keep i (ret (counter_put i d into))).
Proof.
  intros i. unfold counter_put, push.
  apply (writes_postfix_described _ (c_descr i) (c_name i)
           (fun _ into => keep i (ret (into ++ [(c_name i, UInt (c_count i))])))).
  apply pushes_writes. apply pushes_ret.
Qed.

Lemma stats_pushed : forall s p, exists l, forall into, stats_add_to_snapshot s into p = into ++ l.
Proof.
  intros s p. eexists. intros into. unfold stats_add_to_snapshot, push.
  rewrite <- !app_assoc. reflexivity.
Qed.

Lemma gauge_values_pushed : forall g, pushes (fun into => gauge_put_values g into).
Proof.
  intros g. unfold gauge_put_values. destruct (g_value g) as [v|] eqn:Ev; [|apply pushes_same].
  destruct (g_group_values g); destruct (g_tracking g) as [b|];
    try (apply pushes_ret); intros k c; unfold bind, push;
    destruct (from_buckets b (Some v) k c) as [[b' [s|]] c1| |];
    try (right; left; reflexivity); try (right; right; reflexivity);
    try (left; eexists _, _, c1; reflexivity).
  - destruct (stats_pushed s None) as (l & Hl). left.
    eexists _, ([("current", Int v)] ++ l), c1. intros. rewrite Hl, <- app_assoc. reflexivity.
  - destruct (stats_pushed s (Some (g_name g))) as (l & Hl). left.
    eexists _, ([(g_name g, Int v)] ++ l), c1. intros. rewrite Hl, <- app_assoc. reflexivity.
Qed.

Lemma gauge_writes : forall g, writes (gauge_put g).
Proof.
  intros g. unfold gauge_put.
  apply (writes_postfix_described _ (g_descr g) (g_name g)
           (fun d into => if g_group_values g
                          then let* '(g', level) := gauge_put_values g snapshot_default in
                               ret (g', push into (g_name g) (ItemSnapshot level))
                          else gauge_put_values g into)).
  destruct (g_group_values g).
  - apply (writes_group _ (g_name g) (fun _ => gauge_put_values g)). apply pushes_writes.
    apply gauge_values_pushed.
  - apply pushes_writes. apply gauge_values_pushed.
Qed.

Lemma meter_writes : forall m, writes (meter_put m).
Proof.
  intros m k c. unfold meter_put, bind.
  destruct (meter_get_snapshot m k c) as [[m' s] c'| |]; [|right; left; reflexivity | right; right; reflexivity].
  left. unfold meter_snapshot_put, push. eexists m', _, c'. split; [reflexivity|].
  intros into. destruct (postfixed_added (m_descr m') (m_name m') into) as (t & Et & Ht).
  eexists. rewrite Et, <- app_assoc. split; [reflexivity|].
  apply (adds_texts_app _ [] t); [exact Ht | apply adds_texts_refl].
Qed.

Lemma value_meter_writes : forall m, writes (value_meter_put m).
Proof.
  intros m. unfold value_meter_put.
  apply (writes_bind _ _ (meter_put (vm_meter m))
           (fun x _ into => ret (ValueMeter x (vm_display_time_unit m), into))).
  - apply meter_writes.
  - intros. apply writes_ret.
Qed.

Lemma histogram_writes : forall H (h : histogram H),
  writes (fun d into => keep h (histogram_put h d into)).
Proof.
  intros H h. unfold histogram_put.
  apply (writes_postfix_described _ (h_descr h) (h_name h)
           (fun _ into => keep h (let* level := histogram_put_values h snapshot_default in
                                  ret (push into (h_name h) (ItemSnapshot level))))).
  apply pushes_writes. intros k c. unfold keep, bind, push.
  destruct (histogram_put_values h snapshot_default k c) as [l c'| |].
  - left. eexists h, _, c'. reflexivity.
  - right; left. reflexivity.
  - right; right. reflexivity.
Qed.

Lemma flag_writes : forall f, writes (fun d into => keep f (ret (flag_put f d into))).
Proof.
  intros f. unfold flag_put.
  apply (writes_postfix_described _ (f_descr f) (f_name f)
           (fun _ into => keep f (ret (match f_state f with
              | None => into
              | Some state =>
                  let into := push into (f_name f) (Boolean state) in
                  match f_show_inverted f with
                  | None => into
                  | Some a => push into (adjust_name a (f_name f)) (Boolean (negb state))
                  end end)))).
  apply pushes_writes. destruct (f_state f) as [b|]; [|apply pushes_same].
  destruct (f_show_inverted f) as [a|]; unfold push; cbn zeta; [|apply pushes_ret].
  apply (pushes_ext _ (fun into => ret (f, into ++ ([(f_name f, Boolean b)] ++ [(adjust_name a (f_name f), Boolean (negb b))]))));
    [|apply pushes_ret].
  intros. rewrite app_assoc. reflexivity.
Qed.

Lemma timed_switch_writes : forall A (x : A) n ds state sh,
  writes (fun d into => keep x (put_timed_switch n ds state sh d into)).
Proof.
  intros A x n ds state sh. unfold put_timed_switch.
  apply (writes_postfix_described _ ds n
           (fun _ into => keep x (
              let* b := state in
              let into := push into n (Boolean b) in
              match sh with
              | None => ret into
              | Some a =>
                  let* b2 := state in
                  ret (push into (adjust_name a n) (Boolean (negb b2)))
              end))).
  apply pushes_writes. intros k c. unfold keep, bind, push, ret.
  destruct (state k c) as [b c1| |]; [|right; left; reflexivity | right; right; reflexivity].
  destruct sh as [a|].
  - destruct (state k c1) as [b2 c2| |]; [|right; left; reflexivity | right; right; reflexivity].
    left. eexists x, _, c2. intros. rewrite <- app_assoc. reflexivity.
  - left. eexists x, _, c1. reflexivity.
Qed.

Lemma last_occurrence_writes : forall x, writes (fun d into => keep x (last_occurrence_put x d into)).
Proof.
  intros x. unfold last_occurrence_put.
  apply (writes_postfix_described _ (lt_descr x) (lt_name x)
           (fun _ into => keep x (
              let* v := last_occurrence_elapsed x in
              match v with
              | Some v => ret (push into (lt_name x) (UInt v))
              | None => if lt_make_none_zero x then ret (push into (lt_name x) (Int 0)) else ret into
              end))).
  apply pushes_writes. intros k c. unfold keep, bind, push, ret.
  destruct (last_occurrence_elapsed x k c) as [[v|] c1| |];
    [| |right; left; reflexivity | right; right; reflexivity].
  - left. eexists x, _, c1. reflexivity.
  - destruct (lt_make_none_zero x); left.
    + eexists x, _, c1. reflexivity.
    + exists x, [], c1. intros. rewrite app_nil_r. reflexivity.
Qed.

Lemma display_writes : forall x, writes (fun d into => keep x (display_put x d into)).
Proof.
  intros x. unfold display_put.
  apply (writes_postfix_described _ (dd_descr x) (dd_name x)
           (fun _ into => keep x (
              let* v := display_value x in
              match v with
              | Some v => ret (push into (dd_name x) v)
              | None => ret into
              end))).
  apply pushes_writes. intros k c. unfold keep, bind, push, ret.
  destruct (display_value x k c) as [[v|] c1| |];
    [| |right; left; reflexivity | right; right; reflexivity].
  - left. eexists x, _, c1. reflexivity.
  - left. exists x, [], c1. intros. rewrite app_nil_r. reflexivity.
Qed.

Lemma keep_wrap : forall A B (f : A -> B) (a : A) (m : snapshot -> bool -> M snapshot),
  writes (fun d into => keep a (m into d)) -> writes (fun d into => keep (f a) (m into d)).
Proof.
  intros A B f a m H.
  apply (writes_ext _ (fun d into => wrap f (keep a (m into d)))).
  - intros. unfold wrap, keep, bind. destruct (m into d k c); reflexivity.
  - apply (writes_wrap _ _ f (fun d into => keep a (m into d))). exact H.
Qed.

Section TreeWrites.
  Context {X : ext}.

  Lemma instrument_writes : forall i : instrument X,
    (forall u, writes (user_instr_put X u)) -> writes (instrument_put i).
  Proof.
    intros i Hu. destruct i; unfold instrument_put.
    - apply (keep_wrap _ _ ICounter i (fun into d => ret (counter_put i d into))), counter_writes.
    - apply writes_wrap, gauge_writes.
    - apply writes_wrap, meter_writes.
    - apply writes_wrap, value_meter_writes.
    - apply (keep_wrap _ _ IHistogram i (fun into d => histogram_put i d into)), histogram_writes.
    - apply (keep_wrap _ _ IFlag i (fun into d => ret (flag_put i d into))), flag_writes.
    - unfold staircase_put. apply timed_switch_writes.
    - unfold occurrence_put. apply timed_switch_writes.
    - unfold non_occurrence_put. apply timed_switch_writes.
    - apply (keep_wrap _ _ ILastOccurrence i (fun into d => last_occurrence_put i d into)), last_occurrence_writes.
    - apply (keep_wrap _ _ IDisplay i (fun into d => display_put i d into)), display_writes.
    - apply writes_wrap, Hu.
  Qed.

  Lemma adapter_writes : forall I (put : I -> bool -> snapshot -> M (I * snapshot)) (a : adapter X I),
    (forall i, writes (put i)) -> writes (adapter_put put a).
  Proof.
    intros I put a H. unfold adapter_put.
    apply (writes_bind _ _ (put (ad_instrument a)) (fun i _ into => ret (adapter_with a i, into)));
      [apply H | intros; apply writes_ret].
  Qed.

  Lemma ga_writes : forall a : gauge_adapter (lab X), writes (ga_put a).
  Proof.
    intros a. unfold ga_put.
    apply (writes_bind _ _ (gauge_put (ga_gauge a)) (fun i _ into => ret (ga_with a i, into)));
      [apply gauge_writes | intros; apply writes_ret].
  Qed.

  Lemma slots_writes : forall sl : slots X, writes (fun d into => slots_put d sl into).
  Proof.
    intros sl. unfold slots_put.
    apply (writes_bind _ _
             (fun d into => traverse_opt
                (fun a => adapter_put (fun i d s => keep i (ret (counter_put i d s))) a d) (sl_counter sl) into)
             (fun c d into =>
                let* '(g, into) := traverse_opt (fun a => ga_put a d) (sl_gauge sl) into in
                let* '(m, into) := traverse_opt (fun a => adapter_put meter_put a d) (sl_meter sl) into in
                let* '(h, into) := traverse_opt
                  (fun a => adapter_put (fun i d s => keep i (histogram_put i d s)) a d) (sl_histogram sl) into in
                ret (Slots c g m h, into))).
    { apply (writes_traverse_opt _ (adapter_put (fun i d s => keep i (ret (counter_put i d s))))).
      intros. apply adapter_writes. intros. apply counter_writes. }
    intros c.
    apply (writes_bind _ _ (fun d into => traverse_opt (fun a => ga_put a d) (sl_gauge sl) into)
             (fun g d into =>
                let* '(m, into) := traverse_opt (fun a => adapter_put meter_put a d) (sl_meter sl) into in
                let* '(h, into) := traverse_opt
                  (fun a => adapter_put (fun i d s => keep i (histogram_put i d s)) a d) (sl_histogram sl) into in
                ret (Slots c g m h, into))).
    { apply (writes_traverse_opt _ ga_put). intros. apply ga_writes. }
    intros g.
    apply (writes_bind _ _ (fun d into => traverse_opt (fun a => adapter_put meter_put a d) (sl_meter sl) into)
             (fun m d into =>
                let* '(h, into) := traverse_opt
                  (fun a => adapter_put (fun i d s => keep i (histogram_put i d s)) a d) (sl_histogram sl) into in
                ret (Slots c g m h, into))).
    { apply (writes_traverse_opt _ (adapter_put meter_put)).
      intros. apply adapter_writes. intros. apply meter_writes. }
    intros m.
    apply (writes_bind _ _ (fun d into => traverse_opt
                  (fun a => adapter_put (fun i d s => keep i (histogram_put i d s)) a d) (sl_histogram sl) into)
             (fun h d into => ret (Slots c g m h, into))).
    { apply (writes_traverse_opt _ (adapter_put (fun i d s => keep i (histogram_put i d s)))).
      intros. apply adapter_writes. intros. apply histogram_writes. }
    intros. apply writes_ret.
  Qed.

  Lemma polled_writes : forall P (poll : bool -> snapshot -> M (P * snapshot)) n ds g,
    writes poll -> writes (fun d into => polled_put poll n ds g d into).
  Proof.
    intros P poll n ds g H. unfold polled_put.
    apply (writes_postfix_described _ ds n
             (fun d into => if g then let* '(p, level) := poll d snapshot_default in
                                      ret (p, push into n (ItemSnapshot level))
                            else poll d into)).
    destruct g; [apply writes_group; exact H | exact H].
  Qed.

  Context (HX : parts_write X).

  Lemma tree_writes :
    (forall p : panel X, writes (panel_put p)) /\ (forall h : handler X, writes (handler_put h))
    /\ (forall c : cockpit X, writes (cockpit_put c)) /\ (forall s : snapshooter X, writes (snapshooter_put s)).
  Proof.
    apply tree_ind.
    - intros d sl ps hs ss Hp Hh Hs. cbn [panel_put].
      apply (writes_named _ (pd_name d) (fun de into =>
        check_activity (pd_limit d) (pd_show_activity d) (pd_last_update d) (Panel d sl ps hs ss)
          (fun into0 =>
             let* '(sl, into) := slots_put de sl into0 in
             let* '(panels, into) := traverse (fun x => panel_put x de) ps into in
             let* '(snapshooters, into) := traverse (fun x => snapshooter_put x de) ss into in
             let* '(handlers, into) := traverse (fun x => handler_put x de) hs into in
             ret (Panel d sl panels handlers snapshooters, into))
          (put_default_descriptives (pd_descr d) into de))).
      apply (writes_default_described _ (pd_descr d) (fun de into =>
        check_activity (pd_limit d) (pd_show_activity d) (pd_last_update d) (Panel d sl ps hs ss)
          (fun into0 =>
             let* '(sl, into) := slots_put de sl into0 in
             let* '(panels, into) := traverse (fun x => panel_put x de) ps into in
             let* '(snapshooters, into) := traverse (fun x => snapshooter_put x de) ss into in
             let* '(handlers, into) := traverse (fun x => handler_put x de) hs into in
             ret (Panel d sl panels handlers snapshooters, into)) into)).
      apply (writes_activity _ _ _ _ _ (fun de into0 =>
             let* '(sl, into) := slots_put de sl into0 in
             let* '(panels, into) := traverse (fun x => panel_put x de) ps into in
             let* '(snapshooters, into) := traverse (fun x => snapshooter_put x de) ss into in
             let* '(handlers, into) := traverse (fun x => handler_put x de) hs into in
             ret (Panel d sl panels handlers snapshooters, into))).
      apply (writes_bind _ _ (fun de into => slots_put de sl into) (fun sl de into =>
             let* '(panels, into) := traverse (fun x => panel_put x de) ps into in
             let* '(snapshooters, into) := traverse (fun x => snapshooter_put x de) ss into in
             let* '(handlers, into) := traverse (fun x => handler_put x de) hs into in
             ret (Panel d sl panels handlers snapshooters, into))); [apply slots_writes|].
      intros sl'.
      apply (writes_bind _ _ (fun de into => traverse (fun x => panel_put x de) ps into) (fun panels de into =>
             let* '(snapshooters, into) := traverse (fun x => snapshooter_put x de) ss into in
             let* '(handlers, into) := traverse (fun x => handler_put x de) hs into in
             ret (Panel d sl' panels handlers snapshooters, into))); [apply writes_traverse; exact Hp|].
      intros ps'.
      apply (writes_bind _ _ (fun de into => traverse (fun x => snapshooter_put x de) ss into)
        (fun snapshooters de into =>
             let* '(handlers, into) := traverse (fun x => handler_put x de) hs into in
             ret (Panel d sl' ps' handlers snapshooters, into))); [apply writes_traverse; exact Hs|].
      intros ss'.
      apply (writes_bind _ _ (fun de into => traverse (fun x => handler_put x de) hs into)
        (fun handlers de into => ret (Panel d sl' ps' handlers ss', into)));
        [apply writes_traverse; exact Hh|].
      intros. apply writes_ret.
    - intros a. apply writes_wrap. apply adapter_writes. intros. apply instrument_writes, (pw_instr _ HX).
    - intros a. apply writes_wrap, ga_writes.
    - intros p H. apply writes_wrap, H.
    - intros c H. apply writes_wrap, H.
    - intros u. apply writes_wrap, (pw_handler _ HX).
    - intros d ps hs ss Hp Hh Hs. cbn [cockpit_put].
      apply (writes_named _ (cd_name d) (fun de into =>
        check_activity (cd_limit d) (cd_show_activity d) (cd_last_activity d) (Cockpit d ps hs ss)
          (fun into =>
             let* '(panels, into) := traverse (fun x => panel_put x de) ps into in
             let* '(handlers, into) := traverse (fun x => handler_put x de) hs into in
             let* '(snapshooters, into) := traverse (fun x => snapshooter_put x de) ss into in
             ret (Cockpit d panels handlers snapshooters, into))
          (put_default_descriptives (cd_descr d) into de))).
      apply (writes_default_described _ (cd_descr d) (fun de into =>
        check_activity (cd_limit d) (cd_show_activity d) (cd_last_activity d) (Cockpit d ps hs ss)
          (fun into =>
             let* '(panels, into) := traverse (fun x => panel_put x de) ps into in
             let* '(handlers, into) := traverse (fun x => handler_put x de) hs into in
             let* '(snapshooters, into) := traverse (fun x => snapshooter_put x de) ss into in
             ret (Cockpit d panels handlers snapshooters, into)) into)).
      apply (writes_activity _ _ _ _ _ (fun de into =>
             let* '(panels, into) := traverse (fun x => panel_put x de) ps into in
             let* '(handlers, into) := traverse (fun x => handler_put x de) hs into in
             let* '(snapshooters, into) := traverse (fun x => snapshooter_put x de) ss into in
             ret (Cockpit d panels handlers snapshooters, into))).
      apply (writes_bind _ _ (fun de into => traverse (fun x => panel_put x de) ps into) (fun panels de into =>
             let* '(handlers, into) := traverse (fun x => handler_put x de) hs into in
             let* '(snapshooters, into) := traverse (fun x => snapshooter_put x de) ss into in
             ret (Cockpit d panels handlers snapshooters, into))); [apply writes_traverse; exact Hp|].
      intros ps'.
      apply (writes_bind _ _ (fun de into => traverse (fun x => handler_put x de) hs into)
        (fun handlers de into =>
             let* '(snapshooters, into) := traverse (fun x => snapshooter_put x de) ss into in
             ret (Cockpit d ps' handlers snapshooters, into))); [apply writes_traverse; exact Hh|].
      intros hs'.
      apply (writes_bind _ _ (fun de into => traverse (fun x => snapshooter_put x de) ss into)
        (fun snapshooters de into => ret (Cockpit d ps' hs' snapshooters, into)));
        [apply writes_traverse; exact Hs|].
      intros. apply writes_ret.
    - intros v. cbn [snapshooter_put]. unfold constant_value_put, push.
      apply (writes_postfix_described _ (cv_descr v) (cv_name v)
               (fun _ into => ret (SConstant v, into ++ [(cv_name v, cv_value v)]))).
      apply pushes_writes, pushes_ret.
    - intros n ds g s H. apply writes_wrap. apply polled_writes. exact H.
    - intros i. apply writes_wrap, instrument_writes, (pw_instr _ HX).
    - intros h H. apply writes_wrap, H.
    - intros u. apply writes_wrap, (pw_snap _ HX).
  Qed.

  Lemma tele_writes : forall t : tele X, writes (tele_put t).
  Proof.
    intros t. destruct tree_writes as (_ & Lh & Lc & Ls). unfold tele_put.
    apply (writes_named _ (tp_name t) (fun de into =>
      check_activity (tp_limit t) (tp_show_activity t) (tp_last_activity t) t
        (fun into =>
           let* '(cs, into) := traverse (fun x => cockpit_put x de) (tp_cockpits t) into in
           let* '(hs, into) := traverse (fun x => handler_put x de) (tp_handlers t) into in
           let* '(ss, into) := traverse (fun x => snapshooter_put x de) (tp_snapshooters t) into in
           ret (Tele (tp_name t) (tp_descr t) cs hs (tp_receiver t) ss (tp_last_activity t)
                  (tp_limit t) (tp_show_activity t) (tp_disconnected t), into))
        (put_default_descriptives (tp_descr t) into de))).
    apply (writes_default_described _ (tp_descr t) (fun de into =>
      check_activity (tp_limit t) (tp_show_activity t) (tp_last_activity t) t
        (fun into =>
           let* '(cs, into) := traverse (fun x => cockpit_put x de) (tp_cockpits t) into in
           let* '(hs, into) := traverse (fun x => handler_put x de) (tp_handlers t) into in
           let* '(ss, into) := traverse (fun x => snapshooter_put x de) (tp_snapshooters t) into in
           ret (Tele (tp_name t) (tp_descr t) cs hs (tp_receiver t) ss (tp_last_activity t)
                  (tp_limit t) (tp_show_activity t) (tp_disconnected t), into)) into)).
    apply (writes_activity _ _ _ _ _ (fun de into =>
           let* '(cs, into) := traverse (fun x => cockpit_put x de) (tp_cockpits t) into in
           let* '(hs, into) := traverse (fun x => handler_put x de) (tp_handlers t) into in
           let* '(ss, into) := traverse (fun x => snapshooter_put x de) (tp_snapshooters t) into in
           ret (Tele (tp_name t) (tp_descr t) cs hs (tp_receiver t) ss (tp_last_activity t)
                  (tp_limit t) (tp_show_activity t) (tp_disconnected t), into))).
    apply (writes_bind _ _ (fun de into => traverse (fun x => cockpit_put x de) (tp_cockpits t) into)
      (fun cs de into =>
           let* '(hs, into) := traverse (fun x => handler_put x de) (tp_handlers t) into in
           let* '(ss, into) := traverse (fun x => snapshooter_put x de) (tp_snapshooters t) into in
           ret (Tele (tp_name t) (tp_descr t) cs hs (tp_receiver t) ss (tp_last_activity t)
                  (tp_limit t) (tp_show_activity t) (tp_disconnected t), into))).
    { apply writes_traverse. apply Forall_forall. intros. apply Lc. }
    intros cs.
    apply (writes_bind _ _ (fun de into => traverse (fun x => handler_put x de) (tp_handlers t) into)
      (fun hs de into =>
           let* '(ss, into) := traverse (fun x => snapshooter_put x de) (tp_snapshooters t) into in
           ret (Tele (tp_name t) (tp_descr t) cs hs (tp_receiver t) ss (tp_last_activity t)
                  (tp_limit t) (tp_show_activity t) (tp_disconnected t), into))).
    { apply writes_traverse. apply Forall_forall. intros. apply Lh. }
    intros hs.
    apply (writes_bind _ _ (fun de into => traverse (fun x => snapshooter_put x de) (tp_snapshooters t) into)
      (fun ss de into =>
           ret (Tele (tp_name t) (tp_descr t) cs hs (tp_receiver t) ss (tp_last_activity t)
                  (tp_limit t) (tp_show_activity t) (tp_disconnected t), into))).
    { apply writes_traverse. apply Forall_forall. intros. apply Ls. }
    intros. apply writes_ret.
  Qed.

  Lemma processor_writes : forall (Y : pext),
    (forall u, writes (user_proc_put Y u)) -> (forall h, writes (driver_put (Y := Y) h)) ->
    (forall p : processor X Y, writes (processor_put p)) /\ (forall m : mount X Y, writes (mount_put m)).
  Proof.
    intros Y Hu Hd. destruct tree_writes as (_ & Lh & Lc & Ls).
    apply processor_ind'.
    - intros t. apply writes_wrap, tele_writes.
    - intros m H. apply writes_wrap, H.
    - intros r m H. apply writes_wrap, H.
    - intros h. apply writes_wrap, Hd.
    - intros u. apply writes_wrap, Hu.
    - intros d ps ss Hp. cbn [mount_put].
      apply (writes_named _ (md_name d) (fun de into =>
        check_activity (md_limit d) true (md_last_activity d) (Mount d ps ss)
          (fun into =>
             let* '(ps, into) := traverse (fun x => processor_put x de) ps into in
             let* '(ss, into) := traverse (fun x => snapshooter_put x de) ss into in
             ret (Mount d ps ss, into))
          (put_default_descriptives (md_descr d) into de))).
      apply (writes_default_described _ (md_descr d) (fun de into =>
        check_activity (md_limit d) true (md_last_activity d) (Mount d ps ss)
          (fun into =>
             let* '(ps, into) := traverse (fun x => processor_put x de) ps into in
             let* '(ss, into) := traverse (fun x => snapshooter_put x de) ss into in
             ret (Mount d ps ss, into)) into)).
      apply (writes_activity _ _ _ _ _ (fun de into =>
             let* '(ps, into) := traverse (fun x => processor_put x de) ps into in
             let* '(ss, into) := traverse (fun x => snapshooter_put x de) ss into in
             ret (Mount d ps ss, into))).
      apply (writes_bind _ _ (fun de into => traverse (fun x => processor_put x de) ps into)
        (fun ps de into =>
             let* '(ss, into) := traverse (fun x => snapshooter_put x de) ss into in
             ret (Mount d ps ss, into))); [apply writes_traverse; exact Hp|].
      intros ps'.
      apply (writes_bind _ _ (fun de into => traverse (fun x => snapshooter_put x de) ss into)
        (fun ss de into => ret (Mount d ps' ss, into))).
      { apply writes_traverse. apply Forall_forall. intros. apply Ls. }
      intros. apply writes_ret.
  Qed.
End TreeWrites.
