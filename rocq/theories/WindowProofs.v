(** The records of any type are a sliding window. *)
From Coq Require Import ZArith Bool String List Lia.
From Verif Require Import Base SpecRun MonadFacts ModelBuckets SpecTracking BucketsProofs TrackingProofs.
Import ListNotations.
Open Scope Z_scope.

Section Window.
  Context {T A : Type} (default : T) (upd : T -> A -> T).

  Lemma values_in_snoc_same : forall t0 (l : list (Z * A)) t a,
    values_in t0 (l ++ [(t, a)]) (interval t0 t) = values_in t0 l (interval t0 t) ++ [a].
  Proof.
    intros. unfold values_in. rewrite filter_app, map_app. cbn. rewrite Z.eqb_refl. reflexivity.
  Qed.

  Lemma values_in_snoc_other : forall t0 (l : list (Z * A)) t a p, p <> interval t0 t ->
    values_in t0 (l ++ [(t, a)]) p = values_in t0 l p.
  Proof.
    intros. unfold values_in. rewrite filter_app, map_app. cbn.
    destruct (Z.eqb_spec (interval t0 t) p); [congruence|]. cbn. apply app_nil_r.
  Qed.

  Lemma records_tracked : forall h b n t0 t l q P m k b',
    tracks default b n t0 P m -> P <= interval t0 t ->
    (forall p, m p = fold_left upd (values_in t0 l p) default) ->
    records_ordered t h q -> record_history default upd k b h = Some b' ->
    exists P' m', tracks default b' n t0 P' m' /\ P' <= interval t0 q
      /\ forall p, m' p = fold_left upd (values_in t0 (l ++ recorded h) p) default.
  Proof.
    induction h as [|[c o] h IH]; intros b n t0 t l q P m k b' H Hp Hm Hord Hh.
    - inversion Hord; subst. cbn in Hh. injection Hh as <-. exists P, m.
      split; [assumption|]. split; [pose proof (interval_mono t0 t q ltac:(assumption)); lia|].
      intros p. cbn. rewrite app_nil_r. auto.
    - inversion Hord as [|? ? ? ? ? Hle Hord']; subst. cbn [record_history] in Hh.
      destruct o as [a|].
      + destruct (current_mut _ _ _ _ _) as [b1 c1| |] eqn:E; try discriminate Hh.
        destruct (current_mut_tracks _ _ _ _ _ _ _ _ _ _ _ H E) as (x & Ex & H1).
        rewrite (next_is_interval _ _ _ _ Hp Hle) in *.
        unfold ret in Ex. injection Ex as <- _.
        destruct (fun Hm => IH _ _ _ (c O) (l ++ [(c O, a)]) q _ _ _ _ H1 (Z.le_refl _) Hm Hord' Hh)
          as (P' & m' & H2 & H3 & H4).
        * intros p. unfold set_record. destruct (Z.eqb_spec p (interval t0 (c O))) as [->|Hne].
          -- rewrite values_in_snoc_same, fold_left_app, Hm. reflexivity.
          -- rewrite values_in_snoc_other by assumption. apply Hm.
        * exists P', m'. split; [assumption|split; [assumption|]].
          intros p. rewrite H4. unfold recorded at 2. cbn. rewrite <- app_assoc. reflexivity.
      + destruct (iter _ _ _ _) as [[b1 xs] c1| |] eqn:E; try discriminate Hh.
        destruct (iter_tracks _ _ _ _ _ _ _ _ _ _ _ H E) as (H1 & _ & _).
        rewrite (next_is_interval _ _ _ _ Hp Hle) in *.
        destruct (IH _ _ _ (c O) l _ _ _ _ _ H1 (Z.le_refl _) Hm Hord' Hh)
          as (P' & m' & H2 & H3 & H4).
        exists P', m'. split; [assumption|split; [assumption|]]. exact H4.
  Qed.

  Lemma records_window : forall n k c0 b0 c1 h b q b' xs c',
    buckets_new default n k c0 = Ok b0 c1 ->
    records_ordered (c0 O) h (q O) ->
    record_history default upd k b0 h = Some b ->
    iter default b k q = Ok (b', xs) c' ->
    xs = map (fun vs => fold_left upd vs default) (window (c0 O) n (q O) (recorded h)).
  Proof.
    intros n k c0 b0 c1 h b q b' xs c' E0 Hord Hh Ei.
    destruct (buckets_new_tracks _ _ _ _ _ _ E0) as (T0 & _ & _).
    destruct (fun HP Hm => records_tracked h _ _ _ (c0 O) [] _ _ _ _ _ T0 HP Hm Hord Hh)
      as (P & m & T1 & HP & Hm).
    - unfold interval. rewrite Z.sub_diag. cbn. lia.
    - reflexivity.
    - destruct (iter_tracks _ _ _ _ _ _ _ _ _ _ _ T1 Ei) as (_ & -> & _).
      rewrite (next_is_interval _ _ _ _ HP (Z.le_refl _)).
      unfold window. rewrite map_map. apply map_ext. intros j. apply Hm.
  Qed.
End Window.
