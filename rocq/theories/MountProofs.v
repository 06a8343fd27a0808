From Coq Require Import ZArith Bool String List Lia.
From Verif Require Import Base SpecRun MonadFacts SpecClock SpecWriting ModelObservation ModelLabelFilter ModelSnapshot ModelInstrument ModelTree
  ModelChannel ModelProcessor ModelConfig ModelDriver SpecTree SpecSite SpecMount TreeInd TreeEqs TreeProofs ClockProofs WritingProofs AppendProofs SiteProofs DriverShapeProofs.
Import ListNotations.
Open Scope list_scope.
Open Scope Z_scope.

Lemma appended_snoc : forall A (l : list A) x, appended l (l ++ [x]) x.
Proof.
  intros A l x. split; [rewrite app_length; cbn; lia|]. split; [rewrite nth_error_app2, PeanoNat.Nat.sub_diag by lia; reflexivity|].
  intros j y H. rewrite nth_error_app1; [exact H|]. apply nth_error_Some. congruence.
Qed.

Section Mounts.
  Context {X : ext} {Y : pext} (HX : parts_tick X) (HY : processors_tick Y) (HA : parts_append X) (HB : forall u, appends (user_proc_put Y u)).

  Lemma mount_writes : forall d ps ss de into k c (m' : mount X Y) out c',
    mount_put (Mount d ps ss) de into k c = Ok (m', out) c' ->
    exists added ps' ss', out = into ++ added /\ m' = Mount d ps' ss'
      /\ (forall j p, nth_error ps j = Some p -> exists p', nth_error ps' j = Some p'
            /\ writes_below processor_put k c (md_name d) (mount_guard d) p de added p' c')
      /\ (forall j s, nth_error ss j = Some s -> exists s', nth_error ss' j = Some s'
            /\ writes_below snapshooter_put k c (md_name d) (mount_guard d) s de added s' c').
  Proof.
    destruct (tree_put_ticks HX) as (_ & _ & _ & Ts). destruct (tree_appends HA) as (_ & _ & _ & Gs).
    destruct (processor_put_ticks HX HY) as [Tp _]. destruct (processor_appends HA Y HB) as [Gp _].
    intros d ps ss de into k c m' out c' E. rewrite mount_put_eq in E.
    apply guarded_put in E. destruct E as [(-> & Hh & added & ->)|(level & s1 & c1 & L & E & H)].
    { exists added, ps, ss. split; [reflexivity|]. split; [reflexivity|]. split; intros j x Hn; exists x; (split; [exact Hn|]); left; auto. }
    apply bind_ok in E. destruct E as ([ps' t2] & c3 & E2 & E).
    apply bind_ok in E. destruct E as ([ss' t3] & c4 & E3 & E). injection E as <- <- <-.
    destruct (grows_traverse _ _ _ _ (all_grow _ _ _ Gp _) _ _ _ _ _ E2) as (a2 & ->).
    destruct (grows_traverse _ _ _ _ (all_grow _ _ _ Gs _) _ _ _ _ _ E3) as (a3 & ->).
    destruct (H (a2 ++ a3)) as (more & -> & Hm); [rewrite <- !app_assoc; reflexivity|].
    exists more, ps', ss'. split; [reflexivity|]. split; [reflexivity|].
    pose proof (ticks_traverse _ _ _ _ _ (all_put _ _ _ Tp _) _ _ _ _ E2) as L2.
    pose proof (ticks_traverse _ _ _ _ _ (all_put _ _ _ Ts _) _ _ _ _ E3) as L3.
    split; intros j x Hn.
    - destruct (traverse_put_nth _ _ _ _ _ Hn (all_put _ _ _ Tp _) (all_grow _ _ _ Gp _) _ _ _ _ _ _ E2)
        as (s' & s0 & b & d1 & d2 & K1 & F & K2 & Hj & before & after & Ea).
      apply app_inv_head in Ea. subst a2.
      exists s'. split; [exact Hj|]. right. exists s0, b, d1, d2.
      split; [eapply later_trans; [exact L | exact K1]|]. split; [exact F|].
      split; [eapply later_trans; [exact K2 | exact L3]|].
      rewrite <- (app_nil_r (opt_list _)). apply Hm. exists before, (after ++ a3). rewrite <- !app_assoc. reflexivity.
    - destruct (traverse_put_nth _ _ _ _ _ Hn (all_put _ _ _ Ts _) (all_grow _ _ _ Gs _) _ _ _ _ _ _ E3)
        as (s' & s0 & b & d1 & d2 & K1 & F & K2 & Hj & before & after & Ea).
      rewrite <- !app_assoc in Ea. apply app_inv_head, app_inv_head in Ea. subst a3.
      exists s'. split; [exact Hj|]. right. exists s0, b, d1, d2.
      split; [eapply later_trans; [exact L | eapply later_trans; [exact L2 | exact K1]]|]. split; [exact F|].
      split; [exact K2|].
      rewrite <- (app_nil_r (opt_list _)). apply Hm. exists (a2 ++ before), after. rewrite <- !app_assoc. reflexivity.
  Qed.
End Mounts.
