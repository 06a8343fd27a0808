(** Histories with insertions, from a relation between the two runs. *)
From Coq Require Import ZArith Bool String List Lia.
From Verif Require Import Base SpecRun SpecReads.
Import ListNotations.
Open Scope Z_scope.

Section Histories.
  Context {S Op R : Type} (step : Z -> S -> Op -> option (S * R)) (is_read : Op -> bool).
  Context (E : Z -> S -> S -> Prop).
  Context (E_refl : forall t x, E t x x)
    (E_later : forall t t' x y, t <= t' -> E t x y -> E t' x y)
    (E_step : forall t x y o x' y' r s, E t x y -> step t x o = Some (x', r) -> step t y o = Some (y', s) ->
       r = s /\ E t x' y')
    (E_read : forall t x y o y' s, E t x y -> is_read o = true -> step t y o = Some (y', s) -> E t x y').

  Lemma answers_insert : forall h x y from rs1 rs2,
    E from x y -> in_order from (whole h) ->
    Forall (fun e => fst e = true -> is_read (snd (snd e)) = true) h ->
    answers step x (without_marked h) = Some rs1 ->
    answers step y (whole h) = Some rs2 ->
    rs1 = unmarked h rs2.
  Proof.
    induction h as [|[m [t o]] h IH]; intros x y from rs1 rs2 HE Ho Hm E1 E2.
    - cbn in *. congruence.
    - cbn [whole map snd in_order] in Ho. destruct Ho as [Ht Ho].
      apply (E_later _ t) in HE; [|exact Ht]. inversion Hm as [|? ? Hm1 Hm2]; subst. cbn [fst snd] in Hm1.
      cbn [whole map snd answers] in E2.
      destruct (step t y o) as [[y' s]|] eqn:Ey; [|discriminate E2].
      destruct (answers step y' (map snd h)) as [rs2'|] eqn:E2'; [|discriminate E2]. injection E2 as <-.
      destruct m.
      + change (without_marked ((true, (t, o)) :: h)) with (without_marked h) in E1. cbn [unmarked].
        exact (IH x y' t rs1 rs2' (E_read _ _ _ _ _ _ HE (Hm1 eq_refl) Ey) Ho Hm2 E1 E2').
      + change (without_marked ((false, (t, o)) :: h)) with ((t, o) :: without_marked h) in E1.
        cbn [answers] in E1. destruct (step t x o) as [[x' r]|] eqn:Ex; [|discriminate E1].
        destruct (answers step x' (without_marked h)) as [rs1'|] eqn:E1'; [|discriminate E1]. injection E1 as <-.
        destruct (E_step _ _ _ _ _ _ _ _ HE Ex Ey) as [-> HE']. cbn [unmarked]. f_equal.
        exact (IH x' y' t rs1' rs2' HE' Ho Hm2 E1' E2').
  Qed.

  Lemma reads_do_not_matter : forall x, insertions_do_not_matter step is_read x.
  Proof. intros x h from rs1 rs2 Ho Hm E1 E2. eapply answers_insert; eauto. Qed.
End Histories.
