From Coq Require Import ZArith Bool String List Lia.
From Verif Require Import Base ModelSnapshot ModelValues ModelJemalloc SpecJemalloc.
Import ListNotations.
Open Scope string_scope.
Open Scope list_scope.

Lemma wrap_id : forall z, in_u64 z -> wrap_u64 z = z.
Proof. intros z H. unfold wrap_u64, in_u64 in *. apply Z.mod_small. lia. Qed.

Lemma jemalloc_spec : forall a de into, 
  all_usize [al_max_background_threads a; al_active a; al_allocated a; al_mapped a; al_metadata a; al_resident a; al_retained a] ->
  jemalloc_put a de into = into ++
    match al_advance a, complete [al_active a; al_allocated a; al_mapped a; al_metadata a; al_resident a; al_retained a] with
    | Some _, Some v => [stats_group v] ++
        match al_narenas a with
        | Some n => [arenas_group n] ++ match al_max_background_threads a with Some t => [threads_item t] | None => [] end
        | None => []
        end
    | _, _ => []
    end.
Proof.
  intros [[u|] a1 a2 a3 a4 a5 a6 n t] de into H; [|cbn; rewrite app_nil_r; reflexivity].
  unfold all_usize in H. cbn [al_active al_allocated al_mapped al_metadata al_resident al_retained al_max_background_threads] in H.
  destruct a1 as [a1|]; [|cbn; rewrite app_nil_r; reflexivity].
  destruct a2 as [a2|]; [|cbn; rewrite app_nil_r; reflexivity].
  destruct a3 as [a3|]; [|cbn; rewrite app_nil_r; reflexivity].
  destruct a4 as [a4|]; [|cbn; rewrite app_nil_r; reflexivity].
  destruct a5 as [a5|]; [|cbn; rewrite app_nil_r; reflexivity].
  destruct a6 as [a6|]; [|cbn; rewrite app_nil_r; reflexivity].
  assert (E : forall z, In (Some z) [t; Some a1; Some a2; Some a3; Some a4; Some a5; Some a6] -> wrap_u64 z = z)
    by (intros z Hz; apply wrap_id, H, Hz).
  unfold jemalloc_put. cbn [al_advance al_active al_allocated al_mapped al_metadata al_resident al_retained al_narenas al_max_background_threads complete fold_right].
  unfold push_source, push. cbn [item_of_source item_of_primitive app].
  rewrite (E a1), (E a2), (E a3), (E a4), (E a5), (E a6) by (cbn; tauto).
  destruct n as [n|]; [|reflexivity]. destruct t as [t|].
  - rewrite (E t) by (cbn; tauto). rewrite <- !app_assoc. reflexivity.
  - rewrite <- !app_assoc. reflexivity.
Qed.

Lemma jemalloc_appends : forall a de into, exists l,
  jemalloc_put a de into = into ++ l /\ jemalloc_put a (negb de) [] = l
  /\ exists n, map fst l = firstn n ["stats"; "arenas"; "max_background_threads"].
Proof.
  intros [[u|] a1 a2 a3 a4 a5 a6 n t] de into;
    [|exists []; split; [cbn; rewrite app_nil_r; reflexivity | split; [reflexivity | exists O; reflexivity]]].
  destruct a1 as [a1|], a2 as [a2|], a3 as [a3|], a4 as [a4|], a5 as [a5|], a6 as [a6|];
    try (exists []; split; [cbn; rewrite app_nil_r; reflexivity | split; [reflexivity | exists O; reflexivity]]).
  unfold jemalloc_put. cbn [al_advance al_active al_allocated al_mapped al_metadata al_resident al_retained al_narenas al_max_background_threads].
  unfold push_source, push. destruct n as [n|]; [destruct t as [t|]|]; rewrite <- ?app_assoc; cbn [app];
    (eexists; split; [reflexivity|]; split; [reflexivity|]).
  - exists 3%nat. reflexivity.
  - exists 2%nat. reflexivity.
  - exists 1%nat. reflexivity.
Qed.
