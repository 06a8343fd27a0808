(** C90. *)
From Coq Require Import ZArith Bool String List.
From Verif Require Import Base ModelSnapshot ModelValues ModelJemalloc SpecJemalloc JemallocProofs.
Import ListNotations.
Open Scope string_scope.
Open Scope list_scope.

(** All statistics that can be read are shown; a group is shown completely or not
    at all, and what follows something unreadable is not shown. *)
Theorem c90_statistics : forall a de into,
  all_usize [al_max_background_threads a; al_active a; al_allocated a; al_mapped a; al_metadata a; al_resident a; al_retained a] ->
  jemalloc_put a de into = into ++
    match al_advance a, complete [al_active a; al_allocated a; al_mapped a; al_metadata a; al_resident a; al_retained a] with
    | Some _, Some v => [stats_group v] ++
        match al_narenas a with
        | Some n => [arenas_group n] ++ match al_max_background_threads a with Some t => [threads_item t] | None => [] end
        | None => []
        end
    | _, _ => []
    end.
Proof. exact jemalloc_spec. Qed.
Print Assumptions c90_statistics.

(** It only appends, whatever was read; neither descriptions nor what there is
    already matter. *)
Theorem c90_appends : forall a de into, exists l,
  jemalloc_put a de into = into ++ l /\ jemalloc_put a (negb de) [] = l
  /\ exists n, map fst l = firstn n ["stats"; "arenas"; "max_background_threads"].
Proof. exact jemalloc_appends. Qed.
Print Assumptions c90_appends.

Definition readable : allocator :=
  Allocator (Some tt) (Some 10%Z) (Some 9%Z) (Some 30%Z) (Some 3%Z) (Some 20%Z) (Some 0%Z) (Some 16%Z) None.
Example c90_case :
  all_usize [al_max_background_threads readable; al_active readable; al_allocated readable; al_mapped readable;
             al_metadata readable; al_resident readable; al_retained readable]
  /\ find (jemalloc_put readable true [("a", UInt 1)]) "stats/resident" = Found (UInt 20)
  /\ find (jemalloc_put readable true []) "arenas/narenas" = Found (UInt 16)
  /\ find (jemalloc_put readable true []) "max_background_threads" = NotFound
  /\ jemalloc_put (Allocator (Some tt) (Some 1%Z) None None None None None None None) false [("a", UInt 1)] = [("a", UInt 1)].
Proof.
  split; [|repeat split; reflexivity].
  intros z H. cbn in H. repeat (destruct H as [H|H]; [try discriminate H; injection H as <-; split; discriminate|]). destruct H.
Qed.
