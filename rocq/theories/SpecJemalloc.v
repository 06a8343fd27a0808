(** Specification of the statistics of the allocator. *)
From Coq Require Import ZArith String List.
From Verif Require Import Base ModelSnapshot.
Import ListNotations.
Open Scope string_scope.

(** The readings in the order of the snapshot: a group of six, a group of one,
    and one on its own *)
Definition complete (l : list (option Z)) : option (list Z) :=
  fold_right (fun o r => match o, r with Some v, Some r => Some (v :: r) | _, _ => None end) (Some []) l.

(** All that was read is an [usize]. *)
Definition all_usize (l : list (option Z)) : Prop := forall z, In (Some z) l -> in_u64 z.

Definition stats_names : list string := ["active"; "allocated"; "mapped"; "metadata"; "resident"; "retained"].

Definition fields (names : list string) (values : list Z) : snapshot :=
  map (fun nv => (fst nv, UInt (snd nv))) (combine names values).

Definition stats_group (v : list Z) : string * item_kind := ("stats", ItemSnapshot (fields stats_names v)).
Definition arenas_group (n : Z) : string * item_kind := ("arenas", ItemSnapshot (fields ["narenas"] [n])).
Definition threads_item (n : Z) : string * item_kind := ("max_background_threads", UInt n).
