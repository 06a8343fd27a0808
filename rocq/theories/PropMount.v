(** C74: building mounts. *)
From Coq Require Import ZArith Bool String List Lia.
From Verif Require Import Base SpecRun SpecClock SpecWriting ModelObservation ModelSnapshot ModelInstrument ModelTree ModelChannel ModelProcessor
  ModelConfig ModelDriver SpecTree SpecSite SpecMount AppendProofs DriverShapeProofs MountProofs Toy PropGroup PropFollow PropWriting PropSite.
Import ListNotations.
Open Scope string_scope.
Open Scope list_scope.
Open Scope Z_scope.

(** A new mount is empty and has been active now. What is added to a mount, in
    whichever way, comes behind what was there; nothing else changes. *)
Theorem c74_mount : forall X Y,
  (forall k c, mount_default (X := X) (Y := Y) k c = Ok (Mount (MountData None no_descr (c O) None) [] []) (fun i => c (S i)))
  /\ (forall n k c, mount_new (X := X) (Y := Y) n k c = Ok (Mount (MountData (Some n) no_descr (c O) None) [] []) (fun i => c (S i)))
  /\ forall d (ps : list (processor X Y)) ss,
       (forall p, exists ps', mount_add_processor (Mount d ps ss) p = Mount d ps' ss
          /\ mount_add_processor_dyn (Mount d ps ss) p = Mount d ps' ss /\ appended ps ps' p)
       /\ (forall s, exists ss', mount_add_snapshooter (Mount d ps ss) s = Mount d ps ss'
          /\ mount_add_snapshooter_dyn (Mount d ps ss) s = Mount d ps ss' /\ appended ss ss' s).
Proof.
  intros X Y. split; [reflexivity|]. split; [reflexivity|]. intros d ps ss.
  split; intros x; eexists; (split; [reflexivity|]); (split; [reflexivity | apply appended_snoc]).
Qed.
Print Assumptions c74_mount.

(** Everything in a mount is in its snapshots, below its name unless it is
    inactive. *)
Theorem c74_mount_shown : forall X Y, parts_tick X -> processors_tick Y -> parts_append X -> (forall u, appends (user_proc_put Y u)) ->
  forall d ps ss de into k c (m' : mount X Y) out c',
  mount_put (Mount d ps ss) de into k c = Ok (m', out) c' ->
  exists added ps' ss', out = into ++ added /\ m' = Mount d ps' ss'
    /\ (forall j p, nth_error ps j = Some p -> exists p', nth_error ps' j = Some p'
          /\ writes_below processor_put k c (md_name d) (mount_guard d) p de added p' c')
    /\ (forall j s, nth_error ss j = Some s -> exists s', nth_error ss' j = Some s'
          /\ writes_below snapshooter_put k c (md_name d) (mount_guard d) s de added s' c').
Proof. intros X Y HX HY HA HB. exact (mount_writes HX HY HA HB). Qed.
Print Assumptions c74_mount_shown.

Definition built_mount : M (mount toy toyp) :=
  let* m := mount_new "outer" in
  let* i := mount_default in
  let i := mount_add_snapshooter_dyn i (SConstant (ConstantValue "inner" no_descr (Int 1))) in
  let m := mount_add_processor m (PMount i) in
  ret (mount_add_snapshooter m (SConstant (ConstantValue "value" no_descr (Int 2)))).
Example c74_mount_case :
  match (let* m := built_mount in mount_put m false []) debug (frozen 5) with
  | Ok (_, s) _ => s = [("outer", ItemSnapshot [("inner", Int 1); ("value", Int 2)])]
  | _ => False
  end.
Proof. vm_compute. reflexivity. Qed.
