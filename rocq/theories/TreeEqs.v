(** The defining equations of the mutually recursive functions. *)
From Coq Require Import ZArith Bool String List.
From Verif Require Import Base ModelObservation ModelLabelFilter ModelSnapshot ModelInstrument ModelTree ModelProcessor.
Import ListNotations.
Open Scope Z_scope.

Lemma panel_put_eq : forall X d sl ps hs (ss : list (snapshooter X)) de into,
  panel_put (Panel d sl ps hs ss) de into
  = put_named (pd_name d)
      (fun into =>
         check_activity (pd_limit d) (pd_show_activity d) (pd_last_update d) (Panel d sl ps hs ss)
           (fun into =>
              let* '(sl, into) := slots_put de sl into in
              let* '(ps, into) := traverse (fun x => panel_put x de) ps into in
              let* '(ss, into) := traverse (fun x => snapshooter_put x de) ss into in
              let* '(hs, into) := traverse (fun x => handler_put x de) hs into in
              ret (Panel d sl ps hs ss, into))
           (put_default_descriptives (pd_descr d) into de)) into.
Proof. reflexivity. Qed.

Lemma cockpit_put_eq : forall X d ps hs (ss : list (snapshooter X)) de into,
  cockpit_put (Cockpit d ps hs ss) de into
  = put_named (cd_name d)
      (fun into =>
         check_activity (cd_limit d) (cd_show_activity d) (cd_last_activity d) (Cockpit d ps hs ss)
           (fun into =>
              let* '(ps, into) := traverse (fun x => panel_put x de) ps into in
              let* '(hs, into) := traverse (fun x => handler_put x de) hs into in
              let* '(ss, into) := traverse (fun x => snapshooter_put x de) ss into in
              ret (Cockpit d ps hs ss, into))
           (put_default_descriptives (cd_descr d) into de)) into.
Proof. reflexivity. Qed.

Lemma mount_put_eq : forall X Y d ps (ss : list (snapshooter X)) de into,
  mount_put (Y := Y) (Mount d ps ss) de into
  = put_named (md_name d)
      (fun into =>
         check_activity (md_limit d) true (md_last_activity d) (Mount d ps ss)
           (fun into =>
              let* '(ps, into) := traverse (fun x => processor_put x de) ps into in
              let* '(ss, into) := traverse (fun x => snapshooter_put x de) ss into in
              ret (Mount d ps ss, into))
           (put_default_descriptives (md_descr d) into de)) into.
Proof. reflexivity. Qed.

Lemma cockpit_handle_eq : forall X d ps hs (ss : list (snapshooter X)) o,
  cockpit_handle (Cockpit d ps hs ss) o
  = let* t := now in
    let* '(hs, n) := traverse (tally (fun x => handler_handle x o)) hs 0 in
    let* '(ps, n) := traverse (tally (fun x => panel_handle x o)) ps n in
    ret (Cockpit (cockpit_touch d t) ps hs ss, n).
Proof. reflexivity. Qed.
