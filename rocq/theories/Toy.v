(** Concrete external parts for the examples beside the theorems. *)
From Coq Require Import ZArith Bool String List.
From Verif Require Import Base ModelObservation ModelLabelFilter ModelSnapshot ModelCounter
  ModelGauge ModelMeter ModelHistogram ModelSwitches ModelInstrument ModelTree ModelChannel ModelProcessor.
Import ListNotations.
Open Scope string_scope.
Open Scope list_scope.
Open Scope Z_scope.

(** A reservoir that keeps everything. *)
Definition toy_histo : histo_ops :=
  HistoOps (list Z) (let* _ := now in ret []) (fun l v => let* _ := now in ret (l ++ [v]))
    (fun l => HistoSnap (Z.of_nat (List.length l)) (fold_left Z.min l 1000) (fold_left Z.max l 0)
                f64_zero f64_zero (fun q => q)).

(** Labels are strings; the user's parts count how often they are used. *)
Definition toy : ext :=
  Ext string String.eqb (Alphas f64_zero f64_zero f64_zero) toy_histo
    Z (fun n _ => ret (n + 1, 1)) (fun n _ into => ret (n, push into "user_instrument" (Int n)))
    Z (fun n _ => ret (n + 1, 2)) (fun n _ into => ret (n, push into "user_handler" (Int n)))
    Z (fun n _ into => ret (n, push into "user_snapshooter" (Int n))).

Definition la : lab toy := "a".
Definition lb : lab toy := "b".
Definition lc : lab toy := "c".

(** The user's processors process one message per collection. *)
Definition toyp : pext :=
  PExt Z (fun n _ _ => ret (n + 1, Outcome 1 0 0 0)) (fun n _ into => ret (n, push into "user_processor" (Int n)))
    (option snapshot) (fun h _ => ret (h, h)).

(** A counter and a gauge in a panel for the label "a" that contains an unnamed
    panel for "b" and a user's handler. *)
Definition toy_inner : panel toy :=
  Panel (PanelData (One lb) None (Descr (Some "inner") None) 0 None true)
    (Slots (Some (adapter_new (counter_new "inner_count"))) None None None) [] [] [].

Definition toy_panel : panel toy :=
  Panel (PanelData (Two la lb) (Some "panel") (Descr (Some "outer") (Some "text")) 0 None true)
    (Slots (Some (adapter_new (counter_new "count"))) (Some (ga_inc_dec_on (One la) (One lb) (gauge_new "gauge")))
       None None)
    [toy_inner]
    [HInstrument (adapter_accept (One la) (IFlag (flag_new "flag"))); HUser (0 : user_handler toy)]
    [SConstant (ConstantValue "constant" no_descr (Int 7)); SUser (3 : user_snap toy)].

Definition toy_cockpit : cockpit toy :=
  Cockpit (CockpitData (Some "cockpit") (Descr (Some "cockpit title") None) 0 None true)
    [toy_panel; toy_inner] [HUser (5 : user_handler toy); HPanel toy_inner] [].
