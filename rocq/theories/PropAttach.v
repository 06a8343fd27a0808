(** C65: which observations an instrument is told about. *)
From Coq Require Import ZArith Bool String List.
From Verif Require Import Base SpecRun ModelObservation ModelLabelFilter ModelSnapshot ModelCounter ModelGauge ModelInstrument
  ModelConfig SpecAttach AttachProofs Toy.
Import ListNotations.
Open Scope string_scope.
Open Scope list_scope.
Open Scope Z_scope.

(** C65. [ch] says for which labels an instrument [i] is to be updated, [attached ch i]
    lists the functions that can be called for that. Whatever observations [os]
    arrive, the instrument ends as if it had been given just the updates
    [us] that [ch] asks for, and as many updates are reported. *)
Theorem c65_instrument : forall (X : ext) I (upd : I -> update -> M (I * Z)),
  (forall a b, lab_eqb X a b = true <-> a = b) ->
  forall ch (i : I) (a : adapter X I) os us k c a' ns c',
  In a (attached ch i) -> sees ch os us ->
  run_all (adapter_handle upd) a os k c = Ok (a', ns) c' ->
  exists ns', run_all upd i us k c = Ok (ad_instrument a', ns') c' /\ sum ns = sum ns'.
Proof. exact @attached_sees. Qed.
Print Assumptions c65_instrument.

Definition c65_observations : list (observation (lab toy)) :=
  [ObservedOne la 0; Observed lb 5 0; Observed la 2 1; ObservedOne lc 2; ObservedOneValue lb (ChangedBy (-1)) 3;
   ObservedOneValue lc (ChangedBy 7) 4].

Lemma c65_sees : sees (ForLabels [la; lc]) c65_observations
  [OneObservation 0; Observations 2 1; OneObservation 2; ObservationWithValue (ChangedBy 7) 4].
Proof.
  repeat first [apply sees_nil | apply sees_one; [cbn; auto; fail|] | apply sees_not; [cbn; intros [E|[E|[]]]; discriminate E|]].
Qed.

Example c65_instrument_case :
  sees (ForLabels [la; lc]) c65_observations
    [OneObservation 0; Observations 2 1; OneObservation 2; ObservationWithValue (ChangedBy 7) 4]
  /\ Forall (fun a => match run_all (adapter_handle counter_update) a c65_observations release (frozen 0) with
                      | Ok (a', ns) _ => c_count (ad_instrument a') = 5 /\ sum ns = 4
                      | _ => False
                      end) (attached (X := toy) (ForLabels [la; lc]) (counter_new "c")).
Proof. split; [exact c65_sees | repeat constructor]. Qed.

(** With a function that modifies the updates, given before or after the
    choice, the instrument sees the modified
    updates of the same observations. *)
Theorem c65_modified : forall (X : ext) I (upd : I -> update -> M (I * Z)),
  (forall a b, lab_eqb X a b = true <-> a = b) ->
  forall ch (i : I) f (a : adapter X I) os us k c a' ns c',
  In a (attached_modified ch f i) -> sees_as ch f os us ->
  run_all (adapter_handle upd) a os k c = Ok (a', ns) c' ->
  exists ns', run_all upd i us k c = Ok (ad_instrument a', ns') c' /\ sum ns = sum ns'.
Proof. exact @modified_sees. Qed.
Print Assumptions c65_modified.

(** Each observation counts tenfold. *)
Definition tenfold (l : lab toy) (u : update) : update :=
  match u with Observations n t => Observations (10 * n) t | OneObservation t => Observations 10 t | u => u end.
Example c65_modified_case :
  sees_as (ForLabels [la; lc]) tenfold c65_observations
    [Observations 10 0; Observations 20 1; Observations 10 2; ObservationWithValue (ChangedBy 7) 4]
  /\ Forall (fun a => match run_all (adapter_handle counter_update) a c65_observations release (frozen 0) with
                      | Ok (a', ns) _ => c_count (ad_instrument a') = 41 /\ sum ns = 4
                      | _ => False
                      end) (attached_modified (X := toy) (ForLabels [la; lc]) tenfold (counter_new "c"))
  /\ Forall (fun a => match run_all (adapter_handle counter_update) a (firstn 2 c65_observations) release (frozen 0) with
                      | Ok (a', _) _ => c_count (ad_instrument a') = 60
                      | _ => False
                      end) (attached_modified (X := toy) ForAllLabels tenfold (counter_new "c")).
Proof.
  split; [|split; repeat constructor].
  repeat first [apply sa_nil | apply (sa_one (ForLabels [la; lc]) tenfold); [cbn; auto; fail|]
               |apply sa_not; [cbn; intros [E|[E|[]]]; discriminate E|]].
Qed.

(** The same for gauges *)
Theorem c65_gauge : forall L (eqb : L -> L -> bool), (forall a b, eqb a b = true <-> a = b) ->
  forall ch g a os us k c a' ns c',
  In a (attached_gauge eqb ch g) -> sees ch os us ->
  run_all (ga_handle eqb) a os k c = Ok (a', ns) c' ->
  exists ns', run_all gauge_update g us k c = Ok (ga_gauge a', ns') c' /\ sum ns = sum ns'.
Proof. exact @gauge_sees. Qed.
Print Assumptions c65_gauge.

(** Gauges for which only changes are wanted *)
Theorem c65_gauge_changes : forall L (eqb : L -> L -> bool), (forall a b, eqb a b = true <-> a = b) ->
  forall ch g a os us k c a' ns c',
  In a (attached_deltas eqb ch g) -> sees_changes ch os us ->
  run_all (ga_handle eqb) a os k c = Ok (a', ns) c' ->
  exists ns', run_all gauge_update g us k c = Ok (ga_gauge a', ns') c' /\ sum ns = sum ns'.
Proof. exact @gauge_sees_changes. Qed.
Print Assumptions c65_gauge_changes.

(** Gauges that go one up for some labels and one down for others *)
Theorem c65_gauge_steps : forall L (eqb : L -> L -> bool), (forall a b, eqb a b = true <-> a = b) ->
  forall inc dec g a os us k c a' ns c',
  In a (attached_steps eqb inc dec g) -> sees_steps inc dec os us ->
  run_all (ga_handle eqb) a os k c = Ok (a', ns) c' ->
  exists ns', run_all gauge_update g us k c = Ok (ga_gauge a', ns') c' /\ sum ns = sum ns'.
Proof. exact @gauge_sees_steps. Qed.
Print Assumptions c65_gauge_steps.

Definition c65_value (a : gauge_adapter string) : option (option Z * Z) :=
  match run_all (ga_handle String.eqb) a c65_observations release (frozen 0) with
  | Ok (a', ns) _ => Some (g_value (ga_gauge a'), sum ns)
  | _ => None
  end.

Example c65_gauge_case :
  sees (ForLabels [la; lc]) c65_observations
    [OneObservation 0; Observations 2 1; OneObservation 2; ObservationWithValue (ChangedBy 7) 4]
  /\ Forall (fun a => c65_value a = Some (Some 7, 1)) (attached_gauge String.eqb (ForLabels [la; lc]) (gauge_new "g"))
  /\ sees_changes (ForLabels [la; lc]) c65_observations [ObservationWithValue (ChangedBy 7) 4]
  /\ Forall (fun a => c65_value a = Some (Some 7, 1)) (attached_deltas String.eqb (ForLabels [la; lc]) (gauge_new "g"))
  /\ sees_steps (ForLabels [la]) (ForLabels [lb; la]) c65_observations
       (map (fun p => ObservationWithValue (ChangedBy (fst p)) (snd p)) [(1, 0); (-1, 0); (1, 1); (-1, 3)])
  /\ Forall (fun a => c65_value a = Some (Some 0, 4))
       (attached_steps String.eqb (ForLabels [la]) (ForLabels [lb; la]) (gauge_new "g")).
Proof.
  split; [exact c65_sees|]. split; [repeat constructor|]. split.
  - repeat first [apply sc_nil | apply sc_one; [cbn; auto; fail|cbn; exact I|]
                 | apply sc_not; [cbn; intros [[E|[E|[]]] F]; first [discriminate E | exact F]|]].
  - split; [repeat constructor|]. split.
    + cbn [map fst snd]. unfold c65_observations.
      repeat first [apply ss_nil | apply (ss_up _ _ (ObservedOne la 0)); [cbn; auto; fail|]
                   | apply (ss_up _ _ (Observed la 2 1)); [cbn; auto; fail|]
                   | apply (ss_down _ _ (Observed lb 5 0)); [cbn; intros [E|[]]; discriminate E | cbn; auto; fail |]
                   | apply (ss_down _ _ (ObservedOneValue lb (ChangedBy (-1)) 3)); [cbn; intros [E|[]]; discriminate E | cbn; auto; fail |]
                   | apply ss_not; [cbn; intros [E|[]]; discriminate E | cbn; intros [E|[E|[]]]; discriminate E|]].
    + repeat constructor.
Qed.
