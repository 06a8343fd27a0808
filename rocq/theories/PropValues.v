(** C62: increments and decrements move a gauge by exactly their amounts.
    C63: values handed to the library arrive and are shown unchanged. *)
From Coq Require Import ZArith QArith Bool String List Floats.SpecFloat.
From Verif Require Import Base SpecRun SpecCounting SpecGauge SpecValues
  ModelObservation ModelLabelFilter ModelSnapshot ModelCounter ModelBuckets ModelGauge ModelSwitches
  ModelInstrument ModelValues GaugeProofs ValuesProofs.
Import ListNotations.
Open Scope Z_scope.

(** ** C62 *)

(** A gauge that reacts on labels: the sum of the accepted changes, wrapped to
    i64 in a build without overflow checks. *)
Theorem c62_moves : forall (L : Type) (eqb : L -> L -> bool) f g ds k c a' ns c',
  opt_in_i64 (gauge_get g) -> Forall (fun '(_, d, _) => delta_ok d) ds ->
  run_all (ga_handle eqb) (ga_accept f g) (map told ds) k c = Ok (a', ns) c' ->
  gauge_get (ga_gauge a')
  = option_map wrap_i64
      (changed_by (map (fun '(_, d, _) => amount d) (filter (fun '(l, _, _) => accepts eqb f l) ds))
         (gauge_get g)).
Proof. exact @told_exact. Qed.
Print Assumptions c62_moves.

Theorem c62_deltas_only_moves : forall (L : Type) (eqb : L -> L -> bool) f g ds k c a' ns c',
  opt_in_i64 (gauge_get g) -> Forall (fun '(_, d, _) => delta_ok d) ds ->
  run_all (ga_handle eqb) (ga_deltas_only f g) (map told ds) k c = Ok (a', ns) c' ->
  gauge_get (ga_gauge a')
  = option_map wrap_i64
      (changed_by (map (fun '(_, d, _) => amount d) (filter (fun '(l, _, _) => accepts eqb f l) ds))
         (gauge_get g)).
Proof. exact @deltas_only_told. Qed.
Print Assumptions c62_deltas_only_moves.

Example c62_case : list (Z * delta * Z) :=
  [(1, Increment, 0); (1, IncrementBy 10, 1); (2, IncrementBy 100, 2); (3, Decrement, 3);
   (3, DecrementBy 5, 4); (1, ChangeBy (-7), 5)].

Example c62_moves_case :
  Forall (fun '(_, d, _) => delta_ok d) c62_case
  /\ match run_all (ga_handle Z.eqb) (ga_accept (Two 1 3) (gauge_new "g")) (map told c62_case)
             debug (frozen 0) with
     | Ok (a', ns) _ => gauge_get (ga_gauge a') = Some (-2) /\ ns = [1; 1; 0; 1; 1; 1]
     | _ => False
     end
  /\ match run_all (ga_handle Z.eqb) (ga_deltas_only (Two 1 3) (gauge_new "g")) (map told c62_case)
             debug (frozen 0) with
     | Ok (a', _) _ => gauge_get (ga_gauge a') = Some (-2)
     | _ => False
     end.
Proof.
  split; [|split].
  - repeat apply Forall_cons; try apply Forall_nil; cbn; auto; split; try discriminate; reflexivity.
  - vm_compute. split; reflexivity.
  - vm_compute. reflexivity.
Qed.

(** What is incremented and decremented again leaves no trace, in no build. *)
Theorem c62_taken_back : forall g z n t1 t2 k c g1 n1 c1 g2 n2 c2,
  gauge_get g = Some z -> in_i64 z -> 0 <= n < 2 ^ 32 ->
  gauge_update g (ObservationWithValue (value_of_delta (IncrementBy n)) t1) k c = Ok (g1, n1) c1 ->
  gauge_update g1 (ObservationWithValue (value_of_delta (DecrementBy n)) t2) k c1 = Ok (g2, n2) c2 ->
  gauge_get g2 = Some z.
Proof. exact taken_back. Qed.
Print Assumptions c62_taken_back.

Example c62_taken_back_case :
  let g := Gauge "g" no_descr (Some i64_max) None Seconds false in
  match gauge_update g (ObservationWithValue (value_of_delta (IncrementBy 9)) 0) release (frozen 0) with
  | Ok (g1, _) c1 =>
      gauge_get g1 = Some (i64_min + 8)
      /\ match gauge_update g1 (ObservationWithValue (value_of_delta (DecrementBy 9)) 0) release c1 with
         | Ok (g2, _) _ => gauge_get g2 = Some i64_max
         | _ => False
         end
  | _ => False
  end.
Proof. vm_compute. split; reflexivity. Qed.

(** ** C63 *)

(** An integer of any type is shown exactly by a gauge, unless it is too large for
    i64; then the gauge stays as it is. *)
Theorem c63_gauge : forall (L : Type) (eqb : L -> L -> bool) f g p z l ts k c a' n c',
  primitive_ok p -> integer p = Some z -> accepts eqb f l = true ->
  ga_handle eqb (ga_accept f g) (observation_observed_one_value l (value_of_primitive p) ts) k c
  = Ok (a', n) c' ->
  n = 1
  /\ (z <= i64_max -> gauge_get (ga_gauge a') = Some z)
  /\ (i64_max < z -> gauge_get (ga_gauge a') = gauge_get g).
Proof. exact gauge_shows_integer. Qed.
Print Assumptions c63_gauge.

Example c63_gauge_case :
  let show p := match ga_handle Z.eqb (ga_accept (One 1) (Gauge "g" no_descr (Some 3) None Seconds false))
                        (observation_observed_one_value 1 (value_of_primitive p) 0) debug (frozen 0) with
                | Ok (a, _) _ => gauge_get (ga_gauge a)
                | _ => None
                end in
  show (PI8 (-128)) = Some (-128) /\ show (PU16 65535) = Some 65535
  /\ show (PUSize i64_max) = Some i64_max /\ show (PU64 u64_max) = Some 3.
Proof. vm_compute. repeat split. Qed.

(** A display shows every plain value with its meaning. *)
Theorem c63_display : forall t p ts k c t' n c',
  primitive_ok p -> dd_reset_after t = None -> dd_stay_on_until t = None ->
  display_update t (ObservationWithValue (value_of_primitive p) ts) k c = Ok (t', n) c' ->
  forall k2 c2, exists i,
    display_put t' false [] k2 c2 = Ok [(dd_name t, i)] c2
    /\ same_meaning (item_meaning i) (primitive_meaning p) /\ item_fits i.
Proof. exact display_shows_primitive. Qed.
Print Assumptions c63_display.

Example c63_display_case :
  match display_update (display_new "d") (ObservationWithValue (value_of_primitive (PF64 (S754_finite true 3 (-1)))) 0)
          debug (frozen 0) with
  | Ok (t, _) _ => display_put t false [] debug (frozen 0) = Ok [("d"%string, Float (S754_finite true 3 (-1)))] (frozen 0)
  | _ => False
  end
  /\ primitive_meaning (PF64 (S754_finite true 3 (-1))) = Number (- (3 # 2)).
Proof. vm_compute. split; reflexivity. Qed.

(** Constants and pushed items, including 32-bit floats, which become 64-bit
    floats without any loss. *)
Theorem c63_constant : forall name s, source_ok s -> exists i,
  constant_value_put (constant_value_new name s) false [] = [(name, i)]
  /\ same_meaning (item_meaning i) (source_meaning s) /\ item_fits i.
Proof. exact constant_shows. Qed.
Print Assumptions c63_constant.

Theorem c63_pushed : forall into name s, source_ok s -> exists i,
  push_source into name s = into ++ [(name, i)]
  /\ same_meaning (item_meaning i) (source_meaning s) /\ item_fits i.
Proof. exact pushed_last. Qed.
Print Assumptions c63_pushed.

(** 0.1f32 and the smallest positive f32 *)
Example c63_constant_case :
  let tenth := S754_finite false 13421773 (-27) in
  let tiny := S754_finite false 1 (-149) in
  source_ok (FromF32 tenth) /\ source_ok (FromF32 tiny)
  /\ constant_value_put (constant_value_new "c" (FromF32 tenth)) false []
     = [("c"%string, Float (S754_finite false 7205759511166976 (-56)))]
  /\ constant_value_put (constant_value_new "c" (FromF32 tiny)) false []
     = [("c"%string, Float (S754_finite false 4503599627370496 (-201)))].
Proof. vm_compute. repeat split. Qed.

(** The constructors of observations keep the label and take the current time;
    a counter counts what they say. *)
Theorem c63_constructors : forall (L : Type) (l : L) n v k (c : clock) o c',
  observation_observed_now l n k c = Ok o c'
  \/ observation_observed_one_now l k c = Ok o c'
  \/ observation_observed_one_value_now l v k c = Ok o c' ->
  obs_label o = l /\ obs_timestamp o = c 0%nat.
Proof. exact constructed_now. Qed.
Print Assumptions c63_constructors.

Theorem c63_counted : forall (L : Type) (l : L) n v t x k (w : clock) x' m w',
  in_u64 (counter_get x) ->
  (counter_update x (snd (split_observation (observation_observed l n t))) k w = Ok (x', m) w' ->
   counter_get x' = wrap_u64 (counter_get x + n))
  /\ (counter_update x (snd (split_observation (observation_observed_one l t))) k w = Ok (x', m) w'
      \/ counter_update x (snd (split_observation (observation_observed_one_value l v t))) k w
         = Ok (x', m) w' ->
      counter_get x' = wrap_u64 (counter_get x + 1)).
Proof. exact constructed_counts. Qed.
Print Assumptions c63_counted.

(** The same for observations made now, which also carry the value. *)
Theorem c63_counted_now : forall (L : Type) (l : L) n v k (c : clock) o c' x (w : clock) x' m w',
  in_u64 (counter_get x) -> counter_update x (snd (split_observation o)) k w = Ok (x', m) w' ->
  (observation_observed_now l n k c = Ok o c' -> counter_get x' = wrap_u64 (counter_get x + n))
  /\ (observation_observed_one_now l k c = Ok o c' -> counter_get x' = wrap_u64 (counter_get x + 1)
      /\ upd_observed_value (snd (split_observation o)) = None)
  /\ (observation_observed_one_value_now l v k c = Ok o c' -> counter_get x' = wrap_u64 (counter_get x + 1)
      /\ upd_observed_value (snd (split_observation o)) = Some v).
Proof. exact constructed_now_counts. Qed.
Print Assumptions c63_counted_now.

Example c63_constructors_case :
  match observation_observed_now 5 3 debug (fun n => Z.of_nat n + 40) with
  | Ok o _ =>
      obs_label o = 5 /\ obs_timestamp o = 40
      /\ match counter_update (counter_new "c") (snd (split_observation o)) debug (frozen 0) with
         | Ok (x, _) _ => counter_get x = 3
         | _ => False
         end
  | _ => False
  end.
Proof. vm_compute. repeat split. Qed.
