(** Model of src/instruments/fundamentals/metrics_meter.rs,
    src/instruments/meter.rs and
    src/instruments/other_instruments/value_meter.rs. *)
From Coq Require Import ZArith Bool List String Floats.SpecFloat.
From Verif Require Import Base ModelObservation ModelSnapshot.
Import ListNotations.
Open Scope Z_scope.

(** ** metrics_meter.rs *)

Notation tick_rate_secs := 5.            (* metrics_meter.rs 198 *)
Notation tick_nanos := 5000000000.       (* 5 s *)

(** metrics_meter.rs 203-208 *)
Record ewma := Ewma {
  e_uncounted : Z;   (* AtomicUsize *)
  e_alpha : f64;
  e_rate : f64;
  e_init : bool
}.

(** metrics_meter.rs 233-240 *)
Definition ewma_new_by_alpha (alpha : f64) : ewma := Ewma 0 alpha f64_zero false.

(** metrics_meter.rs 212-214 *)
Definition ewma_rate (e : ewma) : f64 := f64_mul (e_rate e) (f64_of_Z nanos_per_sec).

(** metrics_meter.rs 216-226 *)
Definition ewma_tick (e : ewma) : ewma :=
  let i_rate := f64_div (f64_of_Z (e_uncounted e)) (f64_of_Z (tick_rate_secs * nanos_per_sec)) in
  if e_init e then
    Ewma 0 (e_alpha e)
      (f64_add (e_rate e) (f64_mul (e_alpha e) (f64_sub i_rate (e_rate e)))) true
  else Ewma 0 (e_alpha e) i_rate true.

(** metrics_meter.rs 228-230; [fetch_add] wraps *)
Definition ewma_update (e : ewma) (n : Z) : ewma :=
  Ewma (wrap_u64 (e_uncounted e + n)) (e_alpha e) (e_rate e) (e_init e).

(** The three smoothing factors [1 - exp(-5/60/n)] for n = 1, 5, 15 minutes
    (metrics_meter.rs 243-246, 142). libm's [exp] is not modelled: the factors
    are a parameter. *)
Record alphas := Alphas { alpha1 : f64; alpha5 : f64; alpha15 : f64 }.

(** metrics_meter.rs 27-38. The [Mutex] is only ever locked by one thread. *)
Record std_meter := StdMeter {
  sm_count : Z;       (* i64 *)
  sm_e1 : ewma;
  sm_e5 : ewma;
  sm_e15 : ewma;
  sm_next_tick : Z;
  sm_start : Z
}.

(** metrics_meter.rs 136-148 *)
Definition std_meter_default (al : alphas) : M std_meter :=
  let* t := now in
  let* nt := instant_add t tick_nanos in
  ret (StdMeter 0 (ewma_new_by_alpha (alpha1 al)) (ewma_new_by_alpha (alpha5 al))
         (ewma_new_by_alpha (alpha15 al)) nt t).

(** metrics_meter.rs 127-132, [while s.next_tick <= now]. The first argument
    bounds the number of iterations; [std_tick_inner] passes enough (proved). *)
Fixpoint std_tick_loop (n : nat) (t : Z) (s : std_meter) : M std_meter :=
  if sm_next_tick s <=? t then
    match n with
    | O => fun _ _ => NoFuel
    | S n' =>
        let* nt := instant_add (sm_next_tick s) tick_nanos in
        std_tick_loop n' t
          (StdMeter (sm_count s) (ewma_tick (sm_e1 s)) (ewma_tick (sm_e5 s))
             (ewma_tick (sm_e15 s)) nt (sm_start s))
    end
  else ret s.

(** metrics_meter.rs 124-133 *)
Definition std_tick_inner (s : std_meter) : M std_meter :=
  let* t := now in
  std_tick_loop (Z.to_nat ((t - sm_next_tick s) / tick_nanos + 1)) t s.

(** metrics_meter.rs 67-76; [n as usize] wraps *)
Definition std_mark (s : std_meter) (n : Z) : M std_meter :=
  let* s := std_tick_inner s in
  let* c := add_i64 (sm_count s) n in
  let u := wrap_u64 n in
  ret (StdMeter c (ewma_update (sm_e1 s) u) (ewma_update (sm_e5 s) u)
         (ewma_update (sm_e15 s) u) (sm_next_tick s) (sm_start s)).

(** metrics_meter.rs 78-81 *)
Definition std_tick (s : std_meter) : M std_meter := std_tick_inner s.

(** metrics_meter.rs 114-122 *)
Definition std_mean_inner (s : std_meter) : M f64 :=
  if sm_count s =? 0 then ret f64_zero
  else
    let* dur := elapsed (sm_start s) in
    let* a := mul_u64 (as_secs dur) nanos_per_sec in
    let* nanos := add_u64 a (subsec_nanos dur) in
    ret (f64_mul (f64_div (f64_of_Z (sm_count s)) (f64_of_Z nanos))
           (f64_of_Z nanos_per_sec)).

(** metrics_meter.rs 18-24 *)
Record std_snapshot_data := StdSnapshot {
  ss_count : Z; ss_rate1 : f64; ss_rate5 : f64; ss_rate15 : f64; ss_mean : f64
}.

(** metrics_meter.rs 56-65 *)
Definition std_snapshot (s : std_meter) : M (std_meter * std_snapshot_data) :=
  let* s := std_tick_inner s in
  let* mean := std_mean_inner s in
  ret (s, StdSnapshot (sm_count s) (ewma_rate (sm_e1 s)) (ewma_rate (sm_e5 s))
            (ewma_rate (sm_e15 s)) mean).

(** ** meter.rs and value_meter.rs *)

(** meter.rs 19-29; value_meter.rs 13-25 has [display_time_unit] in addition *)
Record meter := Meter {
  m_name : string;
  m_descr : descr;
  m_last_tick : Z;
  m_inner : std_meter;
  m_lower_cutoff : f64;
  m_one_minute : bool;
  m_five_minute : bool;
  m_fifteen_minute : bool
}.

(** The default cutoff 0.001 as a double (meter.rs 39) *)
Definition default_cutoff : f64 := S754_finite false 4611686018427388 (-62).

(** meter.rs 32-44; value_meter.rs 28-41 *)
Definition meter_new (al : alphas) (name : string) : M meter :=
  let* t := now in
  let* s := std_meter_default al in
  ret (Meter name no_descr t s default_cutoff true false false).

Definition meter_with (m : meter) (last_tick : Z) (s : std_meter) : meter :=
  Meter (m_name m) (m_descr m) last_tick s (m_lower_cutoff m) (m_one_minute m)
        (m_five_minute m) (m_fifteen_minute m).

(** meter.rs 251-254 and 185-188: [if last_tick.elapsed() >= 5s { tick; last_tick = now }] *)
Definition meter_maybe_tick (m : meter) : M meter :=
  let* e := elapsed (m_last_tick m) in
  if 5 * nanos_per_sec <=? e then
    let* s := std_tick (m_inner m) in
    let* t := now in
    ret (meter_with m t s)
  else ret m.

(** [self.inner_meter.mark(n)] *)
Definition meter_mark (m : meter) (n : Z) : M meter :=
  let* s := std_mark (m_inner m) n in
  ret (meter_with m (m_last_tick m) s).

(** meter.rs 250-267 *)
Definition meter_update (m : meter) (u : update) : M (meter * Z) :=
  let* m := meter_maybe_tick m in
  match u with
  | ObservationWithValue _ _ => let* m := meter_mark m 1 in ret (m, 1)
  | Observations n _ =>
      if (n <=? i64_max) && negb (n =? 0) then let* m := meter_mark m n in ret (m, 1)
      else ret (m, 1)
  | OneObservation _ => let* m := meter_mark m 1 in ret (m, 1)
  end.

(** meter.rs 280-288. [MeterRate.share] (338-341) is always [None] and left
    out. *)
Record meter_snapshot := MeterSnapshot {
  ms_count : Z;
  ms_one_minute : option f64;
  ms_five_minutes : option f64;
  ms_fifteen_minutes : option f64
}.

(** meter.rs 199-203 *)
Definition cut (cutoff rate : f64) : f64 := if f64_ltb rate cutoff then f64_zero else rate.

(** meter.rs 184-236, value_meter.rs 189-241; [snapshot.count as u64] wraps *)
Definition meter_get_snapshot (m : meter) : M (meter * meter_snapshot) :=
  let* m := meter_maybe_tick m in
  let* '(s, snap) := std_snapshot (m_inner m) in
  let m := meter_with m (m_last_tick m) s in
  let c := m_lower_cutoff m in
  ret (m, MeterSnapshot (wrap_u64 (ss_count snap))
            (if m_one_minute m then Some (cut c (ss_rate1 snap)) else None)
            (if m_five_minute m then Some (cut c (ss_rate5 snap)) else None)
            (if m_fifteen_minute m then Some (cut c (ss_rate15 snap)) else None)).

(** meter.rs 343-350 *)
Definition put_rate (rate : f64) : snapshot := [("rate"%string, Float rate)].

Definition push_rate (into : snapshot) (label : string) (r : option f64) : snapshot :=
  match r with
  | None => into
  | Some r => push into label (ItemSnapshot (put_rate r))
  end.

(** meter.rs 291-325 *)
Definition meter_snapshot_put (name : string) (d : descr) (s : meter_snapshot)
  (descriptive : bool) (into : snapshot) : snapshot :=
  let into := put_postfixed_descriptives d name into descriptive in
  let new_level := push snapshot_default "count" (UInt (ms_count s)) in
  let new_level := push_rate new_level "one_minute" (ms_one_minute s) in
  let new_level := push_rate new_level "five_minutes" (ms_five_minutes s) in
  let new_level := push_rate new_level "fifteen_minutes" (ms_fifteen_minutes s) in
  push into name (ItemSnapshot new_level).

(** meter.rs 241-247 *)
Definition meter_put (m : meter) (descriptive : bool) (into : snapshot)
  : M (meter * snapshot) :=
  let* '(m', s) := meter_get_snapshot m in
  ret (m', meter_snapshot_put (m_name m') (m_descr m') s descriptive into).

(** ** value_meter.rs *)

(** value_meter.rs 13-25 *)
Record value_meter := ValueMeter {
  vm_meter : meter;
  vm_display_time_unit : time_unit
}.

(** value_meter.rs 28-41 *)
Definition value_meter_new (al : alphas) (name : string) : M value_meter :=
  let* m := meter_new al name in
  ret (ValueMeter m time_unit_default).

(** value_meter.rs 254-276; [v as i64] wraps *)
Definition value_meter_update (vm : value_meter) (u : update) : M (value_meter * Z) :=
  match u with
  | ObservationWithValue (DurationValue time unit) _ =>
      let* v := duration_to_display_value time unit (vm_display_time_unit vm) in
      let* m := meter_mark (vm_meter vm) (wrap_i64 v) in
      ret (ValueMeter m (vm_display_time_unit vm), 1)
  | ObservationWithValue other _ =>
      match convert_to_i64 other with
      | Some v =>
          let* m := meter_mark (vm_meter vm) v in
          ret (ValueMeter m (vm_display_time_unit vm), 1)
      | None => ret (vm, 0)
      end
  | _ => ret (vm, 0)
  end.

(** value_meter.rs 246-252 *)
Definition value_meter_put (vm : value_meter) (descriptive : bool) (into : snapshot)
  : M (value_meter * snapshot) :=
  let* '(m, s) := meter_put (vm_meter vm) descriptive into in
  ret (ValueMeter m (vm_display_time_unit vm), s).
