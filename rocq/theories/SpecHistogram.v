(** Specification of histograms: which samples they hold and when they show
    them. *)
From Coq Require Import ZArith Bool String List.
From Verif Require Import Base SpecRun SpecGauge ModelObservation ModelSnapshot ModelHistogram.
Import ListNotations.
Open Scope Z_scope.

(** A reservoir whose count is the number of its updates: [contents] are the
    values it was updated with. It may read the clock as often as it likes. *)
Record counting (H : histo_ops) (contents : histo H -> list Z) : Prop := Counting {
  counting_new : forall k c x c',
    histo_new H k c = Ok x c' -> contents x = [] /\ exists j, c' = Nat.iter j clock_tail c;
  counting_update : forall x v k c x' c',
    histo_update H x v k c = Ok x' c' ->
    contents x' = contents x ++ [v] /\ exists j, c' = Nat.iter j clock_tail c;
  counting_count : forall x, hs_count (histo_snapshot H x) = Z.of_nat (List.length (contents x))
}.

(** The effects of some updates (see SpecGauge) with the times they arrived. A
    value that would set a gauge is a sample; changes are not. *)
Definition events := list (Z * effect).

Definition sample (e : effect) : list Z := match e with Sets z => [z] | _ => [] end.
Definition samples (es : events) : list Z := flat_map (fun e => sample (snd e)) es.

Section Limit.
  (** Created at [start]; limit and whether it is reset after inactivity. *)
  Context (start : Z) (limit : option Z) (reset : bool).

  (** When the last sample was recorded. *)
  Inductive last_recorded : events -> Z -> Prop :=
  | recorded_never : forall es, samples es = [] -> last_recorded es start
  | recorded_at : forall es1 t z es2,
      samples es2 = [] -> last_recorded (es1 ++ (t, Sets z) :: es2) t.

  (** An update that arrives at [t], after [es], resets the histogram. *)
  Definition resets (es : events) (t : Z) : Prop :=
    reset = true /\ exists d r, limit = Some d /\ last_recorded es r /\ d < t - r.

  (** After [base], nothing in [es] resets it. *)
  Definition no_reset (base es : events) : Prop :=
    forall a t e b, es = a ++ (t, e) :: b -> ~ resets (base ++ a) t.

  (** The samples since the last reset. The update that resets counts. *)
  Inductive samples_kept : events -> list Z -> Prop :=
  | kept_all : forall es, no_reset [] es -> samples_kept es (samples es)
  | kept_since : forall es1 t e es2,
      resets es1 t -> no_reset (es1 ++ [(t, e)]) es2 ->
      samples_kept (es1 ++ (t, e) :: es2) (sample e ++ samples es2).

  (** It is active at [q]. *)
  Definition active (es : events) (q : Z) : Prop :=
    match limit with
    | None => True
    | Some d => exists r, last_recorded es r /\ q - r < d
    end.
End Limit.

(** The statistics shown. *)
Definition statistics (s : histo_snap) (n : nat) : snapshot :=
  (("count", UInt (Z.of_nat n))
  :: match n with
     | O => []
     | S _ =>
         [("max", Int (hs_max s)); ("min", Int (hs_min s)); ("mean", Float (hs_mean s));
          ("stddev", Float (hs_stddev s));
          ("quantiles", ItemSnapshot
             [("p25", Int (hs_value s 250)); ("p50", Int (hs_value s 500)); ("p75", Int (hs_value s 750));
              ("p95", Int (hs_value s 950)); ("p98", Int (hs_value s 980)); ("p99", Int (hs_value s 990));
              ("p999", Int (hs_value s 999))])]
     end)%string.

Definition activity_fields (is_active : bool) : snapshot :=
  [("_inactive", Boolean (negb is_active)); ("_active", Boolean is_active)]%string.

(** Updates at instants. *)
Definition histogram_op {H} (x : histogram H) (u : update) : M (histogram H) :=
  let* '(x', _) := histogram_update x u in ret x'.

Definition at_instants (us : list (Z * update)) : list (clock * update) :=
  map (fun e => (frozen (fst e), snd e)) us.

(** [es] are the effects of [us]. *)
Definition effects_of (unit : time_unit) (us : list (Z * update)) (es : events) : Prop :=
  Forall2 (fun u e => fst u = fst e /\ update_effect unit (snd u) (snd e)) us es.
