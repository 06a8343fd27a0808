(** The smoothing factors of a meter. *)
From Coq Require Import ZArith Floats.SpecFloat.
From Verif Require Import Base ModelMeter.
Open Scope Z_scope.

Section Alpha.
  (** [f64::exp]: calls libm *)
  Context (exp64 : f64 -> f64).

  (** metrics_meter.rs 244; [n] is the number of minutes *)
  Definition ewma_exponent (n : f64) : f64 := f64_div (f64_div (SFopp (f64_of_Z tick_rate_secs)) (f64_of_Z 60)) n.

  (** metrics_meter.rs 243-246 *)
  Definition ewma_alpha (n : f64) : f64 := f64_sub (f64_of_Z 1) (exp64 (ewma_exponent n)).

  (** metrics_meter.rs 142: one, five and fifteen minutes *)
  Definition std_alphas : alphas := Alphas (ewma_alpha (f64_of_Z 1)) (ewma_alpha (f64_of_Z 5)) (ewma_alpha (f64_of_Z 15)).
End Alpha.
