(** C76, C77: what histograms, switches, displays and trackers live through and show,
    up to the snapshots of a driver. *)
From Coq Require Import ZArith Bool String List Lia.
From Verif Require Import Base SpecRun MonadFacts SpecClock ModelObservation ModelLabelFilter ModelSnapshot ModelCounter ModelGauge ModelMeter
  ModelHistogram ModelConfig ModelSwitches ModelInstrument ModelTree ModelChannel ModelProcessor ModelDriver SpecWriting SpecTree SpecQueue SpecCollect SpecDriver
  SpecChronicle SpecCounting SpecGauge SpecMeter SpecHistogram SpecSwitches SpecSite SpecLife SpecLives MeterHistoryProofs DriverLoopProofs ChronicleDriver SiteDriver LivesProofs
  LivesHistogram LivesDriver Toy PropGroup PropFollow PropWriting PropChronicle PropSite.
Import ListNotations.
Open Scope string_scope.
Open Scope list_scope.
Open Scope Z_scope.

(** ** C76 *)

(** A flag shows the truth value of the last observation that has one. *)
Theorem c76_flag : forall X k c f m os (x' x'' : leaf X) c' c2 de into fields c3 bs,
  leaf_life k c (LInstrument (IFlag f) m) os x' c' -> Forall2 truth (map (taken_as m) os) bs ->
  leaf_put x' de into k c2 = Ok (x'', into ++ fields) c3 ->
  exists st texts, last_of (f_state f) bs st /\ only_texts texts
    /\ fields = texts ++ match st with
                         | None => []
                         | Some b => switch_shows (f_name f) b (option_map (fun a => (a, negb b)) (f_show_inverted f))
                         end.
Proof. exact @flag_life. Qed.
Print Assumptions c76_flag.

(** A staircase timer is on iff one of the observations it lives through, each at a
    time of its own, is not older than the period. *)
Theorem c76_staircase : forall X k c t m os (x' x'' : leaf X) c' c2 de into fields c3,
  monotone c -> leaf_life k c (LInstrument (IStaircase t) m) os x' c' -> st_stay_on_until t = None ->
  leaf_put x' de into k c2 = Ok (x'', into ++ fields) c3 ->
  exists ts b i texts,
    List.length ts = List.length os /\ ascending (c O) (c' O) ts /\ only_texts texts
    /\ fields = texts ++ switch_shows (st_name t) b i /\ option_map fst i = st_show_inverted t
    /\ (xorb (st_invert t) b = true <-> exists u, In u ts /\ c2 O <= u + st_switch_off_after t).
Proof. exact @staircase_life. Qed.
Print Assumptions c76_staircase.

(** An occurrence indicator is on iff something happened within the period. *)
Theorem c76_occurrence : forall X k c t m os (x' x'' : leaf X) c' c2 de into fields c3,
  monotone c -> leaf_life k c (LInstrument (IOccurrence t) m) os x' c' -> oi_happened_last t <= c O ->
  leaf_put x' de into k c2 = Ok (x'', into ++ fields) c3 ->
  exists ts b i texts,
    List.length ts = List.length os /\ ascending (c O) (c' O) ts /\ only_texts texts
    /\ fields = texts ++ switch_shows (oi_name t) b i /\ option_map fst i = oi_show_inverted t
    /\ (xorb (oi_invert t) b = true <-> exists u, In u (oi_happened_last t :: ts) /\ c2 O - u < oi_if_happened_within t).
Proof. exact @occurrence_life. Qed.
Print Assumptions c76_occurrence.

(** A non-occurrence indicator is on iff nothing happened within the period. *)
Theorem c76_non_occurrence : forall X k c t m os (x' x'' : leaf X) c' c2 de into fields c3,
  monotone c -> leaf_life k c (LInstrument (INonOccurrence t) m) os x' c' -> ni_happened_last t <= c O ->
  leaf_put x' de into k c2 = Ok (x'', into ++ fields) c3 ->
  exists ts b i texts,
    List.length ts = List.length os /\ ascending (c O) (c' O) ts /\ only_texts texts
    /\ fields = texts ++ switch_shows (ni_name t) b i /\ option_map fst i = ni_show_inverted t
    /\ (xorb (ni_invert t) b = true <-> forall u, In u (ni_happened_last t :: ts) -> ni_if_not_happened_within t <= c2 O - u).
Proof. exact @non_occurrence_life. Qed.
Print Assumptions c76_non_occurrence.

(** A last occurrence tracker shows the whole seconds since the last observation. *)
Theorem c76_last_occurrence : forall X k c t m os (x' x'' : leaf X) c' c2 de into fields c3,
  monotone c -> leaf_life k c (LInstrument (ILastOccurrence t) m) os x' c' -> lt_happened_last t = None -> later c' c2 ->
  leaf_put x' de into k c2 = Ok (x'', into ++ fields) c3 ->
  exists ts texts,
    List.length ts = List.length os /\ ascending (c O) (c' O) ts /\ only_texts texts
    /\ match rev ts with
       | [] => fields = texts ++ (if lt_make_none_zero t then [(lt_name t, Int 0)] else [])
       | u :: _ => exists n, fields = texts ++ [(lt_name t, UInt n)] /\ n * 1000000000 <= c2 O - u < (n + 1) * 1000000000
       end.
Proof. exact @last_occurrence_life. Qed.
Print Assumptions c76_last_occurrence.

(** A display shows the last displayable observation until it expires. *)
Theorem c76_display : forall X k c t m os (x' x'' : leaf X) c' c2 de into fields c3,
  monotone c -> leaf_life k c (LInstrument (IDisplay t) m) os x' c' -> dd_stay_on_until t = None ->
  leaf_put x' de into k c2 = Ok (x'', into ++ fields) c3 ->
  exists ts v e texts,
    List.length ts = List.length os /\ ascending (c O) (c' O) ts /\ only_texts texts
    /\ last_of (dd_value t) (map displayable (map (taken_as m) os)) v
    /\ last_of None (expiry (dd_reset_after t) ts (map (taken_as m) os)) e
    /\ fields = texts ++ match (match e with Some u => if c2 O <=? u then v else dd_reset_value t | None => v end) with
                         | Some i => [(dd_name t, i)]
                         | None => []
                         end.
Proof. exact @display_life. Qed.
Print Assumptions c76_display.

(** A histogram holds the samples since the last reset and shows their statistics
    iff it is active. *)
Theorem c76_histogram : forall X contents, counting (ex_histo X) contents ->
  forall k c (x : histogram (ex_histo X)) m os (x' x'' : leaf X) c' c2 de into fields c3 es,
  monotone c -> leaf_life k c (LInstrument (IHistogram x) m) os x' c' -> (forall d, h_max_inactivity x = Some d -> 0 < d) ->
  Forall update_ok (map (taken_as m) os) -> Forall2 (update_effect (h_display_time_unit x)) (map (taken_as m) os) es ->
  leaf_put x' de into k c2 = Ok (x'', into ++ fields) c3 ->
  exists vs inner a texts,
    map snd vs = es /\ visits (c O) (c' O) vs
    /\ retained (h_last_update x) (h_max_inactivity x) (h_reset_after_inactivity x) (contents (h_inner x)) vs (contents inner)
    /\ (a = true <-> awake (h_last_update x) (h_max_inactivity x) vs (c2 O))
    /\ only_texts texts
    /\ fields = texts ++ [(h_name x, ItemSnapshot
             ((match h_max_inactivity x with
               | Some _ => if h_show_activity_state x then activity_fields a else []
               | None => []
               end)
              ++ (if a then statistics (histo_snapshot (ex_histo X) inner) (List.length (contents inner)) else [])))].
Proof. intros X contents Hc. exact (@histogram_life X contents Hc). Qed.
Print Assumptions c76_histogram.

(** A value meter shows the rates of the values of the observations it lives
    through. *)
Theorem c76_value_meter : forall X al name k c0 v0 c1 (v : value_meter) c f amount os (x' x'' : leaf X) c' c2 de into fields c3,
  monotone c0 -> value_meter_new al name k c0 = Ok v0 c1 -> m_inner (vm_meter v) = m_inner (vm_meter v0) -> later c1 c ->
  leaf_life k c (LInstrument (IValueMeter v) f) os x' c' ->
  Forall (fun u => update_ok u /\ value_counts (vm_display_time_unit v) u (amount u)) (map (taken_as f) os) ->
  later c' c2 -> leaf_put x' de into k c2 = Ok (x'', into ++ fields) c3 ->
  exists start l t texts,
    read_during c0 c1 start /\ map snd l = summed amount (map (taken_as f) os) /\ between (c O) (c' O) l
    /\ read_during c2 c3 t /\ fields = texts ++ meter_shows (vm_meter v) al start l t /\ only_texts texts.
Proof. exact @value_meter_life. Qed.
Print Assumptions c76_value_meter.

(** Everything happens at 100 s. *)
Definition lives_start : clock := frozen (100 * nanos_per_sec).

(** What an operation gives then *)
Definition lives_made {A} (m : M A) : match m debug (lives_start) with Ok _ _ => A | _ => unit end :=
  match m debug (lives_start) as r return match r with Ok _ _ => A | _ => unit end with
  | Ok x _ => x
  | _ => tt
  end.

Definition lives_flag : flag := flag_new "flag".
Definition lives_staircase : staircase_timer := staircase_new "staircase".
Definition lives_occurrence : occurrence_indicator := lives_made (occurrence_new "occurrence").
Definition lives_non_occurrence : non_occurrence_indicator := lives_made (non_occurrence_new "non_occurrence").
Definition lives_last : last_occurrence_tracker := last_occurrence_new "last".
Definition lives_display : data_display := display_set_reset_after (display_new "display") (15 * nanos_per_sec).
Definition lives_histogram : histogram (ex_histo toy) := histogram_set_inactivity_limit (lives_made (histogram_new toy_histo "histogram")) (25 * nanos_per_sec).
Definition lives_meter : meter := lives_made (meter_new (ex_alphas toy) "meter").
Definition lives_value_meter : value_meter := lives_made (value_meter_new (ex_alphas toy) "value_meter").

Definition lives_all : list (instrument toy) :=
  [IFlag lives_flag; IStaircase lives_staircase; IOccurrence lives_occurrence; INonOccurrence lives_non_occurrence; ILastOccurrence lives_last;
   IDisplay lives_display; IHistogram lives_histogram; IMeter lives_meter; IValueMeter lives_value_meter].

(** Every reading of the clock is 10 s after the one before. *)
Definition lives_clock : clock := fun n => (100 + 10 * Z.of_nat n) * nanos_per_sec.
Lemma lives_monotone : monotone lives_clock.
Proof. intros n. unfold lives_clock. lia. Qed.

Definition lives_observations : list (observation (lab toy)) :=
  [ObservedOneValue la (BoolValue true) 1; ObservedOneValue lb (SignedInteger 5) 2; ObservedOne lb 3].
Definition lives_updates : list update := [ObservationWithValue (BoolValue true) 1; ObservationWithValue (SignedInteger 5) 2; OneObservation 3].

(** A life of each with three observations and a snapshot *)
Example c76_case :
  map (taken_as None) lives_observations = lives_updates
  /\ Forall (fun i => exists x' c', leaf_life debug lives_clock (LInstrument i None) lives_observations x' c') lives_all
  /\ Forall2 truth lives_updates [Some true; Some true; None]
  /\ Forall2 (update_effect (h_display_time_unit lives_histogram)) lives_updates [Nothing; Sets 5; Nothing]
  /\ counting (ex_histo toy) (fun l => l)
  /\ Forall (fun u => update_ok u /\ value_counts (vm_display_time_unit lives_value_meter) u
                (match u with ObservationWithValue (SignedInteger z) _ => Some z | _ => None end)) lives_updates
  /\ value_meter_new (ex_alphas toy) "value_meter" debug lives_start = Ok lives_value_meter lives_start
  /\ (exists x' c', leaf_life debug lives_start (LInstrument (IValueMeter lives_value_meter) None : leaf toy) lives_observations x' c').
Proof.
  split; [reflexivity|]. split; [repeat constructor; eexists; eexists; live|].
  assert (E : value_effect time_unit_default (SignedInteger 5) (Sets 5)).
  { eapply eff_number; [reflexivity| |split; discriminate]. left. reflexivity. }
  split; [repeat constructor; discriminate|]. split; [|split; [|split; [|split]]].
  - constructor; [apply eff_with_value, eff_bool|]. constructor; [apply eff_with_value; exact E|]. repeat constructor.
  - constructor; [| |reflexivity].
    + intros k c x c' H. cbn in H. injection H as <- <-. split; [reflexivity|]. exists 1%nat. reflexivity.
    + intros x v k c x' c' H. cbn in H. injection H as <- <-. split; [reflexivity|]. exists 1%nat. reflexivity.
  - constructor; [split; [exact I|]; apply vc_nothing, eff_bool|]. constructor; [split; [split; discriminate|]; apply vc_number; exact E|].
    constructor; [split; [exact I|]; apply vc_one|]. constructor.
  - vm_compute. reflexivity.
  - eexists; eexists; live.
Qed.

(** What each of them shows afterwards; the last observation has no value. *)
Fixpoint lives_through (x : leaf toy) (os : list (observation (lab toy))) : M (leaf toy) :=
  match os with
  | [] => ret x
  | o :: os => let* '(x, _) := leaf_handle o x in lives_through x os
  end.
Definition lives_shown (i : instrument toy) : snapshot :=
  match (let* x := lives_through (LInstrument i None) lives_observations in leaf_put x false []) debug lives_clock with
  | Ok (_, s) _ => s
  | _ => []
  end.

Example c76_shown :
  map lives_shown (firstn 7 lives_all)
  = [[("flag", Boolean true)]; [("staircase", Boolean true)]; [("occurrence", Boolean true)]; [("non_occurrence", Boolean false)];
     [("last", UInt 10)]; [("display", Int 5)];
     [("histogram", ItemSnapshot
        [("_inactive", Boolean false); ("_active", Boolean true); ("count", UInt 1); ("max", Int 5); ("min", Int 5);
         ("mean", Float f64_zero); ("stddev", Float f64_zero);
         ("quantiles", ItemSnapshot [("p25", Int 250); ("p50", Int 500); ("p75", Int 750); ("p95", Int 950); ("p98", Int 980);
                                     ("p99", Int 990); ("p999", Int 999)])])]].
Proof. vm_compute. reflexivity. Qed.

(** ** C77 *)

(** Whatever follows from the life of an instrument and what it shows afterwards holds
    of the observations taken from the queue and of the snapshot of the driver. *)
Theorem c77_any : forall X Y, parts_tick X -> processors_tick Y -> parts_append X -> (forall u, appends (user_proc_put Y u)) ->
  forall k n (d : driver X Y) w d' w' path t at_ names gs on b de d'' w'',
  forall x (P : list (observation (lab X)) -> snapshot -> Prop),
  followed k n d w d' w' path t at_ names gs on x b de d'' w'' ->
  (forall os x' x'' level fields c1 c2, leaf_life k (clock_of w) x os x' (clock_of w') -> later (clock_of w') c1 ->
     leaf_put x' de level k c1 = Ok (x'', level ++ fields) c2 -> later c1 c2 -> later c2 (clock_of w'') -> P os fields) ->
  in_the_end n d w w' path t at_ names gs on b w'' P.
Proof. intros X Y HX HY HA HB. exact (any_in_the_end HX HY HA HB). Qed.
Print Assumptions c77_any.

(** So in a running driver: *)
Theorem c77_flag : forall X Y, parts_tick X -> processors_tick Y -> parts_append X -> (forall u, appends (user_proc_put Y u)) ->
  forall k n (d : driver X Y) w d' w' path t at_ names gs on b de d'' w'',
  forall f m, followed k n d w d' w' path t at_ names gs on (LInstrument (IFlag f) m) b de d'' w'' ->
  in_the_end n d w w' path t at_ names gs on b w'' (fun os fields =>
    forall bs, Forall2 truth (map (taken_as m) os) bs ->
    exists st texts, last_of (f_state f) bs st /\ only_texts texts
      /\ fields = texts ++ match st with
                           | None => []
                           | Some b => switch_shows (f_name f) b (option_map (fun a => (a, negb b)) (f_show_inverted f))
                           end).
Proof. intros X Y HX HY HA HB. exact (flag_in_the_end HX HY HA HB). Qed.
Print Assumptions c77_flag.

Theorem c77_staircase : forall X Y, parts_tick X -> processors_tick Y -> parts_append X -> (forall u, appends (user_proc_put Y u)) ->
  forall k n (d : driver X Y) w d' w' path t at_ names gs on b de d'' w'',
  forall s m, followed k n d w d' w' path t at_ names gs on (LInstrument (IStaircase s) m) b de d'' w'' ->
  monotone (clock_of w) -> st_stay_on_until s = None ->
  in_the_end n d w w' path t at_ names gs on b w'' (fun os fields =>
    exists ts q b i texts,
      List.length ts = List.length os /\ ascending (clock_of w O) (clock_of w' O) ts /\ clock_of w' O <= q <= clock_of w'' O /\ only_texts texts
      /\ fields = texts ++ switch_shows (st_name s) b i /\ option_map fst i = st_show_inverted s
      /\ (xorb (st_invert s) b = true <-> exists u, In u ts /\ q <= u + st_switch_off_after s)).
Proof. intros X Y HX HY HA HB. exact (staircase_in_the_end HX HY HA HB). Qed.
Print Assumptions c77_staircase.

Theorem c77_occurrence : forall X Y, parts_tick X -> processors_tick Y -> parts_append X -> (forall u, appends (user_proc_put Y u)) ->
  forall k n (d : driver X Y) w d' w' path t at_ names gs on b de d'' w'',
  forall s m, followed k n d w d' w' path t at_ names gs on (LInstrument (IOccurrence s) m) b de d'' w'' ->
  monotone (clock_of w) -> oi_happened_last s <= clock_of w O ->
  in_the_end n d w w' path t at_ names gs on b w'' (fun os fields =>
    exists ts q b i texts,
      List.length ts = List.length os /\ ascending (clock_of w O) (clock_of w' O) ts /\ clock_of w' O <= q <= clock_of w'' O /\ only_texts texts
      /\ fields = texts ++ switch_shows (oi_name s) b i /\ option_map fst i = oi_show_inverted s
      /\ (xorb (oi_invert s) b = true <-> exists u, In u (oi_happened_last s :: ts) /\ q - u < oi_if_happened_within s)).
Proof. intros X Y HX HY HA HB. exact (occurrence_in_the_end HX HY HA HB). Qed.
Print Assumptions c77_occurrence.

Theorem c77_non_occurrence : forall X Y, parts_tick X -> processors_tick Y -> parts_append X -> (forall u, appends (user_proc_put Y u)) ->
  forall k n (d : driver X Y) w d' w' path t at_ names gs on b de d'' w'',
  forall s m, followed k n d w d' w' path t at_ names gs on (LInstrument (INonOccurrence s) m) b de d'' w'' ->
  monotone (clock_of w) -> ni_happened_last s <= clock_of w O ->
  in_the_end n d w w' path t at_ names gs on b w'' (fun os fields =>
    exists ts q b i texts,
      List.length ts = List.length os /\ ascending (clock_of w O) (clock_of w' O) ts /\ clock_of w' O <= q <= clock_of w'' O /\ only_texts texts
      /\ fields = texts ++ switch_shows (ni_name s) b i /\ option_map fst i = ni_show_inverted s
      /\ (xorb (ni_invert s) b = true <-> forall u, In u (ni_happened_last s :: ts) -> ni_if_not_happened_within s <= q - u)).
Proof. intros X Y HX HY HA HB. exact (non_occurrence_in_the_end HX HY HA HB). Qed.
Print Assumptions c77_non_occurrence.

Theorem c77_last_occurrence : forall X Y, parts_tick X -> processors_tick Y -> parts_append X -> (forall u, appends (user_proc_put Y u)) ->
  forall k n (d : driver X Y) w d' w' path t at_ names gs on b de d'' w'',
  forall s m, followed k n d w d' w' path t at_ names gs on (LInstrument (ILastOccurrence s) m) b de d'' w'' ->
  monotone (clock_of w) -> lt_happened_last s = None ->
  in_the_end n d w w' path t at_ names gs on b w'' (fun os fields =>
    exists ts q texts,
      List.length ts = List.length os /\ ascending (clock_of w O) (clock_of w' O) ts /\ clock_of w' O <= q <= clock_of w'' O /\ only_texts texts
      /\ match rev ts with
         | [] => fields = texts ++ (if lt_make_none_zero s then [(lt_name s, Int 0)] else [])
         | u :: _ => exists z, fields = texts ++ [(lt_name s, UInt z)] /\ z * 1000000000 <= q - u < (z + 1) * 1000000000
         end).
Proof. intros X Y HX HY HA HB. exact (last_occurrence_in_the_end HX HY HA HB). Qed.
Print Assumptions c77_last_occurrence.

Theorem c77_display : forall X Y, parts_tick X -> processors_tick Y -> parts_append X -> (forall u, appends (user_proc_put Y u)) ->
  forall k n (d : driver X Y) w d' w' path t at_ names gs on b de d'' w'',
  forall s m, followed k n d w d' w' path t at_ names gs on (LInstrument (IDisplay s) m) b de d'' w'' ->
  monotone (clock_of w) -> dd_stay_on_until s = None ->
  in_the_end n d w w' path t at_ names gs on b w'' (fun os fields =>
    exists ts q v e texts,
      List.length ts = List.length os /\ ascending (clock_of w O) (clock_of w' O) ts /\ clock_of w' O <= q <= clock_of w'' O /\ only_texts texts
      /\ last_of (dd_value s) (map displayable (map (taken_as m) os)) v
      /\ last_of None (expiry (dd_reset_after s) ts (map (taken_as m) os)) e
      /\ fields = texts ++ match (match e with Some u => if q <=? u then v else dd_reset_value s | None => v end) with
                           | Some i => [(dd_name s, i)]
                           | None => []
                           end).
Proof. intros X Y HX HY HA HB. exact (display_in_the_end HX HY HA HB). Qed.
Print Assumptions c77_display.

Theorem c77_histogram : forall X Y, parts_tick X -> processors_tick Y -> parts_append X -> (forall u, appends (user_proc_put Y u)) ->
  forall k n (d : driver X Y) w d' w' path t at_ names gs on b de d'' w'',
  forall contents s m, counting (ex_histo X) contents ->
  followed k n d w d' w' path t at_ names gs on (LInstrument (IHistogram s) m) b de d'' w'' ->
  monotone (clock_of w) -> (forall l, h_max_inactivity s = Some l -> 0 < l) ->
  in_the_end n d w w' path t at_ names gs on b w'' (fun os fields =>
    forall effects, Forall update_ok (map (taken_as m) os) -> Forall2 (update_effect (h_display_time_unit s)) (map (taken_as m) os) effects ->
    exists vs q inner a texts,
      map snd vs = effects /\ visits (clock_of w O) (clock_of w' O) vs /\ clock_of w' O <= q <= clock_of w'' O
      /\ retained (h_last_update s) (h_max_inactivity s) (h_reset_after_inactivity s) (contents (h_inner s)) vs (contents inner)
      /\ (a = true <-> awake (h_last_update s) (h_max_inactivity s) vs q)
      /\ only_texts texts
      /\ fields = texts ++ [(h_name s, ItemSnapshot
             ((match h_max_inactivity s with
               | Some _ => if h_show_activity_state s then activity_fields a else []
               | None => []
               end)
              ++ (if a then statistics (histo_snapshot (ex_histo X) inner) (List.length (contents inner)) else [])))]).
Proof. intros X Y HX HY HA HB. exact (histogram_in_the_end HX HY HA HB). Qed.
Print Assumptions c77_histogram.

Theorem c77_meter : forall X Y, parts_tick X -> processors_tick Y -> parts_append X -> (forall u, appends (user_proc_put Y u)) ->
  forall k n (d : driver X Y) w d' w' path t at_ names gs on b de d'' w'',
  forall al name c0 m0 c1 s m, monotone c0 -> meter_new al name k c0 = Ok m0 c1 -> m_inner s = m_inner m0 -> later c1 (clock_of w) ->
  followed k n d w d' w' path t at_ names gs on (LInstrument (IMeter s) m) b de d'' w'' ->
  in_the_end n d w w' path t at_ names gs on b w'' (fun os fields =>
    Forall update_ok (map (taken_as m) os) ->
    exists start l q texts,
      read_during c0 c1 start /\ map snd l = marked_amounts (map (taken_as m) os) /\ between (clock_of w O) (clock_of w' O) l
      /\ clock_of w' O <= q <= clock_of w'' O /\ fields = texts ++ meter_shows s al start l q /\ only_texts texts).
Proof. intros X Y HX HY HA HB. exact (meter_in_the_end HX HY HA HB). Qed.
Print Assumptions c77_meter.

Theorem c77_value_meter : forall X Y, parts_tick X -> processors_tick Y -> parts_append X -> (forall u, appends (user_proc_put Y u)) ->
  forall k n (d : driver X Y) w d' w' path t at_ names gs on b de d'' w'',
  forall al name c0 v0 c1 s m amount, monotone c0 -> value_meter_new al name k c0 = Ok v0 c1 ->
  m_inner (vm_meter s) = m_inner (vm_meter v0) -> later c1 (clock_of w) ->
  followed k n d w d' w' path t at_ names gs on (LInstrument (IValueMeter s) m) b de d'' w'' ->
  in_the_end n d w w' path t at_ names gs on b w'' (fun os fields =>
    Forall (fun u => update_ok u /\ value_counts (vm_display_time_unit s) u (amount u)) (map (taken_as m) os) ->
    exists start l q texts,
      read_during c0 c1 start /\ map snd l = summed amount (map (taken_as m) os) /\ between (clock_of w O) (clock_of w' O) l
      /\ clock_of w' O <= q <= clock_of w'' O /\ fields = texts ++ meter_shows (vm_meter s) al start l q /\ only_texts texts).
Proof. intros X Y HX HY HA HB. exact (value_meter_in_the_end HX HY HA HB). Qed.
Print Assumptions c77_value_meter.

(** A processor with all of them in a mount beside others, whose transmitters are gone;
    observations of which one arrives while the driver runs *)
Definition lives_tele : tele toy := Tele (Some "tele") no_descr [] (map (fun i => HInstrument (adapter_accept (Two la lb) i)) lives_all) 1 [] 0 None true false.
Definition lives_driver : driver toy toyp :=
  Driver (Some "drv") no_descr
    [group_user; PMount (Mount (MountData (Some "outer") no_descr 0 None) [group_tele 2; PTele lives_tele; group_tele 3] [])]
    [] ProcessAll false None 0 0.
Definition lives_says (o : observation (lab toy)) : chan_action (message toy) := Send (MObservation o).
Definition lives_world : dworld toy toyp :=
  new_world
    (World lives_start
       (fun i => chan_run (chan_new None)
                   ([Acts (lives_says (ObservedOneValue la (BoolValue true) 1)); Acts (lives_says (ObservedOneValue lc (SignedInteger 9) 2))]
                    ++ if Nat.eqb i 1 then [] else [Acts DropSender]))
       (fun _ => chan_new None)
       (fun n => if Nat.eqb n 9 then [OnQueue 1 (lives_says (ObservedOneValue lb (SignedInteger 5) 3))] else []))
    (fun n => if Nat.eqb n 2 then [Call (call_add_processor (group_tele 4))] else []).

Lemma lives_among : among (QueueReceiver 1) (dr_processors lives_driver) [Position 1; Level (Some "outer") None; Position 1] lives_tele.
Proof.
  apply (am_at _ [group_user] _ [] [Level (Some "outer") None; Position 1]); [repeat constructor; intros []| |constructor].
  apply lo_mount. apply (am_at _ [group_tele 2] _ [group_tele 3] []); [repeat constructor; discriminate| |repeat constructor; discriminate].
  constructor. reflexivity.
Qed.

Lemma lives_nobody : nobody_else (QueueReceiver 1) lives_world.
Proof.
  split; [|split; [constructor|]].
  - split; [intros j x []|]. intros n j x H. cbn [lives_world new_world dw_world w_sched] in H.
    destruct (Nat.eqb n 9); cbn in H; firstorder discriminate.
  - intros n. unfold lives_world, new_world, dw_sched. destruct (Nat.eqb n 2); repeat constructor; discriminate.
Qed.

Lemma lives_site : forall j i, nth_error lives_all j = Some i ->
  tele_site lives_tele [1; j]%nat ["tele"] [Guard None true 0] (fun l => accepts String.eqb (Two la lb) l) (LInstrument i None).
Proof.
  intros j i H. refine (si_teles_handler lives_tele j (HInstrument (adapter_accept (Two la lb) i)) [] [] [] _ _ _ _).
  - cbn [tp_handlers lives_tele]. rewrite nth_error_map, H. reflexivity.
  - refine (si_instrument (adapter_accept (Two la lb) i) _ _). reflexivity.
Qed.

Lemma lives_ran : forall k n b de (d : driver toy toyp) w,
  match run_iterations n d k w with
  | Ok (Some d1) w1 => match driver_command d1 (call_snapshot b de) k w1 with Ok _ _ => true | _ => false end
  | _ => false
  end = true -> exists d' w' d'' w'', iterates k n d w d' w' /\ driver_command d' (call_snapshot b de) k w' = Ok d'' w''.
Proof.
  intros k n b de d w E. destruct (run_iterations n d k w) as [[d1|] w1| |] eqn:R; try discriminate E.
  destruct (driver_command d1 (call_snapshot b de) k w1) as [d2 w2| |] eqn:C; try discriminate E.
  exists d1, w1, d2, w2. split; [apply run_iterates; exact R | exact C].
Qed.

(** The hypotheses of all the theorems above, for each of the instruments *)
Example c77_case_hypotheses :
  parts_tick toy /\ processors_tick toyp /\ parts_append toy /\ (forall u, appends (user_proc_put toyp u))
  /\ monotone (clock_of lives_world)
  /\ exists d' w' d'' w'', forall j i, nth_error lives_all j = Some i ->
       followed debug 3 lives_driver lives_world d' w' [Position 1; Level (Some "outer") None; Position 1] lives_tele [1; j]%nat ["tele"]
         [Guard None true 0] (fun l => accepts String.eqb (Two la lb) l) (LInstrument i None) 7 false d'' w''.
Proof.
  refine (conj drift_ticks (conj toyp_ticks (conj toy_appends (conj toyp_appends (conj _ _))))); [intros n; apply Z.le_refl|].
  assert (R : exists d' w' d'' w'', iterates debug 3 lives_driver lives_world d' w' /\ driver_command d' (call_snapshot 7 false) debug w' = Ok d'' w'')
    by (apply lives_ran; vm_compute; reflexivity).
  destruct R as (d' & w' & d'' & w'' & R & C). exists d', w', d'', w''. intros j i H. constructor.
  - exact R.
  - unfold driver_ok; cbn; repeat split; auto; discriminate.
  - exact lives_nobody.
  - exact lives_among.
  - exact (lives_site j i H).
  - exact C.
Qed.

(** What the snapshot shows of the first six *)
Example c77_case :
  match run_iterations 3 lives_driver debug lives_world with
  | Ok (Some d1) w1 =>
      match driver_command d1 (call_snapshot 7 false) debug w1 with
      | Ok _ w2 =>
          match skipn (List.length (dw_answers w1)) (dw_answers w2) with
          | [(7%nat, s)] => map (firstn 6) (site_below ["drv"; "outer"; "tele"] s)
                            = [[("flag", Boolean true); ("staircase", Boolean true); ("occurrence", Boolean true); ("non_occurrence", Boolean false);
                                ("last", UInt 0); ("display", Int 5)]]
          | _ => False
          end
      | _ => False
      end
  | _ => False
  end.
Proof. vm_compute. reflexivity. Qed.
