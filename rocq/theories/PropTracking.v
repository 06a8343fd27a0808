(** C05: tracking is an exact sliding window.
    C06: its statistics are the extrema and the mean over the window.
    C07: the averages of peaks and bottoms (refuted). *)
From Coq Require Import ZArith Bool String List Lia Floats.SpecFloat.
From Verif Require Import Base SpecRun SpecCounting SpecGauge SpecTracking
  ModelObservation ModelLabelFilter ModelSnapshot ModelBuckets ModelGauge
  GaugeProofs BucketsProofs TrackingProofs StatsProofs WindowProofs.
Import ListNotations.
Open Scope Z_scope.

(** Records of any type, updated in any way: reading yields exactly the records
    of the n most recent one-second intervals, newest first, each made from
    exactly the values recorded in its interval, in order. The history mixes
    recordings and readings in any way. *)
Theorem c05_records_are_the_window : forall (T A : Type) (default : T) (upd : T -> A -> T)
    n k c0 b0 c1 h b q b' xs c',
  buckets_new default n k c0 = Ok b0 c1 ->
  records_ordered (c0 O) h (q O) ->
  record_history default upd k b0 h = Some b ->
  iter default b k q = Ok (b', xs) c' ->
  xs = map (fun vs => fold_left upd vs default) (window (c0 O) n (q O) (recorded h)).
Proof. exact @records_window. Qed.
Print Assumptions c05_records_are_the_window.

(** Three records; values at 0.5 s, 1.0 s, 1.2 s, 4.9 s; read at 3.9 s and 5.9 s. *)
Example c05_records_case :
  let at_ms ms := frozen (ms * 1000000) in
  let h := [(at_ms 500, RRecord 1); (at_ms 1000, RRecord 2); (at_ms 1200, RRecord 3);
            (at_ms 3900, RRead); (at_ms 4900, RRecord 4)] in
  records_ordered 0 h 5900000000
  /\ match buckets_new [] 3 release (at_ms 0) with
     | Ok b0 _ =>
         match record_history [] (fun l x => l ++ [x]) release b0 h with
         | Some b =>
             match iter [] b release (at_ms 5900) with
             | Ok (_, xs) _ => xs = [[]; [4]; []]
             | _ => False
             end
             /\ match record_history [] (fun l x => l ++ [x]) release b0 (firstn 3 h) with
                | Some b =>
                    match iter [] b release (at_ms 3999) with
                    | Ok (_, xs) _ => xs = [[]; []; [2; 3]]
                    | _ => False
                    end
                | None => False
                end
         | None => False
         end
     | _ => False
     end.
Proof.
  cbv zeta. split.
  - repeat (apply rordered_cons; [vm_compute; discriminate|]). apply rordered_nil. vm_compute. discriminate.
  - vm_compute. split; reflexivity.
Qed.

(** Reads do not matter: two histories of observations and snapshots with the
    same recordings show the same at the same time. *)
Theorem c05_reads_do_not_matter : forall g0 n k c0 g1 c1 h1 h2 ga gb l q ga' gb' sa sb ca cb,
  opt_in_i64 (gauge_get g0) ->
  gauge_set_tracking g0 (S n) k c0 = Ok g1 c1 ->
  Forall (fun co => match snd co with GObserve u => update_ok u | _ => True end) h1 ->
  Forall (fun co => match snd co with GObserve u => update_ok u | _ => True end) h2 ->
  ordered (c0 O) h1 (q O) -> ordered (c0 O) h2 (q O) ->
  gauge_history k g1 h1 = Some (ga, l) -> gauge_history k g1 h2 = Some (gb, l) ->
  gauge_get ga = gauge_get gb ->
  Z.of_nat (length l) <= u64_max ->
  gauge_put ga false [] k q = Ok (ga', sa) ca ->
  gauge_put gb false [] k q = Ok (gb', sb) cb ->
  sa = sb.
Proof. exact reads_do_not_matter. Qed.
Print Assumptions c05_reads_do_not_matter.

Example c05_reads_case_clock (ms : Z) : clock := frozen (ms * 1000000).
Example c05_reads_case_value (v : Z) : gauge_op := GObserve (ObservationWithValue (SignedInteger v) 0).
Example c05_reads_case :
  let c := c05_reads_case_clock in
  let o := c05_reads_case_value in
  let h1 := [(c 100, o 5); (c 2100, o 9)] in
  let h2 := [(c 100, o 5); (c 900, GSnapshot true); (c 1500, GSnapshot false);
             (c 2100, o 9); (c 2200, GSnapshot false)] in
  ordered 0 h1 2300000000 /\ ordered 0 h2 2300000000
  /\ match gauge_set_tracking (gauge_new "g") 2 release (c 0) with
     | Ok g1 _ =>
         match gauge_history release g1 h1, gauge_history release g1 h2 with
         | Some (ga, la), Some (gb, lb) =>
             la = [(100000000, 5); (2100000000, 9)] /\ lb = la /\ gauge_get ga = gauge_get gb
             /\ match gauge_put ga false [] release (c 2300), gauge_put gb false [] release (c 2300) with
                | Ok (_, sa) _, Ok (_, sb) _ => sa = sb /\ length sa = 8%nat
                | _, _ => False
                end
         | _, _ => False
         end
     | _ => False
     end.
Proof.
  cbv zeta. split; [|split].
  - repeat (apply ordered_cons; [vm_compute; discriminate|]). apply ordered_nil. vm_compute. discriminate.
  - repeat (apply ordered_cons; [vm_compute; discriminate|]). apply ordered_nil. vm_compute. discriminate.
  - vm_compute. repeat split; reflexivity.
Qed.

(** What a tracking gauge shows: its value and the statistics of exactly the
    values in the window, or the current value for all of them if there are
    none. *)
Theorem c06_tracked_gauge_shows : forall g0 n k c0 g1 c1 h g l q g' s c',
  opt_in_i64 (gauge_get g0) ->
  gauge_set_tracking g0 (S n) k c0 = Ok g1 c1 ->
  Forall (fun co => match snd co with GObserve u => update_ok u | _ => True end) h ->
  ordered (c0 O) h (q O) ->
  gauge_history k g1 h = Some (g, l) ->
  Z.of_nat (length l) <= u64_max ->
  gauge_put g false [] k q = Ok (g', s) c' ->
  let ws := window (c0 O) (S n) (q O) l in
  match gauge_get g with
  | None => s = (if g_group_values g0 then [(g_name g0, ItemSnapshot [])] else [])
  | Some z =>
      exists st,
        s = (if g_group_values g0
             then [(g_name g0, ItemSnapshot (("current"%string, Int z) :: stats_items "" st))]
             else (g_name g0, Int z) :: stats_items (g_name g0 ++ "_") st)
        /\ (concat ws <> [] -> stats_of ws st)
        /\ (concat ws = [] -> stats_of_nothing z st)
  end.
Proof. exact tracked_gauge_shows. Qed.
Print Assumptions c06_tracked_gauge_shows.

(** Window of 3 s at 3.5 s: [[7]; []; [-4; 12]] (the 100 of 0.5 s is out). *)
Example c06_tracked_gauge_case :
  let c := c05_reads_case_clock in
  let o := c05_reads_case_value in
  let h := [(c 500, o 100); (c 1100, o 12); (c 1900, o (-4)); (c 3100, o 7)] in
  let l := [(500000000, 100); (1100000000, 12); (1900000000, -4); (3100000000, 7)] in
  ordered 0 h 3500000000
  /\ window 0 3 3500000000 l = [[7]; []; [12; -4]]
  /\ match gauge_set_tracking (gauge_new "g") 3 debug (c 0) with
     | Ok g1 _ =>
         match gauge_history debug g1 h with
         | Some (g, l') =>
             l' = l
             /\ match gauge_put g false [] debug (c 3500) with
                | Ok (_, s) _ =>
                    s = ("g", Int 7) :: stats_items "g_"
                          (BucketsStats 12 7 (f64_div (f64_of_Z 19) (f64_of_Z 3)) (-4) 7
                             (f64_div (f64_of_Z 3) (f64_of_Z 3)) (f64_of_Z 5))
                | _ => False
                end
         | _ => False
         end
     | _ => False
     end%string.
Proof.
  cbv zeta. split; [|split].
  - repeat (apply ordered_cons; [vm_compute; discriminate|]). apply ordered_nil. vm_compute. discriminate.
  - vm_compute. reflexivity.
  - vm_compute. split; reflexivity.
Qed.

(** The order between the statistics. *)
Theorem c06_order : forall ws s, stats_of ws s ->
  bs_bottom s <= bs_bottom_max s /\ bs_peak_min s <= bs_peak s
  /\ bs_bottom s <= bs_peak_min s /\ bs_bottom_max s <= bs_peak s.
Proof. exact stats_order. Qed.
Print Assumptions c06_order.

Example c06_order_case :
  stats_of [[7]; []; [12; -4]]
    (BucketsStats 12 7 (f64_div (f64_of_Z 19) (f64_of_Z 3)) (-4) 7
       (f64_div (f64_of_Z 3) (f64_of_Z 3)) (f64_div (f64_of_Z 15) (f64_of_Z 3))).
Proof.
  exists [7; 12], [7; -4].
  assert (forall a b c : Z, is_max [a] a /\ is_min [a] a) as H1
    by (intros; repeat split; cbn; auto; repeat constructor; lia).
  split; [|split].
  - apply each_cons; [discriminate|apply (H1 7 0 0)|].
    apply each_empty. apply each_cons; [discriminate| |apply each_nil].
    split; [left; reflexivity|repeat constructor; lia].
  - apply each_cons; [discriminate|apply (H1 7 0 0)|].
    apply each_empty. apply each_cons; [discriminate| |apply each_nil].
    split; [right; left; reflexivity|repeat constructor; lia].
  - cbn [bs_peak bs_peak_min bs_bottom bs_bottom_max bs_avg bs_peak_avg bs_bottom_avg].
    split; [split; [cbn; auto|repeat constructor; lia]|].
    split; [split; [cbn; auto|repeat constructor; lia]|].
    split; [split; [cbn; auto 10|repeat constructor; lia]|].
    split; [split; [cbn; auto|repeat constructor; lia]|].
    split; [|split]; intros _; reflexivity.
Qed.

(** C07 is false: one value 10 in a window of two records. The average of the
    peaks is shown as 5, below the smallest peak; likewise the bottoms with -10. *)
Theorem c07_peak_avg_refuted : exists v st,
  match gauge_set_tracking (gauge_new "g") 2 release (frozen 0) with
  | Ok g1 _ =>
      match gauge_history release g1 [(frozen 0, c05_reads_case_value v)] with
      | Some (g, _) =>
          match gauge_put g false [] release (frozen 0) with
          | Ok (_, s) _ =>
              s = ("g"%string, Int v) :: stats_items "g_" st
              /\ bs_peak_min st = 10 /\ bs_peak st = 10 /\ bs_peak_avg st = f64_of_Z 5
              /\ SFltb (bs_peak_avg st) (f64_of_Z (bs_peak_min st)) = true
              /\ SFltb (bs_bottom_avg st) (f64_of_Z (bs_bottom st)) = true
          | _ => False
          end
      | None => False
      end
  | _ => False
  end.
Proof.
  exists 10, (BucketsStats 10 10 (f64_of_Z 5) 10 10 (f64_of_Z 5) (f64_of_Z 10)).
  vm_compute. repeat split; reflexivity.
Qed.
Print Assumptions c07_peak_avg_refuted.

(** What does hold: if no record of the window is empty, the quotients that are
    shown are the averages of one number per record, and so lie between the
    extrema (before rounding to a float). *)
Theorem c07_full_window_partial : forall ws s, stats_of ws s -> Forall (fun w => w <> []) ws ->
  exists maxima minima,
    each is_max ws maxima /\ each is_min ws minima
    /\ length maxima = length ws /\ length minima = length ws
    /\ (in_i64 (sum maxima) ->
        bs_peak_avg s = f64_div (f64_of_Z (sum maxima)) (f64_of_Z (Z.of_nat (length ws))))
    /\ (in_i64 (sum minima) ->
        bs_bottom_avg s = f64_div (f64_of_Z (sum minima)) (f64_of_Z (Z.of_nat (length ws))))
    /\ Z.of_nat (length ws) * bs_peak_min s <= sum maxima <= Z.of_nat (length ws) * bs_peak s
    /\ Z.of_nat (length ws) * bs_bottom s <= sum minima <= Z.of_nat (length ws) * bs_bottom_max s.
Proof. exact full_window_averages. Qed.
Print Assumptions c07_full_window_partial.

Example c07_full_window_case :
  match gauge_set_tracking (gauge_new "g") 2 release (frozen 0) with
  | Ok g1 _ =>
      match gauge_history release g1
              [(c05_reads_case_clock 0, c05_reads_case_value 4);
               (c05_reads_case_clock 500, c05_reads_case_value 10);
               (c05_reads_case_clock 1000, c05_reads_case_value 20)] with
      | Some (g, l) =>
          window 0 2 1000000000 l = [[20]; [4; 10]]
          /\ match gauge_put g false [] release (c05_reads_case_clock 1000) with
             | Ok (_, s) _ =>
                 s = ("g"%string, Int 20) :: stats_items "g_"
                       (BucketsStats 20 10 (f64_of_Z 15) 4 20 (f64_of_Z 12)
                          (f64_div (f64_of_Z 34) (f64_of_Z 3)))
             | _ => False
             end
      | None => False
      end
  | _ => False
  end.
Proof. vm_compute. split; reflexivity. Qed.
