{
 "claims": [
  {
   "property": "C01",
   "status": "proved",
   "theorems": [
    "c01_adding_labels",
    "c01_from_vec",
    "c01_from_label_and_tuples",
    "c01_all_and_none"
   ],
   "note": ""
  },
  {
   "property": "C02",
   "status": "proved",
   "theorems": [
    "c02_counter_release",
    "c02_counter_exact",
    "c02_counter_checked",
    "c02_counter_monotone"
   ],
   "note": ""
  },
  {
   "property": "C03",
   "status": "proved",
   "theorems": [
    "c03_last_set_plus_changes",
    "c03_continues",
    "c03_reports",
    "c03_shown",
    "c03_release_never_panics",
    "c03_checked_panics",
    "c03_huge_durations_turn_negative"
   ],
   "note": "Durations whose converted value is at least 2^63 turn negative (c03_huge_durations_turn_negative); update_effect covers the others."
  },
  {
   "property": "C04",
   "status": "proved",
   "theorems": [
    "c04_deltas_only",
    "c04_deltas_only_exact",
    "c04_inc_dec",
    "c04_inc_dec_exact"
   ],
   "note": ""
  },
  {
   "property": "C05",
   "status": "proved",
   "theorems": [
    "c05_records_are_the_window",
    "c05_reads_do_not_matter"
   ],
   "note": ""
  },
  {
   "property": "C06",
   "status": "proved",
   "theorems": [
    "c06_tracked_gauge_shows",
    "c06_order"
   ],
   "note": ""
  },
  {
   "property": "C07",
   "status": "partial",
   "theorems": [
    "c07_peak_avg_refuted",
    "c07_full_window_partial"
   ],
   "note": "False of the code: c07_peak_avg_refuted (empty records count as divisor). Proved: the exact quotient that is shown (stats_of in c06_tracked_gauge_shows) and the bounds if no record is empty, before rounding."
  },
  {
   "property": "C08",
   "status": "proved",
   "theorems": [
    "c08_count",
    "c08_agrees_with_counter",
    "c08_works"
   ],
   "note": ""
  },
  {
   "property": "C09",
   "status": "proved",
   "theorems": [
    "c09_rates",
    "c09_rates_at_instants",
    "c09_reads_do_not_matter"
   ],
   "note": ""
  },
  {
   "property": "C10",
   "status": "proved",
   "theorems": [
    "c10_finite",
    "c10_within_intervals",
    "c10_decays",
    "c10_shown",
    "c10_shown_decays"
   ],
   "note": "Stronger than stated: no bound on the counts (u64), and the rate also stays above the lowest rate of an interval. libm's exp is not modelled; the smoothing factors are arbitrary doubles in [0, 1/2]."
  },
  {
   "property": "C11",
   "status": "proved",
   "theorems": [
    "c11_count",
    "c11_reports",
    "c11_rates",
    "c11_rates_at_instants",
    "c11_rates_range"
   ],
   "note": ""
  },
  {
   "property": "C12",
   "status": "partial",
   "theorems": [
    "c12_rate_of_negative_values_refuted",
    "c12_first_rate_partial",
    "c12_quotient_is_close"
   ],
   "note": "False of the code for negative sums: c12_rate_of_negative_values_refuted. Proved for non-negative sums (c12_first_rate_partial) with the relative error of the quotient (c12_quotient_is_close)."
  },
  {
   "property": "C13",
   "status": "proved",
   "theorems": [
    "c13_shape"
   ],
   "note": ""
  },
  {
   "property": "C14",
   "status": "proved",
   "theorems": [
    "c14_samples_since_last_reset",
    "c14_reports"
   ],
   "note": "Instants: all clock readings during one update show the same time."
  },
  {
   "property": "C15",
   "status": "proved",
   "theorems": [
    "c15_shown_iff_active"
   ],
   "note": "A limit of zero is excluded (such a histogram is never active)."
  },
  {
   "property": "C16",
   "status": "proved",
   "theorems": [
    "c16_flag_shows_last"
   ],
   "note": ""
  },
  {
   "property": "C17",
   "status": "proved",
   "theorems": [
    "c17_staircase_fixed_period",
    "c17_further_observation_never_shortens",
    "c17_staircase_reconfigured"
   ],
   "note": "When the period is lowered, a later observation can shorten the time (c17_staircase_reconfigured and its case)."
  },
  {
   "property": "C18",
   "status": "proved",
   "theorems": [
    "c18_occurrence_iff"
   ],
   "note": ""
  },
  {
   "property": "C19",
   "status": "partial",
   "theorems": [
    "c19_reconfiguring_keeps_occurrences_refuted"
   ],
   "note": "False of the code: c19_reconfiguring_keeps_occurrences_refuted. What the code does instead is c18_occurrence_iff."
  },
  {
   "property": "C20",
   "status": "proved",
   "theorems": [
    "c20_non_occurrence_iff",
    "c20_opposite_of_occurrence"
   ],
   "note": ""
  },
  {
   "property": "C21",
   "status": "partial",
   "theorems": [
    "c21_inverted_is_negation_refuted",
    "c21_staircase_same_reading",
    "c21_occurrence_same_reading",
    "c21_non_occurrence_same_reading"
   ],
   "note": "False of the code for the timed switches when the clock moves between its two readings: c21_inverted_is_negation_refuted. Proved for equal readings and, in c16_flag_shows_last, for flags."
  },
  {
   "property": "C22",
   "status": "proved",
   "theorems": [
    "c22_whole_seconds",
    "c22_before_the_first"
   ],
   "note": ""
  },
  {
   "property": "C23",
   "status": "proved",
   "theorems": [
    "c23_display_until_expired"
   ],
   "note": "Setting a reset value replaces the shown value at once; the statement counts it as a value."
  },
  {
   "property": "C24",
   "status": "proved",
   "theorems": [
    "c24_display_exact",
    "c24_display_coarser_never_fails",
    "c24_display_too_large",
    "c24_display_finer_and_back",
    "c24_display_coarser_and_back",
    "c24_duration_exact",
    "c24_duration_too_large",
    "c24_duration_with_unit"
   ],
   "note": "Converting through a finer unit is only exact while the product fits u64; the failing case is a theorem as well."
  },
  {
   "property": "C25",
   "status": "partial",
   "theorems": [
    "c25_to_i64_keeps_the_number",
    "c25_to_u64_keeps_the_number",
    "c25_too_large_gives_nothing",
    "c25_no_number_gives_nothing",
    "c25_to_bool_is_non_zero",
    "c25_below_range_saturates",
    "c25_always_nearest_refuted"
   ],
   "note": "The statement holds for all numbers that are not below the target range; negative out-of-range floats saturate instead of giving nothing (c25_below_range_saturates, c25_always_nearest_refuted)."
  },
  {
   "property": "C26",
   "status": "partial",
   "theorems": [
    "c26_negative_integers",
    "c26_negative_floats_become_zero",
    "c26_negative_gives_nothing_refuted"
   ],
   "note": "False of the code for floats: c26_negative_gives_nothing_refuted. What holds is proved: negative integers give nothing, negative floats become 0."
  },
  {
   "property": "C27",
   "status": "proved",
   "theorems": [
    "c27_foreign_label_panel",
    "c27_foreign_label_adapter",
    "c27_all_filters_closed"
   ],
   "note": ""
  },
  {
   "property": "C28",
   "status": "proved",
   "theorems": [
    "c28_panel",
    "c28_handler",
    "c28_cockpit",
    "c28_processor"
   ],
   "note": ""
  },
  {
   "property": "C29",
   "status": "partial",
   "theorems": [
    "c29_panel_hides_fresh_values_refuted",
    "c29_panel_created",
    "c29_panel_hidden",
    "c29_panel_shown"
   ],
   "note": "Refuted: handling an observation never sets last_update, so a panel goes inactive once the limit has passed since its creation, even at the very moment of an observation. What holds is proved for all histories: hidden iff more than the limit has passed since creation."
  },
  {
   "property": "C30",
   "status": "proved",
   "theorems": [
    "c30_cockpit_hidden",
    "c30_cockpit_shown",
    "c30_new_cockpit",
    "c30_processor_hidden",
    "c30_processor_shown",
    "c30_mount_hidden",
    "c30_mount_shown"
   ],
   "note": ""
  },
  {
   "property": "C31",
   "status": "partial",
   "theorems": [
    "c31_panel_ignores_limit",
    "c31_cockpit_ignores_limit",
    "c31_processor_ignores_limit",
    "c31_limit_without_state_refuted",
    "c31_histogram_hidden"
   ],
   "note": "Refuted for panels, cockpits and processors: with show_activity_state=false the limit has no effect at all (proved for every component and time). It holds for histograms (proved) and mounts (which always show the state, C30)."
  },
  {
   "property": "C32",
   "status": "proved",
   "theorems": [
    "c32_panel_names_unique",
    "c32_cockpit_names_unique",
    "c32_first_panel_stays",
    "c32_first_cockpit_stays",
    "c32_new_panel_added",
    "c32_new_cockpit_added"
   ],
   "note": ""
  },
  {
   "property": "C33",
   "status": "proved",
   "theorems": [
    "c33_remove_panel",
    "c33_remove_cockpit",
    "c33_panel_added_again",
    "c33_cockpit_added_again",
    "c33_commands",
    "c33_unknown_cockpit",
    "c33_known_cockpit"
   ],
   "note": ""
  },
  {
   "property": "C34",
   "status": "proved",
   "theorems": [
    "c34_decision",
    "c34_dropped",
    "c34_kept",
    "c34_commands_never_dropped",
    "c34_default_keeps_deltas"
   ],
   "note": ""
  },
  {
   "property": "C35",
   "status": "proved",
   "theorems": [
    "c35_collection",
    "c35_exactly_once",
    "c35_counted",
    "c35_others"
   ],
   "note": ""
  },
  {
   "property": "C36",
   "status": "proved",
   "theorems": [
    "c36_noticed_at_the_end",
    "c36_everything_handled",
    "c36_noticed",
    "c36_afterwards"
   ],
   "note": ""
  },
  {
   "property": "C37",
   "status": "proved",
   "theorems": [
    "c37_capacity",
    "c37_collections",
    "c37_loses_only",
    "c37_nonblocking",
    "c37_blocking",
    "c37_blocking_never_loses",
    "c37_unbounded",
    "c37_conservation",
    "c37_order",
    "c37_received_in_order",
    "c37_queries",
    "c37_created"
   ],
   "note": ""
  },
  {
   "property": "C38",
   "status": "partial",
   "theorems": [
    "c38_capacity_zero_refuted",
    "c38_delivered_partial",
    "c38_handled_partial"
   ],
   "note": "False as stated: with capacity 0 and block_on_full = false every message is lost (c38_capacity_zero_refuted). Proved for every other capacity and for unbounded queues: the message is queued and the next collection handles it first."
  },
  {
   "property": "C39",
   "status": "proved",
   "theorems": [
    "c39_driver",
    "c39_mount",
    "c39_sums",
    "c39_definite"
   ],
   "note": "c39_mount, c39_driver: every contained processor is collected once, in order, with the same bound and strategy, and the outcomes are added modulo 2^64; c39_sums: the exact sum whenever it fits."
  },
  {
   "property": "C40",
   "status": "proved",
   "theorems": [
    "c40_collection",
    "c40_detached",
    "c40_exactly_once"
   ],
   "note": ""
  },
  {
   "property": "C41",
   "status": "proved",
   "theorems": [
    "c41_instruments",
    "c41_trees",
    "c41_processors"
   ],
   "note": ""
  },
  {
   "property": "C42",
   "status": "proved",
   "theorems": [
    "c42_panel",
    "c42_cockpit",
    "c42_processor",
    "c42_mount"
   ],
   "note": ""
  },
  {
   "property": "C43",
   "status": "partial",
   "theorems": [
    "c43_trees",
    "c43_processors",
    "c43_outermost_panel",
    "c43_outermost_cockpit",
    "c43_outermost_processor",
    "c43_outermost_mount",
    "c43_nested_driver_title_repeated_refuted"
   ],
   "note": "Proved for all trees, processors and mounts whose user parts and nested drivers only add description fields, and that the outermost title or description comes first on its level. Refuted for a TelemetryDriver mounted inside another component: the items of its answer are pushed one by one, so its title is repeated beside the outer one."
  },
  {
   "property": "C44",
   "status": "proved",
   "theorems": [
    "c44_paths_have_words",
    "c44_find_follows_the_words",
    "c44_no_words",
    "c44_same_words_same_result",
    "c44_leads_unique",
    "c44_find_item_follows"
   ],
   "note": ""
  },
  {
   "property": "C45",
   "status": "proved",
   "theorems": [
    "c45_step_by_step",
    "c45_values_differ"
   ],
   "note": "Holds for nested snapshots as stated; for values the two differ (c45_values_differ)."
  },
  {
   "property": "C46",
   "status": "proved",
   "theorems": [
    "c46_json_of_snapshot"
   ],
   "note": "The JSON of numbers and the text it is printed to belong to the json crate and are not modelled."
  },
  {
   "property": "C47",
   "status": "partial",
   "theorems": [
    "c47_json_and_find_agree_refuted",
    "c47_agree_where_unique"
   ],
   "note": "False of the code for duplicate names and for names containing the separator: c47_json_and_find_agree_refuted. Proved where names are unique."
  },
  {
   "property": "C48",
   "status": "partial",
   "theorems": [
    "c48_durations",
    "c48_not_durations",
    "c48_negative_refuted"
   ],
   "note": "False of the code for negative integers: c48_negative_refuted. Proved for all others."
  },
  {
   "property": "C49",
   "status": "proved",
   "theorems": [
    "c49_in_order",
    "c49_sent"
   ],
   "note": "For every schedule of the threads with handles. Sending on the unbounded command channel and the schedule are the model's channel semantics."
  },
  {
   "property": "C50",
   "status": "proved",
   "theorems": [
    "c50_paused",
    "c50_iteration"
   ],
   "note": ""
  },
  {
   "property": "C51",
   "status": "proved",
   "theorems": [
    "c51_once",
    "c51_at_the_end",
    "c51_soon"
   ],
   "note": "A pending request at the end of the thread is reported as unanswered (the back channel is dropped). Waiting of the caller itself is not modelled."
  },
  {
   "property": "C52",
   "status": "proved",
   "theorems": [
    "c52_stops",
    "c52_at_most",
    "c52_not_before"
   ],
   "note": "The store to is_running becomes visible when it takes place; the schedule may delay it arbitrarily."
  },
  {
   "property": "C53",
   "status": "partial",
   "theorems": [
    "c53_no_collection_partial",
    "c53_off_while_collecting",
    "c53_on_without_collections",
    "c53_histories",
    "c53_refuted"
   ],
   "note": "False as documented (c53_refuted): the alarm is reset by every collection, also by collections that find nothing. Proved instead: it is on iff no collection was recorded within the last minute."
  },
  {
   "property": "C54",
   "status": "proved",
   "theorems": [
    "c54_alarm",
    "c54_on",
    "c54_off"
   ],
   "note": "The time of the alarm is the time when the bookkeeping of the collection is done and the time when the snapshot asks; c54_on and c54_off bound both."
  },
  {
   "property": "C55",
   "status": "proved",
   "theorems": [
    "c55_shape",
    "c55_metrix"
   ],
   "note": "User parts only append to the snapshot given (hypothesis parts_append)."
  },
  {
   "property": "C56",
   "status": "proved",
   "theorems": [
    "c56_instruments",
    "c56_panels",
    "c56_handlers",
    "c56_cockpits",
    "c56_processors",
    "c56_drivers",
    "c56_driver_metrics_refuted"
   ],
   "note": "Instruments, panels, handlers, cockpits, processors and drivers without metrics of their own; every operation takes place at one reading of the clock. The metrics of a driver count the snapshots (c56_driver_metrics_refuted shows that they are an exception by design)."
  },
  {
   "property": "C57",
   "status": "partial",
   "theorems": [
    "c57_not_collected",
    "c57_stay",
    "c57_writes_answer",
    "c57_answers",
    "c57_completes_partial",
    "c57_cycles",
    "c57_always_completes_refuted"
   ],
   "note": "Proved for every network of drivers, with mounting at any time, mounts in between and drivers that end: never collected, answers are the snapshots of the asked drivers, termination without cycles whatever other threads do. 'Always completes' is refuted: drivers on a mounting cycle never answer."
  },
  {
   "property": "C58",
   "status": "partial",
   "theorems": [
    "c58_measure_time_partial",
    "c58_overflow",
    "c58_measure_time_refuted",
    "c58_now"
   ],
   "note": "Exact up to u64::MAX nanoseconds (584 years); beyond that the conversion overflows (debug panics, release wraps, c58_measure_time_refuted). c58_overflow states exactly what happens."
  },
  {
   "property": "C59",
   "status": "proved",
   "theorems": [
    "c59_handling",
    "c59_snapshots",
    "c59_processing",
    "c59_driver",
    "c59_start",
    "c59_tracking"
   ],
   "note": "For user code (handlers, instruments, snapshooters, processors, reservoir) it is assumed that it does not panic."
  },
  {
   "property": "C60",
   "status": "partial",
   "theorems": [
    "c60_every_change_counts",
    "c60_inc_dec_partial",
    "c60_inc_dec_drifts_refuted"
   ],
   "note": "Proved for gauges that follow changes (deltas-only or with a filter), for every age. Refuted for increment/decrement on labels: such observations are not deltas and are dropped when they are older than 30 s; what remains true is c60_inc_dec_partial."
  },
  {
   "property": "C61",
   "status": "proved",
   "theorems": [
    "c61_sees_exactly"
   ],
   "note": "Wherever the instrument is in the processor; user parts may not change the clock."
  },
  {
   "property": "C62",
   "status": "proved",
   "theorems": [
    "c62_moves",
    "c62_deltas_only_moves",
    "c62_taken_back"
   ],
   "note": "Plain and deltas-only adapters; sums are exact modulo 2^64."
  },
  {
   "property": "C63",
   "status": "proved",
   "theorems": [
    "c63_gauge",
    "c63_display",
    "c63_constant",
    "c63_pushed",
    "c63_constructors",
    "c63_counted",
    "c63_counted_now"
   ],
   "note": "usize and isize have 64 bits."
  },
  {
   "property": "C64",
   "status": "proved",
   "theorems": [
    "c64_counter",
    "c64_gauge",
    "c64_meter",
    "c64_value_meter",
    "c64_histogram",
    "c64_flag",
    "c64_staircase_timer",
    "c64_occurrence_indicator",
    "c64_non_occurrence_indicator",
    "c64_last_occurrence_tracker",
    "c64_data_display",
    "c64_constant_value",
    "c64_polling_instrument",
    "c64_panel",
    "c64_cockpit",
    "c64_telemetry_processor",
    "c64_processor_mount"
   ],
   "note": ""
  },
  {
   "property": "C65",
   "status": "proved",
   "theorems": [
    "c65_instrument",
    "c65_modified",
    "c65_gauge",
    "c65_gauge_changes",
    "c65_gauge_steps"
   ],
   "note": ""
  },
  {
   "property": "C66",
   "status": "proved",
   "theorems": [
    "c66_configured",
    "c66_shown"
   ],
   "note": ""
  },
  {
   "property": "C67",
   "status": "partial",
   "theorems": [
    "c67_instruments",
    "c67_components",
    "c67_gauge_partial",
    "c67_refuted"
   ],
   "note": "False of gauges whose value and tracking are both set (c67_refuted). Proved for all other components and for gauges otherwise."
  },
  {
   "property": "C68",
   "status": "partial",
   "theorems": [
    "c68_refuted",
    "c68_partial"
   ],
   "note": "False as stated (c68_refuted): the labels are _title_<name> and _description_<name>. c68_partial and the theorems of C64 give the labels that are written."
  },
  {
   "property": "C69",
   "status": "proved",
   "theorems": [
    "c69_life",
    "c69_progress"
   ],
   "note": "for processors whose receiver nobody else holds (what the code guarantees by ownership)"
  },
  {
   "property": "C70",
   "status": "proved",
   "theorems": [
    "c70_life"
   ],
   "note": ""
  },
  {
   "property": "C71",
   "status": "proved",
   "theorems": [
    "c71_counter",
    "c71_counter_shown",
    "c71_gauge",
    "c71_gauge_shown",
    "c71_meter"
   ],
   "note": "Histograms and user-defined instruments are covered by C70, not by a value theorem here."
  },
  {
   "property": "C72",
   "status": "proved",
   "theorems": [
    "c72_shown"
   ],
   "note": ""
  },
  {
   "property": "C73",
   "status": "proved",
   "theorems": [
    "c73_counter",
    "c73_gauge"
   ],
   "note": ""
  },
  {
   "property": "C74",
   "status": "proved",
   "theorems": [
    "c74_panel",
    "c74_cockpit",
    "c74_processor",
    "c74_snapshooters",
    "c74_snapshooters_shown",
    "c74_mount",
    "c74_mount_shown"
   ],
   "note": ""
  },
  {
   "property": "C75",
   "status": "proved",
   "theorems": [
    "c75_cockpits",
    "c75_panels",
    "c75_observations"
   ],
   "note": ""
  },
  {
   "property": "C76",
   "status": "proved",
   "theorems": [
    "c76_flag",
    "c76_staircase",
    "c76_occurrence",
    "c76_non_occurrence",
    "c76_last_occurrence",
    "c76_display",
    "c76_histogram",
    "c76_value_meter"
   ],
   "note": ""
  },
  {
   "property": "C77",
   "status": "proved",
   "theorems": [
    "c77_any",
    "c77_flag",
    "c77_staircase",
    "c77_occurrence",
    "c77_non_occurrence",
    "c77_last_occurrence",
    "c77_display",
    "c77_histogram",
    "c77_meter",
    "c77_value_meter"
   ],
   "note": ""
  },
  {
   "property": "C78",
   "status": "proved",
   "theorems": [
    "c78_shown",
    "c78_constant",
    "c78_polled",
    "c78_tree",
    "c78_tree_constant",
    "c78_added"
   ],
   "note": ""
  },
  {
   "property": "C79",
   "status": "proved",
   "theorems": [
    "c79_tele",
    "c79_processor",
    "c79_attach",
    "c79_snapshooter",
    "c79_mount",
    "c79_stays"
   ],
   "note": "Putting is an action of another thread between iterations; actions during iterations are those of the schedule (c79_mount)."
  },
  {
   "property": "C80",
   "status": "proved",
   "theorems": [
    "c80_tele",
    "c80_processor",
    "c80_attached"
   ],
   "note": ""
  },
  {
   "property": "C81",
   "status": "proved",
   "theorems": [
    "c81_all",
    "c81_counter",
    "c81_transmitted"
   ],
   "note": ""
  },
  {
   "property": "C82",
   "status": "proved",
   "theorems": [
    "c82_life",
    "c82_shown",
    "c82_figures",
    "c82_gauges"
   ],
   "note": ""
  },
  {
   "property": "C83",
   "status": "proved",
   "theorems": [
    "c83_ratios",
    "c83_inexact"
   ],
   "note": ""
  },
  {
   "property": "C84",
   "status": "proved",
   "theorems": [
    "c84_average",
    "c84_settles"
   ],
   "note": ""
  },
  {
   "property": "C85",
   "status": "proved",
   "theorems": [
    "c85_mounted_in_time",
    "c85_mounted_lives",
    "c85_end_answers",
    "c85_circle",
    "c85_can_end"
   ],
   "note": ""
  },
  {
   "property": "C86",
   "status": "proved",
   "theorems": [
    "c86_factors",
    "c86_windows",
    "c86_values"
   ],
   "note": ""
  },
  {
   "property": "C87",
   "status": "proved",
   "theorems": [
    "c87_instruments",
    "c87_handling",
    "c87_snapshots",
    "c87_processing",
    "c87_driver",
    "c87_start",
    "c87_checks_only_panic",
    "c87_bound_is_no_result"
   ],
   "note": ""
  },
  {
   "property": "C88",
   "status": "proved",
   "theorems": [
    "c88_pairs",
    "c88_calls",
    "c88_attached",
    "c88_attached_by_handle",
    "c88_handles",
    "c88_named",
    "c88_flag",
    "c88_inverted",
    "c88_inverted_timer",
    "c88_default_driver",
    "c88_find"
   ],
   "note": ""
  },
  {
   "property": "C89",
   "status": "proved",
   "theorems": [
    "c89_items",
    "c89_integers_differ",
    "c89_found",
    "c89_durations",
    "c89_one_duration",
    "c89_no_duration",
    "c89_durations_differ",
    "c89_found_durations",
    "c89_opts",
    "c89_kinds_differ_refuted"
   ],
   "note": ""
  },
  {
   "property": "C90",
   "status": "proved",
   "theorems": [
    "c90_statistics",
    "c90_appends"
   ],
   "note": ""
  },
  {
   "property": "C91",
   "status": "proved",
   "theorems": [
    "c91_update",
    "c91_snapshot",
    "c91_life",
    "c91_new",
    "c91_any_numbers_refuted"
   ],
   "note": ""
  },
  {
   "property": "C92",
   "status": "partial",
   "theorems": [
    "c92_window",
    "c92_found_partial",
    "c92_other_times",
    "c92_found_refuted"
   ],
   "note": "False as stated (c92_found_refuted): current_mut rounds a time down and get_at_mut rounds it up. Proved: the exact behaviour for all uses (c92_window), the claim for whole seconds (c92_found_partial), and that all other times are one second off (c92_other_times). get_at_mut is only used by the library's tests."
  },
  {
   "property": "C93",
   "status": "proved",
   "theorems": [
    "c93_order",
    "c93_complete",
    "c93_exact",
    "c93_real"
   ],
   "note": ""
  },
  {
   "property": "C94",
   "status": "proved",
   "theorems": [
    "c94_life",
    "c94_outcome",
    "c94_new",
    "c94_any_numbers_refuted"
   ],
   "note": ""
  },
  {
   "property": "C95",
   "status": "proved",
   "theorems": [
    "c95_driver",
    "c95_start",
    "c95_any_numbers_refuted"
   ],
   "note": ""
  },
  {
   "property": "C96",
   "status": "proved",
   "theorems": [
    "c96_warnings",
    "c96_prompt",
    "c96_start"
   ],
   "note": ""
  },
  {
   "property": "C97",
   "status": "proved",
   "theorems": [
    "c97_staircase_timer",
    "c97_occurrence_indicator",
    "c97_non_occurrence_indicator",
    "c97_last_occurrence_tracker",
    "c97_data_display",
    "c97_polling_instrument"
   ],
   "note": ""
  }
 ]
}