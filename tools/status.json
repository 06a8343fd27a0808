{
 "C01": {
  "status": "proved",
  "note": ""
 },
 "C02": {
  "status": "proved",
  "note": ""
 },
 "C24": {
  "status": "proved",
  "note": "Converting through a finer unit is only exact while the product fits u64; the failing case is a theorem as well."
 },
 "C25": {
  "status": "partial",
  "note": "The statement holds for all numbers that are not below the target range; negative out-of-range floats saturate instead of giving nothing (c25_below_range_saturates, c25_always_nearest_refuted)."
 },
 "C26": {
  "status": "partial",
  "note": "False of the code for floats: c26_negative_gives_nothing_refuted. What holds is proved: negative integers give nothing, negative floats become 0."
 },
 "C03": {
  "status": "proved",
  "note": "Durations whose converted value is at least 2^63 turn negative (c03_huge_durations_turn_negative); update_effect covers the others."
 },
 "C04": {
  "status": "proved",
  "note": ""
 },
 "C05": {
  "status": "proved",
  "note": ""
 },
 "C06": {
  "status": "proved",
  "note": ""
 },
 "C07": {
  "status": "partial",
  "note": "False of the code: c07_peak_avg_refuted (empty records count as divisor). Proved: the exact quotient that is shown (stats_of in c06_tracked_gauge_shows) and the bounds if no record is empty, before rounding."
 },
 "C08": {
  "status": "proved",
  "note": ""
 },
 "C09": {
  "status": "proved",
  "note": ""
 },
 "C10": {
  "status": "proved",
  "note": "Stronger than stated: no bound on the counts (u64), and the rate also stays above the lowest rate of an interval. libm's exp is not modelled; the smoothing factors are arbitrary doubles in [0, 1/2]."
 },
 "C11": {
  "status": "proved",
  "note": ""
 },
 "C13": {
  "status": "proved",
  "note": ""
 },
 "C12": {
  "status": "partial",
  "note": "False of the code for negative sums: c12_rate_of_negative_values_refuted. Proved for non-negative sums (c12_first_rate_partial) with the relative error of the quotient (c12_quotient_is_close)."
 },
 "C16": {
  "status": "proved",
  "note": ""
 },
 "C17": {
  "status": "proved",
  "note": "When the period is lowered, a later observation can shorten the time (c17_staircase_reconfigured and its case)."
 },
 "C18": {
  "status": "proved",
  "note": ""
 },
 "C19": {
  "status": "partial",
  "note": "False of the code: c19_reconfiguring_keeps_occurrences_refuted. What the code does instead is c18_occurrence_iff."
 },
 "C20": {
  "status": "proved",
  "note": ""
 },
 "C21": {
  "status": "partial",
  "note": "False of the code for the timed switches when the clock moves between its two readings: c21_inverted_is_negation_refuted. Proved for equal readings and, in c16_flag_shows_last, for flags."
 },
 "C22": {
  "status": "proved",
  "note": ""
 },
 "C23": {
  "status": "proved",
  "note": "Setting a reset value replaces the shown value at once; the statement counts it as a value."
 },
 "C14": {
  "status": "proved",
  "note": "Instants: all clock readings during one update show the same time."
 },
 "C15": {
  "status": "proved",
  "note": "A limit of zero is excluded (such a histogram is never active)."
 },
 "C44": {
  "status": "proved",
  "note": ""
 },
 "C45": {
  "status": "proved",
  "note": "Holds for nested snapshots as stated; for values the two differ (c45_values_differ)."
 },
 "C46": {
  "status": "proved",
  "note": "The JSON of numbers and the text it is printed to belong to the json crate and are not modelled."
 },
 "C47": {
  "status": "partial",
  "note": "False of the code for duplicate names and for names containing the separator: c47_json_and_find_agree_refuted. Proved where names are unique."
 },
 "C48": {
  "status": "partial",
  "note": "False of the code for negative integers: c48_negative_refuted. Proved for all others."
 },
 "C43": {
  "status": "partial",
  "note": "Proved for all trees, processors and mounts whose user parts and nested drivers only add description fields, and that the outermost title or description comes first on its level. Refuted for a TelemetryDriver mounted inside another component: the items of its answer are pushed one by one, so its title is repeated beside the outer one."
 },
 "C29": {
  "status": "partial",
  "note": "Refuted: handling an observation never sets last_update, so a panel goes inactive once the limit has passed since its creation, even at the very moment of an observation. What holds is proved for all histories: hidden iff more than the limit has passed since creation."
 },
 "C31": {
  "status": "partial",
  "note": "Refuted for panels, cockpits and processors: with show_activity_state=false the limit has no effect at all (proved for every component and time). It holds for histograms (proved) and mounts (which always show the state, C30)."
 },
 "C38": {
  "status": "partial",
  "note": "False as stated: with capacity 0 and block_on_full = false every message is lost (c38_capacity_zero_refuted). Proved for every other capacity and for unbounded queues: the message is queued and the next collection handles it first."
 },
 "C58": {
  "status": "partial",
  "note": "Exact up to u64::MAX nanoseconds (584 years); beyond that the conversion overflows (debug panics, release wraps, c58_measure_time_refuted). c58_overflow states exactly what happens."
 },
 "C39": {
  "status": "proved",
  "note": "c39_mount, c39_driver: every contained processor is collected once, in order, with the same bound and strategy, and the outcomes are added modulo 2^64; c39_sums: the exact sum whenever it fits."
 },
 "C49": {
  "status": "proved",
  "note": "For every schedule of the threads with handles. Sending on the unbounded command channel and the schedule are the model's channel semantics."
 },
 "C50": {
  "status": "proved",
  "note": ""
 },
 "C51": {
  "status": "proved",
  "note": "A pending request at the end of the thread is reported as unanswered (the back channel is dropped). Waiting of the caller itself is not modelled."
 },
 "C52": {
  "status": "proved",
  "note": "The store to is_running becomes visible when it takes place; the schedule may delay it arbitrarily."
 },
 "C53": {
  "status": "partial",
  "note": "False as documented (c53_refuted): the alarm is reset by every collection, also by collections that find nothing. Proved instead: it is on iff no collection was recorded within the last minute."
 },
 "C54": {
  "status": "proved",
  "note": "The time of the alarm is the time when the bookkeeping of the collection is done and the time when the snapshot asks; c54_on and c54_off bound both."
 },
 "C55": {
  "status": "proved",
  "note": "User parts only append to the snapshot given (hypothesis parts_append)."
 },
 "C57": {
  "status": "partial",
  "note": "Proved for every network of drivers, with mounting at any time, mounts in between and drivers that end: never collected, answers are the snapshots of the asked drivers, termination without cycles whatever other threads do. 'Always completes' is refuted: drivers on a mounting cycle never answer."
 },
 "C60": {
  "status": "partial",
  "note": "Proved for gauges that follow changes (deltas-only or with a filter), for every age. Refuted for increment/decrement on labels: such observations are not deltas and are dropped when they are older than 30 s; what remains true is c60_inc_dec_partial."
 },
 "C61": {
  "status": "proved",
  "note": "Wherever the instrument is in the processor; user parts may not change the clock."
 },
 "C59": {
  "status": "proved",
  "note": "For user code (handlers, instruments, snapshooters, processors, reservoir) it is assumed that it does not panic."
 },
 "C56": {
  "status": "proved",
  "note": "Instruments, panels, handlers, cockpits, processors and drivers without metrics of their own; every operation takes place at one reading of the clock. The metrics of a driver count the snapshots (c56_driver_metrics_refuted shows that they are an exception by design)."
 },
 "C62": {
  "status": "proved",
  "note": "Plain and deltas-only adapters; sums are exact modulo 2^64."
 },
 "C63": {
  "status": "proved",
  "note": "usize and isize have 64 bits."
 },
 "C64": {
  "status": "proved",
  "note": ""
 },
 "C65": {
  "status": "proved",
  "note": ""
 },
 "C66": {
  "status": "proved",
  "note": ""
 },
 "C67": {
  "status": "partial",
  "note": "False of gauges whose value and tracking are both set (c67_refuted). Proved for all other components and for gauges otherwise."
 },
 "C68": {
  "status": "partial",
  "note": "False as stated (c68_refuted): the labels are _title_<name> and _description_<name>. c68_partial and the theorems of C64 give the labels that are written."
 },
 "C69": {
  "status": "proved",
  "note": "for processors whose receiver nobody else holds (what the code guarantees by ownership)"
 },
 "C70": {
  "status": "proved",
  "note": ""
 },
 "C71": {
  "status": "proved",
  "note": "Histograms and user-defined instruments are covered by C70, not by a value theorem here."
 },
 "C72": {
  "status": "proved",
  "note": ""
 },
 "C73": {
  "status": "proved",
  "note": ""
 },
 "C74": {
  "status": "proved",
  "note": ""
 },
 "C75": {
  "status": "proved",
  "note": ""
 },
 "C76": {
  "status": "proved",
  "note": ""
 },
 "C77": {
  "status": "proved",
  "note": ""
 },
 "C78": {
  "status": "proved",
  "note": ""
 },
 "C79": {
  "status": "proved",
  "note": "Putting is an action of another thread between iterations; actions during iterations are those of the schedule (c79_mount)."
 },
 "C80": {
  "status": "proved",
  "note": ""
 },
 "C81": {
  "status": "proved",
  "note": ""
 },
 "C82": {
  "status": "proved",
  "note": ""
 },
 "C83": {
  "status": "proved",
  "note": ""
 },
 "C84": {
  "status": "proved",
  "note": ""
 },
 "C85": {
  "status": "proved",
  "note": ""
 },
 "C86": {
  "status": "proved",
  "note": ""
 },
 "C87": {
  "status": "proved",
  "note": ""
 },
 "C88": {
  "status": "proved",
  "note": ""
 },
 "C89": {
  "status": "proved",
  "note": ""
 },
 "C90": {
  "status": "proved",
  "note": ""
 },
 "C91": {
  "status": "proved",
  "note": ""
 },
 "C92": {
  "status": "partial",
  "note": "False as stated (c92_found_refuted): current_mut rounds a time down and get_at_mut rounds it up. Proved: the exact behaviour for all uses (c92_window), the claim for whole seconds (c92_found_partial), and that all other times are one second off (c92_other_times). get_at_mut is only used by the library's tests."
 },
 "C93": {
  "status": "proved",
  "note": ""
 },
 "C94": {
  "status": "proved",
  "note": ""
 },
 "C95": {
  "status": "proved",
  "note": ""
 },
 "C96": {
  "status": "proved",
  "note": ""
 },
 "C97": {
  "status": "proved",
  "note": ""
 }
}