{"id": "C01", "title": "Label filters behave as sets of labels", "statement": "A LabelFilter built from any sequence of labels (one, tuple, Vec, or accept_none plus any number of accept_another calls) accepts a label exactly when it is one of those labels; accept_all accepts everything and stays that way; accept_none accepts nothing; adding a label to a predicate filter accepts exactly the predicate's labels plus that label.", "quantifier": "for every label type with decidable equality, every starting filter, every finite sequence of added labels and every queried label", "why_tests_cant": "The representation switches form at 0,1,2,3,4,5 and 6+ labels and at predicates; tests sample a few lengths, not every sequence and every query.", "anchors": ["src/instruments/label_filter.rs: LabelFilter::{new,predicate,accept_all,accept_none,accept_another,accepts}, LabelFilterInternal::{add_label,accepts}, From impls"]}
{"id": "C02", "title": "A counter equals the number of occurrences observed", "statement": "After any history of updates a Counter shows the sum of the occurrence counts (1 for a plain or valued observation, n for `n observations`) modulo 2^64 in a build without overflow checks; in a build with overflow checks it either shows that exact sum or panics, and it panics exactly when the exact sum exceeds u64::MAX. As long as the total fits it never decreases.", "quantifier": "for every finite history of updates, every starting count and both build profiles", "why_tests_cant": "Totals near 2^64 and arbitrary histories are out of reach of example tests.", "anchors": ["src/instruments/counter.rs: Counter::{inc,inc_by,get}, impl Updates for Counter"]}
{"id": "C03", "title": "A gauge shows the last value set plus the later changes", "statement": "After any history of observed values the value of a Gauge is: nothing, if no usable value was ever observed; otherwise the most recent directly set value (0 if none) plus all changes observed after it, as long as no intermediate result leaves the i64 range (wrapping without, panicking with overflow checks otherwise). Observations that carry no integer value leave it unchanged.", "quantifier": "for every finite history of observed values, every display time unit, every initial gauge value and both build profiles", "why_tests_cant": "The value depends on the whole interleaving of sets, deltas and unusable values.", "anchors": ["src/instruments/gauge/mod.rs: Gauge::{set,next_value,get}, impl Updates for Gauge"]}
{"id": "C04", "title": "Delta-only and inc/dec gauges count exactly the right observations", "statement": "A deltas-only gauge changes only by the ChangedBy amounts of accepted labels and ignores every absolute value; an inc/dec-on-labels gauge equals (observations whose label is in the increment filter) minus (observations whose label is only in the decrement filter), one per observation whatever its count or value.", "quantifier": "for every finite history of labelled observations and every pair of filters, overlapping or not", "why_tests_cant": "Filters may overlap and histories are unbounded; tests only check a couple of labels.", "anchors": ["src/instruments/gauge/gauge_adapter.rs: impl HandlesObservations for GaugeAdapter", "src/instruments/gauge/mod.rs: Gauge::{deltas_only,inc_dec_on}"]}
{"id": "C05", "title": "Gauge tracking is an exact sliding window of one-second records", "statement": "With tracking(n), at any query time the records used are exactly the n most recent one-second intervals counted from the creation of the tracker: a value recorded at time t contributes if and only if its interval is one of the last n, and each record holds exactly the values recorded in its interval. How often, and when, the tracker is read or updated makes no difference.", "quantifier": "for every n >= 1, every record type, every non-decreasing sequence of read/record times and every values", "why_tests_cant": "Ring-buffer index arithmetic under arbitrary gaps between calls (0, 1, less than n, n or more seconds) cannot be exhausted by tests.", "anchors": ["src/instruments/fundamentals/buckets.rs: SecondsBuckets::{with_clock,current_mut,iter,tick,idx}, BucketIterator::next"]}
{"id": "C06", "title": "Gauge tracking statistics are the extrema and mean over the window", "statement": "When at least one value was recorded inside the window, `peak`/`bottom` are the maximum/minimum of the recorded values, `peak_min`/`bottom_max` the smallest per-record maximum / largest per-record minimum among non-empty records, and `avg` is the 64-bit float quotient of the exact sum and the exact number of recorded values; bottom <= bottom_max, peak_min <= peak, bottom <= peak_min and bottom_max <= peak. When nothing was recorded, every statistic is the current value.", "quantifier": "for every content of the window (any number of records, empty or not, any i64 values) whose sums stay in the i64 range", "why_tests_cant": "Quantifies over all window contents; the code folds seven accumulators at once.", "anchors": ["src/instruments/gauge/tracking.rs: Bucket::update, BucketsStats::from_buckets"]}
{"id": "C07", "title": "The average of peaks lies between the smallest and the largest peak", "statement": "`peak_avg` of a tracked gauge lies between `peak_min` and `peak`, and `bottom_avg` between `bottom` and `bottom_max` (documentation: the average of the peak/bottom values for all records).", "quantifier": "for every window content with at least one recorded value", "why_tests_cant": "Holds in all existing tests (which fill every record) but must hold for partially filled windows, too.", "anchors": ["src/instruments/gauge/tracking.rs: BucketsStats::from_buckets", "src/instruments/gauge/mod.rs: Gauge::tracking docs"]}
{"id": "C08", "title": "A meter's count equals the number of occurrences", "statement": "The `count` of a Meter is the sum of the occurrence counts of its updates, ignoring updates with n > i64::MAX, as long as the sum fits i64; it agrees with a Counter fed the same updates whenever all n <= i64::MAX and the total fits. The timing of updates and snapshots does not influence the count.", "quantifier": "for every finite history of updates and snapshots at any times, both build profiles", "why_tests_cant": "Histories with arbitrary timing and sizes.", "anchors": ["src/instruments/meter.rs: impl Updates for Meter, Meter::get_snapshot", "src/instruments/fundamentals/metrics_meter.rs: StdMeter::{mark,tick_inner,snapshot}"]}
{"id": "C09", "title": "Meter rates do not depend on how often the meter is polled", "statement": "A meter advances its rates once for every complete 5-second interval since its creation, no matter when or how often updates and snapshots happen; each marked event is counted in exactly one interval, the one in which it was marked; inserting additional snapshots into a history changes no later count and no later rate.", "quantifier": "for every non-decreasing clock, every history of updates and snapshots and every way to insert further snapshots", "why_tests_cant": "It is a statement about all interleavings of reads and writes with time.", "anchors": ["src/instruments/fundamentals/metrics_meter.rs: StdMeter::tick_inner, EWMA::{tick,update}", "src/instruments/meter.rs: Meter::get_snapshot"]}
{"id": "C10", "title": "Meter rates stay within the range of the observed interval rates", "statement": "For events marked with non-negative counts, every rate of a meter is non-negative and never exceeds the largest per-interval rate seen so far; after the first interval it is never NaN or infinite; without further events it never increases.", "quantifier": "for every history of marks with total below 2^53 per interval, every smoothing factor between 0 and 1/2 and IEEE-754 double arithmetic with round-to-nearest", "why_tests_cant": "A floating-point invariant over unbounded iteration.", "anchors": ["src/instruments/fundamentals/metrics_meter.rs: EWMA::{tick,rate}"]}
{"id": "C11", "title": "A value meter sums the observed values", "statement": "The `count` of a ValueMeter is the sum of the convertible observed values (durations in the display unit), values that cannot be converted are ignored and reported as no update; for non-negative values its rates have the properties of C09/C10.", "quantifier": "for every history of observed values whose running sums stay within i64", "why_tests_cant": "Unbounded histories; mixed kinds of values.", "anchors": ["src/instruments/other_instruments/value_meter.rs: impl Updates for ValueMeter"]}
{"id": "C12", "title": "A value meter reports sane rates for negative values", "statement": "If the values observed within an interval sum up to a value v, the first reported rate is v/5 per second, also when some of the values are negative.", "quantifier": "for every list of i64 values observed in the first interval", "why_tests_cant": "Tests only feed positive values.", "anchors": ["src/instruments/other_instruments/value_meter.rs: impl Updates for ValueMeter", "src/instruments/fundamentals/metrics_meter.rs: StdMeter::mark (n as usize)"]}
{"id": "C13", "title": "Rates below the cutoff are shown as zero and disabled windows are absent", "statement": "A meter snapshot contains `count` and one entry per enabled window, in the order one_minute, five_minutes, fifteen_minutes; the shown rate is zero if the rate is below the cutoff and otherwise the unmodified rate.", "quantifier": "for every meter state, cutoff (any f64 including NaN) and combination of enabled windows", "why_tests_cant": "All float cutoffs and states, including NaN.", "anchors": ["src/instruments/meter.rs: Meter::get_snapshot, MeterSnapshot::put_snapshot"]}
{"id": "C14", "title": "A histogram records exactly the usable values since its last reset", "statement": "The number of samples in a histogram equals the number of observed values with an integer or duration value since the last reset; it is reset exactly when an update arrives more than the inactivity limit after the last recorded value and resetting is enabled.", "quantifier": "for every history of updates at any times, every limit and reset setting, and every implementation of the underlying reservoir that counts its updates", "why_tests_cant": "Timing-dependent over unbounded histories.", "anchors": ["src/instruments/histogram.rs: impl Updates for Histogram"]}
{"id": "C15", "title": "An inactive histogram shows no values and an active one does", "statement": "With an inactivity limit a histogram shows its statistics if and only if a value was recorded less than the limit ago (creation counts as a recording); the activity fields are shown if and only if enabled and a limit is set, are complementary, and agree with the presence of the statistics.", "quantifier": "for every history, limit, setting of show_activity_state and query time", "why_tests_cant": "Boundary behaviour in time for all histories.", "anchors": ["src/instruments/histogram.rs: Histogram::put_values_into_snapshot, HistogramSnapshot::put_snapshot"]}
{"id": "C16", "title": "A flag shows the last boolean-like observation", "statement": "A Flag shows the truth value of the last observed Bool, signed or unsigned integer (non-zero is true); everything else leaves it unchanged; if an inverted field is configured it is always the negation of the flag in the same snapshot.", "quantifier": "for every history of updates, initial state and name alternation", "why_tests_cant": "Unbounded histories.", "anchors": ["src/instruments/switches/flag.rs: impl Updates for Flag, impl PutsSnapshot for Flag"]}
{"id": "C17", "title": "A staircase timer is on exactly within its period after a tap", "statement": "With a fixed period d the StaircaseTimer is on at time t if and only if some observation was handled at a time u with u <= t <= u + d; a further observation never shortens the time it stays on.", "quantifier": "for every non-decreasing sequence of observation times, every period and query time", "why_tests_cant": "All timings.", "anchors": ["src/instruments/switches/staircase_timer.rs: StaircaseTimer::state, impl Updates"]}
{"id": "C18", "title": "The occurrence indicator is on iff something happened recently", "statement": "The OccurrenceIndicator is on at time t if and only if an observation was handled at a time u with t - u < window since the window was last configured; before any observation it is off.", "quantifier": "for every history of observations and reconfigurations, every window and query time", "why_tests_cant": "All timings and reconfiguration histories.", "anchors": ["src/instruments/switches/occurrence_indicator.rs: OccurrenceIndicator::{new,set_if_happened_within,state}, impl Updates"]}
{"id": "C19", "title": "Reconfiguring the occurrence window keeps earlier occurrences", "statement": "Calling set_if_happened_within does not make the indicator forget an occurrence that lies within the new window.", "quantifier": "for every history in which an occurrence precedes a reconfiguration", "why_tests_cant": "Only visible for particular orders of calls.", "anchors": ["src/instruments/switches/occurrence_indicator.rs: OccurrenceIndicator::set_if_happened_within"]}
{"id": "C20", "title": "The non-occurrence indicator is on iff nothing happened for the period", "statement": "The NonOccurrenceIndicator is on at time t if and only if at least the configured period has passed since the last observation (or the creation); with equal settings it is the exact opposite of the OccurrenceIndicator after the first observation.", "quantifier": "for every history, window and query time", "why_tests_cant": "All timings.", "anchors": ["src/instruments/switches/non_occurrence_indicator.rs: NonOccurrenceIndicator::state, impl Updates"]}
{"id": "C21", "title": "The inverted field of a switch is the negation of its field", "statement": "In every snapshot that shows a switch together with its inverted field the two values are opposite.", "quantifier": "for every switch state and every non-decreasing clock, in particular when time passes while the snapshot is written", "why_tests_cant": "Depends on the clock advancing between two reads inside one call, which tests cannot schedule.", "anchors": ["src/instruments/switches/staircase_timer.rs: put_snapshot", "src/instruments/switches/occurrence_indicator.rs: put_snapshot", "src/instruments/switches/non_occurrence_indicator.rs: put_snapshot"]}
{"id": "C22", "title": "The last occurrence tracker shows whole seconds since the last observation", "statement": "The LastOccurrenceTracker shows floor(now - time of last handled observation) in seconds; before the first observation it shows nothing, or 0 if configured. Whatever `invert` is set to, the shown value is the same.", "quantifier": "for every history and query time", "why_tests_cant": "All timings.", "anchors": ["src/instruments/other_instruments/last_occurrence_tracker.rs"]}
{"id": "C23", "title": "A data display shows the last value until it expires", "statement": "A DataDisplay shows the last displayable observed value; when a reset period is configured it shows it until that period after the observation has passed and the reset value (or nothing) afterwards.", "quantifier": "for every history of updates and configuration calls and every query time", "why_tests_cant": "All timings and orders of configuration calls.", "anchors": ["src/instruments/other_instruments/display.rs: DataDisplay::{value,set_reset_value,set_reset_after}, impl Updates"]}
{"id": "C24", "title": "Time unit conversion is exact truncation", "statement": "Displaying a duration in a unit yields floor(value * unit / target unit) whenever the result fits u64 and no intermediate product overflows; converting to a finer unit and back is the identity, converting to a coarser unit and back never gains; otherwise builds with overflow checks panic. A Duration observed without unit is exactly its nanoseconds if these fit u64, and observed with a unit is the truncated value in that unit.", "quantifier": "for every u64 value, every pair of units and every Duration", "why_tests_cant": "16 unit pairs times 2^64 values, including overflow.", "anchors": ["src/instruments/mod.rs: duration_to_display_value", "src/observation.rs: From<Duration>, From<(Duration,TimeUnit)> for ObservedValue"]}
{"id": "C25", "title": "Observed values convert to integers without changing the number", "statement": "Converting an observed value to i64 or u64 yields the same number for integers in range, the number rounded half away from zero for finite floats in range, and nothing for booleans, durations, changes and NaN; out-of-range unsigned and too large float values give nothing; converting to bool yields `non-zero` for integers.", "quantifier": "for every observed value, every f64 bit pattern included", "why_tests_cant": "All 2^64 floats and integers.", "anchors": ["src/observation.rs: ObservedValue::{convert_to_i64,convert_to_u64,convert_to_bool,to_item_kind}"]}
{"id": "C26", "title": "Negative floats do not convert to unsigned integers", "statement": "convert_to_u64 gives nothing for every value below zero, as it does for negative signed integers.", "quantifier": "for every f64", "why_tests_cant": "Needs all floats.", "anchors": ["src/observation.rs: ObservedValue::convert_to_u64"]}
{"id": "C27", "title": "An observation with a foreign label leaves a panel untouched", "statement": "If a panel's filter does not accept the label of an observation the panel, everything nested in it and its snapshot are unchanged and zero updated instruments are reported; the same holds for an instrument adapter and its filter.", "quantifier": "for every panel tree (any nesting, any instruments, any user-supplied handlers) and every observation", "why_tests_cant": "All tree shapes and labels.", "anchors": ["src/instruments/panel.rs: impl HandlesObservations for Panel", "src/instruments/instrument_adapter.rs: handle_observation"]}
{"id": "C28", "title": "An accepted observation reaches every instrument exactly once and the updates are counted", "statement": "Handling an observation passes it exactly once to every instrument whose filter and all enclosing panel filters accept the label, and to no other; the number reported is the sum of the numbers reported by these instruments.", "quantifier": "for every cockpit/panel tree and every observation", "why_tests_cant": "All tree shapes.", "anchors": ["src/instruments/panel.rs: handle_observation", "src/cockpit.rs: handle_observation"]}
{"id": "C29", "title": "A panel that receives observations is not reported inactive", "statement": "A panel with an inactivity limit that handled an accepted observation less than the limit ago shows its values.", "quantifier": "for every panel, limit, history of observations and query time", "why_tests_cant": "Needs observations after the limit since creation has passed; no test waits for that.", "anchors": ["src/instruments/panel.rs: Panel::put_values_into_snapshot, handle_observation (last_update)"]}
{"id": "C30", "title": "Inactive cockpits, processors and mounts hide their values, active ones show them", "statement": "With an inactivity limit (and activity display enabled, where it exists) a component whose last activity is more than the limit ago shows exactly `_inactive`=true and `_active`=false after its descriptions and nothing else; otherwise it shows `_inactive`=false, `_active`=true and all its values. Activity is any handled observation (cockpit) or any processed or dropped message (processor, mount).", "quantifier": "for every component tree, limit, history and query time", "why_tests_cant": "All timings and trees.", "anchors": ["src/cockpit.rs: put_values_into_snapshot, handle_observation", "src/processor.rs: TelemetryProcessor::put_values_into_snapshot, ProcessorMount::put_values_into_snapshot, process"]}
{"id": "C31", "title": "The inactivity limit is honoured independently of showing the activity state", "statement": "A cockpit, panel or processor with an inactivity limit hides its values when inactive also when show_activity_state is false, as a histogram does.", "quantifier": "for every component with a limit", "why_tests_cant": "Combination of two settings and time never tested.", "anchors": ["src/cockpit.rs: put_values_into_snapshot", "src/processor.rs: put_values_into_snapshot", "src/instruments/panel.rs: put_values_into_snapshot"]}
{"id": "C32", "title": "Names of cockpits and panels are unique", "statement": "No sequence of adding and removing cockpits and panels (directly or by message) ever leads to two cockpits with the same name in a processor or two panels with the same name in a cockpit; the first one added stays.", "quantifier": "for every sequence of add/remove operations in any order, starting from any processor with unique names", "why_tests_cant": "Unbounded operation sequences.", "anchors": ["src/processor.rs: TelemetryProcessor::{add_cockpit,remove_cockpit,process}", "src/cockpit.rs: Cockpit::{add_panel,remove_panel}"]}
{"id": "C33", "title": "Removing removes exactly the named component", "statement": "remove_panel/remove_cockpit removes all and only the components with that name, keeps the order of the others and never touches unnamed ones; adding afterwards succeeds; commands that name an unknown cockpit change nothing.", "quantifier": "for every component list and name", "why_tests_cant": "All lists and names.", "anchors": ["src/cockpit.rs: Cockpit::remove_panel", "src/processor.rs: remove_cockpit, process (AddPanelToCockpit, RemovePanelFromCockpit)"]}
{"id": "C34", "title": "The processing strategy drops exactly the observations it says", "statement": "ProcessAll keeps and DropAll drops every observation; DropOlderThan keeps an observation if and only if it is not older than max_age at the start of the collection or it is a delta and deltas are not to be dropped. By default deltas are never dropped. Only observations are ever dropped, never commands.", "quantifier": "for every strategy, observation, timestamp and start time", "why_tests_cant": "All timestamps, including exactly max_age.", "anchors": ["src/processor.rs: ProcessingStrategy::decider, ProcessingDecider::should_be_processed, TelemetryProcessor::process"]}
{"id": "C35", "title": "Every message that was accepted is handled exactly once and in order", "statement": "At any time the messages accepted by the queue of a processor are, in order, the messages handled so far followed by those still queued: none is lost, duplicated or reordered; `processed` + `dropped` of all collections equals the number of messages handled; one collection handles at most `max` messages.", "quantifier": "for every interleaving of senders with the collecting thread, every bound, every strategy and any number of collections", "why_tests_cant": "All interleavings and unbounded histories.", "anchors": ["src/processor.rs: TelemetryProcessor::process", "src/lib.rs: TelemetryTransmitter::send"]}
{"id": "C36", "title": "Messages sent before all transmitters are dropped are still handled", "statement": "When the last transmitter is dropped, every message accepted before is still handled by later collections; the processor notices the disconnect only after the queue is empty and from then on reports empty outcomes.", "quantifier": "for every interleaving of sends, drops of transmitters and collections", "why_tests_cant": "Race between disconnect and collection.", "anchors": ["src/processor.rs: TelemetryProcessor::process (TryRecvError::Disconnected, is_disconnected)"]}
{"id": "C37", "title": "A bounded queue never exceeds its capacity and loses messages only when full", "statement": "The number of queued messages never exceeds the capacity; a non-blocking transmitter loses a message only if the queue was full at that moment (or the processor is gone), a blocking one never loses a message while the processor lives; an unbounded queue never loses one; is_queue_full/is_queue_empty/queue_size/queue_capacity agree with the queue.", "quantifier": "for every interleaving of any number of senders with the receiver and every capacity, including 0", "why_tests_cant": "All interleavings.", "anchors": ["src/lib.rs: TelemetryTransmitter::{send,is_queue_full,is_queue_empty,queue_size,queue_capacity}", "src/processor.rs: TelemetryProcessor::create"]}
{"id": "C38", "title": "A bounded non-blocking queue of any capacity delivers messages to a live processor", "statement": "With new_pair_bounded(name, cap, false) a message sent while nothing is queued is delivered.", "quantifier": "for every capacity, including 0", "why_tests_cant": "Capacity 0 is not tested.", "anchors": ["src/processor.rs: TelemetryProcessor::new_pair_bounded", "src/lib.rs: TelemetryTransmitter::send (try_send)"]}
{"id": "C39", "title": "The outcome of a group is the sum of the outcomes of its members", "statement": "process on a ProcessorMount (and a driver run) collects every contained processor exactly once per call, in order, each with the same max and strategy, and reports the component-wise sum of their outcomes.", "quantifier": "for every tree of mounts and processors", "why_tests_cant": "All tree shapes.", "anchors": ["src/processor.rs: impl ProcessesTelemetryMessages for ProcessorMount, ProcessingOutcome::combine_with", "src/driver.rs: do_a_run"]}
{"id": "C40", "title": "An attached mount takes over everything put into it, in order and before collecting", "statement": "All processors and snapshooters put into an AttachedMount before a collection are part of the mount in that very collection, in the order in which they were put, each exactly once; this still holds for items put before the last handle was dropped, and after that the mount keeps working.", "quantifier": "for every interleaving of put calls, handle drops and collections, nested attached mounts included", "why_tests_cant": "All interleavings.", "anchors": ["src/attached_mount.rs: InternalAttachedMount::process, AttachedMount::{attach_mount,put_processor,put_snapshooter}"]}
{"id": "C41", "title": "Writing a snapshot only appends", "statement": "put_snapshot of any component leaves everything that already is in the given snapshot in place and unchanged and only appends items.", "quantifier": "for every component tree made of library parts and well-behaved user parts, every given snapshot and time", "why_tests_cant": "All trees and contents.", "anchors": ["src/instruments/**: put_snapshot", "src/cockpit.rs", "src/processor.rs", "src/driver.rs", "src/attached_mount.rs"]}
{"id": "C42", "title": "A named component writes exactly one group with its name", "statement": "put_snapshot of a component with a name (panel, cockpit, processor, mount, driver) appends exactly one item: a nested snapshot under that name, whose contents do not depend on what was in the given snapshot; an unnamed one writes its values directly.", "quantifier": "for every component tree and given snapshot", "why_tests_cant": "All trees and contents.", "anchors": ["src/instruments/panel.rs: put_snapshot", "src/cockpit.rs: put_snapshot", "src/processor.rs: put_snapshot", "src/driver.rs: put_values_into_snapshot"]}
{"id": "C43", "title": "Descriptions are additions only and the outermost one wins", "statement": "A descriptive snapshot is the non-descriptive one plus text items for titles and descriptions (same values in the same order when these are removed); a non-descriptive snapshot contains none of them; a title or description already present on a level is never replaced or repeated.", "quantifier": "for every component tree and given snapshot", "why_tests_cant": "All trees.", "anchors": ["src/util.rs: put_default_descriptives, put_postfixed_descriptives, put_descriptives", "all put_snapshot impls"]}
{"id": "C44", "title": "Finding items follows the path", "statement": "find(path) returns the item reached by following the non-empty path segments, at each level the first item with that name; it returns a value reached early ignoring the rest of the path; it finds nothing for a path without non-empty segments; leading, trailing and repeated separators make no difference.", "quantifier": "for every snapshot, path and separator", "why_tests_cant": "All snapshots and paths.", "anchors": ["src/snapshot.rs: Snapshot::{find,find_with_separator}, find_item, FindItem::find"]}
{"id": "C45", "title": "Finding step by step equals finding in one step", "statement": "If find(p) yields a nested snapshot then finding q in the result is the same as finding p/q (for q with at least one non-empty segment).", "quantifier": "for every snapshot and paths p, q", "why_tests_cant": "All snapshots and paths.", "anchors": ["src/snapshot.rs: FindItem::find_with_separator, Snapshot::find_with_separator"]}
{"id": "C46", "title": "JSON contains every item of a snapshot", "statement": "The JSON object of a snapshot has exactly the names of the snapshot as keys, each once; for a name that occurs once the value is the item's value, nested snapshots become nested objects, booleans become 0/1 if configured.", "quantifier": "for every snapshot and configuration", "why_tests_cant": "All snapshots.", "anchors": ["src/snapshot.rs: Snapshot::to_json_value, ItemKind::to_json_value"]}
{"id": "C47", "title": "JSON and find agree", "statement": "For every name in a snapshot the JSON value under that name is the value of the item returned by find.", "quantifier": "for every snapshot, including those with duplicate names", "why_tests_cant": "Duplicate names are legal but untested.", "anchors": ["src/snapshot.rs: Snapshot::to_json_value, Snapshot::find_with_separator"]}
{"id": "C48", "title": "Durations read from a snapshot are the shown number in the unit", "statement": "to_duration_<unit> of a found integer item is that many units; it is `not a duration` for other items and `not found` for missing ones.", "quantifier": "for every item, including negative integers", "why_tests_cant": "Negative integers are untested.", "anchors": ["src/snapshot.rs: FindItem::{to_duration_nanoseconds,to_duration_microseconds,to_duration_milliseconds,to_duration_seconds}"]}
{"id": "C49", "title": "Driver commands take effect in the order they were sent", "statement": "Processors and snapshooters added, strategy changes, pause and resume and snapshot requests sent by one thread to a driver take effect in that order, each exactly once, at most one per iteration of the driver; a snapshot contains everything added before it was requested and nothing added after.", "quantifier": "for every interleaving of client threads with the driver thread", "why_tests_cant": "All interleavings.", "anchors": ["src/driver.rs: telemetry_loop, TelemetryDriver::{add_processor,add_snapshooter,snapshot,snapshot_async,change_processing_stragtegy,pause,resume}"]}
{"id": "C50", "title": "A paused driver collects nothing but keeps answering", "statement": "From the iteration in which pause takes effect until the one in which resume takes effect no observation is collected and no instrument changes; commands and snapshot requests are still handled, and after resume the observations still queued are collected.", "quantifier": "for every interleaving", "why_tests_cant": "All interleavings.", "anchors": ["src/driver.rs: telemetry_loop (paused)"]}
{"id": "C51", "title": "Every snapshot request is answered", "statement": "As long as the driver thread keeps iterating, every snapshot request is answered exactly once; requests still pending when the driver stops get an error; none is answered twice and none waits forever.", "quantifier": "for every interleaving of requests, iterations and the drop of the last driver handle", "why_tests_cant": "Races between requests and shutdown.", "anchors": ["src/driver.rs: telemetry_loop, TelemetryDriver::{snapshot,snapshot_async}, DropGuard"]}
{"id": "C52", "title": "The driver stops when the last handle is dropped", "statement": "After the last TelemetryDriver handle is dropped, the thread performs at most the rest of the running iteration and then stops; it never stops while a handle exists.", "quantifier": "for every interleaving", "why_tests_cant": "Race between drop and iteration.", "anchors": ["src/driver.rs: DropGuard, telemetry_loop"]}
{"id": "C53", "title": "The driver's inactivity alarm reports missing observations", "statement": "With driver metrics enabled, `_metrix/inactivity_alarm` is true when no observations have been made for 60 seconds (as documented).", "quantifier": "for every execution of a running driver that receives no observations for a minute", "why_tests_cant": "Needs an execution of more than a minute without observations.", "anchors": ["src/driver.rs: DriverInstruments::update_post_collection, TelemetryDriver docs"]}
{"id": "C54", "title": "The driver's dropped-observations alarm is on exactly within a minute after a drop", "statement": "With driver metrics enabled `_metrix/dropped_observations_alarm` is true if and only if some collection dropped an observation within the last 60 seconds.", "quantifier": "for every execution of the driver", "why_tests_cant": "All timings.", "anchors": ["src/driver.rs: DriverInstruments::update_post_collection, put_snapshot"]}
{"id": "C55", "title": "The driver snapshot has a fixed shape", "statement": "A driver snapshot consists of the descriptions, the processors in the order added, the snapshooters in the order added and `_metrix` last, the latter if and only if driver metrics are enabled; with a name everything is in one group of that name.", "quantifier": "for every driver state", "why_tests_cant": "All trees.", "anchors": ["src/driver.rs: put_values_into_snapshot, add_snapshot_values, DriverInstruments::put_snapshot"]}
{"id": "C56", "title": "Taking snapshots has no influence on measurements", "statement": "Inserting additional snapshots anywhere into a history changes no value of any later snapshot of the same component taken at the same time.", "quantifier": "for every component tree of library parts, every history and every insertion of snapshots", "why_tests_cant": "All interleavings of reads and writes with time.", "anchors": ["src/instruments/meter.rs: Meter::get_snapshot (Cell, Mutex)", "src/instruments/gauge/mod.rs: put_values_into_snapshot (RefCell)"]}
{"id": "C57", "title": "Nested drivers do not interfere and snapshots of nested drivers terminate", "statement": "A driver mounted into another is never collected by the outer one; a snapshot of the outer driver contains the items of the inner driver's snapshot at that place and always completes.", "quantifier": "for every mounting graph of drivers", "why_tests_cant": "Includes cyclic mountings, possible because driver handles are cloneable.", "anchors": ["src/driver.rs: impl ProcessesTelemetryMessages for TelemetryDriver, impl PutsSnapshot for TelemetryDriver"]}
{"id": "C58", "title": "measure_time never reports a negative or wrapped duration", "statement": "measure_time transmits exactly one observation with the elapsed nanoseconds and the current time as timestamp if the start is not in the future, and none otherwise.", "quantifier": "for every start time and clock reading", "why_tests_cant": "All times.", "anchors": ["src/lib.rs: TransmitsTelemetryData::{measure_time,observed_duration}"]}
{"id": "C59", "title": "Handling observations does not panic in a release build", "statement": "In a build without overflow checks handling any observation, processing any messages and writing any snapshot of library parts never panics, provided the configured durations can be subtracted from and added to the current time.", "quantifier": "for every component tree, observation and message history", "why_tests_cant": "All inputs.", "anchors": ["src/instruments/**", "src/processor.rs", "src/cockpit.rs"]}
{"id": "C60", "title": "Gauges driven by increments and decrements do not drift under the default strategy", "statement": "Under the default processing strategy no increment or decrement of a gauge is lost because it waited in the queue for too long.", "quantifier": "for every age of the queued observations and every kind of gauge adapter", "why_tests_cant": "Needs observations older than 30 seconds in the queue.", "anchors": ["src/processor.rs: ProcessingStrategy::default, should_be_processed", "src/instruments/gauge/gauge_adapter.rs: IncDecOnLabels"]}
{"id": "C61", "title": "An instrument sees exactly the observations meant for it", "statement": "Wherever an instrument is placed in a processor (in a cockpit, in nested panels, as a handler), of the observations handled in a collection it is updated by exactly those that the processing strategy keeps and whose label is accepted by every filter on the way, once each and in the order they were sent.", "quantifier": "for every processor, every position in its tree, every strategy and every list of observations", "why_tests_cant": "Unbounded trees, filters and observation lists; the tests check single instruments.", "anchors": ["src/processor.rs: TelemetryProcessor::process, should_be_processed", "src/cockpit.rs: impl HandlesObservations for Cockpit", "src/panel.rs: impl HandlesObservations for Panel"]}
{"id": "C62", "title": "Increments and decrements move a gauge by exactly their amounts", "statement": "A gauge that observes any sequence of Increment, IncrementBy, Decrement, DecrementBy and ChangeBy values changes by the sum of the increments minus the sum of the decrements on labels it accepts; an increment that is taken back leaves no trace.", "quantifier": "for every sequence of changes, every label filter and every gauge", "why_tests_cant": "Unbounded sequences and the full range of u32 and i64 amounts.", "anchors": ["src/lib.rs: Increment, IncrementBy, Decrement, DecrementBy, ChangeBy", "src/observation.rs: From impls for ObservedValue"]}
{"id": "C63", "title": "Values handed to the library arrive and are shown unchanged", "statement": "Every integer of any primitive type is shown by a gauge as that integer (or, if it does not fit i64, ignored); displays, constants and pushed items show integers, floats of 32 and 64 bits, booleans and texts without loss; observation constructors keep label, count and value and take the current time.", "quantifier": "for every value of every convertible type", "why_tests_cant": "All values of all types, in particular all f32 and the limits of the integer types.", "anchors": ["src/observation.rs: Observation constructors, From impls", "src/snapshot.rs: From impls for ItemKind", "src/instruments/polled.rs: ConstantValue::new"]}
{"id": "C64", "title": "Setters do what they say, whenever they are called", "statement": "A component that lives through any interleaving of setter calls and observations ends with each option as it was last asked for; the options that only concern presentation have no influence on what is measured; and the snapshot consists of exactly the fields that the options ask for, with the documented names.", "quantifier": "for every kind of instrument, for panels, cockpits, processors and mounts, for every sequence of setter calls and observations", "why_tests_cant": "Unbounded interleavings of 22 setters and observations for 17 kinds of components.", "anchors": ["src/instruments/*.rs: set_*, title, description, ...", "src/instruments/panel.rs, src/cockpit.rs, src/processor.rs: set_*", "src/util.rs: put_postfixed_descriptives"]}
{"id": "C65", "title": "Attaching labels selects exactly the observations asked for", "statement": "However an instrument or gauge is attached to labels (for_label, for_labels, for_all_labels, for_labels_by_predicate, deltas only, inc_dec_on and their variants), it ends as if it had been updated directly with just the selected observations in order, and reports as many updates.", "quantifier": "for every way of attaching, every choice of labels and every list of observations", "why_tests_cant": "All label sets and observation lists; many equivalent constructors.", "anchors": ["src/instruments/instrument_adapter.rs: InstrumentAdapter::*", "src/instruments/gauge/gauge_adapter.rs: GaugeAdapter::*", "src/instruments/gauge/mod.rs: for_label, inc_dec_on, deltas_only, ..."]}
{"id": "C66", "title": "A built driver is as configured and stays so", "statement": "A driver built after any sequence of DriverBuilder calls has the name, title, description, strategy and metrics that were asked for last (by default: unnamed, dropping observations older than 30 seconds except deltas, with own metrics), keeps them through any number of iterations apart from what commands change, and shows them in its snapshots.", "quantifier": "for every sequence of builder calls, every schedule of clients and every number of iterations", "why_tests_cant": "Unbounded schedules and call sequences.", "anchors": ["src/driver.rs: DriverBuilder, TelemetryDriver::new, telemetry_loop, put_values_into_snapshot"]}
{"id": "C67", "title": "The order of setters does not matter", "statement": "Two sequences that set the same options of a component once each at the same time, in different orders, leave the same component.", "quantifier": "for every component and every permutation of settings of different options", "why_tests_cant": "All permutations of settings with all values.", "anchors": ["src/instruments/gauge/mod.rs: value, tracking", "src/instruments/*.rs: set_*"]}
{"id": "C68", "title": "Descriptions of instruments have the documented labels", "statement": "A descriptive snapshot shows the title and the description of an instrument under the name of the instrument with the suffixes _title and _description.", "quantifier": "for every instrument, name and text", "why_tests_cant": "All names and texts.", "anchors": ["src/lib.rs: PutsSnapshot guidelines", "src/util.rs: put_postfixed_descriptives"]}
{"id": "C69", "title": "What happens to a processor in a running driver", "statement": "Wherever a telemetry processor is in the tree of a driver, nothing happens to it but collections and snapshots: in each iteration in which the driver is not paused there is one collection, with the strategy the commands have set by then; the messages handled in all these collections together are exactly those taken from the front of its queue, in order, up to 1000 per collection; it stays where it is and only stops collecting when there can be no more messages.", "quantifier": "for every driver with any tree of mounts and attached mounts, every position in it, every number of iterations, every schedule of clients and of other threads", "why_tests_cant": "Unbounded trees, iterations and interleavings.", "anchors": ["src/driver.rs: telemetry_loop, do_a_run", "src/processor.rs: ProcessorMount::process, TelemetryProcessor::process", "src/attached_mount.rs: process", "src/processing_strategy.rs"]}
{"id": "C70", "title": "What an instrument lives through", "statement": "Between its creation and any later moment, an instrument or handler anywhere in the panels and cockpits of a telemetry processor handles exactly the observations that were handled by the processor, that the strategy kept and whose labels pass all the filters on the way, each once and in order, as long as no message removes its panel or cockpit; it keeps its names and what may hide it and stays where it is unless something else is removed.", "quantifier": "for every processor, every instrument in it at any depth, every sequence of collections (with any strategies) and snapshots", "why_tests_cant": "Unbounded trees and histories.", "anchors": ["src/processor.rs: TelemetryProcessor::process", "src/cockpit.rs: handle_observation", "src/instruments/panel.rs: handle_observation, put_snapshot"]}
{"id": "C71", "title": "Values of instruments in use", "statement": "Whatever snapshots are taken meanwhile, a counter shows the number of all the observations it lives through, a gauge the value that results from what its strategy makes of them, and a meter the rates of their amounts.", "quantifier": "for every counter, gauge and meter in any state (the meter from its creation on) and every life", "why_tests_cant": "All histories of observations interleaved with snapshots.", "anchors": ["src/instruments/counter.rs", "src/instruments/gauge/mod.rs", "src/instruments/meter.rs", "src/instruments/mod.rs: InstrumentAdapter"]}
{"id": "C72", "title": "Where an instrument is shown", "statement": "In the snapshot of a driver an instrument is shown below the names of the driver, of the mounts and of the components on the way to it (unnamed ones left out), unless one of these is inactive and hides it.", "quantifier": "for every driver, every tree of processors, cockpits and panels, every instrument in it", "why_tests_cant": "Unbounded trees.", "anchors": ["src/driver.rs: put_values_into_snapshot", "src/processor.rs: put_snapshot", "src/attached_mount.rs: put_snapshot", "src/cockpit.rs: put_snapshot", "src/instruments/panel.rs: put_snapshot"]}
{"id": "C73", "title": "From the transmitter to the snapshot", "statement": "After any number of iterations of a running driver, a snapshot a client asks for shows, under its path of names, the counter with its initial count plus the count of all observations taken from the queue of its processor which the strategies in effect kept and whose labels reach it; likewise a gauge with its resulting value; unless a component on the way is inactive and hides it, or its panel or cockpit was removed.", "quantifier": "for every driver, every number of iterations, every schedule of commands and messages, every counter and gauge at any depth", "why_tests_cant": "Unbounded trees, iterations and interleavings.", "anchors": ["src/driver.rs: telemetry_loop, put_values_into_snapshot", "src/processor.rs", "src/cockpit.rs", "src/instruments/panel.rs", "src/instruments/counter.rs", "src/instruments/gauge/mod.rs"]}
{"id": "C74", "title": "Building a tree adds exactly what is added", "statement": "Adding an instrument, a handler, a panel, a cockpit or a snapshooter to a panel, a cockpit or a processor makes exactly that available: it is reached by exactly the labels that the components on the way and it itself accept, everything that was there stays where it was, and nothing else appears; a second counter, gauge, meter or histogram of a panel is added like the first one. Snapshooters appear in the snapshots below the name of their component. A mount keeps what is added to it in order, and all of it is in its snapshots unless it is inactive.", "quantifier": "for every component tree and every part added (panels and cockpits with a new name or none)", "why_tests_cant": "Unbounded trees.", "anchors": ["src/instruments/panel.rs: add_counter, add_gauge, add_meter, add_histogram, add_panel, add_handler, add_instrument, add_snapshooter", "src/cockpit.rs: add_panel, add_handler, add_snapshooter", "src/processor.rs: add_cockpit, add_handler, add_snapshooter"]}
{"id": "C75", "title": "Calls on a transmitter mean what they say", "statement": "Each method of a transmitter puts exactly one message into the queue of its processor (waiting for a place only if the transmitter blocks), and when the processor receives it, what was called happens: the observation given is handled, the cockpit, panel or handler given is added, or all and only the components with the name given are removed.", "quantifier": "for every transmitter, every processor in any state, every argument", "why_tests_cant": "All states of the processor and all arguments.", "anchors": ["src/lib.rs: TransmitsTelemetryData, TelemetryTransmitter", "src/processor.rs: TelemetryProcessor::process"]}
{"id": "C76", "title": "What each instrument shows after any life", "statement": "Whatever observations and snapshots an instrument lives through: a flag shows the last truth value, a staircase timer is on iff one of the observations is recent enough, an occurrence indicator is on iff something happened within the period and a non-occurrence indicator iff nothing did, a last-occurrence tracker shows the whole seconds since the last observation, a display shows the last displayable value until it expires, a histogram shows the statistics of the samples since the last reset iff it is active, and a value meter shows the rates of the values observed. Snapshots in between make no difference.", "quantifier": "for every instrument, every sequence of observations interleaved with snapshots, every monotone clock", "why_tests_cant": "Unbounded sequences and all timings.", "anchors": ["src/instruments/switches/", "src/instruments/other_instruments/", "src/instruments/histogram.rs", "src/instruments/meter.rs"]}
{"id": "C77", "title": "From the queue to the snapshot, for every instrument", "statement": "In a running driver, what an instrument somewhere in the tree shows in the answer to a snapshot request is determined as in C71 and C76 by exactly those observations that were taken from the queue of its processor, that the processing strategies in force kept and whose labels reach it, at times between the start of the run and the snapshot, below the names of driver, mounts and components on the way.", "quantifier": "for every driver, world, number of iterations, position and instrument", "why_tests_cant": "Unbounded runs, all schedules and trees.", "anchors": ["src/driver.rs", "src/processor.rs", "src/cockpit.rs", "src/instruments/"]}
{"id": "C78", "title": "Snapshooters are always shown and never touched", "statement": "A snapshooter added to a driver, to a mount in it or to a panel, cockpit or processor stays where it was added, sees none of the observations and is changed by snapshots only. Each answer to a snapshot request shows it below the names of driver, mounts and components on the way, unless one of these is inactive: a constant shows its value, a polled instrument what is polled at that time, in a group of its own if it was created with one.", "quantifier": "for every driver, world, number of iterations, place and snapshooter", "why_tests_cant": "Unbounded runs, all schedules and trees.", "anchors": ["src/driver.rs", "src/processor.rs", "src/instruments/polled.rs", "src/cockpit.rs", "src/instruments/panel.rs"]}
{"id": "C79", "title": "What is put through the handle of an attached mount arrives", "statement": "A processor or snapshooter put through the handle of an attached mount, anywhere in a driver, waits in the channel of the handle while the driver is paused and arrives in the next iteration that is not paused: its place is directly behind what is in the mount and what was put before it, a processor is collected in the same iteration and from then on once per iteration that is not paused, and a snapshooter is shown below the names on the way to the mount. All that is put arrives once and in order, nothing gets lost, and what has arrived stays where it is. The same holds for what is put through the handle of a mount attached to an attached mount.", "quantifier": "for every driver, world, number of iterations, place of the attached mount, and processor or snapshooter put", "why_tests_cant": "Unbounded runs, all schedules and trees.", "anchors": ["src/attached_mount.rs", "src/processor.rs", "src/driver.rs"]}
{"id": "C80", "title": "A processor added to a running driver arrives behind the others", "statement": "A processor that is added through a handle of a running driver is added after the commands sent before it, one command in each iteration, at the position behind the processors that were there and those added before. It is collected once in each iteration that is not paused, beginning with the one in which it is added, and stays at its position; the messages sent to it before wait for it. The same holds for mounts attached to the driver, through whose handle things can be put from then on.", "quantifier": "for every driver, world, number of iterations, commands before, and processor", "why_tests_cant": "Unbounded runs, all schedules and trees.", "anchors": ["src/driver.rs", "src/processor.rs", "src/attached_mount.rs"]}
{"id": "C81", "title": "All that is sent to a processor of an undisturbed driver is seen", "statement": "If a driver processes everything, is not paused and is told neither to pause nor to change its strategy, then after n iterations every instrument of a processor somewhere below it has lived through exactly the observations of the processor's queue whose label reaches the instrument, in their order and none left out, provided that the queue held at most 1000 n messages, followed by those that arrived and were taken in the meantime. A counter then shows, modulo 2^64, what it counted before plus the counts of all of them. Observations that were sent with a transmitter into an empty queue are therefore all counted, each exactly once, unless messages replace or remove the instrument or a part above it, or inactivity hides it.", "quantifier": "for all drivers, trees, positions in the tree, instruments, label filters, queues, numbers of iterations, schedules of the other threads and clocks", "why_tests_cant": "Whether one observation of a thousand gets lost depends on the interleaving of the transmitters' threads with the driver's loop, on the iteration limit and on the place of the instrument in the tree; a test fixes all of them.", "anchors": ["src/driver.rs:329-600", "src/processor.rs:449-565", "src/lib.rs:300-470", "src/instruments/counter.rs:50-120"]}
{"id": "C82", "title": "The driver's own metrics are told about every collection and every snapshot", "statement": "If a driver was started with driver metrics, then at any time after any number of iterations (with commands, added processors, pauses and snapshots in between) each of the fourteen instruments of `_metrix` has lived through exactly the observations of the collections and of the snapshots so far, in their order: one per collection with its duration, the numbers of processed and dropped observations and of updated instruments of those collections that had some, the number of enqueued observations of each, and one per answered snapshot with its duration. The next snapshot, requested synchronously or asynchronously, shows them after it has been counted itself: `count` is the number of collections, of answered snapshots or the exact sum (modulo 2^64) of the amounts, the histograms hold exactly the durations in microseconds and the amounts, and `observations_enqueued` shows the number of the last collection. Its two gauges track the values of the last minute from the start.", "quantifier": "all drivers, processors, command schedules, clocks, numbers of iterations and snapshots", "why_tests_cant": "A test compares a few iterations; the claim is about every interleaving of commands, pauses, collections and snapshots.", "anchors": ["src/driver.rs:325-345", "src/driver.rs:377-465", "src/driver.rs:484-560", "src/driver.rs:640-790"]}
{"id": "C83", "title": "The driver's ratio of collecting to iterating is at most 1000 per mille and nearly exact", "statement": "For every iteration of a driver with metrics that was not busy (nothing dropped, at most 100 processed) and took some time, a number of thousandths is recorded for the share of the collection in the iteration. It is never more than 1000, never differs by more than 1 from the exact share cut off to an integer, and for iterations below 2^38 ns (275 s) it is that integer or, only if the share is an exact number of thousandths, one less (which happens: 70 of 10000 microseconds give 6). A snapshot shows the last of these numbers as `current` of `iteration_update_ratio_per_mille` and the statistics of exactly these numbers in `iteration_update_ratio_per_mille_histo`.", "quantifier": "all drivers started with metrics, schedules, clocks and numbers of iterations within 2^53 seconds", "why_tests_cant": "The ratio is computed with three roundings from two rounded times; tests check some values, not the rounding of all of them.", "anchors": ["src/driver.rs:451-465", "src/driver.rs:484-498", "src/driver.rs:618-628"]}
{"id": "C84", "title": "The rates of a meter are moving averages that settle", "statement": "Each of the rates a meter shows (before the lower cutoff is applied) is the exponentially weighted moving average of the loads of its complete five second intervals, up to rounding: if no interval has more than hi events, it differs from the exact average of events per second by at most 2^-50 / alpha times hi / 5, no matter how many intervals there were, how the events are spread and when snapshots are taken (rounding errors do not pile up over time). If the last n intervals all have c events, the rate differs from c / 5 by at most (1 - alpha)^n times hi / 5 and that tolerance.", "quantifier": "for all names, all smoothing factors between 0 (exclusive) and 1/2, all histories of updates and snapshots in order of time, all upper bounds hi below 2^64, all numbers of intervals", "why_tests_cant": "Tests compare a rate with a constant after a few ticks. They do not bound the rounding error after arbitrarily many ticks, for all event patterns and poll times, nor the speed at which a rate follows a changed load.", "anchors": ["src/instruments/meter.rs:184-262", "src/instruments/fundamentals/metrics_meter.rs:1-200"]}
{"id": "C85", "title": "Mounting into running drivers and the end of mounted drivers", "statement": "A snapshot of a driver contains everything that was mounted before the request was sent, a driver as processor or snapshooter with the items of its own snapshot; a driver does not end while its handle is mounted into another one or on the way there; a driver that ends leaves nobody waiting and requests to a running driver are not lost; drivers mounted without a cycle can all end once no handle is left outside of them, drivers mounted in a circle never end.", "quantifier": "for every network of drivers, every order of mounting, requesting, ending and of the steps of all threads", "why_tests_cant": "The orders in which several threads take commands, wait for each other and end are not controlled by tests; that threads never end cannot be observed in finite time.", "anchors": ["src/driver.rs: TelemetryDriver::snapshot, DropGuard, telemetry_loop, put_values_into_snapshot, impl AggregatesProcessors for TelemetryDriver"]}
{"id": "C86", "title": "The windows of a meter are one, five and fifteen minutes", "statement": "If exp is accurate, the smoothing factors computed for a meter are positive, at most one half and those of one, five and fifteen minutes; each rate stays close to the exact moving average with the factor of its window; and after a whole window with the same number of events in each interval, the difference between the rate and this load has come down to 1/e of what it was before the window; the same holds for value meters whose values do not sum up to a negative number in any interval.", "quantifier": "for every accurate exp, every history of updates and snapshots at any instants, every number of events", "why_tests_cant": "The claim relates floating point results of exp and long chains of roundings to real exponentials for all histories; a test compares a few rates with a few constants.", "anchors": ["src/instruments/fundamentals/metrics_meter.rs: StdMeter, EWMA::new, EWMA::tick, EWMA::rate", "src/instruments/other_instruments/value_meter.rs: ValueMeter"]}
{"id": "C87", "title": "Overflow checks, the range of instants and the bounds on loops change nothing but panics", "statement": "A build with overflow checks, on a machine with a smaller range of instants, or a run of the model whose loops are cut off earlier, either panics (or is cut off) or does exactly what the laxer one does: the same instruments, the same snapshots, the same queues and the same clock. This holds for every update of and snapshot from an instrument, panel, handler, cockpit or processor, for any sequence of collections and snapshots of a processor, for the start of a driver and for any number of its iterations. So no result depends on the build profile, and the bound on loops in the model is never part of a result.", "quantifier": "for all pairs of builds one of which is laxer, all component trees, all worlds and schedules, all lengths of runs", "why_tests_cant": "Two builds of the same program would have to be run on every input and schedule and compared.", "anchors": ["src/instruments/counter.rs", "src/instruments/gauge.rs", "src/instruments/mod.rs", "src/processor.rs", "src/driver.rs", "src/util.rs"]}
{"id": "C88", "title": "Constructors and shorthands do what their names say", "statement": "A transmitter and processor created as a pair belong together: what is sent is queued in order, up to the capacity asked for, beyond it waits or is lost as asked for, and collections of that processor take it. Calls to pause, resume and change the strategy take effect after exactly the commands sent before. A mount attached to a mount or through a handle is behind what was there and listens to the handle that is returned; clones of a handle are counted. New named panels and cockpits are empty and shown under their names. A flag created with a state shows it at once and goes on as if the state had been set. The inverted state of a flag is shown under the prefixed, postfixed or new name. A default driver drops observations older than 30 seconds except deltas and has metrics of its own. Searching in a search result is searching for the joined path.", "quantifier": "for all names, capacities, messages, commands before and after, histories of clones and ends, trees and snapshots", "why_tests_cant": "Unbounded message lists, command queues and histories.", "anchors": ["src/processor.rs", "src/driver.rs", "src/attached_mount.rs", "src/cockpit.rs", "src/instruments/panel.rs", "src/instruments/flag.rs", "src/snapshot.rs", "src/lib.rs"]}
{"id": "C89", "title": "Displayed values read back", "statement": "The text that Display makes of an integer item is its decimal digits without leading zeros (after a minus sign for negative ones), so that different integers look different; texts are shown verbatim, booleans as true/false, a snapshot as the number of its items. A duration found in a snapshot is told exactly, to the nanosecond, in the largest unit in which its integer part is not zero, without superfluous zeros; a text tells at most one duration and the texts for 'not found' and 'not a duration' tell none. Items of different kinds may look the same.", "quantifier": "all items with 64 bit integers, all durations, whatever is printed for floats", "why_tests_cant": "The values range over 2^64 integers and 10^9 * 2^64 durations; that no two print alike relates all pairs.", "anchors": ["src/snapshot.rs:224-229", "src/snapshot.rs:289-297", "src/snapshot.rs:307-324", "src/snapshot.rs:362-374"]}
{"id": "C90", "title": "Statistics of the allocator are complete or absent", "statement": "JemallocStats appends the groups 'stats' (six numbers) and 'arenas' and the item 'max_background_threads', in this order, with the numbers that were read. A group is written completely or not at all; when something cannot be read, what follows it is left out and nothing that was already in the snapshot changes.", "quantifier": "all results of the reads (each may fail), all snapshots", "why_tests_cant": "The nine calls can fail in any combination.", "anchors": ["src/instruments/jemalloc.rs:11-82"]}
{"id": "C91", "title": "No panic from overflow while numbers have room", "statement": "In any build, with or without overflow checks, neither handling observations nor taking snapshots panics during the life of a panel, cockpit, instrument or handler that starts with new instruments, as long as the square of the number of observations times the largest observed number (or duration in nanoseconds) fits into an i64, and the number of parts times that number fits into a u64. After every observation what the instruments contain is bounded by the number of observations times the largest number. Without this room a debug build can panic: a gauge that tracks its values panics on two values of 2^62.", "quantifier": "All handlers (arbitrarily nested), all sequences of observations and snapshots, all build configurations, all clocks within the manageable range, all modifiers that do not enlarge numbers, all user-defined parts that do not panic.", "why_tests_cant": "Overflows need extreme values or very long runs; tests of a debug build use a few small numbers, and tests of a release build never see a panic at all.", "anchors": ["src/instruments/gauge/mod.rs:330-419", "src/instruments/gauge/tracking.rs", "src/instruments/fundamentals/buckets.rs:1-140", "src/instruments/counter.rs:79-145", "src/instruments/meter.rs:160-260", "src/instruments/other_instruments/value_meter.rs:250-276", "src/instruments/panel.rs:340-400"]}
{"id": "C92", "title": "Records of a window are found by their time", "statement": "get_at_mut of a window of seconds yields, for a time t, the record current_mut wrote into at t, as long as this record is one of those the window keeps, and nothing otherwise. (Only true for times a whole number of seconds after the creation of the window: for all others get_at_mut looks one second later, so it yields the wrong record or none.)", "quantifier": "all sizes of the window, all sequences of recording, changing by time and looking, all clocks", "why_tests_cant": "The tests of the library advance the clock by whole seconds or look back from a whole second, where the rounding of both functions agrees.", "anchors": ["src/instruments/fundamentals/buckets.rs:50-115"]}
{"id": "C93", "title": "Messages of one thread never overtake each other", "statement": "If several threads use transmitters of one processor, whatever the interleaving, the messages received from each thread, followed by those queued, the one it is blocked with and those it has still to send, are in the order of its program. What is missing was refused. Nothing of a thread is missing while the processor lives if the queue has no limit, or if the thread only uses transmitters that block - even if other threads use ones that do not.", "quantifier": "all numbers of threads, all programs, all capacities, all interleavings of calls, wake-ups, receptions and ends of handles", "why_tests_cant": "The number of interleavings grows exponentially and a scheduler in a test shows only some of them.", "anchors": ["src/lib.rs:292-374", "src/processor.rs:223-304"]}
{"id": "C94", "title": "No panic from overflow in processors while numbers have room", "statement": "In any build, with or without overflow checks, neither collections nor snapshots of a tree of processors panic, whatever other threads send meanwhile, as long as the numbers in the messages, the number of messages, the number of parts and the number of queued messages leave enough room in i64 and u64. What a collection reports is then exact: the numbers of processed, dropped and queued messages and of updated instruments are bounded by the numbers of messages, parts and queued messages and have not wrapped around. New processors and mounts have this room. Without it two observations sent by another thread end the processing in a build that checks for overflows.", "quantifier": "All trees of processors for telemetry data, mounts and other drivers, all sequences of collections and snapshots, all schedules of other threads, all build configurations, all clocks within the manageable range.", "why_tests_cant": "The counts of a collection are sums over all processors and messages; tests use a few messages with small numbers and one schedule.", "anchors": ["src/processor.rs:66-94", "src/processor.rs:497-640", "src/processor.rs:720-773", "src/attached_mount.rs:40-101"]}
{"id": "C95", "title": "No panic from overflow in the thread of a driver while numbers have room", "statement": "In any build, with or without overflow checks, the thread of a driver does not panic for any number of iterations the numbers leave room for, whatever other threads send to its processors and whatever commands they give: the counts of dropped messages, the driver's own metrics, its processors and snapshooters stay within i64 and u64, as long as the numbers in the messages, the number of iterations, of parts, of queued messages and of processors ever added leave enough room. A new driver has this room for all processors that come later. Without it two observations sent by another thread end the thread of the driver in a build that checks for overflows.", "quantifier": "All drivers with or without own metrics, all numbers of iterations, all schedules of messages and commands of other threads, all build configurations, all clocks that do not go back within the manageable range.", "why_tests_cant": "The metrics of a driver are sums over all iterations and processors; a test runs a few iterations with small numbers and one schedule, and usually does not wait for years.", "anchors": ["src/driver.rs:353-465", "src/driver.rs:470-500", "src/driver.rs:618-740"]}
{"id": "C96", "title": "Every dropped message is reported once in a warning of the driver, not more often than every five seconds", "statement": "The driver warns about dropped messages in the bookkeeping of a collection. Two warnings are more than five seconds apart. Each tells the number of messages dropped since the one before, which is never zero, so the numbers of all warnings and the number not yet reported add up to the number of messages dropped in all collections. If a collection ends more than five seconds after the last warning and there are messages not yet reported, there is a warning, even if this collection dropped nothing. A new driver has nothing to report and does not have to wait.", "quantifier": "All drivers, all numbers of iterations, all schedules of messages and commands of other threads, all clocks that do not go back, all build configurations, as long as the number of dropped messages fits into 64 bit.", "why_tests_cant": "It needs collections over many seconds with losses at the right times; the tests of the library do not look at what is logged.", "anchors": ["src/driver.rs:360-368", "src/driver.rs:439-450", "src/driver.rs:586-595"]}
{"id": "C97", "title": "Asked for an option, an instrument answers with the value set last", "statement": "After any interleaving of setter calls and observations the functions that return an option (name, inversion, durations, reset value, grouping, showing zero) return the value given last, or the documented default if none was given; observations and other setters do not change the answer.", "quantifier": "for staircase timers, occurrence and non-occurrence indicators, last occurrence trackers, data displays and polling instruments, for every sequence of setter calls and observations, every clock", "why_tests_cant": "Unbounded interleavings of setters and observations; the inversion of a last occurrence tracker is visible nowhere else.", "anchors": ["src/instruments/switches/staircase_timer.rs:51-118", "src/instruments/switches/occurrence_indicator.rs:44-115", "src/instruments/switches/non_occurrence_indicator.rs:50-120", "src/instruments/other_instruments/last_occurrence_tracker.rs:36-117", "src/instruments/other_instruments/display.rs:45-119", "src/instruments/polled.rs:40-56"]}
