# Formal model of metrix 0.13.13 in Rocq/Coq 8.16.1

The code under study is `/repo` (crate `metrix`), read as text. The model lives in
`/verif/rocq/theories`. This file says what is modelled, how each property of
`properties.jsonl` is approached, and what has to be trusted.

## 1. Shape of the model

* **Time** is `Z` nanoseconds. A clock is a stream of readings `nat -> Z`; every
  `Instant::now()` / `elapsed()` of the code consumes one reading, so time can pass between
  any two reads. Theorems that need it assume the stream is non-decreasing. An instant is
  only representable between two platform bounds; `Instant + Duration` and
  `Instant - Duration` panic outside of them.
* **Computations** are functions in a small state/error monad `St W A`:
  configuration -> world -> `Ok a w | Panic | NoFuel`. The configuration carries the build
  profile (`overflow_checks`: panic, otherwise wrap) and the platform bounds. `NoFuel` is only
  reachable for loops which the environment can keep busy forever (`AttachedMount` drains its
  channel until it is empty).
* **Integers** are `Z` with explicit wrapping to 64 bit (`u64`, `i64`, `usize` = 64 bit).
* **Floats** are `SpecFloat.spec_float` (binary64, round to nearest even), the stdlib's
  executable specification of IEEE-754. Proofs about rates go through Flocq.
* **Strings** are Coq strings (sequences of bytes).
* `&mut self` becomes "returns the new value". `put_snapshot(&self, ..)` also returns a new
  component because meters and tracking gauges use interior mutability.
* **User code** (predicates, update modifiers, polled closures, custom handlers, custom
  instruments, custom processors) enters as arbitrary functions collected in one record
  parameter; theorems quantify over it. External crates (`exponential_decay_histogram`, libm's
  `exp`, jemalloc) are also parameters of that record.
* **Channels** (crossbeam) are modelled by their documented behaviour: FIFO queue with
  optional capacity, number of live senders, blocked senders. Before every receive operation
  an arbitrary finite list of environment actions (sends, sender drops) taken from a schedule
  is applied, so a theorem for every schedule is a theorem for every interleaving.
* **The driver** is a step function for one iteration of its loop plus client actions between
  and inside the iterations.

Model files contain no proofs. `Spec*.v` files hold the small independent specifications,
`*Proofs.v` the lemmas, `Prop*.v` only property theorems (closed by `exact`), their
`Print Assumptions` and the concrete examples.

## 2. Plan per property

| id | modelled | proof |
|----|----------|-------|
| C01 | `LabelFilter` incl. all representation changes and conversions | refinement to list membership by induction over added labels |
| C02 | `Counter` | invariant over update lists, both build profiles |
| C03 | `Gauge::{set,next_value}` | refinement to "last set + later changes" |
| C04 | `GaugeAdapter` all three kinds | count specification over labelled histories |
| C05 | `SecondsBuckets` as ring of arrays with indices | refinement to a timestamped log, all tick branches |
| C06 | `BucketsStats::from_buckets` | comparison with extrema/sums over the flattened window |
| C07 | same | expected to be refuted (empty records are averaged as the default value) |
| C08 | `Meter`, `StdMeter`, `EWMA` | count invariant |
| C09 | same | tick count = completed intervals; snapshot insertion equivalence |
| C10 | `EWMA` on binary64 | invariant with Flocq rounding monotonicity |
| C11 | `ValueMeter` | invariant |
| C12 | same | expected to be refuted (`as usize`) |
| C13 | `Meter::get_snapshot`, `MeterSnapshot` | case analysis over all states |
| C14, C15 | `Histogram` over an abstract reservoir | invariant over timed histories |
| C16 | `Flag` | refinement to last boolean-like value |
| C17 | `StaircaseTimer` | iff over timed histories |
| C18, C19 | `OccurrenceIndicator` | iff over timed histories with reconfiguration; C19 expected refuted |
| C20 | `NonOccurrenceIndicator` | iff; complement theorem |
| C21 | all switches, two clock reads | refuted for timed switches, proved for `Flag` and for equal readings |
| C22 | `LastOccurrenceTracker` | floor specification |
| C23 | `DataDisplay` | iff over timed histories |
| C24 | `duration_to_display_value`, `From` impls | division lemmas for all pairs |
| C25, C26 | `ObservedValue::convert_*` on all floats | case analysis, rounding spec; C26 expected refuted |
| C27, C28 | panel / cockpit / handler trees | tree induction against a flat list of reachable instruments |
| C29 | `Panel` | expected to be refuted (`last_update` is never written) |
| C30, C31 | cockpit, processor, mount | exact contents; C31 expected refuted except histogram/mount |
| C32, C33 | add/remove of panels and cockpits | `NoDup` invariant, exact list equations |
| C34 | strategies | iff |
| C35, C36 | `TelemetryProcessor::process` over channels | invariant over schedules |
| C37, C38 | channel with send/try_send | invariant; C38 refuted for capacity 0 |
| C39 | mounts, driver run | induction over trees |
| C40 | `AttachedMount` | induction over schedules |
| C41-C43, C55 | all `put_snapshot` | tree induction |
| C44-C48 | `Snapshot::find`, JSON, durations | induction over paths/snapshots; C47, C48 refuted for duplicates / negatives |
| C49-C52 | driver loop with clients | trace invariants |
| C53, C54 | driver instruments | C53 refuted; C54 iff over histories |
| C56 | all snapshot functions with interior mutability; processors; drivers | two states are equivalent at time t if bringing all windows and rates up to t makes them equal; snapshots stay in the class, every other operation respects it |
| C57 | network of drivers | small steps of all threads; well-founded mounting terminates with any interference, cyclic mounting deadlocks |
| C58 | `measure_time` | case analysis |
| C59 | SpecSafe, Safe*Proofs, PropSafe | triples "does not panic": instruments, tree, processors and channels, driver; all durations manageable, user parts assumed not to panic |
| C60 | default strategy + inc/dec adapter | proved for delta gauges, refuted for inc/dec-on-label gauges |
| C61 | processor, cockpits, panels, adapters | refinement of a collection to the history of a single instrument |
| C62, C63 | ModelValues: observation constructors, deltas, primitive and item conversions | sums of changes; meaning of a value before and after conversion, f32 widening by exact shifting |
| C64, C67 | ModelConfig: setters of every component as one type of settings | last value asked for, exact fields of the snapshot, comparison with the life without presentation settings; permutations of settings. C67 is false of gauges with value and tracking |
| C65 | ModelConfig: the functions that attach labels | the selected observations as an inductive relation |
| C66 | ModelConfig: DriverBuilder | last value asked for, together with the commands received |
| C68 | ModelConfig, ModelSnapshot | false as stated: the labels are `_title_<name>` and `_description_<name>` |
| C69 | driver loop, mounts, attached mounts, processors | a chronicle of a single processor (collections and snapshots) refines the iterations of the driver |
| C70 | processors, cockpits, panels | the life of a single leaf (observations and snapshots) refines the chronicle of its processor; addresses as lists of positions |
| C71 | counter, gauge, meter and their adapters | induction over the life of a leaf |
| C72 | put_snapshot of everything on the way | induction over the way to the leaf; a path of names in the snapshot |
| C73 | the whole way from the queue to the answer to a snapshot request | composition of C69 to C72 |
| C74 | building panels, cockpits and processors | the sites (addresses with leaves) afterwards are those before and the new ones |
| C75 | transmitter, commands of a processor | the message sent, composed with what it does when received |
| C76 | lives of the instruments | induction over the life; times and effects from the specifications of the instruments |
| C77 | from the queue to the snapshot | C70, C72 and C76 combined for a driver and each kind of instrument |
| C78 | snapshooters | places of snapshooters in drivers and mounts, invariant under collections and commands; C72 for those in trees |
| C79 | handles of attached mounts | places in trees relative to a set of receivers, invariants of channels and worlds kept by everything away from these receivers, one step for the arrival |
| C80 | processors added by commands | the parts of an iteration; away from the receivers while the command waits, then C69 or C79 |
| C81 | all that is sent, up to a driver's snapshots | C70 with the strategies of a steady driver; the transmitter's sends before |
| C82 | driver's own metrics: what they are told and show | each metric as a leaf with one label; induction over histories; lives of meters, histograms and gauges |
| C83 | driver's own metrics: per mille ratio | Flocq: errors of the five roundings, floor of the result; the metrics as in C82 |
| C84 | moving averages | every step of the smoothing is compared with the exact step (relative error 2^-53 or absolute error 2^-1075 for each operation, Flocq); the old error shrinks by 1 - alpha while the step adds at most 7 * 2^-53 of the highest rate, so the sum stays below that over alpha |
| C85 | mounting and ending of drivers | invariants of the network of drivers over the log of all commands |
| C86 | windows of a meter | factors near 1 - exp(-1/(12 w)); perturbation of the moving average; 12 w equal intervals leave exp(-1) |
| C87 | builds agree | for each monadic function a relation between its runs under two builds (`carries`), closed under bind and traversal; induction on trees, messages, mounts and iterations |
| C88 | constructors, calls, handles | induction over the messages sent and over clones and ends; C49, C64 and C79 for the rest |
| C89 | Displayed values read back | induction on the digits; a small reader of numbers and durations as the specification; uniqueness by splitting a text at the first character that is no digit |
| C90 | Statistics of the allocator are complete or absent | case analysis on what can be read |
| C91 | no overflow while numbers have room | invariant per instrument that grows linearly with the number of updates, lifted to trees by induction and to lives by induction on the events; witness for the need of room |
| C92 | records found by their time | refinement of any use of the ring to a book with one record per second, corollary for whole seconds, witness for other times |
| C93 | several threads on one queue | invariant over all interleavings of programs, forgetting the threads gives a history of the real queue |
| C94 | no overflow in processors while numbers have room | invariant of the world (what is queued and what will be sent) and of the processors, indexed by the number of messages handled; bounds of the outcome by induction on the tree; witness for the need of room |
| C95 | no overflow in the thread of a driver while numbers have room | invariant of the driver indexed by the number of iterations, of the world by the number of processors still to come; the own metrics by groups updated at most once per iteration; witness for the need of room |
| C96 | warnings about dropped messages | relation between the collections of a history and the warnings; induction on the history |
| C97 | ModelGetters: getters of the options | the value of a field after a history of setters and observations; induction on the history |

## 3. Trusted base

* The Coq 8.16.1 kernel and its standard library. No axioms of our own. `Print Assumptions`
  is executed below every property theorem; section 5 lists the result.
* The reading of the Rust code recorded in the comments of the model files (file and lines).
* The documented behaviour of `crossbeam-channel` (ModelChannel), `std::time` (Base), `std::sync`
  (`Arc`, `AtomicBool` in ModelDriver), `Vec`, `Option`, integer
  and float operations of Rust (`as` casts, wrapping or panicking overflow).
* These are parameters over which the theorems quantify, with the stated assumptions only:
  * `histo_ops`: `exponential_decay_histogram` (C13, C14, C59 assume that it counts its
    updates);
  * `Alphas`: the three constants computed with libm's `exp` (C10 to C12 assume they are between 0 and 1). `ModelAlpha`
    computes them from an oracle `exp64`; C86 derives the assumption, and which windows they are, from an
    error of `exp64` of at most `2^-52` between -1 and 0 (`SpecAlpha.accurate_exp`);
  * `ext`, `pext`: the labels and their equality, user-defined instruments, handlers, snapshooters,
    processors. Theorems about trees name what they assume of them (for example that they only
    append to a snapshot, do not panic, do not change when they are read, or do not depend on the build).
* A driver's thread sleeps between iterations; how long does not matter to the model since the
  clock may show any later time.

## 4. What is modelled

By file in `/repo/src`. Getters (`get_*`, `name`, `title`, `description`, `processors`, ...) are
fields of the model's records. A function `x(mut self, ..)` that calls `set_x` and returns `self` is the same
setting as `set_x`.

| file | model | not modelled |
|------|-------|--------------|
| `lib.rs` | ModelTransmitter, ModelValues (`Increment` etc., `TimeUnit`) | the traits themselves (their implementations are), doc tests |
| `observation.rs` | ModelObservation, ModelValues | - |
| `snapshot.rs` | ModelSnapshot, ModelValues, ModelText | what `Display` prints for an `f64` (a parameter of ModelText; integers and durations are printed as `std` does), the printing of JSON text by the `json` crate (the JSON value is modelled) |
| `util.rs` | ModelSnapshot | logging |
| `cockpit.rs`, `instruments/panel.rs` | ModelTree, ModelConfig | - |
| `processor.rs` | ModelProcessor, ModelTransmitter, ModelConfig | the unit test |
| `attached_mount.rs` | ModelProcessor (collecting); ModelHandle (handles) with ModelChannel | - |
| `driver.rs` | ModelDriver, ModelNest, ModelConfig | thread name, what logging does with a line (when the driver warns and with which number is modelled by its two variables, see C96), `Display` of errors, the exact duration of sleeping |
| `instruments/counter.rs` | ModelCounter, ModelConfig | `get_name`; the same for gauges, meters and histograms below |
| `instruments/gauge/*.rs` | ModelGauge, ModelConfig | tests |
| `instruments/meter.rs`, `other_instruments/value_meter.rs`, `fundamentals/metrics_meter.rs` | ModelMeter, ModelAlpha, ModelConfig | `f64::exp` (an oracle) |
| `instruments/histogram.rs` | ModelHistogram, ModelConfig | internals of the reservoir |
| `instruments/label_filter.rs` | ModelLabelFilter | - |
| `instruments/instrument_adapter.rs`, `instruments/mod.rs`, `instruments/polled.rs` | ModelInstrument, ModelConfig, ModelGetters, ModelValues | - |
| `instruments/switches/*.rs`, `other_instruments/{display,last_occurrence_tracker}.rs` | ModelSwitches, ModelConfig, ModelGetters | `get_name` of flags |
| `fundamentals/buckets.rs` | ModelBuckets, ModelBucketsAt | tests |
| `fundamentals/clock.rs` | Base (`now`) | the clocks for tests |
| `instruments/jemalloc.rs` | ModelJemalloc | `jemalloc_ctl` (what it returns is a parameter), logging |
| `other_instruments/multi_meter.rs` | - | not part of the crate: its module is commented out |

## 5. Assumptions of the theorems

Result of `Print Assumptions` for all 401 property theorems (generated by `tools/gen_assumptions.py`).

* Closed under the global context: the 387 theorems not listed below.

* Axioms of the standard library (`Reals`, used through Flocq) `ClassicalDedekindReals.sig_forall_dec`, `ClassicalDedekindReals.sig_not_dec`, `Classical_Prop.classic`, `FunctionalExtensionality.functional_extensionality_dep`:
  `c10_finite`, `c10_within_intervals`, `c10_decays`, `c10_shown`, `c10_shown_decays`, `c11_rates_range`, `c12_quotient_is_close`, `c83_ratios`, `c84_average`, `c84_settles`, `c86_factors`, `c86_windows`, `c86_values`, `c95_driver`.
