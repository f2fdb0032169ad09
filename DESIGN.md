# RAMwich in Rocq: design

Source: pku-lemonade/RAMwich (python), read as text in /repo. Nothing of it is run here. The
only link between model and code is the reading of the code; every definition of a model file
cites the file and lines it models and says where it simplifies.

## Conventions

* Python integers are `Z`; numpy int32 arrays are `list Z` whose elements are kept in the
  int32 range by an explicit wrap (`wrap32`) at the places where numpy wraps.
* Python exceptions are values (`res A := Ok a | Raise e`). A function that mutates an object
  returns the object together with the result, *also when it raises*, so that statements such
  as "a rejected access changes nothing" are about the code's order of checks and updates.
* float64 is Flocq's executable IEEE-754 binary64 (`binary_float 53 1024`), with
  round-to-nearest-even.
* simpy processes are labelled transition systems: a state, and the atomic steps between two
  `yield`s. Every interleaving of the steps is allowed, and in System/Node also every choice of
  the times at which a core takes its steps. This over-approximates simpy's scheduler, so safety
  theorems and determinism theorems hold for the real one: Des models simpy's event queue with all
  processes of a node, one `yield` after the other, and C85-C87 prove that every state of it is a
  state of Node. C90 and C91 prove that its queue is simpy's heap and that a run of it only stops by
  returning or raising. Where a property is about time, the
  steps carry times and cannot be taken before their timeout has passed (Pipeline, Router, Dram,
  Node).
* Numbers of the statistics are taken from an abstract arithmetic with two instances: exact
  rationals (`Qc`), in which the sums are proved, and float64, for the refutations.
* A property that the code violates is proved in its true form (`..._actual`) and refuted
  (`..._refuted`, an existential statement with a concrete program or input).

## Files (theories/)

For each part: `XModel.v` is the model, `XSpec.v` the vocabulary of the statements (written
without the model's helpers where possible), `PropX.v` only the property theorems, each closed by
`exact` of a lemma and followed by `Print Assumptions` and a concrete case. The other files are
proofs and examples.

| part | model of | properties | other files |
|---|---|---|---|
| PyBase, PyLemmas | exceptions, int32, python slices and indexing | | |
| Memory | blocks/memory.py, inreg.py, outreg.py | C06-C08 | MemoryProofs |
| Config, DataConvert | utils/data_convert.py (integers); config.py: formats, storage split, sizes | C01, C02, C05 | ConfigProofs |
| Vfu | blocks/vfu.py | C11-C15 | VfuProofs |
| Float | float64, utils/data_convert.py (floats) | C03 | AnalogProofs, FloatProofs |
| Mvmu | mvmu.py, blocks/{dac,rram_xbar,sram_cim_unit,snh,mux,adc,sna}.py | C04, C16-C26 | AnalogChain, MvmuLists, MvmuLoad, MvmuRun, MvmuProofs, MvmuUse, MvmuCount, MvmuTop |
| Adc | blocks/adc.py: conversion errors | C99 | AdcProofs, AdcRun, AdcExamples |
| Visual | utils/visualize.py: the summary of results | C100 | VisualProofs, VisualReport, VisualExamples |
| Noise | blocks/rram_xbar.py with has_noise | C79, C80 | NoiseAnalog, NoiseProofs, NoiseExamples |
| Core | core.py (register space), visitor.py (effect and duration of instructions) | C09, C10, C14, C22, C23, C30, C58, C62 | CoreProofs, CoreUse, CoreInstr |
| Dram | blocks/dram_controller.py | C31-C38, C59 | DramProofs, DramProgress |
| Pipeline | pipeline.py, Core.run | C27-C29 | PipelineProofs, PipelineTime |
| Router | blocks/router.py, noc.py | C39-C43, C60 | RouterProofs |
| System | tile.py, node.py: all tiles of a node with cores, memories and network | C44-C48 | SystemBase, SystemInv, SystemOracle, SystemDet, SystemCopy, SystemProofs, SystemDeadlock, SystemClaims |
| NetTime | times of the Router model (nothing new of the code) | C78 | NetTime, NetTimeExamples |
| Live | progress and completion of the System model (nothing new of the code) | C76-C77 | LiveProofs, LiveDet, LiveBound, LiveSingle, LiveExamples, LiveClaims |
| Node | node.py run and reset, cycle counts, network activity | C52, C53, C57, C61 | NodeProofs, NodeWipe, NodeReset, NodeClaims |
| Sim | ramwich.py run and reset: all nodes in one environment | C73-C75 | SimProofs, SimReset, SimAct, SimClaims, SimExamples |
| Stats, Report | stats.py and all get_stats | C54-C56, C63-C65 | StatsProofs, ReportProofs, ReportNode, ReportClaims, StatsRoundSpec, StatsRound |
| Print, Formula | stats.py: StatsDict.print; rounding of the whole report | C101 | FormulaHom, FormulaBound, FormulaRound, FormulaPrint, FormulaExact, FormulaUsual, FormulaExamples |
| Loader | ramwich.py construction and loaders, ops.py | C49-C51, C66-C68 | LoaderProofs, LoaderWeights, LoaderParse, LoaderAct, LoaderClaims |
| Setup | config.py: all fields, tables and checks; errors of the constructors | C69-C72 | SetupProofs, SetupValues, SetupParams, SetupBuild, SetupTicks, SetupExamples |
| Mlp | examples/mlp_l4_mnist/ops.json (MlpProgram) | C81-C84 | SymMachine, SymCore, SymTile, SymNet, MlpRun, MlpCheck, MlpLoad, MlpProofs, MlpClaims, MlpExact, MvmuAccept, MlpExamples |
| Des | the event queue of simpy with all processes of a node: node.py, tile.py, core.py, pipeline.py, visitor.py, blocks/dram_controller.py, router.py, noc.py | C85-C94, C98 | DesRel, DesCtl, DesCore, DesTile, DesRefine, DesQueue, DesRun, DesClaims, DesMlp, DesShipped, DesExamples, DesShape, DesSkel, DesDoneSpec, DesDone, DesWait, DesWaitCtl, DesWaitTile, DesWaitStop, DesWaitNode, DesWaitQueue, DesHeapSpec, DesHeap, DesIdleSpec, DesIdle, DesCost, DesCostNode, DesEndSpec, DesEnd, DesNeed, DesNeedCtl, DesNeedTile, DesNeedOwn, DesNeedNode, DesNeedQueue, DesWedge, DesReturnSpec, DesReturn, DesReturnExamples, DesDataSpec, DesData, DesDataRun, DesDataBuilt, DesDataExamples, DesDataManySpec, DesDataMany, DesDataManyExamples |
| DesMany | one event queue for the processes of all nodes: ramwich.py RAMwich.run, node.py | C95-C97 | DesLate, DesLateRel, DesManySpec, DesManyQueue, DesMany, DesManyRun, DesManyClaims, DesManyEnd, DesManyResult, DesManyExamples, DesSettle, DesSameSpec, DesSame, DesSameRun |

How each property is proved: C01-C05 by induction over the storage list and digit strings, and by
Flocq's correctness theorems; C06-C10, C31-C38 by refinement of histories to "last write";
C16-C26 by invariants of the slice and column loops, with an error analysis for every order of
summation; C27-C30 by invariants over all interleavings and a max-plus recurrence; C39-C44 by a
queue-concatenation invariant; C44-C48 by an oracle (every cell is written at most
once, so all executions agree with one assignment of values) and confluence; C59, C60 and C77 by
progress measures; C76 by showing that an execution that stopped is nowhere behind the completed
one, unless a read was missed; C49-C51 and C66-C68
by induction over the files; C69-C72 by case analysis of the file's fields and by evaluation of the
tables in the kernel; C73-C75 by projection of a simulation to its nodes and merging of their
executions; C78 by counting actions up to a time; C79 by an error
analysis of signed sums; C81-C83 by a machine on symbolic values that is proved sound for the node and evaluated in the
kernel on one schedule, and by C44-C48 for all others; C85-C88 by simulation relations; C89 by a
data-free copy of the event simulation, evaluated in the kernel; C90 by an invariant of the event queue; C93 by a potential of events; C94 by
an invariant that every event a process waits for is in the queue; C91 by
a bisimulation; C95 by an invariant that splits the common queue into those of the nodes; C96 by the events left to each node; C97 because nothing is enabled once all tiles have halted; C98 by a relation of two event simulations, in lockstep, that forgets data except for known constants; C99 by bounds on the roundings of each converter and of sums in any order; C100 by induction on the tree of components; C101 because the report is a homomorphism of arithmetics, from formulas to float64 and to rational numbers; C52-C57 and C63-C65 by closed forms of all reports.

## What is not modelled

* The random generator behind `has_noise = True` of the RRAM crossbars (C79 and C80 hold for all
  values it may draw).
* numpy's `exp` and `tanh` (the theorems hold for every function in their place); the conversion
  of non-finite or too large floats to integers (undefined in numpy).
* pydantic's conversions (C49-C51 and C66-C68 hold for every conversion that keeps integers and booleans, C69-C71 for
  every conversion, C72_shipped for those that keep integers, floats and booleans),
  its error messages, JSON, YAML, NPZ and NPY file formats, file existence and suffix checks.
* Logging, the text of `StatsDict.print` (its numbers are modelled), the drawing of utils/visualize.py (its data are modelled), `__repr__`.
* simpy itself: its event queue, stores, resources and conditions are represented in DesModel as
  documented there and in DesManyModel (one queue for all nodes), and by the interleavings and
  times of the other transition systems. Times are integers in one time unit (the code has floats that are integers for all
  tabulated values, and fractions such as 1*sqrt(8) only in unused parameters).
* Simplifications of single functions are stated in their comments.

## Trusted base

* The kernel of Coq 8.16.1 (also `vm_compute`, which it contains); checked again by coqchk.
* The fidelity of the models to the code, and the behaviour of numpy, pydantic and simpy as
  described in the comments of the models.
* Axioms: only the four of the standard library that its real numbers and Flocq bring in:
  `ClassicalDedekindReals.sig_not_dec` (N), `ClassicalDedekindReals.sig_forall_dec` (F),
  `FunctionalExtensionality.functional_extensionality_dep` (E), `Classical_Prop.classic` (C).
  coqchk also lists the parameters of the module types of Rdefinitions and ssrunder, which the
  libraries instantiate. No axiom is added by this development.

`Print Assumptions` per theorem:

**Closed under the global context** (113):
C01_slices_recombine, C01_slices_exact, C02_storage_accepted_iff, C02_storage_split,
C05_format_accepted, C05_format_accepted_only, C05_malformed_rejected_refuted,
C06_memory_last_write, C07_memory_bounds, C08_memory_counters, C09_no_aliasing,
C09_address_space, C11_vfu_range, C11_vfu_length, C12_vfu_exact, C13_add_sub_in_range,
C13_mul_in_range_refuted, C13_div_in_range_refuted, C14_vfu_failure,
C14_vfu_unary_ignores_second, C15_vfu_counters, C19_one_slice, C27_executed_in_order,
C27_complete_means_all_executed, C28_without_hlt_never_completes, C28_with_hlt_never_stuck,
C28_bounded_number_of_steps, C29_stage_times, C29_active_cycles, C29_total_time,
C30_unit_latency, C30_latency_bounds, C31_read_was_stored, C31_flag_means_stored,
C31_read_waits_exactly_for_missing_data, C32_read_returns_last_written,
C32_cells_hold_last_written, C32_effect_between_submission_and_completion, C32_real_time_order,
C33_each_request_in_one_place, C34_bus_is_exclusive, C34_latency_is_waited, C34_submission_order,
C34_operating_time, C35_refuted, C36_a_write_releases, C36_released_after_further_writes,
C37_refuted, C37_completed_requests_are_in_range, C37_fails_on_the_bus,
C37_read_beyond_does_not_wait, C37_read_partly_beyond_waits_for_the_rest, C38_request_counters,
C38_waiting_times, C38_active_cycles, C39_stream, C39_packets_of_a_router_carry_its_number,
C40_sending_counters, C40_receiving_counters, C41_refuted, C41_other_node_fails,
C41_self_send_fails, C41_internode_counter_is_zero, C41_only_own_node_is_reached,
C42_stopped_router_has_delivered, C42_stopped_router_has_counted, C43_one_packet_per_sender,
C49_once, C52_keeps_cycles, C54_sum, C54_order, C54_summary, C55_core, C55_tile, C55_node,
C55_io_actual, C56_actual, C59_bounded_number_of_steps, C59_never_stuck, C59_settled,
C60_bounded_work, C60_only_full_and_empty_buffers_block, C63_simulation, C63_summary,
C63_io_hidden, C64_sizes, C64_no_tiles, C65_twice, C65_sharing_refuted, C66_described,
C66_complete, C66_other_fields, C66_misspelt, C66_untyped_refuted, C66_ambiguous, C67_keys,
C67_keys_refuted, C71_built, C71_errors, C73_done, C78_latency, C78_rate, C78_calls, C78_exact,
C100_shows, C100_averages, C100_quiet, C100_object, C100_raises, C100_label_refuted,
C100_report_refuted, C101_formula, C101_totals.

**All four axioms (N, F, E, C)** (215):
C03_float_to_fixed_nearest, C03_float_to_fixed_defined, C03_nonfinite_rejected,
C03_negative_frac_rejected, C03_fixed_to_float_exact, C03_round_trip, C04_loaded_weight,
C04_stored_value, C04_loaded_weight_refuted, C09_write_changes_exactly_the_addressed_registers,
C09_cache_holds_last_write, C10_outputs_never_written, C10_write_accepted_iff,
C10_empty_write_changes_nothing, C10_read_accepted_iff, C10_reads_never_show_inputs,
C10_reads_change_no_register, C10_no_units_refuted, C14_core_vfu_failure, C14_core_any_failure,
C16_digital_exact, C16_digital_exact_32bit, C17_analog_exact, C17_left_to_right_is_an_order,
C18_mixed_exact, C18_layout_independent, C19_any_resolution_refuted, C19_value_computed,
C19_value_computed_saturating, C20_signed_inputs_refuted, C20_value_computed, C21_input_shifted,
C21_input_consumed, C21_second_multiply, C22_function_of_cells_and_inputs,
C22_function_of_weights_and_inputs, C22_cells_unchanged, C22_other_units, C23_read_floors,
C23_read_out_of_range, C23_core_output_read, C24_adc_saturates, C24_saturations_counted,
C25_minimum_conductance_refuted, C26_counters, C30_latency_refuted, C44_refuted,
C44_never_completes, C45_copy, C46_mismatch, C46_only_successful_receives_write,
C46_packets_of_a_failed_receive, C46_packets_lost, C47_halted, C47_without_halt,
C48_timing_independence, C48_refuted_without_single_write, C49_dispatch, C49_append,
C50_operations, C50_weights, C50_negative, C50_refuted, C51_loaded, C51_too_long, C51_place,
C52_restored, C52_refuted_requests, C52_refuted_counters, C53_raises, C53_refuted,
C54_rounding_refuted, C54_rounding, C54_rounding_summary, C55_io_refuted, C56_refuted,
C57_second_run, C58_layer, C61_cycles, C61_busy_samples, C61_refuted_without_halt, C62_set,
C62_copy, C62_vector, C62_vector_unary, C62_vector_any, C63_refuted, C67_file, C67_last, C67_bad,
C68_accepts, C68_error, C68_contents, C68_fresh, C69_accepted, C69_values, C69_errors,
C69_unknown, C69_adc_type_refuted, C69_flag_refuted, C70_monotone, C70_by_size, C70_from_file,
C70_missing, C70_constants, C70_crossbar, C70_network, C70_latencies, C70_value_refuted,
C70_latency_refuted, C71_ready, C71_report, C71_complete, C71_negative_refuted,
C71_nodes_refuted, C72_default, C72_shipped, C72_saturation_refuted, C73_projection, C73_alone,
C73_together, C73_completes, C73_raise_stops, C73_raise_single, C73_timing, C74_reset_all,
C74_reset_raises, C74_second_run, C74_batch, C75_raises, C75_first_node_only, C75_dummy,
C75_never_waits, C75_refuted_timing, C76_refuted, C76_wedged, C76_continues, C76_single_reader,
C76_single_completes, C76_single_always, C77_bound, C77_settles, C79_error, C79_deviation,
C79_quiet, C79_uniform, C79_cell_refuted, C80_activity, C81_loads, C81_result, C81_completes,
C81_configuration, C82_refuted, C82_continues, C83_halving, C84_accepted, C84_refused,
C85_refinement, C85_time, C86_completion, C86_safe, C87_exceptions, C87_safe, C88_result,
C89_completes, C89_returned, C89_latencies, C90_progress, C91_heap, C91_queue, C92_refuted,
C92_idle, C93_ends, C93_endless, C93_bound, C94_refuted, C94_returns, C94_single_reader,
C94_standstill, C95_alone, C95_refinement, C95_progress, C95_time, C95_exceptions, C95_returns,
C95_completion, C95_refuted_result, C96_ends, C96_returns, C96_standstill, C96_endless,
C96_results, C96_single_reader, C97_result, C97_independent, C97_time, C98_timing, C98_errors,
C98_nodes, C98_nodes_errors, C98_built, C98_example, C98_pointer_refuted, C98_division_refuted,
C99_reported, C99_grows, C99_each, C99_nearest_refuted, C99_clamped_refuted, C101_outcome,
C101_close, C101_exact, C101_usual, C101_printed, C101_printed_usual.

**F and E only** (4):
C03_nearest_even_unique, C17_wide_converter, C83_exact, C83_rounding.
