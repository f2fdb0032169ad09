{
 "claims": [
  {
   "property": "C01",
   "status": "proved",
   "theorems": [
    "C01_slices_recombine",
    "C01_slices_exact"
   ],
   "note": ""
  },
  {
   "property": "C02",
   "status": "proved",
   "theorems": [
    "C02_storage_accepted_iff",
    "C02_storage_split"
   ],
   "note": ""
  },
  {
   "property": "C03",
   "status": "proved",
   "theorems": [
    "C03_float_to_fixed_nearest",
    "C03_float_to_fixed_defined",
    "C03_nearest_even_unique",
    "C03_nonfinite_rejected",
    "C03_negative_frac_rejected",
    "C03_fixed_to_float_exact",
    "C03_round_trip"
   ],
   "note": ""
  },
  {
   "property": "C04",
   "status": "proved",
   "theorems": [
    "C04_loaded_weight",
    "C04_stored_value",
    "C04_loaded_weight_refuted"
   ],
   "note": "Proved when the rounded magnitude fits the stored bits; refuted without that condition (1.0 in Q0.8 is stored as 0)."
  },
  {
   "property": "C05",
   "status": "proved",
   "theorems": [
    "C05_format_accepted",
    "C05_format_accepted_only",
    "C05_malformed_rejected_refuted"
   ],
   "note": ""
  },
  {
   "property": "C06",
   "status": "proved",
   "theorems": [
    "C06_memory_last_write"
   ],
   "note": ""
  },
  {
   "property": "C07",
   "status": "proved",
   "theorems": [
    "C07_memory_bounds"
   ],
   "note": ""
  },
  {
   "property": "C08",
   "status": "proved",
   "theorems": [
    "C08_memory_counters"
   ],
   "note": ""
  },
  {
   "property": "C09",
   "status": "proved",
   "theorems": [
    "C09_no_aliasing",
    "C09_address_space",
    "C09_write_changes_exactly_the_addressed_registers",
    "C09_cache_holds_last_write"
   ],
   "note": ""
  },
  {
   "property": "C10",
   "status": "proved",
   "theorems": [
    "C10_outputs_never_written",
    "C10_write_accepted_iff",
    "C10_empty_write_changes_nothing",
    "C10_read_accepted_iff",
    "C10_reads_never_show_inputs",
    "C10_reads_change_no_register",
    "C10_no_units_refuted"
   ],
   "note": "For cores with at least one matrix unit; with none, a write at the first cache cell is wrongly rejected (C10_no_units_refuted)."
  },
  {
   "property": "C11",
   "status": "proved",
   "theorems": [
    "C11_vfu_range",
    "C11_vfu_length"
   ],
   "note": ""
  },
  {
   "property": "C12",
   "status": "proved",
   "theorems": [
    "C12_vfu_exact"
   ],
   "note": ""
  },
  {
   "property": "C13",
   "status": "proved",
   "theorems": [
    "C13_add_sub_in_range",
    "C13_mul_in_range_refuted",
    "C13_div_in_range_refuted"
   ],
   "note": ""
  },
  {
   "property": "C14",
   "status": "proved",
   "theorems": [
    "C14_vfu_failure",
    "C14_vfu_unary_ignores_second",
    "C14_core_vfu_failure",
    "C14_core_any_failure"
   ],
   "note": ""
  },
  {
   "property": "C15",
   "status": "proved",
   "theorems": [
    "C15_vfu_counters"
   ],
   "note": ""
  },
  {
   "property": "C16",
   "status": "proved",
   "theorems": [
    "C16_digital_exact",
    "C16_digital_exact_32bit"
   ],
   "note": ""
  },
  {
   "property": "C17",
   "status": "proved",
   "theorems": [
    "C17_analog_exact",
    "C17_wide_converter",
    "C17_left_to_right_is_an_order"
   ],
   "note": ""
  },
  {
   "property": "C18",
   "status": "proved",
   "theorems": [
    "C18_mixed_exact",
    "C18_layout_independent"
   ],
   "note": ""
  },
  {
   "property": "C19",
   "status": "proved",
   "theorems": [
    "C19_any_resolution_refuted",
    "C19_value_computed",
    "C19_value_computed_saturating",
    "C19_one_slice"
   ],
   "note": "Refuted for resolution above 1; the value computed instead is proved."
  },
  {
   "property": "C20",
   "status": "proved",
   "theorems": [
    "C20_signed_inputs_refuted",
    "C20_value_computed"
   ],
   "note": "Refuted; inputs are taken modulo 2^activation_width."
  },
  {
   "property": "C21",
   "status": "proved",
   "theorems": [
    "C21_input_shifted",
    "C21_input_consumed",
    "C21_second_multiply"
   ],
   "note": ""
  },
  {
   "property": "C22",
   "status": "proved",
   "theorems": [
    "C22_function_of_cells_and_inputs",
    "C22_function_of_weights_and_inputs",
    "C22_cells_unchanged",
    "C22_other_units"
   ],
   "note": ""
  },
  {
   "property": "C23",
   "status": "proved",
   "theorems": [
    "C23_read_floors",
    "C23_read_out_of_range",
    "C23_core_output_read"
   ],
   "note": ""
  },
  {
   "property": "C24",
   "status": "proved",
   "theorems": [
    "C24_adc_saturates",
    "C24_saturations_counted"
   ],
   "note": ""
  },
  {
   "property": "C25",
   "status": "proved",
   "theorems": [
    "C25_minimum_conductance_refuted"
   ],
   "note": "Refuted by a concrete configuration."
  },
  {
   "property": "C26",
   "status": "proved",
   "theorems": [
    "C26_counters"
   ],
   "note": ""
  },
  {
   "property": "C27",
   "status": "proved",
   "theorems": [
    "C27_executed_in_order",
    "C27_complete_means_all_executed"
   ],
   "note": ""
  },
  {
   "property": "C28",
   "status": "proved",
   "theorems": [
    "C28_without_hlt_never_completes",
    "C28_with_hlt_never_stuck",
    "C28_bounded_number_of_steps"
   ],
   "note": ""
  },
  {
   "property": "C29",
   "status": "proved",
   "theorems": [
    "C29_stage_times",
    "C29_active_cycles",
    "C29_total_time"
   ],
   "note": ""
  },
  {
   "property": "C30",
   "status": "proved",
   "theorems": [
    "C30_unit_latency",
    "C30_latency_refuted",
    "C30_latency_bounds"
   ],
   "note": "Proved for alu_lat = 1, refuted in general; exact bounds proved."
  },
  {
   "property": "C31",
   "status": "proved",
   "theorems": [
    "C31_read_was_stored",
    "C31_flag_means_stored",
    "C31_read_waits_exactly_for_missing_data"
   ],
   "note": ""
  },
  {
   "property": "C32",
   "status": "proved",
   "theorems": [
    "C32_read_returns_last_written",
    "C32_cells_hold_last_written",
    "C32_effect_between_submission_and_completion",
    "C32_real_time_order"
   ],
   "note": ""
  },
  {
   "property": "C33",
   "status": "proved",
   "theorems": [
    "C33_each_request_in_one_place"
   ],
   "note": ""
  },
  {
   "property": "C34",
   "status": "proved",
   "theorems": [
    "C34_bus_is_exclusive",
    "C34_latency_is_waited",
    "C34_submission_order",
    "C34_operating_time"
   ],
   "note": ""
  },
  {
   "property": "C35",
   "status": "proved",
   "theorems": [
    "C35_refuted"
   ],
   "note": "Refuted: a ready read can wait forever (C35_refuted); what holds instead is C36."
  },
  {
   "property": "C36",
   "status": "proved",
   "theorems": [
    "C36_a_write_releases",
    "C36_released_after_further_writes"
   ],
   "note": ""
  },
  {
   "property": "C37",
   "status": "proved",
   "theorems": [
    "C37_refuted",
    "C37_completed_requests_are_in_range",
    "C37_fails_on_the_bus",
    "C37_read_beyond_does_not_wait",
    "C37_read_partly_beyond_waits_for_the_rest"
   ],
   "note": "Refuted: submission does not check the range; what happens instead is proved."
  },
  {
   "property": "C38",
   "status": "proved",
   "theorems": [
    "C38_request_counters",
    "C38_waiting_times",
    "C38_active_cycles"
   ],
   "note": ""
  },
  {
   "property": "C39",
   "status": "proved",
   "theorems": [
    "C39_stream",
    "C39_packets_of_a_router_carry_its_number"
   ],
   "note": ""
  },
  {
   "property": "C40",
   "status": "proved",
   "theorems": [
    "C40_sending_counters",
    "C40_receiving_counters"
   ],
   "note": ""
  },
  {
   "property": "C41",
   "status": "proved",
   "theorems": [
    "C41_refuted",
    "C41_other_node_fails",
    "C41_self_send_fails",
    "C41_internode_counter_is_zero",
    "C41_only_own_node_is_reached"
   ],
   "note": ""
  },
  {
   "property": "C42",
   "status": "proved",
   "theorems": [
    "C42_stopped_router_has_delivered",
    "C42_stopped_router_has_counted"
   ],
   "note": ""
  },
  {
   "property": "C43",
   "status": "proved",
   "theorems": [
    "C43_one_packet_per_sender"
   ],
   "note": ""
  },
  {
   "property": "C44",
   "status": "proved",
   "theorems": [
    "C44_refuted",
    "C44_never_completes"
   ],
   "note": "Refuted: three programs complete with every capacity of at least 2 and never with the capacity 1 of the code."
  },
  {
   "property": "C45",
   "status": "proved",
   "theorems": [
    "C45_copy"
   ],
   "note": ""
  },
  {
   "property": "C46",
   "status": "proved",
   "theorems": [
    "C46_mismatch",
    "C46_only_successful_receives_write",
    "C46_packets_of_a_failed_receive",
    "C46_packets_lost"
   ],
   "note": ""
  },
  {
   "property": "C47",
   "status": "proved",
   "theorems": [
    "C47_halted",
    "C47_without_halt"
   ],
   "note": "Proved for programs with halt; without halt a witness completes before its core starts."
  },
  {
   "property": "C48",
   "status": "proved",
   "theorems": [
    "C48_timing_independence",
    "C48_refuted_without_single_write"
   ],
   "note": "Proved under the single-write condition; refuted without it."
  },
  {
   "property": "C49",
   "status": "proved",
   "theorems": [
    "C49_dispatch",
    "C49_append",
    "C49_once"
   ],
   "note": "Numbers may also be negative (Python counts from the end)."
  },
  {
   "property": "C50",
   "status": "proved",
   "theorems": [
    "C50_operations",
    "C50_weights",
    "C50_negative",
    "C50_refuted"
   ],
   "note": "Refuted for negative numbers; IndexError for operations and skipping for weights are proved."
  },
  {
   "property": "C51",
   "status": "proved",
   "theorems": [
    "C51_loaded",
    "C51_too_long",
    "C51_place"
   ],
   "note": "For one-dimensional float64 and integer arrays whose scaled values fit into 32 bits."
  },
  {
   "property": "C52",
   "status": "proved",
   "theorems": [
    "C52_restored",
    "C52_refuted_requests",
    "C52_refuted_counters",
    "C52_keeps_cycles"
   ],
   "note": "Proved for memory, validity, registers, routers and resettable counters; refuted for the requests of tiles that did not halt and for the counters no reset touches."
  },
  {
   "property": "C53",
   "status": "proved",
   "theorems": [
    "C53_raises",
    "C53_refuted"
   ],
   "note": "Refuted; the exact condition for success is proved (C53_raises)."
  },
  {
   "property": "C54",
   "status": "proved",
   "theorems": [
    "C54_sum",
    "C54_order",
    "C54_summary",
    "C54_rounding_refuted",
    "C54_rounding",
    "C54_rounding_summary"
   ],
   "note": "Proved in exact arithmetic; with float64 rounding the merge order matters (C54_rounding_refuted), within the bounds of C54_rounding and C54_rounding_summary (up to 2^50 values with a sum up to 2^800)."
  },
  {
   "property": "C55",
   "status": "proved",
   "theorems": [
    "C55_core",
    "C55_tile",
    "C55_node",
    "C55_io_actual",
    "C55_io_refuted"
   ],
   "note": "The reports of cores, tiles and nodes are proved in closed form (exact arithmetic); refuted for the routers of tiles 0 and 1."
  },
  {
   "property": "C56",
   "status": "proved",
   "theorems": [
    "C56_actual",
    "C56_refuted"
   ],
   "note": "Refuted; the reported formula is proved (C56_actual)."
  },
  {
   "property": "C57",
   "status": "proved",
   "theorems": [
    "C57_second_run"
   ],
   "note": "Proved for halting programs: every schedule gives the same state as a new simulator, with the same or another activation; network busy cycles add up, SRAM counters are not compared."
  },
  {
   "property": "C58",
   "status": "proved",
   "theorems": [
    "C58_layer"
   ],
   "note": ""
  },
  {
   "property": "C59",
   "status": "proved",
   "theorems": [
    "C59_bounded_number_of_steps",
    "C59_never_stuck",
    "C59_settled"
   ],
   "note": ""
  },
  {
   "property": "C60",
   "status": "proved",
   "theorems": [
    "C60_bounded_work",
    "C60_only_full_and_empty_buffers_block"
   ],
   "note": ""
  },
  {
   "property": "C61",
   "status": "proved",
   "theorems": [
    "C61_cycles",
    "C61_busy_samples",
    "C61_refuted_without_halt"
   ],
   "note": "Proved; refuted for tiles whose program does not halt."
  },
  {
   "property": "C62",
   "status": "proved",
   "theorems": [
    "C62_set",
    "C62_copy",
    "C62_vector",
    "C62_vector_unary",
    "C62_vector_any"
   ],
   "note": ""
  },
  {
   "property": "C63",
   "status": "proved",
   "theorems": [
    "C63_simulation",
    "C63_summary",
    "C63_io_hidden",
    "C63_refuted"
   ],
   "note": "Proved for the routers and compute tiles; refuted for memories, controllers and cores of tiles 0 and 1."
  },
  {
   "property": "C64",
   "status": "proved",
   "theorems": [
    "C64_sizes",
    "C64_no_tiles"
   ],
   "note": ""
  },
  {
   "property": "C65",
   "status": "proved",
   "theorems": [
    "C65_twice",
    "C65_sharing_refuted"
   ],
   "note": "Proved for the reports; refuted for merging in general (shared objects)."
  },
  {
   "property": "C66",
   "status": "proved",
   "theorems": [
    "C66_described",
    "C66_complete",
    "C66_other_fields",
    "C66_misspelt",
    "C66_untyped_refuted",
    "C66_ambiguous"
   ],
   "note": "For all pydantic conversions; C66_untyped_refuted: the type is not required."
  },
  {
   "property": "C67",
   "status": "proved",
   "theorems": [
    "C67_keys",
    "C67_file",
    "C67_last",
    "C67_bad",
    "C67_keys_refuted"
   ],
   "note": "C67_keys_refuted: the key of a unit is not unique (leading zeros)."
  },
  {
   "property": "C68",
   "status": "proved",
   "theorems": [
    "C68_accepts",
    "C68_error",
    "C68_contents",
    "C68_fresh"
   ],
   "note": ""
  },
  {
   "property": "C69",
   "status": "proved",
   "theorems": [
    "C69_accepted",
    "C69_values",
    "C69_errors",
    "C69_unknown",
    "C69_adc_type_refuted",
    "C69_flag_refuted"
   ],
   "note": "For all pydantic conversions. C69_adc_type_refuted: the shipped example's key adc_type is unknown, so it does not choose the converter; C69_flag_refuted: have_rram_xbar in the file overrides the storage."
  },
  {
   "property": "C70",
   "status": "proved",
   "theorems": [
    "C70_monotone",
    "C70_by_size",
    "C70_from_file",
    "C70_missing",
    "C70_constants",
    "C70_crossbar",
    "C70_network",
    "C70_latencies",
    "C70_value_refuted",
    "C70_latency_refuted"
   ],
   "note": "C70_value_refuted, C70_latency_refuted: a value in the file for a tabulated parameter or for noc_inter_lat is overwritten; XBAR_POW_DICT is never used (C70_crossbar)."
  },
  {
   "property": "C71",
   "status": "proved",
   "theorems": [
    "C71_built",
    "C71_errors",
    "C71_ready",
    "C71_report",
    "C71_complete",
    "C71_negative_refuted",
    "C71_nodes_refuted"
   ],
   "note": "C71_negative_refuted, C71_nodes_refuted: negative columns per converter and negative numbers of nodes are accepted and built."
  },
  {
   "property": "C72",
   "status": "proved",
   "theorems": [
    "C72_default",
    "C72_shipped",
    "C72_saturation_refuted"
   ],
   "note": "C72_saturation_refuted: 8-bit converters are too small for 128 rows of 2-bit cells."
  },
  {
   "property": "C73",
   "status": "proved",
   "theorems": [
    "C73_projection",
    "C73_alone",
    "C73_together",
    "C73_completes",
    "C73_done",
    "C73_raise_stops",
    "C73_raise_single",
    "C73_timing"
   ],
   "note": "Nodes share only the clock of the environment; executions are sequences of actions of nodes at nondecreasing times."
  },
  {
   "property": "C74",
   "status": "proved",
   "theorems": [
    "C74_reset_all",
    "C74_reset_raises",
    "C74_second_run",
    "C74_batch"
   ],
   "note": "Positive and negative results for reset; the series is that of tests/test_mlp_on_mnist_multi.py with any activations. C57 and C52 are the versions for one node."
  },
  {
   "property": "C75",
   "status": "proved",
   "theorems": [
    "C75_raises",
    "C75_first_node_only",
    "C75_dummy",
    "C75_never_waits",
    "C75_refuted_timing"
   ],
   "note": "The last part is refuted (C75_refuted_timing): because the dummy activation marks all cells as valid, a load can overtake the store it should wait for."
  },
  {
   "property": "C76",
   "status": "proved",
   "theorems": [
    "C76_refuted",
    "C76_wedged",
    "C76_continues",
    "C76_single_reader",
    "C76_single_completes",
    "C76_single_always"
   ],
   "note": "Refuted in general (C76_refuted): the release loop of the memory controller skips a waiting read, so of two cores that wait for the same value one can wait forever. C76_wedged and C76_continues: there is no other reason. C76_single_reader, C76_single_completes and C76_single_always: the statement holds if on each tile at most one core or the tile program reads the memory."
  },
  {
   "property": "C77",
   "status": "proved",
   "theorems": [
    "C77_bound",
    "C77_settles"
   ],
   "note": "job_steps is the bound. C77_settles uses excluded middle to decide whether a step is possible."
  },
  {
   "property": "C78",
   "status": "proved",
   "theorems": [
    "C78_latency",
    "C78_rate",
    "C78_calls",
    "C78_exact"
   ],
   "note": "until counts actions up to a time; C78_exact is about executions in which no event of the routers is left for later, as in simpy."
  },
  {
   "property": "C79",
   "status": "proved",
   "theorems": [
    "C79_error",
    "C79_deviation",
    "C79_quiet",
    "C79_uniform",
    "C79_cell_refuted"
   ],
   "note": "The random generator is replaced by arbitrary values. noise_size bounds rows and input resolution so that float64 rounding stays below 1/1024 of a step. C79_cell_refuted: noise of 17/64 of a step in every cell changes the result of a 2 x 2 unit."
  },
  {
   "property": "C80",
   "status": "proved",
   "theorems": [
    "C80_activity"
   ],
   "note": "C26 gives the counters of the noiseless multiply."
  },
  {
   "property": "C81",
   "status": "proved",
   "theorems": [
    "C81_loads",
    "C81_result",
    "C81_completes",
    "C81_configuration"
   ],
   "note": "The program is in MlpProgram.v. The matrix units are ideal (no noise); the shipped configuration asks for noise, which C79 and C80 are about. C81_configuration: it satisfies the other hypotheses. mlp is the network with the saturating arithmetic of the parts; C83 says when this is plain arithmetic."
  },
  {
   "property": "C82",
   "status": "proved",
   "theorems": [
    "C82_refuted",
    "C82_continues"
   ],
   "note": "Refuted (C82_refuted): some orders of its events leave cores of the example waiting forever, because of the missed reads of C76. C82_continues: there is no other reason."
  },
  {
   "property": "C83",
   "status": "proved",
   "theorems": [
    "C83_exact",
    "C83_rounding",
    "C83_halving"
   ],
   "note": "The intermediate results of C81 in plain arithmetic. C83_halving: the configuration of the example with concrete weights, for all non-negative images."
  },
  {
   "property": "C84",
   "status": "proved",
   "theorems": [
    "C84_accepted",
    "C84_refused"
   ],
   "note": "np.vectorize takes the type of its results from the first one; a first weight whose magnitude needs 64 bits or more is not modelled faithfully (see to_fixed_int64)."
  },
  {
   "property": "C85",
   "status": "proved",
   "theorems": [
    "C85_refinement",
    "C85_time"
   ],
   "note": "DesModel is simpy's event queue with all processes of a node, yield by yield; the relation is proved for every event (DesRefine), and that no sample of the monitor is missed (DesQueue)."
  },
  {
   "property": "C86",
   "status": "proved",
   "theorems": [
    "C86_completion",
    "C86_safe"
   ],
   "note": "Also: exactly the same results if no execution raises an exception (C86_safe)."
  },
  {
   "property": "C87",
   "status": "proved",
   "theorems": [
    "C87_exceptions",
    "C87_safe"
   ],
   "note": "A negative delay is an exception of simpy itself; the executions of the node do not know the delays of the cores."
  },
  {
   "property": "C88",
   "status": "proved",
   "theorems": [
    "C88_result"
   ],
   "note": "From C81 and the refinement."
  },
  {
   "property": "C89",
   "status": "proved",
   "theorems": [
    "C89_completes",
    "C89_returned",
    "C89_latencies"
   ],
   "note": "The run of a machine without data is computed, and the run of the code has the same events whatever the data. With other latencies the example can stop before its end (C82)."
  },
  {
   "property": "C90",
   "status": "proved",
   "theorems": [
    "C90_progress"
   ],
   "note": "Proved for all states of the event simulation by an invariant of the queue: every entry is waited for by its process at its time, no process has two wake-ups, and the processes that must run first come first."
  },
  {
   "property": "C91",
   "status": "proved",
   "theorems": [
    "C91_heap",
    "C91_queue"
   ],
   "note": "Both directions, against a specification with unordered items (time, priority, serial number) of which the least is popped."
  },
  {
   "property": "C92",
   "status": "proved",
   "theorems": [
    "C92_refuted",
    "C92_idle"
   ],
   "note": "Refuted: the programs of C44 are simulated for ever. The general theorem C92_idle covers every state with only the monitor and polling left."
  },
  {
   "property": "C93",
   "status": "proved",
   "theorems": [
    "C93_ends",
    "C93_endless",
    "C93_bound"
   ],
   "note": "The event simulation ends or comes to a standstill; the bound for the number of events is proved with a potential that every event but the ticks decreases (DesCost)."
  },
  {
   "property": "C94",
   "status": "proved",
   "theorems": [
    "C94_refuted",
    "C94_returns",
    "C94_single_reader",
    "C94_standstill"
   ],
   "note": "Completion of the event simulation, by an invariant that every event a process waits for is in the queue (DesNeed*), which makes a standstill of the simulation one of the node (DesWedge), and C76, C85, C93. The unconditional claim is refuted; C94_returns, C94_single_reader and C94_standstill hold."
  },
  {
   "property": "C95",
   "status": "proved",
   "theorems": [
    "C95_alone",
    "C95_refinement",
    "C95_progress",
    "C95_time",
    "C95_exceptions",
    "C95_returns",
    "C95_completion",
    "C95_refuted_result"
   ],
   "note": "The simulation of all nodes with one event queue (DesManyModel), by an invariant that splits the queue into those of the nodes. What the nodes do after the end of their own process is covered by C95_refinement and C95_completion; that the results of a node do not depend on the others is refuted."
  },
  {
   "property": "C96",
   "status": "proved",
   "theorems": [
    "C96_ends",
    "C96_returns",
    "C96_standstill",
    "C96_endless",
    "C96_results",
    "C96_single_reader"
   ],
   "note": "By a count of the events left to each node up to the end of its process and, after that, the potential of C93. The hypothesis that no execution raises an exception is needed for the equivalence only; C96_results and C96_single_reader derive it."
  },
  {
   "property": "C97",
   "status": "proved",
   "theorems": [
    "C97_result",
    "C97_independent",
    "C97_time"
   ],
   "note": "After all tiles have halted no action of the execution of C85 is enabled (C47), so events after the end of Node.run change nothing that is reported. The monitor's busy count, cycles and statistics are included. Without a halt instruction it is refuted (C95_refuted_result)."
  },
  {
   "property": "C98",
   "status": "proved",
   "theorems": [
    "C98_timing",
    "C98_errors",
    "C98_nodes",
    "C98_nodes_errors",
    "C98_built",
    "C98_example",
    "C98_pointer_refuted",
    "C98_division_refuted"
   ],
   "note": "Same queue, times, statistics, valid flags and access counts of memories and of all register files and units, except how often an ADC clamped; returning and coming to a standstill together. It needs addresses that come from set instructions (C98_pointer_refuted otherwise); with a division the other run may raise ZeroDivisionError (C98_division_refuted); without divisions both raise or none (C98_errors). C98_nodes and C98_nodes_errors say it of the simulation of all nodes. All programs of the example mlp_l4_mnist satisfy it (C98_example)."
  },
  {
   "property": "C99",
   "status": "proved",
   "theorems": [
    "C99_reported",
    "C99_grows",
    "C99_each",
    "C99_nearest_refuted",
    "C99_clamped_refuted"
   ],
   "note": "For currents of at most 2^40 steps, at most 2^30 conversions and every order of summation; the distance is to the integers returned if nothing was clamped. What clamping loses is not counted (C99_clamped_refuted), and since both currents are rounded apart a value may be one step off (C99_nearest_refuted)."
  },
  {
   "property": "C100",
   "status": "proved",
   "theorems": [
    "C100_shows",
    "C100_averages",
    "C100_quiet",
    "C100_object",
    "C100_raises",
    "C100_label_refuted",
    "C100_report_refuted"
   ],
   "note": "C100_shows and C100_raises hold for all statistics of the expected form and every argsort. C100_report_refuted holds for the report of every simulation: its keys are names of components, so that the summary finds no statistics. The calls of summarize_results are commented out in the code."
  },
  {
   "property": "C101",
   "status": "proved",
   "theorems": [
    "C101_formula",
    "C101_outcome",
    "C101_close",
    "C101_exact",
    "C101_usual",
    "C101_totals",
    "C101_printed",
    "C101_printed_usual"
   ],
   "note": "C101_formula, C101_exact and C101_outcome hold for all parameters. C101_close and C101_printed need non-negative, moderate intermediate values (ordinary); C101_usual derives them from the sizes of the parameters. 10**-12 is taken as the float64 nearest to it."
  }
 ]
}