{"id": "C01", "title": "Weight slices recombine to the stored weight", "statement": "For every storage configuration the configuration loader accepts, cutting the fixed-point magnitude of a weight into the per-crossbar cell values and adding the cell values back, each shifted by its crossbar's bit position, gives the magnitude modulo 2^weight_width, hence exactly the magnitude whenever it fits in weight_width bits; every cell value fits in the number of bits its crossbar stores per cell.", "quantifier": "all accepted storage configurations (any length, any mix of 1/2/3/4-bit and SRAM cells) and all integer magnitudes", "why_tests_cant": "A test fixes one storage layout and a few weights; the claim ranges over every layout and every integer.", "anchors": ["src/ramwich/utils/data_convert.py:extract_bits", "src/ramwich/config.py:Config.validate_and_calculate", "src/ramwich/mvmu.py:MVMU.load_weights"]}
{"id": "C02", "title": "Storage configuration is split consistently", "statement": "A configuration is accepted exactly when the cell widths of its storage list add up to the weight width; on acceptance the bit positions start at 0, end at the weight width and are exactly the prefix sums of the cell widths, the RRAM and SRAM output maps are increasing, disjoint and together cover every crossbar exactly once, and the crossbar counts equal the sizes of the maps.", "quantifier": "all storage lists and all weight widths", "why_tests_cant": "The list is unbounded; tests see two or three layouts.", "anchors": ["src/ramwich/config.py:Config.validate_and_calculate"]}
{"id": "C03", "title": "Fixed-point conversion rounds to nearest even and round-trips", "statement": "Converting a finite float64 to fixed point with f fractional bits returns an integer nearest to x*2^f, the even one on a tie (the scaling itself being exact unless it overflows); converting an integer of magnitude at most 2^53 to float with f fractional bits and back returns the same integer.", "quantifier": "all finite float64 values, all f, all integers of magnitude at most 2^53", "why_tests_cant": "Floating-point rounding has 2^64 inputs and corner cases (ties, subnormals) that sampling misses.", "anchors": ["src/ramwich/utils/data_convert.py:float_to_fixed", "src/ramwich/utils/data_convert.py:fixed_to_float"]}
{"id": "C04", "title": "A loaded weight is represented to within half a unit in the last place", "statement": "After loading a matrix, the weight realised by the crossbars (signed, recombined from all slices) differs from the requested weight by at most half a unit of 2^-frac_bits. (True when the rounded magnitude is below 2^weight_width; false otherwise: the high bits are silently dropped, so e.g. weight 1.0 in format Q0.8 is stored as 0.)", "quantifier": "all weight matrices and all weight formats", "why_tests_cant": "The failing set is a boundary set between representable and non-representable weights.", "anchors": ["src/ramwich/mvmu.py:MVMU.load_weights", "src/ramwich/utils/data_convert.py:extract_bits"]}
{"id": "C05", "title": "Data formats are parsed faithfully", "statement": "The format string Qi.f is accepted for all decimal i and f and yields exactly i integer bits, f fractional bits and width i+f; a string that does not have this form is rejected. (The second half is false: anything may follow the digits.)", "quantifier": "all strings", "why_tests_cant": "The set of strings is infinite.", "anchors": ["src/ramwich/config.py:DataConfig.calculate_derived_values"]}
{"id": "C06", "title": "Memory reads return the last write, and writes touch nothing else", "statement": "For any sequence of block writes to a memory, a read of any in-range block returns for each address the value of the last accepted write covering it (as a 32-bit two's complement integer), and 0 if there is none.", "quantifier": "all sequences of reads and writes with any addresses, lengths and values", "why_tests_cant": "History-dependent: tests cover only short sequences.", "anchors": ["src/ramwich/blocks/memory.py:Memory.read", "src/ramwich/blocks/memory.py:Memory.write"]}
{"id": "C07", "title": "Out-of-range memory accesses are rejected without effect", "statement": "A memory read or write that does not lie inside the memory, or a read of non-positive length, raises an error and leaves the cells and all counters unchanged; every other access succeeds.", "quantifier": "all memories, addresses (also negative), lengths and values", "why_tests_cant": "Must hold on every boundary of every size.", "anchors": ["src/ramwich/blocks/memory.py:Memory.read", "src/ramwich/blocks/memory.py:Memory.write"]}
{"id": "C08", "title": "Memory access counters are exact", "statement": "After any sequence of accesses the read and write operation counters equal the sum of the batch sizes of the accepted accesses of each kind, the cell counters equal the total number of cells they covered, and the totals are the sums of the read and the write counters.", "quantifier": "all histories of accesses, including failing ones", "why_tests_cant": "Accumulated over arbitrary histories.", "anchors": ["src/ramwich/blocks/memory.py:MemoryStats", "src/ramwich/blocks/memory.py:Memory"]}
{"id": "C09", "title": "Register addresses behave like one flat memory per region", "statement": "In a core's register address space a successful write of a block at an input-register or cache address changes exactly the addressed cells: reading the cache back returns the last value written to each address, the input registers of exactly one matrix unit change at exactly the addressed offsets, and distinct addresses never alias.", "quantifier": "all core geometries (number of matrix units, crossbar size, cache size), addresses, data and histories", "why_tests_cant": "Ranges over every geometry and every address pair.", "anchors": ["src/ramwich/core.py:Core.write_to_register", "src/ramwich/core.py:Core.read_from_register", "src/ramwich/core.py:Core._get_mvmu_id_from_address"]}
{"id": "C10", "title": "Output registers cannot be written and input registers cannot be read", "statement": "No core register write ever changes a matrix unit output register: a non-empty write is rejected if and only if its range leaves the register space, meets the output-register range, or spans input registers of two matrix units or of a unit and the cache; no read returns input-register contents; a rejected access changes nothing.", "quantifier": "all geometries with at least one matrix unit, addresses and lengths", "why_tests_cant": "All boundary alignments of ranges against region borders.", "anchors": ["src/ramwich/core.py:Core._overlaps_output_registers", "src/ramwich/core.py:Core.write_to_register", "src/ramwich/core.py:Core.read_from_register"]}
{"id": "C11", "title": "Vector unit results stay in the representable range", "statement": "Every result element of a vector operation lies in [-2^w, 2^w-1] where w is the activation width, and the result has as many elements as the first operand.", "quantifier": "all opcodes, operand vectors and widths", "why_tests_cant": "All 2^64 operand pairs per element.", "anchors": ["src/ramwich/blocks/vfu.py:VFU.calculate"]}
{"id": "C12", "title": "Vector arithmetic is saturating fixed-point arithmetic", "statement": "For 32-bit operands whose exact intermediate result fits in 32 bits, add, sub, mul, div, min, max, and, or, not and relu return the exact mathematical result (mul and div rescaled with floor by 2^frac_bits) clamped to the representable range.", "quantifier": "all operand vectors", "why_tests_cant": "All operand pairs.", "anchors": ["src/ramwich/blocks/vfu.py:VFU.calculate"]}
{"id": "C13", "title": "In-range operands never overflow silently", "statement": "If all operands are in the representable range, the result of mul, add, sub and div equals the clamped exact result. (True for add and sub up to activation width 30; false for mul and div, which overflow the 32-bit intermediate for in-range operands, e.g. with 16-bit activations.)", "quantifier": "all widths, opcodes, in-range operands", "why_tests_cant": "The violating operands are a thin set no random test with small values hits.", "anchors": ["src/ramwich/blocks/vfu.py:VFU._handle_mul", "src/ramwich/blocks/vfu.py:VFU._handle_div"]}
{"id": "C14", "title": "A failing vector operation has no effect", "statement": "Division by a vector containing a zero and a binary operation without a second operand raise an error, change no counter of the vector unit and no register; a unary operation ignores its second operand.", "quantifier": "all opcodes, operand vectors and unit states", "why_tests_cant": "All operand vectors.", "anchors": ["src/ramwich/blocks/vfu.py:VFU.calculate", "src/ramwich/visitor.py:CoreExecutionVisitor.visit_vfu"]}
{"id": "C15", "title": "Vector unit counters add up", "statement": "After any sequence of vector operations, total operations = mul + div + activation + other operations, each equal to the sum of the lengths of the successful operations of its class.", "quantifier": "all histories", "why_tests_cant": "Accumulated over arbitrary histories.", "anchors": ["src/ramwich/blocks/vfu.py:VFU._update_stats"]}
{"id": "C16", "title": "Digital matrix-vector product is exact", "statement": "With SRAM crossbars only, single-bit input slices, in-range weights and inputs in [0, 2^activation_width), after a matrix-vector multiply every output register holds the exact integer product of the stored fixed-point weight row and the input vector, modulo 2^32 as a two's complement number (hence exactly if it fits in 32 bits).", "quantifier": "all crossbar sizes, column groupings, weight widths, activation widths, weight matrices, input vectors and prior register contents", "why_tests_cant": "A universally quantified linear-algebra identity over unbounded sizes.", "anchors": ["src/ramwich/mvmu.py:MVMU.execute_mvm", "src/ramwich/mvmu.py:MVMU.load_weights", "src/ramwich/blocks/sram_cim_unit.py", "src/ramwich/blocks/sna.py", "src/ramwich/blocks/mux.py"]}
{"id": "C17", "title": "Analog matrix-vector product is exact in the ideal case", "statement": "With RRAM crossbars, no noise, zero minimum conductance, positive supply voltage and maximum conductance of moderate magnitude, single-bit input slices, and no converter saturation, the float64 computation through DAC, crossbar, ADC and shift-and-add yields exactly the integer product of the stored weights and the inputs, for every order in which the float64 column sums are evaluated.", "quantifier": "all sizes up to 2^20 columns, all storage layouts, all weights, inputs, supply voltages and conductances in the stated range, all summation orders", "why_tests_cant": "Floating-point error must be bounded for every input and every summation order.", "anchors": ["src/ramwich/mvmu.py:MVMU.execute_mvm", "src/ramwich/blocks/rram_xbar.py", "src/ramwich/blocks/dac.py", "src/ramwich/blocks/adc.py", "src/ramwich/utils/data_convert.py:int_to_conductance"]}
{"id": "C18", "title": "Mixed RRAM/SRAM storage computes the same product", "statement": "For any mix and order of RRAM and SRAM crossbars the merged result equals the product of the stored weights and the inputs under the conditions of C16 and C17; in particular the result does not depend on how the weight bits are distributed over crossbar kinds.", "quantifier": "all mixes and orders of crossbars", "why_tests_cant": "Exponentially many layouts.", "anchors": ["src/ramwich/mvmu.py:MVMU.execute_mvm", "src/ramwich/config.py:Config.validate_and_calculate"]}
{"id": "C19", "title": "The product does not depend on the DAC resolution", "statement": "Under the conditions of C16 the output is the exact product for every DAC resolution. (False for resolution above 1: the accumulator shifts by the slice number instead of the slice number times the resolution. The exact value computed is characterised for every resolution.)", "quantifier": "all DAC resolutions, weights and inputs", "why_tests_cant": "Only visible with a non-default resolution and inputs of more than one slice.", "anchors": ["src/ramwich/blocks/sna.py:SNAArray.calculate", "src/ramwich/mvmu.py:MVMU.execute_mvm"]}
{"id": "C20", "title": "Signed inputs are multiplied as signed numbers", "statement": "For inputs in the signed range of the activation format the output is the exact signed product. (False: a negative input x is multiplied as x + 2^activation_width; the exact value computed for every 32-bit input is characterised.)", "quantifier": "all 32-bit input vectors", "why_tests_cant": "Needs negative activations reaching a matrix unit.", "anchors": ["src/ramwich/blocks/inreg.py:InputRegisterArray.read", "src/ramwich/mvmu.py:MVMU.execute_mvm"]}
{"id": "C21", "title": "A matrix-vector multiply consumes its input", "statement": "After a multiply every input register holds its old value arithmetically shifted right by the total number of bits read; for inputs in [0, 2^activation_width) that is 0, so a second multiply without new input writes all-zero outputs.", "quantifier": "all states and inputs", "why_tests_cant": "Depends on all register contents.", "anchors": ["src/ramwich/blocks/inreg.py:InputRegisterArray.read", "src/ramwich/mvmu.py:MVMU.execute_mvm"]}
{"id": "C22", "title": "A multiply does not depend on earlier outputs", "statement": "The outputs of a multiply are a function of the stored weights and the current inputs only; they do not depend on the previous contents of the output registers or on counters, and no other matrix unit changes.", "quantifier": "all prior states", "why_tests_cant": "All prior states.", "anchors": ["src/ramwich/mvmu.py:MVMU.execute_mvm", "src/ramwich/blocks/outreg.py:OutputRegisterArray.clean_cells", "src/ramwich/visitor.py:CoreExecutionVisitor.visit_mvm"]}
{"id": "C23", "title": "Reading outputs discards the weight fraction bits by flooring", "statement": "A core read of output registers returns floor(value / 2^weight_frac_bits) for each addressed register and leaves the full-precision register unchanged.", "quantifier": "all register values, addresses and fraction bits", "why_tests_cant": "All values.", "anchors": ["src/ramwich/mvmu.py:MVMU.read_from_outreg", "src/ramwich/core.py:Core.read_from_register"]}
{"id": "C24", "title": "The ADC saturates symmetrically and counts every saturation", "statement": "Every converted value lies in [-(2^r-1), 2^r-1]; a value inside that range is returned unchanged; the overflow counter grows by exactly the number of values that were clamped; the conversion counter grows by the array size regardless of data.", "quantifier": "all analog inputs, resolutions and array shapes", "why_tests_cant": "All float inputs.", "anchors": ["src/ramwich/blocks/adc.py:ADCArray.convert"]}
{"id": "C25", "title": "A non-zero minimum conductance does not change the product", "statement": "The exactness of C17 holds for every minimum conductance below the maximum. (False: the offset of the minimum conductance is neither stored for zero weights nor subtracted after conversion.)", "quantifier": "all conductance ranges", "why_tests_cant": "Only visible with a non-default device parameter.", "anchors": ["src/ramwich/utils/data_convert.py:int_to_conductance", "src/ramwich/mvmu.py:MVMU.load_weights", "src/ramwich/blocks/adc.py:ADCArray.convert"]}
{"id": "C26", "title": "Activity counters of a multiply depend only on the configuration", "statement": "Each multiply increases the DAC, sample-and-hold, multiplexer, ADC, crossbar, SRAM, shift-and-add and register counters by fixed amounts that are functions of the configuration (number of slices, size, columns per ADC, number of crossbars), never of the data.", "quantifier": "all data and configurations", "why_tests_cant": "Energy results must be exact for every run.", "anchors": ["src/ramwich/mvmu.py:MVMU.execute_mvm", "src/ramwich/blocks/dac.py", "src/ramwich/blocks/adc.py", "src/ramwich/blocks/mux.py", "src/ramwich/blocks/snh.py", "src/ramwich/blocks/sna.py"]}
{"id": "C27", "title": "A core executes its program exactly once and in order", "statement": "Under every schedule and for all latencies the instructions executed by a core form a prefix of its program up to and including the first hlt, each executed exactly once, in order, the next starting only after the previous one completed; nothing after the first hlt is executed; when the core reports completion the whole prefix has been executed.", "quantifier": "all programs, latencies and schedules of the three pipeline stages", "why_tests_cant": "All interleavings.", "anchors": ["src/ramwich/pipeline.py:Stage.run", "src/ramwich/pipeline.py:Pipeline", "src/ramwich/core.py:Core.run"]}
{"id": "C28", "title": "A core finishes only by executing hlt", "statement": "A core whose program contains no hlt never reports completion, so a tile waiting for it never halts; a core whose instructions all complete and that has a hlt always reports completion.", "quantifier": "all programs and schedules", "why_tests_cant": "Non-termination cannot be tested.", "anchors": ["src/ramwich/pipeline.py:Stage.run", "src/ramwich/tile.py:Tile.execute_halt"]}
{"id": "C29", "title": "Core execution time follows the pipeline recurrence", "statement": "For fixed per-instruction execution times the time at which each instruction leaves each stage follows the classic recurrence of a three stage pipeline with single-entry buffers, and the core's active cycle count is the exit time of the first hlt.", "quantifier": "all programs and latencies", "why_tests_cant": "All programs.", "anchors": ["src/ramwich/pipeline.py", "src/ramwich/visitor.py", "src/ramwich/core.py:Core.run"]}
{"id": "C30", "title": "Vector latency is the ALU latency times the number of ALU passes", "statement": "The execution time of a vector instruction of length v on n ALUs is alu_lat * ceil(v/n). (True for alu_lat = 1; false in general because of operator precedence; bounds for the actual value are proved.)", "quantifier": "all vector lengths, ALU counts and latencies", "why_tests_cant": "All parameter triples.", "anchors": ["src/ramwich/visitor.py:CoreExecutionTimingVisitor.visit_vfu"]}
{"id": "C31", "title": "The memory controller never returns data that was not written", "statement": "Under every interleaving, when an in-range read request completes, every address it covers has been marked valid, i.e. was preloaded or covered by a write request that completed earlier.", "quantifier": "all request streams and schedules", "why_tests_cant": "All interleavings.", "anchors": ["src/ramwich/blocks/dram_controller.py:DRAMController.request_handler", "src/ramwich/blocks/dram_controller.py:DRAMController._read_thread"]}
{"id": "C32", "title": "The memory controller is linearizable", "statement": "Under every interleaving the completed requests, in completion order, form a legal sequential history of one memory: each read returns for every address the value of the last write completed before it; each request takes effect between its submission and its completion, and a request submitted after another one completed comes after it in the history.", "quantifier": "all request streams and schedules", "why_tests_cant": "All interleavings.", "anchors": ["src/ramwich/blocks/dram_controller.py"]}
{"id": "C33", "title": "No memory request is lost or completed twice", "statement": "At every point each submitted request is in exactly one place (queued, waiting for validity, waiting for the bus, on the bus, or completed) and is completed at most once.", "quantifier": "all request streams and schedules", "why_tests_cant": "All interleavings.", "anchors": ["src/ramwich/blocks/dram_controller.py"]}
{"id": "C34", "title": "The memory bus is exclusive and first-come first-served", "statement": "At most one request occupies the memory bus at a time, requests that do not have to wait for validity complete in submission order, and the accumulated operating time equals the memory latency times the number of batches completed.", "quantifier": "all request streams and schedules", "why_tests_cant": "All interleavings.", "anchors": ["src/ramwich/blocks/dram_controller.py:DRAMController._read_thread", "src/ramwich/blocks/dram_controller.py:DRAMController._write_thread"]}
{"id": "C35", "title": "A waiting read is released as soon as its data is valid", "statement": "After every completed write, no read request whose whole range is valid remains in the waiting list. (False: the waiting list is modified while it is iterated, so the entry after a released one is skipped and may wait forever.)", "quantifier": "all request streams and schedules", "why_tests_cant": "Needs two adjacent waiting reads becoming ready together.", "anchors": ["src/ramwich/blocks/dram_controller.py:DRAMController._update_ready_requests"]}
{"id": "C36", "title": "Waiting reads make progress", "statement": "Each completed write releases the oldest ready waiting read, releases only ready ones, keeps the remaining ones in order without loss, and skips only entries that directly follow a released one; a ready read with k reads waiting before it has left the waiting list after at most k+1 further completed writes, whatever else happens.", "quantifier": "all waiting lists and validity states", "why_tests_cant": "All list contents.", "anchors": ["src/ramwich/blocks/dram_controller.py:DRAMController._update_ready_requests"]}
{"id": "C37", "title": "Out-of-range memory requests", "statement": "A request outside the memory is rejected. (A read whose range lies entirely beyond the memory is accepted as valid and fails only when it reaches the bus; a read partly beyond it waits for the in-range part only; a write beyond it fails on the bus without changing cells or validity; all such requests stop the simulation with an error rather than complete.)", "quantifier": "all request ranges", "why_tests_cant": "All boundary alignments.", "anchors": ["src/ramwich/blocks/dram_controller.py:DRAMController.request_handler"]}
{"id": "C38", "title": "Memory controller counters are exact", "statement": "The read, write and total request counters equal the number of batches submitted; total = read + write; waiting time statistics are non-negative and the maximum is at least the average; the active cycles are the time from the start of the controller to its first stop, and 0 while it runs.", "quantifier": "all histories", "why_tests_cant": "Arbitrary histories.", "anchors": ["src/ramwich/blocks/dram_controller.py:DRAMControllerStats"]}
{"id": "C39", "title": "Packets between two tiles arrive once and in order", "statement": "Under every schedule, for each ordered pair of tiles the sequence of packets read from the receiver's buffer for the sender is a prefix of the sequence the sender submitted for that receiver; at every point submitted = read + buffered + in flight + queued for that pair, in order.", "quantifier": "all numbers of tiles, programs and schedules", "why_tests_cant": "All interleavings.", "anchors": ["src/ramwich/blocks/router.py", "src/ramwich/tile.py:Tile.execute_send"]}
{"id": "C40", "title": "Router counters are exact", "statement": "At every point packets sent = intra-node + inter-node packets, packets sent counts exactly the delivered packets, received = read + currently buffered, and packets created counts the submitted packets up to the one being submitted.", "quantifier": "all schedules", "why_tests_cant": "All interleavings.", "anchors": ["src/ramwich/blocks/router.py:RouterStats", "src/ramwich/blocks/router.py:Router"]}
{"id": "C41", "title": "Tiles of different nodes can exchange packets", "statement": "A send to a tile of another node is delivered with inter-node latency. (False: each node has its own network holding only its own tiles, so every such send raises an error and the inter-node counter is always zero; a send of a tile to itself also always fails.)", "quantifier": "all configurations and programs", "why_tests_cant": "Statement about every reachable state.", "anchors": ["src/ramwich/blocks/noc.py:Network", "src/ramwich/blocks/router.py:Router._get_latency", "src/ramwich/node.py:Node"]}
{"id": "C42", "title": "Halting never loses a packet", "statement": "When a router stops at a halt instruction every packet its tile submitted has been delivered into the receiver's buffer.", "quantifier": "all schedules", "why_tests_cant": "All interleavings.", "anchors": ["src/ramwich/blocks/router.py:Router.stop_after_all_packets_sent", "src/ramwich/tile.py:Tile.execute_halt"]}
{"id": "C43", "title": "Receive buffers are bounded", "statement": "At every point at most one packet per sender is buffered at a receiver.", "quantifier": "all schedules", "why_tests_cant": "All interleavings.", "anchors": ["src/ramwich/blocks/router.py:Router.receive_packet"]}
{"id": "C44", "title": "Programs that complete with unbounded buffers complete", "statement": "If a set of tile programs can complete with unbounded receive buffers it completes. (False: single-entry buffers and one sending queue per router cause head-of-line deadlock; a concrete three-tile program that can never complete is exhibited, and the simulator then spins forever instead of reporting it.)", "quantifier": "all programs and schedules", "why_tests_cant": "Deadlock needs a specific program; absence of completion is not testable.", "anchors": ["src/ramwich/blocks/router.py:Router._send_thread"]}
{"id": "C45", "title": "Send/receive copies memory between tiles", "statement": "A send of vec packets of width values matched by a receive of the same shape makes the receiver's memory block equal to the sender's block as of the completion of the sender's read, and changes no other cell.", "quantifier": "all shapes, addresses, contents and schedules", "why_tests_cant": "All interleavings.", "anchors": ["src/ramwich/tile.py:Tile.execute_send", "src/ramwich/tile.py:Tile.execute_receive"]}
{"id": "C46", "title": "A receive of the wrong width fails cleanly", "statement": "A receive that meets a packet of another width fails without writing memory, and the program continues with the next instruction; the packets already taken, including the mismatching one, are lost.", "quantifier": "all packet streams", "why_tests_cant": "All streams.", "anchors": ["src/ramwich/tile.py:Tile.execute_receive", "src/ramwich/tile.py:Tile.run"]}
{"id": "C47", "title": "A halted tile has quiescent cores and router", "statement": "When a tile whose program ends with halt completes, all its cores have completed and its router has no unsent packet; without a halt instruction the tile may complete while its cores are still running.", "quantifier": "all programs and schedules", "why_tests_cant": "All interleavings.", "anchors": ["src/ramwich/tile.py:Tile.execute_halt", "src/ramwich/tile.py:Tile.run"]}
{"id": "C48", "title": "Results do not depend on timing", "statement": "If every memory cell of every tile is written at most once per run, then all completed runs of a given program from a given initial state end with the same memory contents, registers and outputs, whatever the latencies and the order of simultaneous events. (Without the single-write condition this is false.)", "quantifier": "all programs, latencies, schedules", "why_tests_cant": "Quantifies over pairs of schedules.", "anchors": ["src/ramwich/core.py", "src/ramwich/tile.py", "src/ramwich/blocks/dram_controller.py", "src/ramwich/blocks/router.py"]}
{"id": "C49", "title": "Operations are dispatched to the right unit in file order", "statement": "After loading an operations file in which all node, tile and core numbers are in range, each core's (tile's) program is exactly the subsequence of valid core (tile) operations addressed to it, in file order.", "quantifier": "all operation lists and architectures", "why_tests_cant": "All files.", "anchors": ["src/ramwich/ramwich.py:RAMwich.load_operations"]}
{"id": "C50", "title": "Out-of-range unit numbers are rejected", "statement": "An operation or weight whose node, tile or core number does not exist is rejected. (False: negative numbers select units from the end; a too large number aborts loading with an error for operations but is skipped for weights.)", "quantifier": "all unit numbers", "why_tests_cant": "All integers.", "anchors": ["src/ramwich/ramwich.py:RAMwich.load_operations", "src/ramwich/ramwich.py:RAMwich.load_weights", "src/ramwich/core.py:Core.get_mvmu"]}
{"id": "C51", "title": "Loading an activation fills exactly the head of the input tile", "statement": "Loading an activation vector no longer than the memory writes the truncated fixed-point values to the first cells of tile 0 of node 0, marks exactly these valid in addition to the already valid ones, and changes nothing else; a longer vector is rejected without effect.", "quantifier": "all vectors and memory sizes", "why_tests_cant": "All vectors.", "anchors": ["src/ramwich/ramwich.py:RAMwich.load_activation"]}
{"id": "C52", "title": "Reset restores the initial state", "statement": "After reset every memory cell, register, validity flag and counter equals its initial value. (False for: requests still waiting for validity, the running flags of a memory controller whose tile did not halt, network busy cycles, SRAM unit and SRAM multiplexer counters, and cycle counts.)", "quantifier": "all reachable states", "why_tests_cant": "All reachable states.", "anchors": ["src/ramwich/mvmu.py:MVMU.reset", "src/ramwich/tile.py:Tile.reset", "src/ramwich/node.py:Node.reset", "src/ramwich/blocks/dram_controller.py:DRAMController.reset", "src/ramwich/blocks/router.py:Router.reset"]}
{"id": "C53", "title": "Reset succeeds for every configuration", "statement": "Reset never raises an error. (False: it raises for every configuration without RRAM crossbars that has at least one matrix unit.)", "quantifier": "all configurations", "why_tests_cant": "All configurations.", "anchors": ["src/ramwich/mvmu.py:MVMU.reset"]}
{"id": "C54", "title": "Statistics merging is a commutative sum", "statement": "Merging statistics dictionaries adds counts, energies and areas per component name, is independent of the merge order and grouping (in exact arithmetic), loses no component, and the summary equals the sum over all merged entries. In float64 arithmetic the order matters, but in every order each energy and area differs from the exact sum of non-negative values by a relative error of at most 2^-52 for each addition, and counts are exact.", "quantifier": "all collections of statistics", "why_tests_cant": "All collections.", "anchors": ["src/ramwich/stats.py:Stats.merge", "src/ramwich/stats.py:StatsDict.merge", "src/ramwich/stats.py:StatsDict.summary"]}
{"id": "C55", "title": "Leakage energy is leakage power times active cycles", "statement": "Each component's reported leakage energy is its leakage power times the active cycles of its enclosing unit. (True for cores and compute tiles; false for the input/output tiles 0 and 1, whose router leakage power is added without multiplication.)", "quantifier": "all configurations and cycle counts", "why_tests_cant": "All configurations.", "anchors": ["src/ramwich/stats.py:StatsDict.update_leakage_energy", "src/ramwich/core.py:Core.get_stats", "src/ramwich/tile.py:Tile.get_stats", "src/ramwich/node.py:Node.get_stats"]}
{"id": "C56", "title": "Reported SRAM unit area is the area of its parts", "statement": "The reported area of the SRAM units is the number of crossbars times (crossbar area + calculators per crossbar * calculator area). (False: the calculator area factor is missing.)", "quantifier": "all configurations", "why_tests_cant": "All configurations.", "anchors": ["src/ramwich/blocks/sram_cim_unit.py:SRAMCIMUnitStats.get_stats"]}
{"id": "C57", "title": "Repeated runs give the same result", "statement": "For a program whose tiles all halt, running, resetting and running again with the same activation gives the same outputs as the first run; a second run with another activation does what a new simulator does with it.", "quantifier": "all programs and activations", "why_tests_cant": "All programs.", "anchors": ["src/ramwich/ramwich.py:RAMwich.reset", "src/ramwich/ramwich.py:RAMwich.run"]}
{"id": "C58", "title": "Copy, multiply and rectify compute a network layer", "statement": "On a core whose matrix unit i was loaded with W, the three instructions copy (cache to the inputs of unit i), mvm (unit i) and relu (outputs of unit i to cache) leave in the destination cells the fixed-point value of max(0, W x) with the weight fraction bits floored and the result clamped, and change no other cache cell.", "quantifier": "all geometries, weight matrices, inputs in range without converter saturation, cache positions and previous histories", "why_tests_cant": "Composition of every history, geometry and matrix.", "anchors": ["src/ramwich/visitor.py:CoreExecutionVisitor", "src/ramwich/mvmu.py:MVMU.execute_mvm", "src/ramwich/core.py:Core.write_to_register"]}
{"id": "C59", "title": "The memory controller settles", "statement": "Without new submissions the memory controller makes at most four steps per outstanding request (plus one that fails), can always make a step while a request is queued or on the bus, and when it cannot, every submitted request has been completed or waits for data that was never written (or was missed by the release loop).", "quantifier": "all waiting lists and validity states", "why_tests_cant": "Termination and absence of internal deadlock concern all interleavings of arbitrarily many requests.", "anchors": ["src/ramwich/blocks/dram_controller.py:DRAMController._update_ready_requests"]}
{"id": "C60", "title": "The network settles", "statement": "Without new calls of the tiles the routers of a node make a bounded number of steps (five per unsent packet and two per tile, polling not counted); when they cannot make another step, every router with unsent packets is blocked by a full buffer of the receiver and every waiting reader by an empty buffer.", "quantifier": "all numbers of tiles, programs and schedules", "why_tests_cant": "Termination and the reasons for blocking concern all interleavings of arbitrarily many packets.", "anchors": ["src/ramwich/blocks/router.py:Router._send_thread", "src/ramwich/blocks/router.py:Router.stop_after_all_packets_sent"]}
{"id": "C61", "title": "Cycle counts are consistent", "statement": "In a first run, the network busy cycles are the samples at which a running router has a packet to send (so they never exceed the cycles sampled), no tile or core reports more active cycles than have elapsed, and no core of a tile that has completed a halting program reports more active cycles than the tile. (False for a tile whose program does not halt: it completes while its cores are still running.)", "quantifier": "all programs, schedules and reachable states", "why_tests_cant": "All interleavings and reachable states.", "anchors": ["src/ramwich/tile.py:Tile.run", "src/ramwich/core.py:Core.run", "src/ramwich/blocks/noc.py:Network._monitor_queues"]}
{"id": "C62", "title": "Register instructions compute what they say", "statement": "On readable operands and a writable destination, set, copy and the vector instructions succeed: the destination registers receive the immediate, what is visible of the source, or the exact clamped result of what is visible of the operands; no other register and no weight changes.", "quantifier": "all core geometries, reachable states, operations, addresses and lengths", "why_tests_cant": "All register contents, addresses and geometries.", "anchors": ["src/ramwich/visitor.py:CoreExecutionVisitor.visit_set", "src/ramwich/visitor.py:CoreExecutionVisitor.visit_copy", "src/ramwich/visitor.py:CoreExecutionVisitor.visit_vfu"]}
{"id": "C63", "title": "The report accounts for all activity", "statement": "The counts, dynamic energies and areas in the report of a simulation are, per component name, the sums over all components of all nodes, and the summary is their total. (False for the memories, memory controllers and cores of the input/output tiles 0 and 1: their activity does not appear.)", "quantifier": "all configurations, programs, reachable or unreachable states and numbers of nodes", "why_tests_cant": "All configurations and states.", "anchors": ["src/ramwich/ramwich.py:RAMwich.get_stats", "src/ramwich/node.py:Node.get_stats", "src/ramwich/tile.py:Tile.get_stats", "src/ramwich/core.py:Core.get_stats", "src/ramwich/mvmu.py:MVMU.get_stats"]}
{"id": "C64", "title": "A report is possible exactly for known sizes", "statement": "For a node with a compute tile, a core and a matrix unit, get_stats succeeds if the memory, crossbar and port sizes (and, with RRAM, converter resolutions) are in the parameter tables, and raises a TypeError otherwise; without tiles it raises a KeyError.", "quantifier": "all sizes, configurations and states", "why_tests_cant": "All integers as sizes.", "anchors": ["src/ramwich/config.py:XBARConfig", "src/ramwich/config.py:NOCConfig", "src/ramwich/config.py:TileConfig", "src/ramwich/config.py:CoreConfig", "src/ramwich/node.py:Node.get_stats"]}
{"id": "C65", "title": "Reports can be repeated", "statement": "Calling get_stats again gives the same contents and does not change the first report. (False for merging dictionaries in general: the result shares its objects with the merged dictionary, which changes with the next merge.)", "quantifier": "all configurations, states and heaps", "why_tests_cant": "Sharing of mutable objects concerns all later operations.", "anchors": ["src/ramwich/stats.py:StatsDict.merge", "src/ramwich/node.py:Node.get_stats"]}
{"id": "C66", "title": "Operations are parsed as they are written", "statement": "A JSON object with the type and fields of an operation (and any other fields) is parsed as exactly that operation; an object whose type is unknown, or that lacks a required field of its type, is rejected; fields with unknown names are ignored. (Objects without a type are accepted: a tile number alone is taken as a halt; a misspelt optional field is dropped silently.)", "quantifier": "all JSON values and all conversions pydantic may make", "why_tests_cant": "All objects and all field orders.", "anchors": ["src/ramwich/ops.py:Operation", "src/ramwich/ramwich.py:RAMwich.load_operations"]}
{"id": "C67", "title": "Weights reach the unit that their key names", "statement": "A key names a matrix unit exactly if it is node<n>_tile<t>_core<c>_mvmu<m> with decimal numbers; loading a weight file changes exactly the named existing units, as if each array for the unit had been loaded into it in file order, and nothing else; of several arrays for a unit the last loadable one counts.", "quantifier": "all keys, files and architectures", "why_tests_cant": "All strings and files.", "anchors": ["src/ramwich/ramwich.py:RAMwich.load_weights", "src/ramwich/core.py:Core.get_mvmu"]}
{"id": "C68", "title": "The loaders prepare what a run needs", "statement": "Construction succeeds exactly if every valid operation names existing units and otherwise ends with an IndexError; afterwards all units exist with exactly their operations and weights and are otherwise fresh, which is what the theorems about runs and repeated runs assume.", "quantifier": "all configurations, operation files and weight files", "why_tests_cant": "All files.", "anchors": ["src/ramwich/ramwich.py:RAMwich.__init__", "src/ramwich/ramwich.py:RAMwich._build_architecture"]}
{"id": "C69", "title": "Which configuration files are accepted and what they mean", "statement": "A configuration document is accepted exactly if it is a mapping whose parts are mappings with well-typed known fields, the formats parse, the cells hold exactly the bits of a weight, activations have at least one bit, the columns per converter divide the crossbar, and the injection rate is not above the largest tabulated one and has a latency; every setting then has the value in the file or its default; other documents give a ValueError, except a missing latency (TypeError) and zero columns or bits (ZeroDivisionError); unknown keys change nothing.", "quantifier": "all documents and all conversions of pydantic", "why_tests_cant": "All documents.", "anchors": ["src/ramwich/config.py:Config.validate_and_calculate", "src/ramwich/config.py:DataConfig", "src/ramwich/config.py:NOCConfig", "src/ramwich/config.py:MVMUConfig"]}
{"id": "C70", "title": "Power, area and latency parameters", "statement": "For a tabulated size every power and area parameter is positive, depends only on the size, and does not decrease with it; for other sizes it is the value in the file or missing; parameters without size are the file's value or a nonnegative constant; the power of a crossbar is the product of two settings; the latency between nodes is the latency in the node plus that of the link.", "quantifier": "all accepted files, all parameters", "why_tests_cant": "All files and pairs of files.", "anchors": ["src/ramwich/config.py:DACConfig", "src/ramwich/config.py:XBARConfig", "src/ramwich/config.py:ADCConfig", "src/ramwich/config.py:NOCConfig", "src/ramwich/config.py:TileConfig", "src/ramwich/config.py:CoreConfig"]}
{"id": "C71", "title": "The architecture can be built", "statement": "Construction of the architecture succeeds exactly if, as far as the units exist, the network has ports and parameters, memory sizes are not negative, and resolutions and columns are not zero or negative; an accepted configuration with tabulated sizes is built and meets the assumptions of the theorems about cores, matrix units, networks and reports.", "quantifier": "all configurations", "why_tests_cant": "All configurations.", "anchors": ["src/ramwich/ramwich.py:RAMwich._build_architecture", "src/ramwich/blocks/noc.py:Network", "src/ramwich/mvmu.py:MVMU.__init__"]}
{"id": "C72", "title": "The default and the shipped configuration", "statement": "The empty file and examples/mlp_l4_mnist/config.yaml are accepted with exactly the documented settings, all parameters present, and are built; the converters of both can saturate.", "quantifier": "all conversions of pydantic; all weights and inputs for the saturation", "why_tests_cant": "The statement holds for every conversion and order of summation.", "anchors": ["examples/mlp_l4_mnist/config.yaml", "src/ramwich/config.py:Config"]}
{"id": "C73", "title": "The nodes of a simulation do not influence each other", "statement": "What a node does in a simulation of several nodes is an execution of that node alone, and every combination of executions without exception happens together; a simulation can complete exactly if every node can; only an exception in one node stops the others; if one complete execution writes every cell once, all latencies and orders give the same result on all nodes.", "quantifier": "all architectures, programs, interleavings and latencies", "why_tests_cant": "All interleavings of the processes of all nodes.", "anchors": ["src/ramwich/ramwich.py:RAMwich.run", "src/ramwich/node.py:Node.run"]}
{"id": "C74", "title": "Reset and repeated runs of a whole simulation", "statement": "Reset resets every node, or fails at the first node with a matrix unit without RRAM crossbars and leaves the nodes after it as they were; after a complete run and a reset the next run, with the same or another activation, does what a new simulator does; so does every run of a series of activations.", "quantifier": "all architectures, halting programs, activations and lengths of the series", "why_tests_cant": "Series of any length.", "anchors": ["src/ramwich/ramwich.py:RAMwich.reset", "src/ramwich/ramwich.py:RAMwich.run", "tests/test_mlp_on_mnist_multi.py"]}
{"id": "C75", "title": "Runs without an activation", "statement": "A run fails to start only without nodes or tiles or for a negative memory size without activation; only the first node gets an activation; without one, every cell of its first tile is zero and valid and no read there ever waits; a program that stores every cell once gives the same result under all timings also without an activation.", "quantifier": "all architectures, programs and activations", "why_tests_cant": "All interleavings.", "anchors": ["src/ramwich/ramwich.py:RAMwich.run", "src/ramwich/ramwich.py:RAMwich.load_activation"]}
{"id": "C76", "title": "Whether a program completes does not depend on timing", "statement": "If one execution of halting programs completes and stores to no cell twice, then with all latencies and orders every execution can be continued to completion, and an execution that can go no further has completed.", "quantifier": "all programs, latencies and interleavings of all processes of a node", "why_tests_cant": "All interleavings and latencies; a test sees one schedule.", "anchors": ["src/ramwich/tile.py:Tile.run", "src/ramwich/blocks/dram_controller.py:DRAMController._update_ready_requests", "src/ramwich/blocks/router.py:Router"]}
{"id": "C77", "title": "The work of a node is bounded", "statement": "The number of steps of all cores, tiles, memory controllers and routers of a node, apart from repeated polls of a halting router, is bounded by a number that can be read off the programs; so every execution comes to a state in which nothing more happens.", "quantifier": "all programs, latencies and interleavings", "why_tests_cant": "All executions of any length.", "anchors": ["src/ramwich/tile.py:Tile.run", "src/ramwich/core.py:Core.run", "src/ramwich/blocks/dram_controller.py:DRAMController.request_handler", "src/ramwich/blocks/router.py:Router"]}
{"id": "C78", "title": "Latency and rate of the network", "statement": "No packet reaches a receive buffer earlier than noc_intra_lat after the tile submitted it, the call that submits it returns no earlier than dataMem_lat, a router delivers at most one packet per noc_intra_lat however many are queued, and a tile submits at most one per dataMem_lat. If events are processed as soon as they are due, the journey and the call take exactly these times.", "quantifier": "all configurations, programs of the tiles, interleavings and times", "why_tests_cant": "All executions of any length and every window of time.", "anchors": ["src/ramwich/blocks/router.py:Router.add_send_packet", "src/ramwich/blocks/router.py:Router.send", "src/ramwich/blocks/router.py:Router.receive_packet"]}
{"id": "C79", "title": "What noise in the crossbars can do to a result", "statement": "With has_noise the integer a converter reads for a row of a crossbar differs from the exact row sum by at most the noise of the row's cells, each weighed with the input code of its column and measured in conductance steps, plus the rounding of the two planes; an output differs by at most the weighted sum of these. If every row gets less than 511/1024 of a step per plane the multiply gives exactly the state the noiseless one gives, for which a bound on the single cell is given. Noise below half a step in every cell does not suffice.", "quantifier": "all accepted configurations in the ideal analog case, weights, inputs, histories of the unit, orders of summation, and all drawn values that are finite and at most the maximum conductance", "why_tests_cant": "The draws are continuous and random; every value of every cell in every slice is covered, float64 rounding included.", "anchors": ["src/ramwich/blocks/rram_xbar.py:RRAMXbarArray.execute_mvm", "src/ramwich/blocks/adc.py:ADCArray.convert", "src/ramwich/mvmu.py:MVMU.execute_mvm"]}
{"id": "C80", "title": "Noise leaves weights, inputs and activity alone", "statement": "Whatever is drawn, a multiply with noise leaves the stored weights as they are, consumes the input registers and counts activity exactly as without noise; only the output values and the number of clamped conversions can differ, and the latter grows by between 0 and slices * rows * RRAM crossbars.", "quantifier": "all accepted configurations, histories of the unit and drawn values, including infinities and NaN", "why_tests_cant": "All draws in all reachable states, including values no generator is likely to draw.", "anchors": ["src/ramwich/blocks/rram_xbar.py:RRAMXbarArray.execute_mvm", "src/ramwich/mvmu.py:MVMU.execute_mvm"]}
{"id": "C81", "title": "The example mlp_l4_mnist computes the network it describes", "statement": "All 758 instructions of examples/mlp_l4_mnist/ops.json are valid and the simulator is made from them. With weight files that hold an array for each of its 98 matrix units, and an activation of 784 numbers, no execution raises an exception, and every execution that completes leaves in the first ten cells of tile 1 the outputs of a network with 784 inputs, hidden layers of 1024, 512 and 200 rectified neurons and 10 outputs, with the weights of the file. Some execution completes.", "quantifier": "all weights, activations, latencies and interleavings, and all configurations with the numbers of parts of the example", "why_tests_cant": "All weights and inputs, and all interleavings of 40 cores and 5 tiles; the example ships without weights.", "anchors": ["examples/mlp_l4_mnist/ops.json", "examples/mlp_l4_mnist/config.yaml", "src/ramwich/ramwich.py:RAMwich.run", "src/ramwich/tile.py:Tile.run", "src/ramwich/core.py:Core.run"]}
{"id": "C82", "title": "Whether the example mlp_l4_mnist completes does not depend on timing", "statement": "Every execution of the example can be continued until it completes.", "quantifier": "all weights, activations, latencies and interleavings", "why_tests_cant": "A test sees the one schedule of its latencies.", "anchors": ["examples/mlp_l4_mnist/ops.json", "src/ramwich/blocks/dram_controller.py:DRAMController._update_ready_requests"]}
{"id": "C83", "title": "The example mlp_l4_mnist is exact up to rounding if nothing is too large", "statement": "If inputs and weights fit their formats, no converter clips, and products and partial sums stay in range, then the outputs of the example are those of the network in plain integer arithmetic, where the sum of products of each array is divided by 2^frac, rounding down; this costs each sum of m arrays less than m units.", "quantifier": "all weights and activations within these bounds, and all configurations with input slices of one bit", "why_tests_cant": "All weights and inputs.", "anchors": ["examples/mlp_l4_mnist/ops.json", "src/ramwich/mvmu.py:MVMU.execute_mvm", "src/ramwich/blocks/vfu.py:VFU"]}
{"id": "C84", "title": "A matrix unit accepts exactly the square arrays of finite, representable weights", "statement": "Loading weights succeeds exactly if the array has as many rows and columns as the crossbar, all weights are finite, and their fixed-point magnitudes fit into 63 bits; a refused array leaves the unit as it was.", "quantifier": "all accepted configurations, states of the unit and arrays", "why_tests_cant": "All arrays of floats, including infinities and NaN.", "anchors": ["src/ramwich/mvmu.py:MVMU.load_weights"]}
{"id": "C85", "title": "The simulation run by simpy is one of the executions of the node", "statement": "In every state that the event queue of simpy leads to, memory cells, validity flags, waiting reads, statistics of the memory controllers, contents of the cores, packets to be sent and network busy cycles are those of some execution of the node in the model that leaves the order of simultaneous steps and the timing of the cores open (unless some such execution raises an exception); and time never goes back.", "quantifier": "all configurations, programs, start times and numbers of events", "why_tests_cant": "Any number of events of any programs; it carries what is proved for all interleavings over to the one that simpy chooses.", "anchors": ["src/ramwich/node.py:Node.run", "src/ramwich/tile.py:Tile.run", "src/ramwich/core.py:Core.run", "src/ramwich/pipeline.py:Pipeline.run", "src/ramwich/blocks/dram_controller.py:DRAMController.run", "src/ramwich/blocks/router.py:Router.run"]}
{"id": "C86", "title": "A simulation that returns has completed all programs", "statement": "When the simulation of a node returns, there is an execution of the node that has completed all tile programs without an exception, with the same memories, cores and statistics of controllers and routers, the same received packets that were not read, and the same cycle counts of tiles and completed cores (unless some execution raises an exception).", "quantifier": "all configurations, programs and start times", "why_tests_cant": "All programs and configurations.", "anchors": ["src/ramwich/ramwich.py:RAMwich.run", "src/ramwich/node.py:Node.run", "src/ramwich/tile.py:Tile.run"]}
{"id": "C87", "title": "The simulation raises an exception only if some execution of the node does", "statement": "If no delay is negative and no execution of the node raises an exception, then neither does the simulation with the event queue of simpy.", "quantifier": "all configurations and programs without negative delays, all start times", "why_tests_cant": "All programs and configurations, any number of events.", "anchors": ["src/ramwich/ramwich.py:RAMwich.run", "src/ramwich/visitor.py:CoreExecutionVisitor", "src/ramwich/visitor.py:TileExecutionVisitor"]}
{"id": "C88", "title": "The example mlp_l4_mnist in the simulation run by simpy", "statement": "With the configuration of the example or any other with its numbers of parts, no event of the simulation raises an exception, and when the simulation returns, the first ten cells of tile 1 hold the outputs of the network.", "quantifier": "all weights, activations and latencies", "why_tests_cant": "All weights and inputs.", "anchors": ["examples/mlp_l4_mnist/ops.json", "src/ramwich/ramwich.py:RAMwich.run"]}
{"id": "C89", "title": "The example mlp_l4_mnist completes when it is simulated with the shipped configuration", "statement": "With the latencies of the shipped configuration, the simulation of the example returns from every state it reaches, the first ten cells of tile 1 hold the outputs of the network, and the time (86797 cycles), the cycle counts of tiles and cores and the statistics of memory controllers and routers are the same for all weights and activations.", "quantifier": "all weights and activations, all states of the run", "why_tests_cant": "All weights and inputs: a run shows the timing for one image only.", "anchors": ["examples/mlp_l4_mnist/ops.json", "src/ramwich/ramwich.py:RAMwich.run", "src/ramwich/node.py:Node.run", "src/ramwich/tile.py:Tile.run", "src/ramwich/core.py:Core.run", "src/ramwich/blocks/dram_controller.py:DRAMController.run", "src/ramwich/blocks/router.py:Router.run"]}
{"id": "C90", "title": "The event queue never runs empty and every event is one its process waits for", "statement": "In every state the simulation reaches, the next event is processed, an exception is raised or the run has returned; in particular simpy never stops with \"No scheduled events left but 'until' event was not triggered\", and no process is resumed by an event it does not wait for.", "quantifier": "all configurations, programs and start times, all states of the run", "why_tests_cant": "All programs and configurations, any number of events.", "anchors": ["src/ramwich/ramwich.py:RAMwich.run", "src/ramwich/node.py:Node.run", "src/ramwich/tile.py:Tile.run", "src/ramwich/core.py:Core.run", "src/ramwich/blocks/dram_controller.py:DRAMController.run", "src/ramwich/blocks/router.py:Router.stop_after_all_packets_sent"]}
{"id": "C91", "title": "Events are processed in the order of simpy's heap", "statement": "The simulation reaches the same states (time, node, queued events) as one whose events are items (time, priority, serial number) of a heap in any arrangement from which the least is popped, and conversely.", "quantifier": "all configurations, programs and start times, all arrangements of the heap, any first serial number", "why_tests_cant": "All programs; ties between simultaneous events are decided by the order of scheduling.", "anchors": ["src/ramwich/ramwich.py:RAMwich.run", "src/ramwich/node.py:Node.run"]}
{"id": "C92", "title": "Every simulation ends", "statement": "The simulation of every job returns or raises an exception. (False: a three-tile program that deadlocks is simulated for ever, because the monitor of the node and the polling of the send queues keep the event queue filled; in general a simulation with only these events left never ends, and its memories, routers and cores no longer change.)", "quantifier": "all jobs; all states with only the monitor and polling left", "why_tests_cant": "A run that does not end cannot be observed.", "anchors": ["src/ramwich/node.py:Node.run", "src/ramwich/blocks/router.py:Router.stop_after_all_packets_sent"]}
{"id": "C93", "title": "A simulation ends or comes to a standstill", "statement": "Every simulation returns, raises an exception, or comes after finitely many events to a state in which only the monitor of the node and the polling of non-empty send queues are left; the simulations that never end are exactly the last ones. The number of events other than those of the monitor and of polling never exceeds a bound that can be read off the programs: 4, 5 for each tile, 7 for each core, 23 for each instruction of a core, 8 for each halt of a tile, 11 for each send or receive of a tile, and 10 and 3 for each packet of these.", "quantifier": "all configurations (also with negative sizes and latencies), programs and start times, any number of events", "why_tests_cant": "All programs; that a run never ends cannot be observed.", "anchors": ["src/ramwich/ramwich.py:RAMwich.run", "src/ramwich/node.py:Node.run", "src/ramwich/tile.py:Tile.run", "src/ramwich/core.py:Core.run", "src/ramwich/pipeline.py", "src/ramwich/blocks/dram_controller.py:DRAMController.run", "src/ramwich/blocks/router.py:Router.run"]}
{"id": "C94", "title": "The simulation of a job that can complete returns, unless a read is left waiting", "statement": "If some execution of the node, under whatever schedule and latencies, completes a halting job and stores to no cell twice, then the simulation of the job, with any latencies, returns with the memories and registers of that execution, or comes to a standstill in which a read waits although all its data is valid. The latter does happen (the latency of the memory decides), but not if each tile has at most one process that reads its memory. At every standstill of a simulation the node, in the state that the simulation shows, can do nothing at any time and has not completed its programs: the event queue lacks no event that a process waits for.", "quantifier": "all configurations of the same shape, jobs, executions and start times", "why_tests_cant": "All programs, latencies and interleavings; a standstill is a run that never ends.", "anchors": ["src/ramwich/ramwich.py:RAMwich.run", "src/ramwich/node.py:Node.run", "src/ramwich/tile.py:Tile.run", "src/ramwich/core.py:Core.run", "src/ramwich/pipeline.py", "src/ramwich/blocks/dram_controller.py:DRAMController.update_ready_requests", "src/ramwich/blocks/router.py:Router.run"]}
{"id": "C95", "title": "In the event simulation of all nodes each node does what it does alone", "statement": "RAMwich.run puts the processes of all nodes into one event queue. Until the end of Node.run each node is in a state of the simulation of that node alone, with the same events to come in the same order. At all times the state of a node is one of an execution of the node, up to the busy count of the monitor, unless an execution raises an exception. The simulation never gets stuck before it returns or raises, time does not run backwards, and it raises an exception only if an execution of one of the nodes does. It returns only if each node returns alone, and then all programs of all nodes are completed. Refuted: the result of a node does not depend on the other nodes (cores of a tile without halt instruction run on until the last node is finished).", "quantifier": "all configurations, numbers of nodes, jobs, start times and states of the simulation", "why_tests_cant": "All programs of any number of nodes; the events of the nodes interleave in one queue.", "anchors": ["src/ramwich/ramwich.py:RAMwich.run", "src/ramwich/node.py:Node.run", "src/ramwich/tile.py:Tile.run"]}
{"id": "C96", "title": "The event simulation of all nodes ends if and only if each node does", "statement": "If the simulation of each node alone returns, the simulation of all nodes in one event queue ends, by a return or an exception. If no execution of a node raises an exception, it returns exactly if each node returns alone. A node that comes to a standstill alone keeps the simulation of all nodes from returning, which then, without exceptions, goes on forever. If each job is completed by some execution of its node, with any latencies and no address written twice, the simulation can return only with the memories and cores of those executions, and with at most one reader on each tile it does return.", "quantifier": "all configurations, numbers of nodes, jobs, start times and latencies", "why_tests_cant": "That a simulation ends, or never ends, concerns all its states; it is claimed for all programs of any number of nodes.", "anchors": ["src/ramwich/ramwich.py:RAMwich.run", "src/ramwich/node.py:Node.run", "src/ramwich/tile.py:Tile.run"]}
{"id": "C97", "title": "A node whose tiles halt has the results it has alone, and all nodes take as long as the slowest", "statement": "In the event simulation of all nodes, a node whose tile programs all contain a halt instruction and that raises no exception has, from the end of Node.run on, exactly the results with which the simulation of the node alone ends: memories with access counts, valid flags, statistics of memory controllers and routers, registers and units of the cores, packets left over, cycle counts of tiles and cores, and the busy count of the monitor. So two simulations with the same job for a node give it the same results whatever the other nodes do. For all jobs, the simulation of all nodes ends exactly at the latest of the times at which the nodes end alone.", "quantifier": "all configurations, numbers of nodes, jobs, start times and states of the simulation", "why_tests_cant": "Any number of nodes with any programs share one queue; the events of one node are processed after the end of another.", "anchors": ["src/ramwich/ramwich.py:RAMwich.run", "src/ramwich/node.py:Node.run", "src/ramwich/tile.py:Tile.run", "src/ramwich/blocks/noc.py:Network._monitor_queues"]}
{"id": "C98", "title": "The timing and the activity of a simulation do not depend on weights and activations", "statement": "Take two jobs with the same programs, whatever weights, registers and activations of equal length they have, in which every load and store takes its address from a cache register last written by a set instruction. To every state of the event simulation of one there is a state of that of the other at the same time with the same events to come, the same reported statistics, the same cells written, and the same counters in memories, register files, vector units and matrix units (except how often an ADC clamped); the one has returned if and only if the other has, and only the monitor and polling conditions are left in the one if and only if that is so in the other. The only exception is a division by zero in the other job. Without division instructions the two also raise exceptions at the same event or not at all. The same holds for the simulation of all nodes with one event queue, for simulators built from the same operations with different weight files, and for the example mlp_l4_mnist with all latencies. Without fixed addresses it fails: a load through a pointer in the activation changes the time at which the run ends.", "quantifier": "all configurations, programs with fixed addresses, weights, activations, start times and states of the simulation", "why_tests_cant": "A test compares finitely many weights and activations; the claim is for all pairs of them and all programs.", "anchors": ["src/ramwich/core.py:Core.run", "src/ramwich/blocks/dram_controller.py:DRAMController", "src/ramwich/tile.py:Tile.run", "src/ramwich/visitor.py:CoreExecutionVisitor", "src/ramwich/ramwich.py:RAMwich.run"]}
{"id": "C99", "title": "The reported conversion errors are the distance between currents and converted values", "statement": "After any sequence of conversions, whatever other activity lies between them, conversion_errors is finite, never falls, and is at most about one step (1 + 1/64) for each conversion. If no conversion was clamped it equals the sum of the distances, in current steps, between the difference of the two currents and the integer returned, up to 1/128 of a step for each conversion, in whatever order numpy adds. Every such integer is within 1 + 1/512 steps of the difference. The bound is one step and not half of one: with 0.5 and 1.5 steps the integer is -2 although the difference is exactly -1, since both currents are rounded separately. When a conversion is clamped its loss is not counted: the reported error can be 0 although the value returned is 13 steps away.", "quantifier": "all configurations, current steps, currents of at most 2^40 steps, sequences of at most 2^30 conversions, orders of summation", "why_tests_cant": "Floating-point rounding of divisions, differences and sums depends on the currents; a test sees single values and the order of summation of one build of numpy.", "anchors": ["src/ramwich/blocks/adc.py:ADCArray.convert", "src/ramwich/blocks/adc.py:ADCStats"]}
{"id": "C100", "title": "The summary of results lists every component once and draws the busiest, but shows nothing of a real report", "statement": "Given statistics of the form summarize_results expects, it prints every component exactly once, indented below the one it belongs to and before its own parts, with its own number of operations and execution time; it draws the nodes, tiles and cores, or ten of them such that none left out has more operations than one drawn, the operations by type, and the completion times. Without overall statistics or components it prints the totals and draws nothing. It raises ValueError unless there are exactly one or four types of operations. The average times of load, set, alu and mvm are drawn in this order under the names of the types, so an average may be drawn under the name of another type. If the entry stats is an object and no dictionary it raises AttributeError. Given the dictionary that RAMwich.get_stats returns, whatever was simulated, it prints zero operations and zero time and draws nothing.", "quantifier": "all trees of components, statistics, sorting orders of equal counts, and reports of simulations", "why_tests_cant": "Trees of components have any width and depth; a test shows the summary of finitely many.", "anchors": ["src/ramwich/utils/visualize.py:summarize_results", "src/ramwich/utils/visualize.py:visualize_results", "src/ramwich/utils/visualize.py:_print_hierarchical_stats", "src/ramwich/ramwich.py:RAMwich.get_stats"]}
{"id": "C101", "title": "In float64 the report has the energies and areas of the exact report, up to a few roundings", "statement": "Each number of the report is the value of a formula over the parameters of the configuration, and neither the formulas, the names, their order, the counts nor the exceptions depend on the values of the parameters. So with float64 numbers the report has the same names, order, counts and exceptions as with exact numbers. Each energy and area is the exact one up to a relative error of 2^-52 for each of n roundings, where n is 20 plus the largest number of matrix units of a core, cores of a tile, tiles of a node, and nodes, provided that no number in its formula is negative, below 2^-800 (unless zero) or above 2^800, and no count is above 2^53; it suffices for the first that the parameters are zero or between 2^-100 and 2^100 and n is at most 490. Every configuration with finite parameters has an exact counterpart. The totals printed by StatsDict.print are, with exact numbers, the sums over the entries in J and mm^2; with float64 numbers they are those up to two further roundings and one for each entry.", "quantifier": "all configurations, parameters, nodes, jobs and states", "why_tests_cant": "The error bound concerns all values of the parameters and all numbers of components; tests compare a few reports, with the rounding errors in them.", "anchors": ["src/ramwich/ramwich.py:RAMwich.get_stats", "src/ramwich/node.py:Node.get_stats", "src/ramwich/tile.py:Tile.get_stats", "src/ramwich/core.py:Core.get_stats", "src/ramwich/mvmu.py:MVMU.get_stats", "src/ramwich/stats.py:StatsDict.print"]}
