{"id": "C01", "title": "Non-volatile blocks never overlap", "statement": "Every block handed out by the non-volatile memory manager lies inside the part of the backing file that belongs to its storage (offsets 0-30, respectively 64-32798, i.e. up to 31 bytes beyond the nominal 32768-byte size because the reserved 32 bytes are skipped twice) and shares no byte of the backing file with any other block handed out before or after it; a request that does not fit is refused and changes nothing. This needs each requested size to stay below 2^32 minus the storage size: above that the size check wraps and overlapping blocks are handed out.", "quantifier": "for every sequence of block requests (any storage, any size)", "why_tests_cant": "The number and size of requests is unbounded and the failure needs a 32-bit wrap; tests only try a handful of sizes.", "anchors": ["PAC/common/sys/base_mem.cpp: NV_memory_manager::NV_memory_manager, NV_memory_manager::get_memory_block", "PAC/linux/l_mem.cpp: SRAM::read, SRAM::write"]}
{"id": "C02", "title": "Blocks behave as independent byte arrays", "statement": "Reads and writes through blocks behave as if every block were its own private byte array: a read returns the last bytes written through the same block at those offsets, a write through one block is never visible through another, and a request that runs past the end of a block reads/writes nothing and reports 0. This holds for requests whose offset plus length does not exceed 2^32-1; above that the bounds check wraps and a request outside the block is executed.", "quantifier": "for every sequence of block reads and writes over every allocation history", "why_tests_cant": "Needs every interleaving of accesses to every pair of blocks, and 32-bit wrap in the bound check.", "anchors": ["PAC/common/sys/base_mem.cpp: memory_range::read, memory_range::write, memory_range::check_params", "PAC/linux/l_mem.cpp: SRAM::read, SRAM::write"]}
{"id": "C03", "title": "A saved parameter survives every reboot", "statement": "After any history of in-memory parameter writes, saves of single parameters, saves of whole arrays, resets to zero and reboots with the same project layout, each parameter reads as the last value assigned since the last reboot, or else the last value that was saved before that reboot; assigning without saving is lost at reboot, and no operation on one array changes a parameter of another array in memory or in storage.", "quantifier": "for every parameter layout that fits and every history of operations and reboots", "why_tests_cant": "Histories and layouts are unbounded; tests check a couple of parameters once.", "anchors": ["PAC/common/param_ex.h: parameters::operator[], saved_params::save, saved_params::save_all, saved_params::reset_to_0", "PAC/common/param_ex.cpp: params_manager::init, params_manager::save, params_manager::get_params_data"]}
{"id": "C04", "title": "Parameters are reinitialised when the layout changes, unless power fails at the wrong moment", "statement": "At start-up, if the recorded total parameter size equals the current one no stored parameter changes; if it differs then, provided initialisation runs to its end, every parameter and its stored copy equal the defaults and later boots keep them. If power fails between recording the new size and writing the defaults, the next boot accepts the stale storage as valid without reinitialising.", "quantifier": "for every stored content, every layout, every set of defaults and every crash point of start-up", "why_tests_cant": "Crash points inside start-up cannot be reached by unit tests.", "anchors": ["PAC/common/param_ex.cpp: params_manager::final_init, params_manager::reset_to_default, params_manager::save, params_manager::init"]}
{"id": "C05", "title": "Out-of-range parameter indices never damage parameters", "statement": "Indexed access to a parameter array with index 0 or above the array size never changes any stored or in-memory parameter of any array; a saved write with such an index writes nothing; a read with such an index yields the last value that was assigned through any out-of-range index of the same array (0 if there was none).", "quantifier": "for every array, every index and every sequence of accesses", "why_tests_cant": "All indices and histories; the retained stub value only shows after a particular history.", "anchors": ["PAC/common/param_ex.h: parameters::operator[], saved_params::save"]}
{"id": "C06", "title": "Memory-exhausted layouts: which parameter arrays get storage", "statement": "Parameter arrays are granted consecutive, pairwise disjoint, in-bounds storage in creation order as long as they fit into 30720 bytes; an array that does not fit is refused and leaves the storage available for a later smaller array.", "quantifier": "for every sequence of array sizes", "why_tests_cant": "A test fixes one list of array sizes; which arrays are refused depends on the whole sequence, and sequences of allocations are unbounded.", "anchors": ["PAC/common/param_ex.cpp: params_manager::get_params_data"]}
{"id": "C07", "title": "The critical-error list is exactly the set of raised and not yet cleared errors", "statement": "After any sequence of raising and clearing critical errors, an error (class, subclass, parameter) is listed exactly when the last operation on it was a raise; it is listed once, in order of raising; and the change counter the server polls advances (modulo 65536) by exactly one on every operation that changes the list and on no other.", "quantifier": "for every sequence of raise/clear operations", "why_tests_cant": "Unbounded histories, duplicates and interleavings of errors.", "anchors": ["PAC/common/PAC_err.cpp: PAC_critical_errors_manager::set_global_error, reset_global_error, is_any_error"]}
{"id": "C08", "title": "Device alarm life cycle", "statement": "For every history of device samples (faulty / healthy) and operator acknowledgements, an alarm is shown as unacknowledged exactly when the device became faulty and nobody acknowledged since; as acknowledged exactly while the device stays faulty after an acknowledgement; as returned exactly when the device recovered unacknowledged; and acknowledging never hides an alarm of a device which is still faulty.", "quantifier": "for every history of samples and acknowledgements", "why_tests_cant": "Every interleaving of faults, recoveries and acknowledgements has to be right, including several acknowledgements or faults in a row; tests replay a few scripts.", "anchors": ["common/PAC-driver/g_errors.cpp: tech_dev_error::evaluate, tech_dev_error::set_cmd"]}
{"id": "C09", "title": "The new-alarm and unacknowledged-alarm indication covers every device that is not suppressed", "statement": "After one evaluation pass, the siren/lamp inputs (any error, unacknowledged error, new error) are set whenever some non-suppressed device is in the corresponding condition, provided no suppressed faulty device is evaluated after it; a suppressed faulty device evaluated later erases the indication of the devices before it.", "quantifier": "for every list of devices, states and suppression settings", "why_tests_cant": "The outcome depends on the order and combination of all devices; a test with one or two devices does not show that a later device erases the indication.", "anchors": ["common/PAC-driver/g_errors.cpp: tech_dev_error::evaluate, errors_manager::evaluate"]}
{"id": "C10", "title": "Siren and lamps follow the alarms", "statement": "Once the start-up delay has passed and manual mode is off, after every evaluation the siren is silent if there is neither a critical error nor an unacknowledged device alarm, and it sounds if a new device alarm or a change of the critical-error list was seen since the previous evaluation while such an alarm exists; it then stays on until both kinds are gone. The green lamp is on exactly when some important operation is active; the red and yellow lamps are off whenever there is no error / no message.", "quantifier": "for every sequence of evaluations, clock readings and alarm conditions", "why_tests_cant": "Timings, alarm combinations and operator commands interleave without bound, and the start-up delay makes most of them unreachable in a short test.", "anchors": ["common/PAC-driver/g_errors.cpp: siren_lights_manager::eval, siren_lights_manager::set_cmd"]}
{"id": "C11", "title": "An operation is always in exactly one known state and transitions follow the diagram", "statement": "After any sequence of start, pause, stop, switch-off, step and evaluate calls an operation is in one of the eight states idle, run, pause, stop, starting, pausing, unpausing, stopping; every change of state is an edge of the diagram (start leads from idle, starting, pause and unpausing, pause from run and pausing, stop from all but idle and stop); idle is left only by a start and entered only by switching off; a stopped operation can only be switched off; a refused command changes nothing, neither times nor devices.", "quantifier": "for every configuration of states and steps, every history of calls and all signals and times", "why_tests_cant": "Commands and completion checks can arrive in any order for any length of time; tests follow single paths through the diagram.", "anchors": ["PAC/common/operation_mngr.cpp: operation::start, pause, stop, switch_off, evaluate, process_auto_switch_on, process_new_state_from_run"]}
{"id": "C12", "title": "Everything initialised by an operation state is finalised", "statement": "For every history of calls, whenever a step of a state is switched on or executed no step of another state is still on, and when the operation is off only idle actions are on - provided the operation has no unpausing actions; with unpausing actions these are the only exception: leaving the unpausing state for run leaves them on, even after the operation is switched off.", "quantifier": "for every configuration, every history of calls and all signals and times", "why_tests_cant": "What was started and not stopped shows only after a particular path through the states; all paths of all lengths must be covered.", "anchors": ["PAC/common/operation_mngr.cpp: operation::start, pause, stop, switch_off, to_run_state, finalize"]}
{"id": "C13", "title": "Main steps: at most one active step, and it is a configured one", "statement": "After any sequence of calls the main step is none or one of the configured steps, every step of the current state that is on is shown as active, and no access leaves the list of steps; a request for a step makes it the main step and switches the previous one off, a request out of range changes nothing. A step whose time parameter is zero becomes the main step without being switched on.", "quantifier": "for every number of steps and every history of calls (extra step number 0 excepted, see C14)", "why_tests_cant": "The number of steps and the length of the command history are unbounded.", "anchors": ["PAC/common/operation_mngr.cpp: operation_state::init, to_step, to_next_step, finalize, turn_off_active_step"]}
{"id": "C14", "title": "Extra steps are never listed twice", "statement": "After any sequence of calls the list of active extra steps holds configured steps only and none twice, unless a step is exchanged for one that is already an active extra step; switching an extra step off removes it, switches it off and touches no other step. Not guaranteed (each with a reachable counterexample): a step exchanged onto an active one is listed twice; the main step may advance onto an extra step and switch it off when leaving; a step refused by its check is listed and executed without having been switched on; step number 0 leads outside the list of steps; of two extra steps that lose their signals in one cycle the second stays on.", "quantifier": "for every configuration and every history of calls", "why_tests_cant": "The duplicate arises only in particular orders of on, off and exchange commands; tests try each command in isolation.", "anchors": ["PAC/common/operation_mngr.cpp: operation_state::on_extra_step, off_extra_step, switch_active_extra_step"]}
{"id": "C15", "title": "Object command decoding is unambiguous", "statement": "Every command number denotes at most one action; the numbers for switching operation n on or off, bringing it to state s, switching its extra step on or off, and clearing the answer do exactly that with the numbers encoded, and every other number is rejected and changes nothing. Numbers beyond the last operation but one are commands of the object's script, where on and off mean the same. The answer shown cannot tell acceptance from refusal when a device of the operation is faulty: both are the number of the command.", "quantifier": "for every operation number, step number, state number, every 32-bit command, every object and all results of checks", "why_tests_cant": "The number space is too large to enumerate by hand-written tests.", "anchors": ["PAC/common/tech_def.cpp: tech_object::set_cmd"]}
{"id": "C16", "title": "Reported active operations agree with actual operation states", "statement": "For every history of commands, script calls and evaluations an operation that is not idle is reported as on, and if pause and stop are only requested for operations that are on, it is reported as on exactly when it is not idle; a pause or stop request for an idle operation makes it be reported as on although nothing runs. Switching on an operation that is stopped, pausing or stopping is answered with success but has no effect.", "quantifier": "for every number of objects and operations, every configuration and every history of commands, evaluations and results of checks", "why_tests_cant": "Agreement must hold after every command history, including commands that make no sense for the current state.", "anchors": ["PAC/common/tech_def.cpp: tech_object::set_mode, tech_object::get_mode"]}
{"id": "C17", "title": "Mutually exclusive operations never run together", "statement": "While restrictions are in force an operation is not switched on if an operation that blocks it is on, so operations that block each other are never both active, provided pause and stop are only requested for operations that are on. A pause request for an idle operation lets it be started past the restrictions, and a restriction written for only one of two operations does not keep them apart.", "quantifier": "for every table of restrictions, any number of objects and operations and every history of commands, evaluations and results of checks", "why_tests_cant": "Every set of restrictions and every interleaving of operations of several objects has to be considered.", "anchors": ["PAC/common/tech_def.cpp: tech_object::lua_check_on_mode, tech_object::set_mode"]}
{"id": "C18", "title": "Regulator output always stays inside its configured limits", "statement": "As long as nobody uses manual mode or changes the limits, every value the regulator sends to its actuator lies between its output limits (the lower not above the upper) or is not a number; with settings and measurements of moderate size no value is ever other than a number and nothing undefined happens. Limits written by commands of the old kind stay between 0 and 100. Not so with commands of the new kind (a limit of 150 sends 150), and one measurement that is not a number at a recalculation makes every later value not a number until the regulator is switched or put in manual mode.", "quantifier": "for every float input, including infinities and NaN, all parameters and every history of calls and commands; 'moderate size': settings in stated ranges and values up to 2^30", "why_tests_cant": "All float inputs, parameters and unbounded histories, with rounding in every operation.", "anchors": ["PAC/common/PID.cpp: PID::eval, PID::evaluate"]}
{"id": "C19", "title": "Modbus scalar encoding round-trips", "statement": "Packing a 16-bit word, a signed 16-bit number, a 32-bit number or a float into Modbus registers and unpacking it gives back the same value, uses exactly 2 (respectively 4) bytes, each register big-endian and the low register of a 32-bit value first, and touches no other byte.", "quantifier": "for every value and buffer", "why_tests_cant": "2^32 values times all buffer contents; a sample cannot show that no other byte is touched.", "anchors": ["PAC/common/modbus_serv.cpp: ModbusServ::PackWord, UnpackWord, PackInt16, UnpackInt16, PackLong, UnpackLong, PackFloat, UnpackFloat"]}
{"id": "C20", "title": "Modbus time strings show the right time", "statement": "A duration packed for a Modbus panel reads, after the panel swaps the bytes of each register, as HH:MM:SS of that duration for every duration below 100 hours; packing writes one byte beyond the eight of the text.", "quantifier": "for every duration in ms or s", "why_tests_cant": "All durations including those at and beyond 100 hours; tests use a few round values.", "anchors": ["PAC/common/modbus_serv.cpp: ModbusServ::PackTime"]}
{"id": "C21", "title": "Modbus strings round-trip", "statement": "A string packed into registers and read back by a panel that swaps the bytes of each register is the same string, padded with a blank to even length.", "quantifier": "for every byte string without NUL", "why_tests_cant": "Strings of every length and content, with odd and even lengths behaving differently.", "anchors": ["PAC/common/modbus_serv.cpp: ModbusServ::PackString"]}
{"id": "C22", "title": "Windows-1251 text survives the conversion to Unicode registers and back", "statement": "Converting a Windows-1251 string to Unicode registers and back returns the same string, cut to the register count minus one, for every string without the undefined code 0x98; a string containing 0x98 is cut there.", "quantifier": "for every string and register count", "why_tests_cant": "Strings over a 256-letter alphabet of every length and every register count; the cut occurs only for one code and at the end of the area.", "anchors": ["PAC/common/modbus_serv.cpp: ModbusServ::CP1251toUnicode, UnicodetoCP1251, UTable"]}
{"id": "C23", "title": "Single-coil writes change one bit only", "statement": "Setting or clearing coil n in a packed bit buffer changes exactly bit n and no other bit of the buffer.", "quantifier": "for every coil number and buffer", "why_tests_cant": "All coil numbers combined with all buffer contents; a sample cannot show that every other bit is kept.", "anchors": ["PAC/common/modbus_serv.cpp: ModbusServ::ForceBit"]}
{"id": "C24", "title": "A panel's recipe-list update request is confirmed only after ten acknowledgements in a row", "statement": "The flag telling a panel to refresh its recipe list is cleared only when that panel has acknowledged ten times since the flag was last set, and every update request sets it again.", "quantifier": "for every interleaving of update requests and acknowledgements", "why_tests_cant": "Requests and acknowledgements interleave without bound; the count must restart at the right moments.", "anchors": ["PAC/common/modbus_serv.cpp: ModbusServ::ModbusService (RC_LIST_UPDATE), UpdateRecipes, UpdateLineRecipes"]}
{"id": "C25", "title": "Modbus client register access is in bounds and non-interfering", "statement": "For every register address, storing a 16-bit, 32-bit or float value in the request area either stores exactly that value's bytes inside the buffer or changes nothing, provided twice the address does not exceed 2^32-1; larger addresses alias small ones.", "quantifier": "for every address and value", "why_tests_cant": "All 32-bit addresses; the aliasing needs addresses no test uses.", "anchors": ["PAC/common/modbus_client.cpp: modbus_client::set_int2, get_int2, set_int4, get_int4, set_float, get_float"]}
{"id": "C26", "title": "Bit reversal and masks", "statement": "Reversing a byte moves bit i to bit 7-i, so reversing twice gives the byte back; exchanging two disjoint groups of bits exchanges exactly these groups and is its own inverse; the bit-mask request built from any sequence of bit assignments changes exactly the assigned bits of the target register to the last assigned values and keeps all others.", "quantifier": "for every byte, register value and sequence of bit assignments", "why_tests_cant": "All register values combined with unbounded sequences of bit assignments.", "anchors": ["PAC/common/modbus_client.cpp: modbus_client::reverse, mask_reset, mask_set_bit"]}
{"id": "C27", "title": "Discrete outputs reach the coupler bit for bit", "statement": "The request sent to a WAGO coupler for its discrete outputs is the Modbus write-coils frame with output i in bit i mod 8 of data byte i div 8 and zero padding, and outputs wired back to inputs read back as commanded, for fewer than 256 outputs. The count announced is the true one modulo 256, so from 256 outputs on the frame is wrong and from 256 inputs on the inputs are never updated whatever data the coupler answers.", "quantifier": "for every number of outputs and every vector", "why_tests_cant": "All vectors of all lengths; existing tests use nodes with a few channels, the defect needs 256.", "anchors": ["PAC/common/uni_bus_coupler_io.cpp: uni_io_manager::write_outputs, read_inputs"]}
{"id": "C28", "title": "Large register blocks are transferred completely", "statement": "The registers of a Phoenix coupler are transferred in requests of at most 123 registers which are contiguous, do not overlap and cover all registers; the payloads written together are exactly the output image (flags, big-endian analog values, little-endian IO-Link words, counter control words), and when every read request is answered every input equals the coupler's input image, wherever the chunk boundaries fall relative to module boundaries.", "quantifier": "for every register count up to 2016, every module layout, every output vector and every input image", "why_tests_cant": "The chunk boundaries fall inside runs of module types in every possible way; tests use nodes that fit one request.", "anchors": ["PAC/common/uni_bus_coupler_io.cpp: uni_io_manager::write_outputs, read_inputs"]}
{"id": "C29", "title": "Reconnect back-off is bounded", "statement": "The delay between connection attempts to a coupler is 500 ms doubled for each failure since the last success but never more than 64 s (the declared maximum of 60 s is exceeded), and an attempt is made exactly when the link is down and that delay has passed since the last failed attempt.", "quantifier": "for every history of exchanges, connection outcomes and clock readings", "why_tests_cant": "The delay depends on the whole history of connection outcomes; exceeding the maximum needs seven failures in a row, minutes of waiting.", "anchors": ["PAC/common/uni_bus_coupler_io.cpp: uni_io_manager::e_communicate, net_init"]}
{"id": "C30", "title": "A lost coupler is reported once and the report is withdrawn when it answers", "statement": "After every exchange the no-connection error of a coupler is raised exactly if its last answer was more than 6 s ago (one millisecond less around a wrap of the clock); raising and withdrawing alternate, and after an answer the error is withdrawn at the next exchange. With a 32-bit clock this needs silences shorter than 2^32-2 ms; a coupler silent for 49.7 days is taken as answering.", "quantifier": "for every history of exchanges and clock readings", "why_tests_cant": "It involves real time up to the wrap of the clock after 49 days and all interleavings of answers and silence.", "anchors": ["PAC/common/uni_bus_coupler_io.cpp: uni_io_manager::e_communicate"]}
{"id": "C31", "title": "Analog outputs stay inside the electrical range and follow the value", "statement": "Whatever number (also infinite) is written to a channel of a 4..20 mA output module with a scale whose limits are finite, different and not further apart than 2^127, the code stands for 4..20 mA and no other word changes. On a rising scale a larger value never gives a smaller current; the ends of the scale give exactly 4 and 20 mA; in between the current is below the exact one by at most one code and 2^-15 mA; reading the output back gives the value written up to one code, except codes below 7 of the modules 554 and 555, which show as no current. Undefined behaviour follows from a value that is not a number and from equal limits with an equal value; a module of another type gets the whole part as it is, negative values are undefined, and values from 32768 on are shown as others.", "quantifier": "for every float value, every scale and every type of module", "why_tests_cant": "All float values and scales, including NaN and equal scale limits, and rounding errors that must be bounded for all of them.", "anchors": ["PAC/common/bus_coupler_io.cpp: io_device::set_AO, io_device::get_AI"]}
{"id": "C32", "title": "Attempts to reconnect a network device keep their distance", "statement": "Two attempts to connect a network device are never closer than the waiting time, which is 5 timeouts after a success, and 10, 20 and then always 40 timeouts after one, two and more failures since the last success (the declared maximum of 30 timeouts is exceeded); a request to a device that is not connected leads to exactly one attempt if that time is over and fails at once if not.", "quantifier": "for every number of devices, timeouts below 2^W/40 ms, every history of requests, polls, evaluations and results of the operating system, clocks of any width W", "why_tests_cant": "The waiting time depends on the whole history of connection outcomes over minutes of real time.", "anchors": ["PAC/common/tcp_client.cpp: tcp_client::checkConnection", "PAC/linux/l_tcp_client.cpp: linux_tcp_client::AsyncConnect"]}
{"id": "C33", "title": "A connected network device has an open connection of its own", "statement": "As long as no connection attempt is refused at once, after any history a device that is reported connected has an open socket that belongs to no other device and to no other part of the program, no socket is lost, and every byte goes to the connection of the device that sends it. When an attempt is refused at once the device is reported connected with descriptor 0: data go there, a failed send closes descriptor 0, and if another device has got that number its connection receives the data and its request is never finished.", "quantifier": "for every number of devices and every history of requests, polls, exchanges, disconnections and evaluations with all results of the operating system (a device with an outstanding request is not used otherwise)", "why_tests_cant": "Outcomes of socket calls cannot be forced in a test, and all their sequences matter.", "anchors": ["PAC/linux/l_tcp_client.cpp: linux_tcp_client::AsyncConnect, Disconnect"]}
{"id": "C34", "title": "Server replies carry the length of their payload", "statement": "Every reply of the controller starts with the station number, the kind of acknowledgement and the packet number of the request, and announces exactly the number of payload bytes that follow, for results of a service from 0 to 65535; an unknown service and an unknown command are answered by the error frames with codes 3 and 5; a Modbus answer carries its length in bytes 4 and 5. From 65536 bytes on the announced length is too small, and for a service failing with -5 to -1 an incomplete header is sent.", "quantifier": "for every request, table of services, service result and payload", "why_tests_cant": "All payload lengths up to the buffer size, including those above 65535 where the announced length wraps.", "anchors": ["PAC/common/tcp_cmctr.cpp: tcp_communicator::_ErrorAkn, _AknData, _AknOK", "PAC/linux/l_tcp_cmctr.cpp: tcp_communicator_linux::do_echo"]}
{"id": "C35", "title": "Recipe parameters: last write wins and nothing else changes", "statement": "Reading a recipe parameter returns the last value stored at that recipe and parameter number, whatever was stored elsewhere; storing with a number out of range changes nothing and reading with one returns 0. The one exception is the sign of zero: zero stored over minus zero, or the reverse, is ignored.", "quantifier": "for every storage, every history of stores and all 32-bit numbers and values", "why_tests_cant": "Histories of stores to all recipe and parameter numbers are unbounded; a sample cannot show that nothing else changes.", "anchors": ["PAC/common/params_recipe_manager.cpp: ParamsRecipeStorage::setRecPar, getRecPar"]}
{"id": "C36", "title": "The active recipe is always an existing one", "statement": "After any sequence of calls, commands, loads and evaluations the selected recipe number lies between 1 and the number of recipes; a selection of an existing recipe is followed and every other number is ignored.", "quantifier": "for every number of storages, every configuration and every history of calls and commands", "why_tests_cant": "All command histories, including numbers that are zero, negative or too large.", "anchors": ["PAC/common/params_recipe_manager.cpp: ParamsRecipeStorage::setActiveRecipe, ParamsRecipeAdapter::set_cmd"]}
{"id": "C37", "title": "Recipe changes are never forgotten", "statement": "At every moment each recipe storage is marked for saving or its file restores its names exactly and its values to six digits; storage number i is on disk after i+1 evaluations more than 10 s apart without changes in between. Not guaranteed (each with a counterexample): a failed write clears the mark and the change is forgotten; a storage listed after one that keeps changing is never written; a power failure during writing destroys what was saved before.", "quantifier": "for every history of calls, commands, loads and evaluations with finite values and names on one line, clocks of any width", "why_tests_cant": "It depends on the interleaving of changes, evaluations and the clock; a lost change is visible only after a restart.", "anchors": ["PAC/common/params_recipe_manager.cpp: ParamsRecipeManager::evaluate, ParamsRecipeStorage::serialize"]}
{"id": "C38", "title": "Recipe files round-trip", "statement": "Saving recipes to the file and starting again restores all names exactly and every value to within six millionths, and exactly if it is the float nearest to a number of at most six digits, for names without line breaks, finite values and at least one parameter per recipe; saving again writes the same file. After a change of the numbers of recipes or parameters those present in both are restored. A name with a line break or a value that is not finite makes the next start use values never set, recipes without parameters lose the first characters of their names, and 16777216 is not restored.", "quantifier": "for every set of recipes and every new size", "why_tests_cant": "All names, values and numbers of recipes; the damage shows only for particular shapes of content.", "anchors": ["PAC/common/params_recipe_manager.cpp: ParamsRecipeStorage::serialize, deserialize"]}
{"id": "C39", "title": "Loading a recipe into an object", "statement": "If all mappings are accepted, loading a recipe gives every mapped parameter of the object the value of the recipe (of the last mapping that covers it), changes no other parameter and no other object, saves the parameters and notes number and name of the recipe; the first mapping that is not accepted stops the loading with those before it applied and nothing saved or noted; numbers that do not exist change nothing. A mapping that ends exactly at the object's last parameter is never accepted, and a negative recipe number makes the program use a recipe outside of the list.", "quantifier": "for every list of mappings, recipe, storage and list of objects", "why_tests_cant": "All mappings, including ones that overlap or partly do not fit, over all objects.", "anchors": ["PAC/common/params_recipe_manager.cpp: ParamsRecipeAdapter::loadParams, addMap"]}
{"id": "C40", "title": "Lists of recipes", "statement": "A refresh of the one recipe list shows exactly the active recipes in order with number and name; with separate lists each refresh appends the active recipes of each group of ten to the list of that group once more, so after n refreshes everything is listed n times.", "quantifier": "for every number of recipes, names and flags and every number of refreshes", "why_tests_cant": "The content depends on the number of refreshes made so far, which is unbounded.", "anchors": ["PAC/common/params_recipe_manager.cpp: ParamsRecipeAdapter::refreshRecipeList"]}
{"id": "C41", "title": "Controller running time", "statement": "If no cycle of the controller lasts a day, the running time shown (days, hours, minutes, seconds) is the time from the start to the last renewal, less the milliseconds between the second and third reading of the clock in each renewal, plus one for each restart of a 32-bit clock; it is renewed whenever more than a second has passed. The milliseconds missed add up without bound, and a cycle that lasts two days or more loses whole days.", "quantifier": "for every sequence of cycles and clock readings up to 2^50 ms, 32-bit and 64-bit clocks", "why_tests_cant": "The carry into days needs a run of at least a day, and every spacing of evaluations has to be covered.", "anchors": ["PAC/common/PAC_info.cpp: PAC_info::eval"]}
{"id": "C42", "title": "Temporary lifting of restrictions expires", "statement": "After the command for the temporary mode the restrictions are in force again exactly from the first cycle in which the measured time since the command exceeds the period then configured; every other mode lasts until the next command. After a restart the mode last commanded is back and lasts, even if it was the temporary one and had expired. Exceptions: a command given when the 32-bit clock reading is 0 never expires, and on a controller with a 64-bit clock running for more than 49.7 days the temporary mode ends in the very next cycle.", "quantifier": "for every sequence of mode and period commands, resets, cycles and restarts, cycles within 2^32-2 ms after the command, 32-bit and 64-bit clocks", "why_tests_cant": "Commands, evaluations and reboots interleave at any time; a test does not reboot the controller in the middle.", "anchors": ["PAC/common/PAC_info.cpp: PAC_info::eval, PAC_info::set_cmd"]}
{"id": "C43", "title": "Elapsed time is correct across clock wrap", "statement": "The elapsed time computed from a stored time stamp equals the true difference when the clock has not wrapped, is one tick too large when the clock wrapped, and is never huge when the clock stepped back by one or two ms.", "quantifier": "for every pair of clock readings", "why_tests_cant": "The wrap happens after 49 days; all pairs of clock readings have to be covered.", "anchors": ["PAC/linux/l_dtime.cpp: get_delta_millisec"]}
{"id": "C44", "title": "Windows-1251 to UTF-8 and back", "statement": "Converting a Windows-1251 string to UTF-8 and back gives the same string for strings built of the characters whose UTF-8 form has at most two bytes or of the numero sign; a string with any other three-byte character is refused and 0x98 is dropped.", "quantifier": "for every string", "why_tests_cant": "Strings of every length over the whole 256-letter alphabet.", "anchors": ["common/util/utf2cp1251.cpp: convert_windows1251_to_utf8, convert_utf8_to_windows1251"]}
{"id": "C45", "title": "UTF-8 length of converted text", "statement": "A Windows-1251 string converted to UTF-8 is valid UTF-8, has as many characters as the source has defined characters and needs at most three bytes per character.", "quantifier": "for every string", "why_tests_cant": "Strings of every length over the whole 256-letter alphabet.", "anchors": ["common/util/utf2cp1251.cpp: convert_windows1251_to_utf8, utf8_strlen"]}
{"id": "C46", "title": "Washing statistics survive a restart", "statement": "A restart brings back, exactly, the records of all objects as they were at the first evaluation after the last program that was completed without reset, whatever characters the names and texts contain; every event changes the record of its own object only. What is counted after that evaluation is lost, also at a later evaluation, and a file that could not be opened once is not written again. A file cut short restores all records but its last one or makes the program use values never set; it may bring a record of an object that never existed.", "quantifier": "for every history of selections, ends of circulation, ends of programs, evaluations and restarts shorter than 2^31, and every set of records whose texts fit their fields", "why_tests_cant": "All contents including texts at the field limits and separators inside texts, all histories and all places where a file can end.", "anchors": ["PAC/common/cip_stats.cpp: cip_object_stats::serialize, deserialize, cip_stats::serialize, deserialize"]}
{"id": "C47", "title": "The alarm change counter never misses a change", "statement": "If two evaluations of the alarm system with fewer than 65535 operations between them report the same change counter, then the list of alarms and messages shown to the server is identical at both moments, even if messages were both added and removed in between; so a server that re-reads the list only when the counter changed is never out of date.", "quantifier": "for every history of evaluations, operator commands and messages between the two evaluations", "why_tests_cant": "The property quantifies over all interleavings of events whose combined effect on the list length may cancel out.", "anchors": ["common/PAC-driver/g_errors.cpp: errors_manager::evaluate, errors_manager::set_cmd, tech_obj_error::evaluate, tech_obj_error::set_cmd, tech_dev_error::evaluate", "PAC/common/tech_def.cpp: set_err_msg"]}
{"id": "C48", "title": "Object messages form a bounded queue addressed by unique numbers", "statement": "The pending messages of a technological object are, in order of posting, the messages posted while fewer than ten were pending and not yet removed; removing a message by its number removes exactly that message and never one of another object, and no two pending messages in the whole controller ever have the same number.", "quantifier": "for every history of messages, commands and evaluations and every number of objects", "why_tests_cant": "Uniqueness of numbers and non-interference are statements about all histories and all objects at once.", "anchors": ["PAC/common/tech_def.cpp: set_err_msg", "common/PAC-driver/g_errors.cpp: tech_obj_error::set_cmd, errors_manager::set_cmd"]}
{"id": "C49", "title": "A read-coils reply carries every requested coil", "statement": "For every read-coils request of up to 2040 coils the reply announces and contains exactly ceil(n/8) data bytes and bit i of them is the value of coil i; beyond 2040 coils the announced length wraps, and spare bits of the last byte are left as they were in the output buffer.", "quantifier": "for every number of coils, every coil values and every earlier buffer content", "why_tests_cant": "All bit patterns and lengths; the defects only show at lengths and stale buffers tests do not use.", "anchors": ["PAC/common/modbus_serv.cpp: ModbusServ::ModbusService (read coils), ModbusServ::ForceBit"]}
{"id": "C50", "title": "Decoding UTF-8 is memory safe and faithful", "statement": "Converting any byte string from UTF-8 to Windows-1251 with a length argument not larger than the string never reads beyond the string's end and never yields more characters than the string has bytes; whenever the conversion of a valid UTF-8 text free of U+0080..U+00FF succeeds, the result denotes exactly that text. A larger length argument can make a truncated character run past the terminator, and Latin-1 letters are turned into unrelated Cyrillic ones.", "quantifier": "for every byte string, every valid UTF-8 text and every length argument", "why_tests_cant": "Malformed inputs form an unbounded set and an over-read is usually invisible in a test run.", "anchors": ["common/util/utf2cp1251.cpp: convert_utf8_to_windows1251, g_letters"]}
{"id": "C51", "title": "An asynchronous Modbus call reports success only for an answered request", "statement": "Whenever an asynchronous Modbus call reports success, a reply of the protocol's length arrived after the most recently transmitted request; if the script repeats each call until it completes before starting another request, that request is the one of the call itself. A script that interleaves requests can be told that a write succeeded although it was never sent.", "quantifier": "for every interleaving of calls, replies, timeouts and connection errors", "why_tests_cant": "The statement is about all interleavings of script calls with network events.", "anchors": ["PAC/common/modbus_client.cpp: async_read_coils ... async_mask_write_register", "PAC/common/tcp_client.h: tcp_client::ASYNCRESULT", "PAC/linux/l_tcp_cmctr.cpp: tcp_communicator_linux::evaluate"]}
{"id": "C52", "title": "Modbus client requests are well-formed frames", "statement": "Every request whose data fits the exchange buffer is sent as exactly the frame the Modbus TCP protocol defines (length field, unit, function, big-endian address, quantity, byte count, payload from the data area) and success is decided by exactly the protocol's reply length; writing 122 or 123 registers sends bytes from beyond the buffer and writing 256 or more coils sends a broken frame although both are legal.", "quantifier": "for every request, address, quantity, station and data", "why_tests_cant": "Frames for 2^16 addresses and all quantities cannot be enumerated together with all payloads.", "anchors": ["PAC/common/modbus_client.cpp: read_coils, write_coil, force_multiply_coils, write_multiply_registers, async_read_write_multiply_registers, async_mask_write_register"]}
{"id": "C53", "title": "Outputs count as written only after the coupler confirmed them", "statement": "A discrete or analog output changes its shown value to the commanded one exactly when the request carrying it was answered by the coupler with the function code of the request, provided answers reach at least to the function code (8 bytes); all other outputs keep their shown value, and commanded values and inputs are not touched. An answer cut shorter than that is taken as a confirmation because the buffer still holds the request.", "quantifier": "for every coupler layout, every commanded and shown output vector and every combination of answers, refusals and timeouts per block", "why_tests_cant": "Each block of a large coupler can be answered, refused or lost independently, with the block boundary anywhere in the layout; a cut answer depends on network segmentation.", "anchors": ["PAC/common/uni_bus_coupler_io.cpp: uni_io_manager::write_outputs"]}
{"id": "C54", "title": "Inputs shown are those the coupler sent", "statement": "After reading a WAGO coupler every discrete and analog input shows the value the answer carries for it if the answer has the right function code and size, and keeps its previous value otherwise; an answer that arrives only in part is completed with old bytes of the request buffer and shown as inputs.", "quantifier": "for every number and type of inputs, every previous state and every answer", "why_tests_cant": "All answers of all lengths; a partial answer depends on network segmentation and is not produced by test doubles.", "anchors": ["PAC/common/uni_bus_coupler_io.cpp: uni_io_manager::read_inputs", "PAC/linux/l_tcp_cmctr.cpp: tcp_communicator_linux::recvtimeout"]}
{"id": "C55", "title": "Analog outputs of WAGO couplers are sent as one well-formed frame", "statement": "For every mix of analog modules whose process image is at most 248 bytes the request is exactly the Modbus write-registers frame carrying the big-endian channel values in order (four zero bytes for a counter channel) and stays inside the buffer; from 249 bytes on the frame length is announced wrong.", "quantifier": "for every number, type and value of analog outputs", "why_tests_cant": "All layouts and values; the defect needs more channels than any test node has.", "anchors": ["PAC/common/uni_bus_coupler_io.cpp: uni_io_manager::write_outputs"]}
{"id": "C56", "title": "The warning about a step that takes too long names that step", "statement": "The warning is given exactly when the step has a limit and has been on for at least that long, and for the main step it names this step and its limit. For an extra step the numbers are exchanged: the warning names step limit+1 and, if the limit in seconds is not below the number of steps, memory outside the list of steps is read.", "quantifier": "for every configuration, limit up to 4294967 s, time and set of active extra steps", "why_tests_cant": "The wrong message appears only for extra steps with limits; whether the read outside crashes depends on memory layout.", "anchors": ["PAC/common/operation_mngr.cpp: operation_state::check_max_step_time"]}
{"id": "C57", "title": "The sequence of steps follows the configured times, also across pauses", "statement": "At every evaluation the next main step is the configured successor once the step's time is over (or zero), else the target of a fulfilled jump condition, else the same step; the operation asks to be switched off exactly when the time of a step without successor is over. A pause of any length does not count towards the step's time. A successor outside the list of steps keeps the step on for ever.", "quantifier": "for every configuration, history of calls, clock reading and time parameter (main step not at the same time an extra step)", "why_tests_cant": "Times span the wrap of the 32-bit clock, and pauses can occur anywhere and any number of times.", "anchors": ["PAC/common/operation_mngr.cpp: operation_state::evaluate, to_step, finalize, add_dx_step_time, operation::to_run_state, operation::pause"]}
{"id": "C58", "title": "The running time of an operation excludes its pauses", "statement": "The running time shown for an operation is, at every moment, the sum of its running stretches since it was started from idle, measured by the millisecond clock; a stretch that ends with a stop is not counted, so after a stop the time shown is too short.", "quantifier": "for every configuration and every history of calls and clock readings", "why_tests_cant": "The sum runs over histories of any length with the clock wrapping in between.", "anchors": ["PAC/common/operation_mngr.cpp: operation::evaluation_time, start, pause, stop, operation_state::evaluation_time"]}
{"id": "C59", "title": "An automatic start is tried until it succeeds or the waiting time is over", "statement": "When a signal asks for an idle operation it is started at the first evaluation at which all checks pass; a refusal is reported at once and then once per warning time; when the waiting time since the first refusal is over the request is given up, which is reported once, and nothing starts until an evaluation finds the request withdrawn. (Pause and stop are only requested for operations that are on.)", "quantifier": "for every history of commands, evaluations, clock readings and check results, any warning and waiting time", "why_tests_cant": "Requests, refusals and clock readings interleave without bound, and other operations are switched in between.", "anchors": ["PAC/common/operation_mngr.cpp: operation::evaluate, operation::process_auto_switch_on", "PAC/common/tech_def.cpp: tech_object::check_operation_on"]}
{"id": "C60", "title": "The availability shown for operations is that of the restrictions", "statement": "An operation is shown as available exactly if no operation of its object that blocks it is active, provided pause and stop are only requested for operations that are on and there are no restrictions on following operations. After a pause request for an idle operation followed by switching it off, the operations it blocks are shown as unavailable although nothing runs; restrictions on following operations are only shown, not enforced, and disappear with the next start of any operation.", "quantifier": "for every table of restrictions and every history of commands, evaluations and check results", "why_tests_cant": "The counters are updated incrementally along histories of any length.", "anchors": ["PAC/common/tech_def.cpp: tech_object::lua_init_mode, tech_object::check_availability, tech_object::lua_final_mode, tech_object::save_device"]}
{"id": "C61", "title": "All bytes of a message are sent in order, or a failure is reported", "statement": "Whatever the network accepts at each try, the bytes handed over are always a beginning of the message, without gap or repetition; if success is reported it is the whole message; a failure is reported by -1, -2 or -3; if every try accepts at least a byte the whole message is sent. A connection that is ready but accepts nothing keeps the controller in the loop for ever.", "quantifier": "for every message and every sequence of results of select and send", "why_tests_cant": "Partial writes of any size in any sequence cannot be produced in a test.", "anchors": ["PAC/linux/l_tcp_cmctr.cpp: tcp_communicator_linux::sendall"]}
{"id": "C62", "title": "A request to a network device is finished", "statement": "In every pass of the communicator in which some descriptor is ready, each outstanding request is either answered (its result is the number of bytes received), failed (connection closed, device disconnected), timed out (older than twice the timeout, device disconnected) or left waiting, and in the first three cases it is no longer outstanding; requests of other devices do not interfere. As long as no descriptor at all is ready, a request is never timed out and its result stays \"busy\", however much time passes.", "quantifier": "for every number of devices, every history of requests, polls and evaluations and all results of the operating system (no attempt refused at once)", "why_tests_cant": "Which descriptors are ready when is decided by the network; the endless waiting shows only with a silent server and silent devices.", "anchors": ["PAC/linux/l_tcp_cmctr.cpp: tcp_communicator_linux::evaluate", "PAC/linux/l_tcp_client.cpp: linux_tcp_client::AsyncSend, get_async_result", "PAC/common/modbus_client.cpp: modbus_client::async_read_discrete_inputs"]}
{"id": "C63", "title": "The alarm for the link to the server follows the last transfer", "statement": "After any sequence of evaluations the alarm \"no connection to the server\" is raised exactly if at the last evaluation more than five seconds had passed since the last successful transfer; it is raised only when not raised and cleared only when raised.", "quantifier": "for every sequence of evaluation times and transfer times", "why_tests_cant": "The sequence is unbounded and the clock can wrap.", "anchors": ["PAC/linux/l_tcp_cmctr.cpp: tcp_communicator_linux::evaluate"]}
{"id": "C64", "title": "Recipe commands sent as text are understood exactly", "statement": "A text is taken as a recipe command exactly if it has the form __RECMAN[n]:set_cmd( \"NAME\", index, value ) with a quoted text or unsigned decimal as value; it then has one meaning only, is carried out by recipe manager n if there is one and answered by 1, and any other text changes nothing and is answered by 0. From its start on the program survives every sequence of calls whose numbers fit int, with managers counted from 1. Manager number 0 reaches memory before the list, and numbers too large, a lone point or a value too small throw an exception nothing catches; negative values cannot be sent.", "quantifier": "for every text and every history of calls", "why_tests_cant": "All texts; the fatal ones differ from good ones in one character, and an uncaught exception ends the test run itself.", "anchors": ["PAC/common/params_recipe_manager.cpp: ParamsRecipeManager::parseDriverCmd, ParamsRecipeAdapter::set_cmd", "common/PAC-driver/g_device.cpp: device_communicator::write_devices_states_service"]}
{"id": "C65", "title": "Which recipes are offered survives a restart", "statement": "The activity flags of the recipes written to the file of a recipe manager are restored at the next start for every recipe that still exists, and recipes that are new keep their initial flag; a file left empty by a power failure makes the start use values that were never set.", "quantifier": "for every number of recipes before and after and all flags", "why_tests_cant": "The numbers of recipes before and after a restart vary independently; the effect of an uninitialised variable is not reproducible.", "anchors": ["PAC/common/params_recipe_manager.cpp: ParamsRecipeAdapter::serialize, deserialize"]}
{"id": "C66", "title": "Which recipe was loaded last survives a restart", "statement": "The number and name of the recipe loaded last are restored for every technological object after a restart, in the order of objects and also when objects were added or removed at the end, and no parameter is touched; a name with a line break shifts the entries of all objects after it.", "quantifier": "for every number of objects and all names and numbers", "why_tests_cant": "All names and numbers of objects; the shift only shows with a line break in a name.", "anchors": ["PAC/common/params_recipe_manager.cpp: ParamsRecipeManager::saveTechObjects, loadTechObjects"]}
{"id": "C67", "title": "Taking a coupler out of service", "statement": "After any history of service commands and polls a coupler is out of service exactly if the last of the commands 'on' and 'off' for it was 'off'; the service alarm is listed exactly if the last of 'on', 'off' and 'reset' was 'off'; the connection alarm is listed exactly if the last poll made in service found it silent and neither 'off' nor 'reset' came since; no other coupler and no other alarm is touched. 'Reset' for a coupler out of service leaves it out of service without any alarm, and the number 0 makes the program use memory in front of the list.", "quantifier": "for every list of couplers with different numbers and every history of commands and polls", "why_tests_cant": "Commands and polls of several couplers interleave without bound, and the state of an alarm depends on all of them.", "anchors": ["PAC/common/PAC_info.cpp: PAC_info::set_cmd (NODEENABLED)", "PAC/common/uni_bus_coupler_io.cpp: uni_io_manager::e_communicate"]}
{"id": "C68", "title": "Analog inputs are read with the right value and range errors", "statement": "For every word a module delivers, reading an analog input gives either the fault value and error of that type of module (under range, over range, out of range) or no error and a value that differs from the exact one only by rounding: number of codes times the unit, or the current on the 4..20 mA range, or its place on the scale of the channel. Types 466 and 496 recognise a broken wire by the code 3 alone; codes 0 to 2 are shown as valid.", "quantifier": "for every type of module, every 16-bit word and every scale with limits up to 2^60 in magnitude", "why_tests_cant": "65536 words times all scales, with rounding errors that must be bounded for all of them.", "anchors": ["PAC/common/bus_coupler_io.cpp: io_device::get_AI"]}
{"id": "C69", "title": "A channel that was not set up is harmless", "statement": "Reading a channel that the device does not have or that was not set up gives 0 (an analog input also the error for bad data), and writing to it changes nothing; a discrete output that was set up reads back as written and writing it changes nothing else.", "quantifier": "for all lists of channels, all indexes (also negative ones) and all values", "why_tests_cant": "Quantifies over all indexes, including those outside the arrays, where a wrong check touches foreign memory.", "anchors": ["PAC/common/bus_coupler_io.cpp: io_device::get_DO, set_DO, get_DI, get_AO, set_AO, get_AI"]}
{"id": "C70", "title": "The regulator follows its law", "statement": "Once its interval has passed, an automatic evaluation changes the regulator's result by K(1+Td/T)e(k) + K(-1-2Td/T+2T/Ti)e(k-1) + K(Td/T)e(k-2), cut to 0..100, with e the error in percent of the measuring range (negative when reversed), up to a bounded rounding error; before the interval has passed nothing changes; after the start the value sent is that result inside the limits. A higher set value never gives a lower output (never a higher one when reversed), and at the set value with no past error the output rests.", "quantifier": "for every regulator with sensible settings after every sensible history, all set values and measurements up to 2^30", "why_tests_cant": "Rounding errors must be bounded for all inputs and all states reached by unbounded histories; monotonicity quantifies over all pairs of inputs.", "anchors": ["PAC/common/PID.cpp: PID::eval, PID::direct_set_value"]}
{"id": "C71", "title": "Manual mode of the regulator", "statement": "Switching manual mode on repeats the last value sent; while it lasts exactly the manual value last written is sent, and the first value after switching it off is still the manual one. Not guaranteed (each with a counterexample or for all such states): the values after that jump to the end of the scale until a recalculation is due; the manual value is not kept inside the limits; a mode value other than exactly 1 loses the manual value and regulates on; switched off in manual mode and on again the regulator starts from the old manual value.", "quantifier": "for every state of the regulator, every history of evaluations and writes in manual mode and all float values", "why_tests_cant": "Histories are unbounded and the jump depends on the moment of the next evaluation relative to the interval.", "anchors": ["PAC/common/PID.cpp: PID::eval"]}
{"id": "C72", "title": "The regulator starts gently", "statement": "After switching on, until the acceleration time has passed, no value sent runs ahead of the straight line from the end of the scale it starts from (0 upwards or 100 downwards) by more than 0.0002%, unless an output limit demands it, whatever set values and measurements arrive and whatever other parameters are changed. An acceleration time that is negative, not finite or 2^32 and more is undefined behaviour at the first recalculation.", "quantifier": "for every regulator with sensible settings switched on after every sensible history, every sensible history after that and clocks of any width", "why_tests_cant": "All histories of set values, measurements and times, with rounding in every operation.", "anchors": ["PAC/common/PID.cpp: PID::eval, PID::on, PID::reset"]}
{"id": "C73", "title": "Switching the regulator on and off", "statement": "Off given twice, or once followed by the cycle's evaluation, switches the actuator off; between the two the regulator works on exactly as before. Switched off it sends no value to the actuator, whatever is called, until it is switched on, and then it has forgotten the past; switched on after a single off it continues as if nothing had happened. A regulator held by hand obeys neither the program nor the cycle.", "quantifier": "for every state of the regulator and every history of calls and commands", "why_tests_cant": "Histories are unbounded.", "anchors": ["PAC/common/PID.cpp: PID::direct_on, PID::direct_off, PID::evaluate_io, PID::eval"]}
{"id": "C74", "title": "What a step does to its devices", "statement": "At each evaluation of a step every device not in manual mode takes the last of the orders its actions give it, in this order: on, reverse, off, seats, signals, inverted signals, washing (group by group), delayed on, delayed off; its value takes the last of the orders for the value (0 when switched off by off, seat or signal, the measured value for analog pairs, the setting for washed devices while washing is requested and 0 otherwise); a valve whose seat is being washed is not switched off by 'off' lists. A device no action lists keeps state and value; a device in manual mode hears nothing. Not guaranteed: a delay whose parameter is not a number has passed at once; a device switched off at the end of its delay keeps its value.", "quantifier": "for every configuration of the actions of a step, all devices, signals, parameters, values and times (delays up to 2^24 ms)", "why_tests_cant": "The actions are configured freely and overlap on the same devices; their interplay cannot be enumerated.", "anchors": ["PAC/common/operation_mngr.cpp: step::evaluate, on_action::evaluate, on_reverse_action::evaluate, off_action::evaluate, open_seat_action::evaluate, DI_DO_action::evaluate, inverted_DI_DO_action::evaluate, AI_AO_action::evaluate, wash_action::evaluate, delay_on_action::evaluate, delay_off_action::evaluate"]}
{"id": "C75", "title": "The end of a step switches its devices off", "statement": "The end of a step switches off exactly the devices its actions list and the valves whose seats are open; hence after any history a device that is on is listed by a step that is engaged, and after an operation has been switched off every device is off that no step of the idle state lists. This needs that no step is started while it is engaged, or that the device is in no list of seats: a step engaged as an additional one that becomes the main one while a seat is open leaves the seat open after the end of the operation. A device kept on by the whole operation goes off for a moment when a step that lists it too ends.", "quantifier": "for every configuration, every history of calls of an operation and all inputs at every moment", "why_tests_cant": "Histories are unbounded and the switching of steps interleaves with the evaluation of their actions.", "anchors": ["PAC/common/operation_mngr.cpp: step::finalize, action::finalize, open_seat_action::finalize, DI_DO_action::finalize, AI_AO_action::finalize, wash_action::finalize, operation::switch_off, operation::finalize"]}
{"id": "C76", "title": "Seats are washed in turn", "statement": "Groups of seats are opened in turn: upper groups in their order, then lower groups, then again from the start; the group that is open is the one given by the number of openings finished, and no valve outside it has an open seat. A pause lasts longer than the waiting time computed at the start, an opening at least its set time; the pauses share evenly what the openings leave of the time of the step. Not guaranteed: a step without a time limit (or shorter than all openings) waits for weeks; a kind of seats without groups costs an evaluation.", "quantifier": "for every configuration of groups, all numbers of evaluations at any times of a clock that does not wrap, all settings", "why_tests_cant": "The turn depends on an unbounded number of evaluations at arbitrary times.", "anchors": ["PAC/common/operation_mngr.cpp: open_seat_action::init, open_seat_action::evaluate, open_seat_action::finalize"]}
{"id": "C77", "title": "Jumps and enabling by signals", "statement": "A jump is demanded exactly if a number was set and some group is satisfied (all its devices for 'on' are on, for valves: open, all devices for 'off' are off, for valves: closed); the first satisfied group decides, and the number is the one set for that group or, if none was set, the last one set. A step is enabled if all devices of some list are on. Not guaranteed: a group without devices is always satisfied; an empty list counts as on, so a signal put in the second list leaves the step enabled whatever it says.", "quantifier": "for all groups, numbers and states of devices", "why_tests_cant": "Groups, lists and states are unbounded.", "anchors": ["PAC/common/operation_mngr.cpp: jump_if_action::is_jump, jump_if_action::set_int_property, enable_step_by_signal::is_any_group_active"]}
{"id": "C78", "title": "The names of the devices with errors are reported", "statement": "The text lists the names of all devices with errors in quotes, separated by commas, if it fits into the buffer with three bytes to spare; if not, and the devices after the list in which the buffer ends have no errors, the beginning followed by three dots fills the buffer exactly. If a later list has errors too the program writes behind the end of the buffer.", "quantifier": "for every configuration of checked devices, all names and buffer sizes from 4", "why_tests_cant": "The overflow needs a particular combination of lengths and lists.", "anchors": ["PAC/common/operation_mngr.cpp: action::check_devices"]}
{"id": "C79", "title": "A configured device ends up where it was put", "statement": "After any sequence of additions each list of each group of an action holds exactly the devices added to it, in order, and nothing else; the same holds for groups of seats as long as groups are numbered without gaps. A device for a group of seats more than one beyond the last is left out without any message.", "quantifier": "for every sequence of additions with any numbers of groups and lists", "why_tests_cant": "Sequences and numbers are unbounded.", "anchors": ["PAC/common/operation_mngr.cpp: action::add_dev, open_seat_action::add_dev"]}
{"id": "C80", "title": "A step with wrong signals is not started", "statement": "A step passes the check before a start exactly if the first device of every list of its signal actions gives a signal of the right kind (discrete or analog) and, for the step of a whole state, all required signals are on. The devices behind the first one are not checked.", "quantifier": "for every configuration and all types and states of devices", "why_tests_cant": "Configurations are unbounded.", "anchors": ["PAC/common/operation_mngr.cpp: step::check, DI_DO_action::check, AI_AO_action::check, required_DI_action::check"]}
{"id": "C81", "title": "A valve closes by delay, once and only if still wanted", "statement": "A valve that was ordered open and is then ordered to close stays open at every service cycle that comes at most the delay parameter after the order, however often the order to close is repeated, and is closed by the first cycle that comes later. Ordered open in between it stays open. If manual mode is taken in between, the valve stays open and the order to close is lost when its time comes, also after manual mode is left. (For bottom valves see C83.)", "quantifier": "for every number and kind of valves, every history of orders, commands, readings and service cycles at any times of a clock that does not wrap, any values of the delay", "why_tests_cant": "Histories are unbounded and the queue of valves to be closed is shared by all valves.", "anchors": ["PAC/common/device/valve.cpp: valve::off, valve::on, valve::evaluate, valve::is_switching_off_finished"]}
{"id": "C82", "title": "What a state command does to a valve", "statement": "A state command (of the program or the operator) gives a mixproof valve exactly the outputs of the state commanded, also the mini flushing valve, from any earlier state; in manual mode the operator only is obeyed. Not guaranteed, and false: for valves with one or two outputs without seats the command has no effect at all, neither on any output nor on any reported state, in manual mode either; the bistable valve obeys the command to stop only.", "quantifier": "for every kind of valve on discrete channels, every earlier history and every state commanded", "why_tests_cant": "On a controller the command is stored and forgotten; in the emulator, which tests use, it works.", "anchors": ["PAC/common/device/base.cpp: device::direct_set_state, device::set_cmd", "PAC/common/device/valve.cpp: valve_mix_proof::direct_set_state, valve_mini_flushing::direct_set_state, valve_DO2_DI2_bistable::direct_set_state"]}
{"id": "C83", "title": "Closing of the bottom valve", "statement": "A bottom valve ordered to close closes, and its small valve after its own delay, exactly if the first service cycle after the order comes later than the delay parameter. Not guaranteed, and false: if a service cycle comes earlier (the cycle is much shorter than the delay) the valve never closes, whatever orders to close follow and however long one waits. Opened again while the small valve waits, the valve closes by itself; closed at once or by the operator it leaves the small valve open for good.", "quantifier": "for every history of the other valves, all times, all numbers of service cycles and orders to close", "why_tests_cant": "The order is lost between two service cycles; the claim is about all later times.", "anchors": ["PAC/common/device/valve.cpp: valve_bottom_mix_proof::is_switching_off_finished, valve_bottom_mix_proof::direct_off, valve::evaluate"]}
{"id": "C84", "title": "Outputs of a valve that exclude each other", "statement": "The outputs to open and to close of a valve with two outputs (also the bistable one), the body and the seat of a mini flushing valve, the body and the two seats of a mixproof valve, and the body and the lower seat of a bottom valve are never on together. Not guaranteed: the small valve and the lower seat of a bottom valve can be on together, and no order to close ends that.", "quantifier": "for every history of orders, commands, readings and service cycles, any inputs and times", "why_tests_cant": "Histories are unbounded.", "anchors": ["PAC/common/device/valve.cpp: direct_on, direct_off, direct_set_state, open_upper_seat, open_lower_seat of all classes"]}
{"id": "C85", "title": "The state a valve reports", "statement": "A valve with feedback reports the position its outputs mean, the mode, and the verdict on the feedback: well if the sensors agree or less than the allowed time has passed since the outputs were last changed (with one sensor: or since a reading found it in agreement), moving exactly when the allowed time has passed to the millisecond, an error later; unchecked if the check is switched off. Not guaranteed, and false: a valve with two outputs and two sensors is reported closed when opened and open when closed.", "quantifier": "for every history, all sensors, times and parameters (allowed time up to 2^24 ms)", "why_tests_cant": "The time allowed runs from the last of unboundedly many events.", "anchors": ["PAC/common/device/valve.cpp: valve::get_state, get_fb_state and get_valve_state of all classes"]}
{"id": "C86", "title": "The bistable valve", "statement": "After a service cycle the output that opens is on only if it has been on without a break for at most the allowed time and the sensor of the open position is off; the same for the output that closes if no order to close with delay was given. A valve ordered to open and still closed after the allowed time reports an error. Not guaranteed, and false: stopped once between its positions the valve never reports an error again, whatever orders to open or close follow, until a state command other than stop.", "quantifier": "for every history, all sensors and times", "why_tests_cant": "Histories are unbounded; the suppression of errors outlives all later orders.", "anchors": ["PAC/common/device/valve.cpp: valve_DO2_DI2_bistable::evaluate, direct_on, direct_off, direct_set_state, get_fb_state"]}
{"id": "C87", "title": "A filtered input ignores short signals and passes lasting ones", "statement": "A discrete input with a filter time reports a new signal only if at a reading the input has shown it and more than the filter time has passed since the last reading that showed the reported one; so no signal is reported that has not lasted longer than the filter time. A signal that is seen at all readings for longer than the filter time is reported. This holds while the clock is below 2^32 ms. Not guaranteed, and false: on a machine with a 64-bit clock, after 2^32 ms (50 days) of the clock the filter passes every signal at once.", "quantifier": "for every sequence of readings at any times and any signals, all filter times, both widths of the clock", "why_tests_cant": "Readings come at arbitrary times; the failure needs a clock beyond 2^32 ms.", "anchors": ["PAC/common/device/device.cpp: DI1::get_state, level_s_iolink::get_state", "PAC/common/device/device.h: DI1"]}
{"id": "C88", "title": "A level switch without link shows the dangerous side", "statement": "While the link of an IO-Link level switch is broken the upper level reports active and the lower level reports inactive, whatever the last data; when the link returns the reported state is as if the readings during the outage had not taken place. A level switch on a wire reports a broken wire (signal 0) as upper level active and lower level inactive.", "quantifier": "for all sequences of readings with any outages, all signals, times and filter times", "why_tests_cant": "Outages may come at any moment of any history.", "anchors": ["PAC/common/device/device.cpp: level_s_iolink::get_state, level_s_iolink::is_active, level_s::is_active"]}
{"id": "C89", "title": "What a counter counts", "statement": "From the first non-zero reading of the device on the total of a counter is exactly the number of pulses given by the device, less one for each pass of the device through its largest number, provided at most 301 pulses come per cycle and the total stays below 2^24; the value shown (of a counter without flow) is the same for the time between start and pause. Pulses that come while the counter reports an error are added to the value afterwards. Not guaranteed, and false: a number of the device that goes back by one adds the whole number to the total; the pulses from a first reading of zero up to the next cycle are lost.", "quantifier": "for every sequence of readings, orders and cycles of any length", "why_tests_cant": "Exactness is about sums over unboundedly many cycles in float arithmetic.", "anchors": ["PAC/common/device/device.cpp: base_counter::calculate_quantity, base_counter::evaluate_io, base_counter::start, base_counter::pause, base_counter::get_quantity, base_counter::get_abs_quantity"]}
{"id": "C90", "title": "A counter stops at 16777216", "statement": "The total of a counter that has reached 2^24 pulses stays there for ever if at most one pulse comes per cycle, whatever the number of cycles, until it is reset. Hence the claim that a total grows whenever pulses come is false.", "quantifier": "for every number of cycles with at most one pulse each", "why_tests_cant": "Reaching the limit takes 16777216 pulses; the standstill is due to rounding.", "anchors": ["PAC/common/device/device.cpp: base_counter::calculate_quantity, base_counter::evaluate_io"]}
{"id": "C91", "title": "A counter that stands while the pump works is an error", "statement": "A counter whose pump works with a flow above the least one and whose total does not change reports the error at exactly the cycles that come at least the waiting time after the supervision began, not before; it goes back to work when the total changes; when the pump stops or the flow ends the error stays until pulses or an order come. Not guaranteed, and false: with a 64-bit clock beyond 2^32 ms the error is reported without waiting; a plain counter (without flow) never reports the error at all, also if motors are attached to it.", "quantifier": "for every number of cycles at any times and all flows, motors and waiting times", "why_tests_cant": "The time is measured from the last of unboundedly many events; the failures need a long running time or a particular type.", "anchors": ["PAC/common/device/device.cpp: base_counter::get_state, counter::get_flow, counter_f::get_state"]}
{"id": "C92", "title": "A fault of the flow channel", "statement": "A fault of the analog channel of a counter with flow (given as the value -1 of the channel) is reported as lower error exactly if the parameter of the zero shift is 0; with a zero shift of -1 it is reported as upper error and with any other whole shift it is not reported at all. The claim that only faults are reported is false: a true flow that equals -1 after the shift is reported too.", "quantifier": "for all faulty values of the channel and all whole zero shifts below 2^23", "why_tests_cant": "Depends on all values of a float parameter.", "anchors": ["PAC/common/device/device.cpp: counter_f::get_state, counter_f::get_flow, analog_io_device::get_value"]}
{"id": "C93", "title": "Daily values", "statement": "The value of the day before equals the pulses of the device between the two changes of the day, if the daily counter was not switched off; the new day begins with zero. One reading that is not a number makes the daily value of that day not a number, and it stays so until the change of the day.", "quantifier": "for every number of cycles between the changes of the day", "why_tests_cant": "A sum over unboundedly many cycles in float arithmetic.", "anchors": ["PAC/common/device/device.cpp: base_counter::evaluate_io, base_counter::start_daily, base_counter::pause_daily"]}
{"id": "C94", "title": "The total of an IO-Link counter", "statement": "The total of an IO-Link counter in millilitres is defined as long as it is at most 4294967 litres; from 4294967.5 litres on every cycle with flow makes an undefined conversion.", "quantifier": "for all totals (as floats) and all cycles", "why_tests_cant": "The boundary is at one particular float out of 2^32.", "anchors": ["PAC/common/device/device.cpp: counter_iolink::get_abs_quantity, base_counter::get_state"]}
{"id": "C95", "title": "The virtual counter", "statement": "A virtual counter sums the rises of the number given to it from the second call on, and its total likewise; falls are ignored. Not guaranteed, and false: the counter does not stop when paused; the value stops at 2^24 when the number rises by one at each call.", "quantifier": "for every sequence of calls with any numbers", "why_tests_cant": "Sequences are unbounded.", "anchors": ["PAC/common/device/base.cpp: virtual_counter::eval, virtual_counter::pause, virtual_counter::get_quantity"]}
{"id": "C96", "title": "The most urgent event of a cycle is displayed", "statement": "After the requests of one cycle, made by any number of technological objects in any order, a signal column outside manual mode shows an error if one was requested, else a message, else that a batch is not running, else what was requested last of 'batch runs' and 'operation does not run', else that an operation runs, else nothing; the siren sounds exactly for an error. The blue lamp goes out if the first request is not an error or 'batch not running', and is left alone by those two. In manual mode requests change nothing. Not guaranteed, and false: that the order of the objects does not matter ('batch runs' and 'operation does not run' override each other).", "quantifier": "for all lists of requests at any times, any earlier state of the column and any wiring", "why_tests_cant": "Requests of unboundedly many objects in any order are merged in one device.", "anchors": ["PAC/common/device/base.cpp: signal_column::show_error_exists, show_message_exists, show_batch_is_not_running, show_batch_is_running, show_operation_is_not_running, show_operation_is_running, show_idle, evaluate_io"]}
{"id": "C97", "title": "A lamp told to blink blinks", "statement": "A dark lamp that is told to blink once in every cycle, with gaps of at most g, is dark after the first cycle and lit after the second; from then on it stays lit and dark for stretches longer than d - g and at most d + 2 g (d = 250 ms fast, 1000 ms slow). Not guaranteed, and false: if an object requests something less urgent earlier in each cycle, the lamp of a message (or of an error blinking by program) stays dark for ever while it is reported lit; a command to blink given once changes no output while the lamp is reported lit.", "quantifier": "for every number of cycles at any times with bounded gaps, each lamp, both speeds, commands and events", "why_tests_cant": "Depends on the timing of unboundedly many cycles; the failure needs two objects.", "anchors": ["PAC/common/device/base.cpp: signal_column::blink, normal_blink_red, normal_blink_yellow, show_message_exists, show_error_exists, direct_set_state, save_device_ex"]}
{"id": "C98", "title": "Reports and commands of a signal column", "statement": "After any history every lamp reported steadily lit or dark is so, and the siren is as reported; the state 0 is reported exactly if all lamps are dark and the siren is silent, and then all outputs are off. A state command does exactly what its number asks for and changes no other lamp; an unknown number does nothing.", "quantifier": "for every history of requests, commands, manual mode and settings, and every wiring without shared outputs", "why_tests_cant": "Histories are unbounded.", "anchors": ["PAC/common/device/base.cpp: signal_column::direct_set_state, turn_on_red and the like, get_state, save_device_ex"]}
{"id": "C99", "title": "Channels of a signal column", "statement": "The text with the sequence of signals gives each lamp and the siren the channel of the first place of its letter; a lamp without letter drives no output; no two of them share an output, for any text. The channels of a column on discrete outputs are never shared. Not guaranteed: after a second setting lamps left out keep their old channels and can share an output.", "quantifier": "for every text", "why_tests_cant": "Texts are unbounded.", "anchors": ["PAC/common/device/device.cpp: signal_column_iolink::set_string_property, signal_column_iolink::process_DO, signal_column_discrete::process_DO"]}
{"id": "C100", "title": "Solenoids in shared bytes follow the orders of their own valve", "statement": "Valves on AS-interface gateways and pneumatic terminals are switched by bits of bytes they share. If no bit belongs to two valves, then after any history of orders to any of them every solenoid is on or off as the last order of its own valve asks (open, closed, upper seat, lower seat; orders of the program are ignored in manual mode), never two solenoids of a valve are on, bits of no valve stay off, and nothing crashes; what is sent to a node is what was asked for before. Valves of one gateway with different numbers never share a bit.", "quantifier": "for any number of valves of all eight classes, all numbers and channels, all histories of orders, commands, manual mode, readings and transmissions", "why_tests_cant": "Valves of many kinds and numbers change the same bytes in unboundedly long histories.", "anchors": ["PAC/common/device/valve.cpp: valve_AS::direct_on, direct_off, direct_set_state, valve_AS_DO1_DI2::direct_set_state, valve_iol_terminal::direct_on, direct_off, direct_set_state, set_state_bit, reset_state_bit, valve_iol_terminal_mixproof_DO3::open_upper_seat, open_lower_seat, direct_set_state"]}
{"id": "C101", "title": "State reported for valves on gateways and terminals", "statement": "The state reported is that of the last order for a terminal valve and that of the last transmission for a gateway valve, with the feedback judged: right, moving (only in the very millisecond the time ends), wrong, or ignored by setting, and with manual mode. An error is reported if and only if there is feedback, it is not switched off, no seat is open, it disagrees and the time has passed since the order or, for a terminal valve, since the last reading that agreed (a shut-off valve of a gateway is given the time after both). A terminal whose IO-Link port is not working reports the state of the port with a minus.", "quantifier": "for all histories with a clock that does not wrap or go back, all inputs and settings", "why_tests_cant": "The report depends on the whole history of orders, transmissions and readings.", "anchors": ["PAC/common/device/valve.cpp: valve::get_state, valve_iol_terminal::get_state, get_valve_state and get_fb_state of the eight classes"]}
{"id": "C102", "title": "A valve on a gateway or terminal that does not open is found", "statement": "If the order to open is given, sent, and then repeated any number of times while the feedback never shows the valve open, the error is reported as soon as the time allowed has passed since the first order; repeating the order, reading the state and orders to other valves do not put it off.", "quantifier": "for all histories before and after the order, all classes with feedback", "why_tests_cant": "Programs repeat the order in every cycle; the claim is about unboundedly many repetitions.", "anchors": ["PAC/common/device/valve.cpp: valve_AS::direct_on, valve_iol_terminal::direct_on, valve::get_state, get_fb_state of the classes"]}
{"id": "C103", "title": "Valves on gateways and terminals without channel", "statement": "A terminal valve never crashes the program, whatever its settings; one with a channel or number missing changes no output. Not guaranteed, and false, for a gateway valve: without its output channel the first order to open or close writes through a null pointer.", "quantifier": "for all settings and histories", "why_tests_cant": "Settings are data of the project, not of the program.", "anchors": ["PAC/common/device/valve.cpp: valve_iol_terminal::check_config, direct_on, direct_off, valve_AS::direct_on, direct_off", "PAC/common/bus_coupler_io.cpp: io_device::get_AO_write_data"]}
{"id": "C104", "title": "Numbers of valves on gateways and terminals", "statement": "A gateway valve with a number from 0 to 62 changes only bytes 8 to 39 of its gateway. Not guaranteed: numbers are not checked. A valve with a greater number switches bits of the bytes behind the gateway; a mixproof valve on a terminal whose main output has the number of a seat is not opened by the order to open but reported open; a state number that does not exist opens a valve.", "quantifier": "for all numbers, valves and histories", "why_tests_cant": "Numbers are data of the project, not of the program.", "anchors": ["PAC/common/device/valve.cpp: valve_AS::set_rt_par, valve_iol_terminal::set_rt_par, valve_AS::direct_on, valve_iol_terminal::direct_on, direct_set_state of the classes"]}
{"id": "C105", "title": "Valves with an IO-Link head send what the last order asks for", "statement": "After its first cycle, a valve with an IO-Link head (Alfa Laval mixproof and shut-off, Definox Sorio, GEA T.VIS A-15 with one and two seats) and both channels sends exactly the solenoid the last order asks for and the light, whatever was ordered before, and never crashes. Not guaranteed, and false: orders given before the first cycle are lost, and crash the program for GEA valves; without an output channel the first order after a cycle crashes the program; a GEA valve without an input channel crashes it in the first cycle.", "quantifier": "for all five classes and all histories of cycles, orders, seats, commands, manual mode, light and readings", "why_tests_cant": "The byte depends on the order of cycles and calls in unboundedly long histories; existing tests look at single calls.", "anchors": ["PAC/common/device/valve.cpp: direct_on, direct_off, direct_set_state, set_cmd, evaluate_io of valve_iolink_mix_proof, valve_iolink_shut_off_thinktop, valve_iolink_shut_off_sorio, valve_iolink_gea_tvis_a15"]}
{"id": "C106", "title": "State reported for valves with an IO-Link head", "statement": "The state reported is where the head says the valve is, judged by: port working, no error of the head, time allowed not yet passed since the order, or the head confirming what was asked for; together with manual mode and feedback switched off by setting. With an error of the head or a port that does not work the valve is never reported in order, except at a seat of a GEA valve.", "quantifier": "for all histories with a clock that does not wrap or go back, all bytes received and all settings", "why_tests_cant": "The report depends on the whole history of orders and on all combinations of bits of the head.", "anchors": ["PAC/common/device/valve.cpp: valve::get_state, valve_iolink_mix_proof::get_state, get_valve_state and get_fb_state of the five classes"]}
{"id": "C107", "title": "When a valve with an IO-Link head that does not move is found", "statement": "If an Alfa Laval or Definox valve is ordered once to open and the head never shows it open, the error is reported as soon as the time allowed has passed; if it is ordered to close and never shown closed, also when the order is repeated. Not guaranteed, and false: if the order to open is repeated more often than the time allowed, as programs do in every cycle, the error is never reported; a GEA valve whose head does not react to orders is reported closed and in order for ever; a mixproof seat that does not open is reported closed and in order for ever, while one that is opening can be reported as an error at once because its order does not start the time.", "quantifier": "for all histories before the order, all numbers of repetitions and cycles after it", "why_tests_cant": "The claim is about unboundedly many repetitions of an order over time.", "anchors": ["PAC/common/device/valve.cpp: direct_on, direct_off, direct_set_state, get_fb_state of valve_iolink_mix_proof, valve_iolink_shut_off_thinktop, valve_iolink_shut_off_sorio, valve_iolink_gea_tvis_a15; valve::get_state"]}
{"id": "C108", "title": "Opened, closed and position of valves with an IO-Link head", "statement": "A ThinkTop shut-off valve counts as opened (closed) if it was ordered so and the head confirms it; a Sorio valve if its solenoid is on (off); a GEA valve if only its main solenoid (none) is on and the limit switches agree. The position is a tenth of the signed number in the first two bytes, high byte first (GEA: of the low ten bits of the next two). Not guaranteed, and false, for a mixproof valve: it counts as opened exactly if it is to be open and the head shows it closed, and as closed exactly if it is not to be open and the head shows it open.", "quantifier": "for all histories and all bytes received", "why_tests_cant": "All combinations of orders and bits after any history.", "anchors": ["PAC/common/device/valve.cpp: get_on_fb_value, get_off_fb_value, get_value of the five classes; valve::is_opened, is_closed"]}
{"id": "C109", "title": "Outputs of motors follow the orders", "statement": "After any history the contactors of a motor (with or without reverse, frequency converter on an analog output, error output) and its speed are those of the last order; the contactors for the two directions are never on together; an order to stop switches everything off and the speed to 0. Not guaranteed, and false: that a state number other than 1 or 2 is refused: every number but 0 (and 2, if there is a reverse) starts the motor forward.", "quantifier": "for all eight kinds of motors and all histories of orders, speeds, commands and manual mode", "why_tests_cant": "The two directions must exclude each other after every sequence of calls, tests try a few.", "anchors": ["PAC/common/device/device.cpp: motor::direct_on, direct_off, direct_set_state, direct_set_value, get_value", "PAC/common/device/base.cpp: device::set_cmd"]}
{"id": "C110", "title": "State reported for motors", "statement": "While the feedback agrees with the order the motor is reported as ordered; -1 is reported exactly if it disagrees and the motor was neither switched nor seen in order within the time allowed; otherwise the raw input. Not guaranteed, and false: the direction: a reversed motor ordered to stop is reported running forward until its feedback goes, a motor ordered to reverse is reported reversed while it still turns forward.", "quantifier": "for all kinds, all histories with a clock that does not wrap or go back, all inputs and all settings of the time", "why_tests_cant": "The report depends on the time of the last switching and the last reading in an unbounded history.", "anchors": ["PAC/common/device/device.cpp: motor::get_state, direct_on, direct_off, direct_set_state"]}
{"id": "C111", "title": "When a motor that does not start is found", "statement": "A motor whose feedback stays wrong after an order is reported as an error as soon as the time allowed has passed, also if the order is repeated. Not guaranteed, and false: that the time allowed is granted to a running motor that loses its feedback: if its state has not been read for longer than that time, the first reading after the loss reports the error at once.", "quantifier": "for all histories before the order, all numbers of repetitions, all times", "why_tests_cant": "The claim is about unboundedly many repetitions of an order over time.", "anchors": ["PAC/common/device/device.cpp: motor::get_state, direct_on, direct_off, direct_set_state"]}
{"id": "C112", "title": "Orders reach an Altivar converter", "statement": "After an order (ahead, reverse, stop; a stop while an error is reported resets it) every exchange with the converter after the next answered one carries the command word of that order, until another order; and exchanges do happen: if every call is answered, then of one cycle and 21 cycles more than 200 ms later one has an answered exchange. Not guaranteed, and false: that orders are sent while the connection is up: a converter that refuses one of the configuration writes gets no command word any more, not even to stop.", "quantifier": "for all histories of cycles, orders, commands, speeds and manual mode, both types of converters", "why_tests_cant": "The word is prepared in one cycle and repeated in others; the claim is about all interleavings of orders and cycles.", "anchors": ["PAC/IoT/iot_altivar.cpp: altivar_node::Evaluate, Enable, Disable", "PAC/common/device/device.cpp: motor_altivar", "PAC/common/modbus_client.cpp: async_write_multiply_registers, async_read_write_multiply_registers"]}
{"id": "C113", "title": "State reported for a motor with an Altivar converter", "statement": "The state reported is that of the status word last received (0 not enabled, 1 or 2 enabled with the direction ordered then, -1 otherwise); -100 from the first cycle more than 5 s after the connection was last up until the next answer. Not guaranteed, and false: that a converter which accepts the connection but never answers is reported: its last state stays for any time; that one whose exchange was switched off (state 100) is: its last state stays and nothing is sent to it; that the direction reported is the one of the drive.", "quantifier": "for all histories with a clock that does not wrap or go back and all answers", "why_tests_cant": "The claims are about unboundedly long silence and any sequence of losses and returns of the connection.", "anchors": ["PAC/IoT/iot_altivar.cpp: altivar_node::Evaluate", "PAC/common/device/device.cpp: motor_altivar::get_state"]}
{"id": "C114", "title": "Frequency set for an Altivar converter", "statement": "A speed of at most 100 percent in absolute value is sent, by the exchanges after the next answered one, as that part of the limit of frequency last read from the converter (between 10 and 120 Hz, 120 before the first answer), with an error of at most 0.1001 Hz, and read back with an error of at most 0.001 percent points while the limit stays. Not guaranteed, and false: that it refers to the limit of the converter if set before the first answer (50 percent turn a 50 Hz motor at 60 Hz); that more than 100 percent are refused: 2800 percent are sent as a negative frequency, still larger numbers have no defined conversion.", "quantifier": "for all histories, all finite single precision numbers of absolute value at most 100, all registers of the limit", "why_tests_cant": "All single precision numbers and limits with rounding; the setpoint is kept over unboundedly many exchanges.", "anchors": ["PAC/IoT/iot_altivar.cpp: altivar_node::Evaluate, set_output_in_percent, get_output_in_percent"]}
{"id": "C115", "title": "Orders of a power unit with IO-Link", "statement": "Orders (all channels on or off, one channel, one nominal current) given after a cycle in which none was in progress: until 1 s after the last of them the bytes sent hold what the unit reported in that cycle changed by the orders, and from 300 ms after the last the unit is told to take them; otherwise the bytes sent repeat the report and the unit is told nothing. Not guaranteed, and false: that a repeated order is executed: if no cycle comes more than 300 ms after the order before it, none ever is; that an order before the first cycle counts: instead everything is switched off with nominal currents 0; that a channel which tripped after the order stays off; that an order survives a port away for 1 s; set_state changes nothing; what commands of channels with numbers that do not fit a byte with sign do is not defined, all else is.", "quantifier": "for all histories of cycles, orders and manual mode with a clock that does not go back, all bytes received", "why_tests_cant": "The interplay of the timing of orders and cycles is unbounded; tests try single orders with a fixed delay.", "anchors": ["PAC/common/device/device.cpp: power_unit::evaluate_io, sync_pdout, set_cmd, direct_on, direct_off", "PAC/common/device/device.h: power_unit"]}
{"id": "C116", "title": "Orders and state of a circuit breaker with IO-Link", "statement": "An order for all channels is sent, with the bit that makes the breaker take it and unchanged nominal currents, until the next order as long as the port works; an order for one channel changes this channel only; that bit is on exactly from the first order for all channels after the first cycle; the state reported is minus the state of a port that does not work, else whether some channel is on. Not guaranteed, and false: that orders survive a cycle without the port: then the switches and currents read in the cycle without the port (zeros, for example) are sent, the breaker told to take them; that the nominal currents sent are those of the breaker if the port works from the first cycle on (0 is sent); that an order for a single channel is taken before any order for all.", "quantifier": "for all histories of cycles, orders and manual mode, all bytes received", "why_tests_cant": "The outputs depend on the whole history of port states and orders.", "anchors": ["PAC/common/device/device.cpp: circuit_breaker::evaluate_io, set_cmd, direct_on, direct_off, direct_set_value, get_state", "PAC/common/device/device.h: circuit_breaker"]}
{"id": "C117", "title": "Readings of a power unit with IO-Link", "statement": "After a cycle the state is 1 exactly if the status of some of the eight channels received is not 0, and the value is a tenth of the ten bits of the total current, within 10 microamperes.", "quantifier": "for all histories and all bytes received", "why_tests_cant": "All bytes received and all histories, with rounding.", "anchors": ["PAC/common/device/device.cpp: power_unit::evaluate_io, get_state, get_value"]}
{"id": "C118", "title": "Timers of a program", "statement": "The time of work of a timer is the number of milliseconds since its last reset in which it ran, a timer running from a start to the next pause or reset; time is up exactly while it runs and that number, if below 2^32, exceeds the limit; timers of a group do not influence each other. Not guaranteed, and false: that a timer which is up stays so (after 2^32 ms of work it begins again), that limits of 2^32 - 1 ms and more are ever reached, that a paused timer is up, that timers with numbers that do not exist are different (all these are one timer).", "quantifier": "for all sequences of start, pause, reset and setting of the limit, all times of a clock that does not wrap or go back, all widths of unsigned long from 32 bits, all groups", "why_tests_cant": "The time is a sum over unboundedly many intervals; the cut to 32 bits shows only after 49 days.", "anchors": ["PAC/common/device/device.cpp: timer::start, reset, pause, is_time_up, get_work_time, set_countdown_time, timer_manager::operator[]"]}
{"id": "C119", "title": "Threshold regulators switch with hysteresis", "statement": "A regulator that is on, called with the sensor above the set value by more than the band, has output 0 (reversed 1), below it 1 (reversed 0), and tells the actuator; the output stays and the actuator is told nothing else while the sensor is within the band at all calls and it is not switched off; a sensor that gives no number leaves the output; switched off, and at every call while off, it tells the actuator to be off. Not guaranteed, and false: that its value is 0 while it is off (only after the next call), that it begins with output 0 after being off and on again.", "quantifier": "for all histories of calls, commands, manual mode and parameters, all finite single precision numbers with sums below 2^127, up to the rounding of the sums", "why_tests_cant": "Hysteresis is about unboundedly many calls and all numbers with rounding.", "anchors": ["PAC/common/device/device.cpp: threshold_regulator::direct_set_value, direct_on, direct_off, direct_set_state, get_value, get_state"]}
{"id": "C120", "title": "Pressure sensors with IO-Link", "statement": "If the port of the sensor is in order in the last data received, the value is the number of steps in it (14 or 16 bits with sign, highest byte first) times the step of the article, up to rounding, and the state is the status sent; if it is not, the value is the configured error value and the state -1 (not connected) or -2 (fault). For sensors of 14 bits this holds after any number of cycles without new data, for those of 16 bits only after an even number: after an odd number the two bytes are exchanged. Not guaranteed, and false: that the value stays when no data arrive.", "quantifier": "for all articles, all histories of cycles with and without data, all bytes, all ports", "why_tests_cant": "The bytes are exchanged in the memory that the next cycle decodes again; a test sees it only if it leaves out the transfer between two cycles, in the right parity.", "anchors": ["PAC/common/device/device.cpp: pressure_e_iolink::evaluate_io, get_value, get_state", "PAC/common/bus_coupler_io.cpp: io_device::get_AI_IOLINK_state"]}
{"id": "C121", "title": "Level sensors by pressure; a node that is no longer read", "statement": "The level is the pressure as a percentage of the configured maximum, if that is a number of at least 0.001, up to rounding. Not guaranteed, and false: that a sensor of a node which is no longer read reports it; however many cycles pass, the state is that of the last data (in particular not negative).", "quantifier": "for all articles, all histories of cycles, all maxima, all numbers of missed cycles", "why_tests_cant": "The claim about lost nodes is about unboundedly many cycles.", "anchors": ["PAC/common/device/device.cpp: level_e_iolink::get_value", "PAC/common/bus_coupler_io.cpp: io_device::get_AI_IOLINK_state"]}
{"id": "C122", "title": "Decoding of concentration, level switches and flow meters with IO-Link", "statement": "Conductivity is bytes 0 to 3 (highest first) in thousandths, the temperature bytes 6 to 9 in tenths, the state the upper half of byte 11; a level switch shows its number of 14 bits with sign (LMT: bits 2-15, whole; FTL33: bits 0-13, in tenths) and its bit (LMT bit 0, FTL33 bit 14); a flow meter shows the total of bytes 0 to 3 as sent, the flow of bytes 4 and 5 with sign in hundredths plus the correction, the temperature of 14 bits with sign in tenths; all up to rounding. Not guaranteed, and false: that a conductivity sensor shows temperatures below zero: each shows as more than 200 million degrees.", "quantifier": "for all bytes, all finite corrections up to 2^60", "why_tests_cant": "All values of up to 12 bytes, rounding included.", "anchors": ["PAC/common/device/device.cpp: concentration_e_iolink::evaluate_io, get_value, get_temperature, level_s_iolink::evaluate_io, counter_iolink::evaluate_io, get_flow, get_temperature"]}
{"id": "C123", "title": "Temperature sensors with IO-Link", "statement": "The value is the number of 16 bits with sign sent, in tenths of a degree, plus the correction, up to rounding, on targets where characters have no sign, and for a low byte below 128. On targets where they have one, it is 25.6 degrees too low for a low byte from 128 on (unless the high byte is 128). Not guaranteed, and false: the right value on these targets.", "quantifier": "for all bytes, all finite corrections up to 2^60, both kinds of targets", "why_tests_cant": "A test runs on one target; half of all values are wrong on the other.", "anchors": ["PAC/common/device/device.cpp: temperature_e_iolink::get_value"]}
{"id": "C124", "title": "Scales of Axioline", "statement": "After a reading (32 bits with sign, upper register first) the value is the reading times the coefficient divided by 1000, plus the correction, up to rounding, and the state the fault coded by the reading, until the next cycle, whatever tares and corrections follow; right after a tare the value is exactly 0 and after the next reading the difference of the readings. Not guaranteed, and false: that the value stays when no data arrive (each cycle without data exchanges the registers), that a fault shows in the value: it is then an ordinary number, about -2147483.6 times the coefficient.", "quantifier": "for all histories of cycles, tares and parameters, all readings, all coefficients up to a million", "why_tests_cant": "Rounding for all readings and coefficients; the exchange of registers depends on the parity of cycles without data.", "anchors": ["PAC/common/device/device.cpp: wages_pxc_axl::evaluate_io, tare, reset_tare, get_value, get_state, direct_set_state"]}
{"id": "C125", "title": "A washing line goes through the steps of its program in order", "statement": "Whatever commands, step results, interruptions and object signals a washing line meets, as long as the program is not changed and the washing is not reset, the steps it begins are the steps of the selected program, stage by stage, the highest bit of the program first, and then the final step; only the preparation of a solution may be repeated. If the washing is started with a program and a recipe and all steps succeed, exactly the steps of the program are begun, the end is reported without an abort, the valves of the recipe are put in and out of service and the line is idle, without a program and a recipe. A program with one of the bits 12 to 15 has no steps. Not guaranteed: the course of a program if another program, even an unknown one, is selected during the washing; the washing then ends after the present stage and reports no abort.", "quantifier": "all configurations of tanks and volumes, all programs, all histories of commands, selections, step results and signals before and during the washing", "why_tests_cant": "The course depends on the whole history of commands and results; tests follow single steps, not all interleavings of skipping, pausing, locking and errors over all programs.", "anchors": ["PAC/common/cip_tech_def.cpp: evaluate, EvalCipInProgress, _GoToStep, _LoadProgram, getNexpPrg, _InitStep, loadProgramFromList"]}
{"id": "C126", "title": "Commands of a washing line: lock, pause, resume, reset, skip", "statement": "A line for which no program was chosen begins no step and takes no recipe into service, whatever it is told. A locked line stops its devices in every cycle, does nothing else and ignores all commands but the one to unlock it. Devices work only while the line washes, provided a line is unlocked only if it is locked. A pause stops the devices; after any number of cycles resuming continues the same step without starting it anew. A reset stops the devices, reports an abort, begins no step but the last one and makes the line idle as soon as the delay has passed, whatever the object signals. Skipping alone never leaves the preparation of a solution. Not guaranteed: a line that washes and is told to unlock reports a pause while its devices go on working; a washing that was begun by skipping in spite of a conflict of valves and is then paused can never be resumed.", "quantifier": "all states of a line, all programs and inputs, histories and pauses of any length", "why_tests_cant": "Pauses and locks of any length at any step, and all commands in all states, cannot be enumerated.", "anchors": ["PAC/common/cip_tech_def.cpp: evaluate, EvalBlock, EvalCommands, EvalCipInError, EvalCipInProgress, _Stop, _ResetLinesDevicesBeforeReset, ResetWP"]}
{"id": "C127", "title": "The valves of a recipe are in service exactly while a line washes", "statement": "Over all histories in which no recipe is selected and the line is not unlocked in its first step while the valves of a recipe are in service: an idle line has no recipe in service, and the recipe in service is the one of the line. A start puts the recipe in service unless the valves are in conflict, the devices of the object are not there, or acid is due and the program washes with alkali but not with acid; then nothing is done and the reason is reported. If moreover a refused start is not skipped (nor continued after the check of the devices failed), a line that washes always has the valves of its recipe in service. Not guaranteed: selecting a recipe during a washing leaves the valves of the old one in service for good; so does locking and unlocking while the tank is filled; repeating a start that was refused washes without the valves of the recipe.", "quantifier": "all configurations, all histories of commands, selections, inputs and step results", "why_tests_cant": "The leaks arise only from particular interleavings of selection, locking and refused starts; a test per command does not see them.", "anchors": ["PAC/common/cip_tech_def.cpp: EvalRecipes, EvalCommands, EvalBlock, EvalCipInProgress, EvalCipInError, ResetWP"]}
{"id": "C128", "title": "Two washing lines never use a valve against each other", "statement": "For any number of washing lines with any recipes and any interleaving of their events, two recipes that are in service on different lines never disagree about a valve, that is, none opens a valve that the other one opens or closes (valves with numbers below 1000 apart from 0), provided no recipe is selected and no line is unlocked in its first step while it has a recipe in service. Not guaranteed: the same if a recipe is selected on a line that washes; the check of another line then compares with the new recipe while the old valves are open.", "quantifier": "all numbers of lines, all contents of recipes, all interleavings of events of the lines", "why_tests_cant": "The invariant is about all lines together and all interleavings of their starts.", "anchors": ["PAC/common/cip_tech_def.cpp: getValvesConflict, EvalCommands, EvalRecipes"]}
{"id": "C129", "title": "The valves of a washing station stay within the routes of the step; acid and alkali do not meet", "statement": "At every moment of every history of a washing line (all commands, errors, interruptions, programs, readings and settings, with the setting for the neutralisation unchanged) the valves out of the tanks and the return valves that are open belong to the route of the step set up last; at most one of the return valves into the tanks of water, acid and alkali is open; at most one return valve at all is open, except in the steps that fill the buffer tank with water (31, 61, 65, 71, 75, 81); without neutralisation its valve is never opened. Apart from the cleaning of the station itself (steps 151 to 188), a valve of the acid and a valve of the alkali are never open at the same time. Not guaranteed: one return valve in the filling steps (in step 31 the alkali tank and the drain are both open); that a route is kept during a step (step 176 is set up into the neutralisation but evaluated into the water tank).", "quantifier": "all histories of a line and all moments within them, all readings and settings at each call, any memory of the line at the start", "why_tests_cant": "Valves keep their state from step to step, so what is open depends on all earlier steps and where they were interrupted; the combinations of steps, settings and readings cannot be enumerated.", "anchors": ["PAC/common/cip_tech_def.cpp: _InitStep, _DoStep, _StopDev, _InitToObject, _InitFromObject, _InitOporCIP, _InitFilCirc, _InitOporCirc, _InitCirc, _InitDoseRR, InitFilRR, InitCircRR, SCInitPumping, SortRR, SCPumping"]}
{"id": "C130", "title": "The returned solution is sorted into one place by a recent reading", "statement": "In every step that sorts (24, 33, 34, 35, 111 alkali; 44, 53, 54, 55, 121 acid), after any number of calls with any readings and times, exactly one return valve is open: the tank if at the last sample the concentration reached its limit and at no sample of the 20 s before (while the step went on) the tank was full, otherwise the neutralisation if the solution still has some concentration and there is a neutralisation, otherwise the drain. Samples are taken at the first call and then every 3 s, so the decision is less than 3 s old. When a solution is made in the tank (111, 121) the level of the tank is not looked at. Not guaranteed: that the tank valve is closed as soon as the tank is full (up to 3 s late).", "quantifier": "all states before the step, all sequences of calls with non-decreasing times, all readings, interruptions by errors", "why_tests_cant": "The decision depends on the times and readings of all calls of the last 20 seconds; tests fix a few of them.", "anchors": ["PAC/common/cip_tech_def.cpp: SortRR, _ToObject, _FromObject, _OporCIP, OpolRR, _InitStep"]}
{"id": "C131", "title": "The tank of water is passed by for a minute after it was full or empty", "statement": "In the steps that return water into the tank of water, after any sequence of calls the return goes into the tank if in none of the calls of the last 60 s (since the step was set up) the tank was full, otherwise into the drain; no other return valve is open. In the steps that take water from the tank, its valve is open if in none of the calls of the last 60 s it was empty, otherwise the buffer tank is used; never both, never none.", "quantifier": "all states before the step, all sequences of calls with non-decreasing times, all readings", "why_tests_cant": "The state depends on the times and readings of all calls in the last minute.", "anchors": ["PAC/common/cip_tech_def.cpp: _ToObject, _FromObject, _InitStep"]}
{"id": "C132", "title": "A circulation is fed only as often and as long as set", "statement": "From the beginning of a circulation (alkali, acid or water), whatever the levels and however often it is interrupted and continued, the feeding valve is opened at most as often as set for the object (bits 12 to 19 of its options; 0 stands for 3), and a feeding that is not interrupted ends after 60 s. Not guaranteed: a setting from 128 to 255; where char is signed it switches feeding off.", "quantifier": "all states before, all sequences of calls and interruptions, all readings and times, all settings, circulation not through the tank", "why_tests_cant": "The number of feedings over arbitrarily many calls and interruptions is an invariant, and the sign of char depends on the compiler.", "anchors": ["PAC/common/cip_tech_def.cpp: _Circ, _InitCirc, init_object_devices"]}
{"id": "C133", "title": "The recipes of a washing line behave like a book", "statement": "From a start with a proper file, for every history of renamings (texts of up to 23 characters of the code page, without those that need three bytes in UTF-8 except the numero sign), new values (numbers 1 to 120), choices of another recipe, evaluations, re-readings of the file and copies made by other lines, nothing is accessed outside its memory, and what is read (values, names, the recipe chosen, the list of recipes in use, the same of the file) is that of a book: a new value goes into the recipe chosen, the name shown is put down after 10 s or when another recipe is chosen, the orders reset, copy, paste, clear are carried out once and removed. Recipes not chosen keep all values and names. At shutdown the name shown is written as well. Not guaranteed: a name with a dash or another character of three bytes (what is stored depends on memory never written); a name of 18 characters of four bytes, accepted and then read past its end; value number 121, which is the name of the next recipe (of the last recipe: outside memory); a value whose bits are all set (read as -1000, on 64 bits depending on what was in memory); a copy made within 10 s after renaming (has the old name).", "quantifier": "all files with proper recipes, all histories of proper operations with non-decreasing times, any contents of uninitialised memory, 32 and 64 bits", "why_tests_cant": "Names, values, orders and the shared copy interact over arbitrarily many operations and times; uninitialised bytes cannot be controlled by a test.", "anchors": ["PAC/common/mcaRec.cpp: TRecipeManager::EvalRecipe, getRecipeValue, setRecipeValue, SaveRecipeName, LoadRecipeName, FormRecipeList, ToRecipe, CopyRecipe, PasteRecipe, NullifyRecipe, ReadMem, WriteMem", "PAC/common/cip_tech_def.cpp: cipline_tech_object::set_cmd"]}
{"id": "C134", "title": "Values of recipes are saved after 30 quiet seconds", "statement": "After any history, once an evaluation takes place more than 30 s after the last operation that changed a value (names may be changed, other recipes chosen meanwhile, no order pending), the file holds the values of all recipes. Not guaranteed: values changed every 30 s or more often, for any number of changes none of them is in the file; a new name, which is not written to the file by any number of evaluations unless a value is changed, too.", "quantifier": "all histories, all later quiet operations and times; for the refutations all numbers of changes and evaluations", "why_tests_cant": "That something is never saved however long one waits concerns unbounded histories.", "anchors": ["PAC/common/mcaRec.cpp: TRecipeManager::EvalRecipe, setRecipeValue, SaveToFile"]}
{"id": "C135", "title": "Resetting a recipe", "statement": "After any history, when the order to reset is given and evaluated, every value of the recipe chosen except number 82 has its default, given as a table. Not guaranteed: value 82 (the signal of circulation) is reset; it keeps what was set.", "quantifier": "all histories before, all values 0 to 119 except 82", "why_tests_cant": "The defaults are set one by one in the code; that nothing else is left from any earlier history needs all values and histories.", "anchors": ["PAC/common/mcaRec.cpp: TRecipeManager::ResetRecipeToDefaults, EvalRecipe"]}
{"id": "C136", "title": "Names of media are kept only if they are plain", "statement": "Names of media of at most 29 bytes below 128 are kept by any sequence of choosing media. Not guaranteed: any name with another letter of the code page: it is encoded again each time its medium is chosen again, and if one goes to another medium and back ten times, at the latest the tenth time more than 30 bytes are written to an array of 30; changing a name at all: every name that is accepted is written past the end of its array (90 bytes into 30).", "quantifier": "all names, all sequences of choices; all names with a letter above 127", "why_tests_cant": "The growth shows only after several rounds and depends on the letters; overflows need not show in a test.", "anchors": ["PAC/common/mcaRec.cpp: TMediumRecipeManager::NextRecipe, PrevRecipe, SaveRecipeName, LoadRecipeName, ReadMem", "PAC/common/cip_tech_def.cpp: cipline_tech_object::set_cmd"]}
{"id": "C137", "title": "Selecting a recipe loads its values into the line", "statement": "Selecting recipe 1 to 25 copies its values 2 to 104 into parameters 16 to 118, leaves all other parameters, and gives the name of the recipe and its number. Not guaranteed: with less than 120 parameters nothing is loaded though the recipe counts as selected; a number above 25 reads memory outside the recipes.", "quantifier": "all recipes, names and parameters, all numbers of parameters and selections", "why_tests_cant": "The two ranges are shifted against each other; every index and every count matter.", "anchors": ["PAC/common/mcaRec.cpp: TRecipeManager::LoadRecipeToParams, getRecipeName", "PAC/common/cip_tech_def.cpp: cipline_tech_object::EvalRecipes"]}
{"id": "C138", "title": "Weight of serial scales", "statement": "If the inputs are read in every cycle, state and weight of scales on a serial module are those of the last answer with a text: with a plus sign state 1 and the number of the text put in order, otherwise state -1 and 0; idle and waiting answers change nothing, and after a waiting answer (and only then) the text is asked for. The value shown adds the correction of zero. Not guaranteed: cycles in which reading the inputs fails: after n of them the number shown is that of the text if n is even and of the text with exchanged characters if n is odd (123456 becomes 214365), with a valid state.", "quantifier": "all sequences of answers, any conversion from text to number, all numbers of failed cycles", "why_tests_cant": "The exchange is done in the image of the inputs, so that the value depends on the parity of the number of failed cycles; no single frame shows it.", "anchors": ["PAC/common/device/device.cpp: wages_RS232::get_value_from_wages, set_command, evaluate_io, get_value, get_state"]}
{"id": "C139", "title": "Weight of Ethernet scales", "statement": "For every sequence of whole messages, state and weight of scales on Ethernet are those told: a message with unit kg gives state 1 and its number, another one gives state 0 and leaves the weight. Not guaranteed: a lost connection is reported (any number of cycles without data leaves state and weight); a negative weight (the sign is not looked at: -12.5 kg is shown as 12.5 kg); parts of messages (after a whole message up to eight bytes of the next one give state 1 and a number made of both).", "quantifier": "all sequences of messages, any conversion from text to number that stops at the unit", "why_tests_cant": "A stale value for any time and a mixture of messages depend on unbounded histories of receptions.", "anchors": ["PAC/IoT/iot_wages_eth.cpp: iot_wages_eth::evaluate, convert_value", "PAC/common/device/device.cpp: wages_eth::evaluate_io, get_state"]}
{"id": "C140", "title": "Weight of strain gauges", "statement": "The weight kept by scales with strain gauges is never not-a-number, whatever the channels give. Within 500 ms after a sample all calls show the same value; a later call with a weight differing by more than P_DT shows it. After taring, in any history, all calls show zero as long as the readings stay within P_DT of the tared weight (also if P_DT is 1 or more, when weights are rounded up). Not guaranteed: errors (no coefficient, no supply) stay visible: -1001 or -1002 is shown by the call that takes the sample only, all calls of the next 500 ms show the last weight.", "quantifier": "all bit patterns of readings and parameters, all histories of readings, tarings and corrections, all clocks with non-decreasing times", "why_tests_cant": "Exact cancellation in floating point and the absence of not-a-number concern all bit patterns and arbitrarily long histories.", "anchors": ["PAC/common/device/device.cpp: wages::get_weight, tare, get_value"]}
{"id": "C141", "title": "The volume of a tank is accurate", "statement": "For tanks of sensible size the volume computed from the level is defined, not negative, in tens of kilograms, and differs from the exact volume by at most 5.01 kg and one millionth (cylinder) or two millionths (cylinder on a cone, for a height that differs from the exact one by less than a millionth). The same with sensors with IO-Link, where a cone of height zero or less means a cylinder.", "quantifier": "all floats: radius, maximal pressure and level from 0 to 1000, up to 2000000 cubic metres (cylinder); radius to 50 m, height to 200 m, cone from 1 mm to 200 m (cone)", "why_tests_cant": "The error of a chain of roundings has to be bounded for all floats; tests check a few.", "anchors": ["PAC/common/device/device.cpp: level_e_cyl::calc_volume, level_e_cone::calc_volume, level_e_iolink::calc_volume"]}
{"id": "C142", "title": "A higher level gives no smaller volume", "statement": "In a cylinder a higher level never gives a smaller volume, whenever both are defined. With a cone this holds for levels below a limit and for levels above it. Not guaranteed: at the limit, the upper edge of the cone: with a radius of 13.95 m, a cone of 13 m and 2 bar the next higher level gives 10 kg less.", "quantifier": "all floats as levels and parameters that are not negative", "why_tests_cant": "Monotony concerns all pairs of floats; the exception is a single pair of neighbours.", "anchors": ["PAC/common/device/device.cpp: level_e_cyl::calc_volume, level_e_cone::calc_volume"]}
{"id": "C143", "title": "Levels without a volume", "statement": "In a state of error the volume is the parameter P_ERR without its fraction, whatever is measured. With a second sensor that shows more than the first one the volume is zero or negative, in a good state. Not guaranteed: any behaviour if the level or a parameter is not a number (the conversion is undefined).", "quantifier": "all floats", "why_tests_cant": "Undefined behaviour does not show in a test; the sign concerns all floats.", "anchors": ["PAC/common/device/base.cpp: level::get_volume", "PAC/common/device/device.cpp: level_e_iolink::calc_volume, level_e_cyl::calc_volume"]}
{"id": "C144", "title": "Steam only with heating, flow and pump, and not before 1.2 s", "statement": "If the steam valve of a washing line is open after a call of the control cycle, then in this call the heating was switched on, its output was above 1 percent, there was a flow and the pump ran; and this was so in all calls since a time more than 1.2 s ago, or another part of the program has opened the valve since. Conversely the valve is open when this was so in all calls for more than 1.2 s and no other part closed it. Not guaranteed: the start of a program that fills pipes opens the valve without heating, flow or pump; the next call closes it.", "quantifier": "all histories of calls and other uses of the regulators, in order of time; all measurements", "why_tests_cant": "Safety over all histories and all readings of the clock; a test checks one sequence.", "anchors": ["PAC/common/cip_tech_def.cpp: cipline_tech_object::EvalPIDS, InitFilRR"]}
{"id": "C145", "title": "The pump stops and restarts with the signals of the object", "statement": "In every call with the signal of pause or without the permission for the pump, the last commands to the pump are stop and value 0, the heating gets 0, and the pump is not started. The pump is started in a call if and only if a signal is there, none forbids it, the step wants the pump and the pump was stopped by a signal before and not restarted since; then both regulators start from zero. The report that the pump stands is written only if its device is there: with forbidden pump it is true exactly when the flow is below the limit, with permitted pump false.", "quantifier": "all histories of calls and other uses of the regulators; all measurements and sets of devices", "why_tests_cant": "The restart depends on a flag set arbitrarily long before.", "anchors": ["PAC/common/cip_tech_def.cpp: cipline_tech_object::EvalPIDS"]}
{"id": "C146", "title": "The output of the regulators of a washing line stays in its range", "statement": "Without manual mode, with sensible settings, every value written by a regulator is a number from 0 to the limit in force (100 percent without a limit), up to one part in four million. Not guaranteed: after one measurement that is not a number at a recalculation every later output is not a number until the regulator is reset or manual mode is used; after manual mode the output reaches 130 percent (manual value 80) because the manual value is added to the ramp of acceleration.", "quantifier": "all histories with sensible settings; all moderate measurements and tasks; all clocks", "why_tests_cant": "The range has to hold after arbitrarily long histories of rounded sums; the spread of not-a-number has no end.", "anchors": ["PAC/common/cip_tech_def.cpp: MSAPID::eval, MSAPID::pid_eval, MSAPID::acceleration"]}
{"id": "C147", "title": "The regulators of a washing line follow the law of regulation", "statement": "When the interval is over, the new result differs from the exact incremental law (limited to 0..100) by at most 20 units of 2^-24 of the size of its terms, and the error from the exact percentage by 10 units; before that nothing changes. After the zone of acceleration, without a limit, the output is this result.", "quantifier": "all states after histories with sensible settings, without manual mode; all moderate measurements", "why_tests_cant": "Accuracy of floating point for all operands; tests compare a few values.", "anchors": ["PAC/common/cip_tech_def.cpp: MSAPID::eval, MSAPID::pid_eval"]}
{"id": "C148", "title": "Manual mode of the regulators begins and ends without a jump", "statement": "The first output in manual mode is the last automatic one; then every output is the manual value; the first output after manual mode is the last manual value, whatever is measured. Not guaranteed: switched off in manual mode and reset more than 3 s later, at the start of a program, the regulator first gives the old manual value although manual mode was cleared.", "quantifier": "all histories before manual mode and in it; all measurements and manual values", "why_tests_cant": "Histories of any length between the switches.", "anchors": ["PAC/common/cip_tech_def.cpp: MSAPID::eval, MSAPID::pid_eval, MSAPID::reset"]}
{"id": "C149", "title": "The average of a concentration is weighted with the volume", "statement": "For growing readings of the counter below 2^21 litres the average differs from the mean weighted with the litres by at most 3.5 times 2^-24 times the largest value times the litres plus one. Readings not above the highest one before, for instance after the counter was set back, change nothing. Not guaranteed: the average of a constant is the constant (0.9 after 3 litres).", "quantifier": "all histories of readings; all values of a given size", "why_tests_cant": "The error of arbitrarily many rounded steps has to be bounded by induction.", "anchors": ["PAC/common/cip_tech_def.cpp: TSav::Add, TSav::Q"]}
{"id": "C150", "title": "The text of a device tells its mode, state, value and parameters", "statement": "Reading the text that a device gives to the server yields its name and exactly the fields M, ST (not for analog outputs), V (not for devices that only have a state) and one field for each named parameter, in this order. Every field of a finite number reads as a number that differs by at most 0.005 and is equal if the number is whole. Not guaranteed: numbers that are infinite or not a number are written as words; a camera writes its result and readiness as the characters percent and d instead of numbers.", "quantifier": "all devices whose names have no characters of the syntax; all states, values, parameters and prefixes of blanks", "why_tests_cant": "All numbers of single precision, all lists of names; a test compares a few texts.", "anchors": ["PAC/common/device/base.cpp: device::save_device, par_device::save_device", "PAC/common/device/device.cpp: camera::save_device_ex"]}
{"id": "C151", "title": "A command with the name of a parameter sets exactly this parameter and keeps it", "statement": "The command sets the first parameter with this name, in use and in the memory that survives a restart, answers 0 and changes nothing else; with an unknown name it answers 1 and changes nothing. After any history a parameter has the value given last by a command or by the program, and after a restart the value given last by a command. Not guaranteed: if a parameter without a name comes before, the command has undefined behaviour.", "quantifier": "all histories of commands, orders, settings and restarts; all numbers of parameters and all numbers", "why_tests_cant": "Histories of any length; the loop over names of any number of parameters.", "anchors": ["PAC/common/device/base.cpp: par_device::set_par_by_name, par_device::set_par, device::set_cmd", "PAC/common/param_ex.h: saved_params::save"]}
{"id": "C152", "title": "The first acceptable name of a parameter is its name", "statement": "After any history a parameter has the first name of at most 25 characters that was given to its index, and none if there was no such name; names for other indices, later names and too long names change nothing. The index is the sum of offset and number modulo 2^32.", "quantifier": "all histories; all offsets and numbers; all names", "why_tests_cant": "All orders of naming, all 32-bit sums.", "anchors": ["PAC/common/device/base.cpp: par_device::set_par_name"]}
{"id": "C153", "title": "In manual mode only commands change a device", "statement": "After any history the manual mode is what the last command M with 0 or 1 said since the last restart; state and value are what the last effective event made, where orders of the program are effective only without manual mode and commands always. In manual mode no sequence of orders changes anything. A command answers 1 exactly if its first letter is not S, V, M or P or the parameter is unknown. Not guaranteed: only the first letter counts, so an unknown name that begins with S sets the state; a state that does not fit into 32 bits is undefined behaviour.", "quantifier": "all histories of commands, orders and restarts; all numbers", "why_tests_cant": "The effect depends on the whole history of the manual mode.", "anchors": ["PAC/common/device/base.cpp: device::set_cmd, device::off", "PAC/common/device/device.cpp: i_DO_device::on, instant_off, set_state, i_AO_device::set_value"]}
{"id": "C154", "title": "Parameters sent back from the text are restored", "statement": "If all parameters have different names that begin with P, sending the fields of the text of one device as commands to a device with the same names gives only answers 0 and restores every parameter: exactly if it is whole, otherwise up to 0.005 and one rounding to single precision; the values are kept over a restart. Not guaranteed: with two parameters of one name the second keeps its old value.", "quantifier": "all pairs of devices after any histories; all finite parameters; all readings of decimal numbers as double precision", "why_tests_cant": "Round trip over all numbers and any number of parameters.", "anchors": ["PAC/common/device/base.cpp: par_device::save_device, device::set_cmd, par_device::set_par_by_name"]}
{"id": "C155", "title": "A virtual counter with resets, settings and commands counts the growth since the last new start", "statement": "After any mix of readings, settings, resets, pauses, orders and commands that give no value directly, the quantity is exactly the amount set last (0 after a reset or an effective order off; in manual mode orders have no effect) plus all growths of the reading since, as long as it stays below 2^24 litres. Pauses and all other changes of the state have no effect on what is counted. Not guaranteed: a pause does not stop counting; from 2^24 litres on, growths of one litre are lost for ever.", "quantifier": "all histories of any length; all 32-bit readings", "why_tests_cant": "Histories of any length; exactness of sums in single precision.", "anchors": ["PAC/common/device/base.cpp: virtual_counter::eval, set, reset, set_cmd, direct_off, get_quantity"]}
{"id": "C156", "title": "The absolute counter of a virtual counter is the total modulo 2^32", "statement": "After any history the absolute counter equals the amount given last (by setting, by command or 0 by reset) plus all growths since, modulo 2^32, the flow is the one given last, and the state (1 working, 2 paused) is the one of the last effective order, pause, start or command S. A command answers 1 exactly if its first letter is none of A, F, S, V, M, otherwise 0. A command is undefined behaviour exactly if its name begins with S and the number does not fit a 32-bit signed integer or begins with A and it does not fit an unsigned one. Not guaranteed: when the source starts again from zero, the litres before its first reading are lost.", "quantifier": "all histories of any length; all 32-bit readings; all numbers", "why_tests_cant": "Unbounded totals that wrap; all histories.", "anchors": ["PAC/common/device/base.cpp: virtual_counter::eval, set, abs_reset, get_abs_quantity, set_cmd"]}
{"id": "C157", "title": "The output of a camera", "statement": "While the clock is below 2^32 ms and the tolerance is at most 2^24 ms, after any history the output of the camera is what the last effective order or command S said, except that every evaluation at which the camera has not been ready for the tolerance P_READY_TIME or longer switches it on; manual mode holds back orders but neither commands nor evaluations. Not guaranteed: a camera that was switched off is switched on by not being ready; with a 64-bit clock beyond 2^32 ms nothing is tolerated: the first evaluation without ready switches the output on; the state the camera reports is always 0.", "quantifier": "all histories of evaluations, orders and commands; all tolerances up to 2^24 ms; clocks of 32 to 64 bits", "why_tests_cant": "Histories of any length, times up to 49 days, rounding of the delay to single precision.", "anchors": ["PAC/common/device/device.cpp: camera::direct_set_state, camera_DI2::evaluate_io, camera_DI3::evaluate_io, camera::set_cmd"]}
{"id": "C158", "title": "Readiness and results of a camera", "statement": "After any history the camera is ready exactly if the last evaluation saw the signal or a later command READY was above zero; the first result is the present input, the second the one of the last evaluation, any other result is 0. A step is undefined behaviour exactly for a command RESULT or a name beginning with S with a number that does not fit a 32-bit integer. Not guaranteed: a command RESULT has no effect on the results.", "quantifier": "all histories; all inputs and numbers", "why_tests_cant": "Histories of any length.", "anchors": ["PAC/common/device/device.cpp: camera::get_result, camera::set_cmd, camera_DI3::get_result, camera_DI3::evaluate_io"]}
{"id": "C159", "title": "An analog valve with IO-Link sends the position asked for last", "statement": "After any history of cycles, orders and commands the four bytes sent hold, highest byte first, the position asked for last after the first cycle: 100 for on, 0 for off, the value of the order or of the command V; manual mode holds back orders but not commands. The bit for the light is the last command B after the first cycle and the other seven bits never change. With an output channel the only undefined step is a command that begins with S, other than S_DEV, with a number that does not fit a 32-bit integer; without one every write after the first cycle crashes the program. Not guaranteed: orders before the first cycle are lost for ever; positions are not limited to 0..100 %, any number is sent as it is; an order for the state moves nothing.", "quantifier": "all histories of any length; all 32-bit patterns; all initial bytes", "why_tests_cant": "Histories of any length, all positions.", "anchors": ["PAC/common/device/valve.cpp: analog_valve_iolink::direct_set_value, direct_on, direct_off, evaluate_io, set_cmd", "PAC/common/device/device.cpp: analog_io_device::set_cmd"]}
{"id": "C160", "title": "An analog valve with IO-Link reports the data received last", "statement": "After any history the position reported is the first four bytes received last, highest first; the state is the lower six bits of the tenth byte, opened and closed its bits 6 and 7, the NAMUR state the ninth byte. Cycles without data keep the old ones. Before the first data the valve counts as closed, but position and state are not initialised. The light reported is the last command for it. Not guaranteed: the light reported may not have been sent.", "quantifier": "all histories of any length; all data", "why_tests_cant": "All contents of the data, histories of any length.", "anchors": ["PAC/common/device/valve.cpp: analog_valve_iolink::evaluate_io, get_value, get_state, save_device_ex"]}
