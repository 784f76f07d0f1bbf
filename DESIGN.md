# Formal model of ptusa_main: design

Source: `/repo` (savushkin-r-d/ptusa_main, pinned commit). The code is read as
text only; nothing is built or run. All line numbers cite `/repo`.

## Layout of the development

`rocq/theories/` holds, per area `X`:

* `XModel.v`  - total computable Gallina functions, one per modelled C++
  function, each with a comment citing file and lines and every simplification;
* `XSpec.v` (or the head of `XProps.v`) - the small, independent specification a
  reader compares with the English property;
* `XProofs*.v` - lemmas;
* `XProps.v`  - the property theorems `Cnn_...`, the non-vacuity `Example`s and
  `Print Assumptions`.

## Conventions

* Machine integers are `Z` with the wrap written explicitly (`u32`, `u16`, `u8` =
  `mod 2^k`; `s16`, `s32` two's complement) wherever a property depends on the
  width. `unsigned long` has `W` bits, `W` a parameter of the theorems, in the
  clock and network areas; it has 32 bits in the operation area.
* Memory is a total function from addresses to bytes or a list; an access outside
  the modelled object and every other undefined behaviour is a distinct outcome
  (`None`), never a default value.
* External behaviour (clock, sockets, files, Lua callbacks, device signals) is an
  argument of the step function, so a theorem about all histories quantifies over
  all behaviours of the outside.
* Floats are bit patterns. Where their value matters (recipe files, PID, analog
  channels) it is the exact rational number of the bit pattern, and an operation is
  the exact result rounded to nearest, ties to even.
* A property the code violates is stated with the exact boundary, and a theorem
  `..._refuted` exhibits the violation.

## Trusted base

1. The kernel of Coq 8.16.1, including `vm_compute`.
2. What `Print Assumptions` lists, see "Assumptions": nothing.
3. The faithfulness of the model files to the C++ text, definition by definition, as
   recorded in the comments. Nothing is extracted from the C++ code mechanically.
4. The behaviour of the compiler, the operating system and the C++ library: integer
   arithmetic of the stated widths, IEEE binary32 with rounding to nearest, the
   formats of `operator<<`, `operator>>`, `std::regex` and `strtof` as modelled in
   `FTextModel.v` and `RecModel.v`, POSIX sockets as oracle.

## What is modelled

| area | source | modelled | not modelled |
|------|--------|----------|--------------|
| Nv | `PAC/common/sys/base_mem.*`, `PAC/linux/l_mem.cpp` | `NV_memory_manager::get_memory_block`, `memory_range::read/write/check_params`, `SRAM` file offsets | `eeprom_PAC`, Windows build |
| Param | `PAC/common/param_ex.*` | `params_manager` (init, solve_CRC, save, get_params_data, reset), `parameters`, `saved_params`, `run_time_params` accessors, start-up as a list of storage writes with a crash after any prefix | Lua bindings, text dump of parameters |
| Time | `PAC/linux/l_dtime.cpp` | `get_delta_millisec` | the clock itself |
| Err | `PAC/common/PAC_err.*`, `common/PAC-driver/g_errors.*`, `tech_def.cpp` (`set_err_msg`) | critical errors, device alarms and their acknowledgement, messages of objects, siren and lamps | text of the messages, Lua serialisation |
| Modbus | `PAC/common/modbus_serv.*` | byte codecs, coil packing, list confirmation | dispatch to Lua handlers |
| Utf | `common/util/utf2cp1251.cpp` | both conversions, `utf8_strlen` | |
| Mc | `PAC/common/modbus_client.*` | buffer accessors, request building, synchronous and asynchronous calls | byte contents beyond the exchange buffer |
| Io | `PAC/common/uni_bus_coupler_io.*`, `bus_coupler_io.*` | requests to and answers from WAGO and Phoenix couplers, reconnection, link errors | Windows part, statistics |
| Op | `PAC/common/operation_mngr.*` | `operation`, `operation_state`, `step` state machines, times, extra steps | the devices inside actions (events instead) |
| Tech | `PAC/common/tech_def.*` | `set_mode`, `set_cmd`, `set_extra_step`, restrictions, automatic switching on and off, evaluation | parameters, timers, Lua text |
| Net | `PAC/common/tcp_client.*`, `tcp_cmctr.*`, `PAC/linux/l_tcp_client.cpp`, `l_tcp_cmctr.cpp` | connection state machines, waiting times, descriptors, polling, framing of replies | contents of client buffers, statistics |
| FText | GNU C++ library as used by the files | printing and reading of `int` and `float` | other formats |
| Rec | `PAC/common/params_recipe_manager.*` | storages, adapters, manager, files, text commands | `save_device` text, Modbus access to recipes |
| Service record (Pac) | `PAC_info.cpp` eval, constructor, reset_params, set_cmd for restrictions mode, period and NODEENABLED; `uni_bus_coupler_io.cpp` 512-533 | running time with three clock readings per cycle and 32-bit storage of an unsigned long of 32 or 64 bits; mode in memory and in storage; exact rational command values with undefined casts; service and connection alarms of couplers | text of the record (save_device), commands of OPC UA and script reload, other parameters (plain saves) |
| Washing statistics (Stat) | `cip_stats.cpp`, `cip_stats.h`; call sites in `cip_tech_def.cpp` (571, 723, 1709, 1900, 2017, 2910-2916, 5536-5546) | text of the file byte by byte, reading with the library's stream states, uninitialised variables and bytes of buffers as distinct outcomes, the map in strcmp order, histories with saving and restart | the shared default record of lines without an object; the rest of `cip_tech_def.cpp` |
| Float | arithmetic of `float` as the compiler gives it on the target (IEEE single, one rounding per operation) | bit patterns; add, subtract, multiply, divide, compare, conversion from and to integers; exact rational result rounded once to nearest even; agreement with the standard library's `SpecFloat` on 64 x 64 sample operands is an example | payload and sign of NaN, contraction to fused multiply-add, extended precision |
| Channels (Aio) | `bus_coupler_io.cpp` 44-519 | discrete and analog channels of a device, every type of module, all scales | channel set-up by number and name, IO-Link data (588-626) |
| Regulator (Pid) | `PID.cpp`, `PID.h` | evaluation, switching, manual mode, start, commands of both kinds, all on `float` bit patterns; clocks of any width; undefined casts | one reading of the clock per call; the sensor and actuator are inputs and outputs; storage of parameters (see Params); debug output; `DEBUG_PID` build |
| Actions (Act) | `operation_mngr.cpp` 600-1891 (actions, step), `operation_mngr.h` 60-470 | commands of every action on the state, value and seat mark of devices, in order; seat washing; delays; jumps; enabling; checks; names of failing devices; additions | devices obey commands unless in manual mode (state 0, 1, 2, 3 and value only; checks inside `set_state` of particular devices are not modelled); texts of reasons; one reading of the clock per step; printing and saving |
| Valves (Valve) | `valve.cpp` 15-427, 429-1225, 3175-3302, `valve.h` 11-402, 405-443, 530-631, `device.cpp` 318-351, 2202-2233, `base.cpp` 211-243, 321-353 | orders, seats, state commands, manual mode, the queue of valves being closed, the service cycle, feedback and reported states of eleven classes; clocks of any width | valves on a bus (AS-i, IO-Link); the emulator; channels that are missing or shared; allowed times that are not whole or beyond 2^24 ms; texts and logging; one reading of the clock per call |
| Counters (Ctr) | `device.cpp` 1006-1631, 2555-2584, 2674-2708, `device.h` 771-796, 961-1059, 1117-1341, `base.h` 119-184, 859-913, `base.cpp` 530-685 | filtered inputs, level switches, counters of volume (plain, with flow, IO-Link): cycles, orders, supervision, daily values; the virtual counter; all on `float` bit patterns; clocks of any width | the emulator; texts; decoding of IO-Link data; one reading of the clock and the channels per call; flow, least flow and times are inputs |
| Signal columns (Hla) | `base.cpp` 799-1258, `base.h` 991-1157, `device.cpp` 54-157, `device.h` 1344-1384 | lamps, siren, blinking, events of several objects, commands, manual mode, channels (discrete, IO-Link) | the emulator; the dummy record before the first cycle of an IO-Link column; texts; bits of the IO-Link word |
| Valves in shared bytes (Bus) | `valve.cpp` 2208-2512, 2656-2752, 2771-3172, 107-287, `valve.h` 446-527, 939-1074, `bus_coupler_io.cpp` 608-676, 1049-1098, `uni_bus_coupler_io.cpp` 344-350, 463-470 | AS-interface valves and pneumatic terminals: bits, orders, seats, manual mode, feedback, reported state | the emulator; sizes of nodes; delayed closing (in ValveModel); texts |
| Valves with IO-Link head (Iol) | `valve.cpp` 1226-2205, 107-286, `valve.h` 633-936, `bus_coupler_io.cpp` 554-606, 629-651 | five classes: bytes exchanged, orders, seats, light, manual mode, feedback, reported state, opened/closed, position | the emulator; delayed closing (in ValveModel); texts, logging |
| Motors (Mot) | `device.cpp` 2274-2519, 319-353, `device.h` 822-862, `base.cpp` 232-238, 321-353, 477-480 | contactors, speed, orders, commands, manual mode, feedback, reported state | the emulator; texts; the analog output channel (AioModel) |
| Altivar converters (Atv) | `iot_altivar.cpp` 101-388, `iot_altivar.h` 15-89, `device.cpp` 3757-3837, `modbus_client.cpp` 212-255, 627-710 | steps of the exchange, configuration, command word, state, limit and frequency, watch on the connection | the transport (McModel, here an input: result of a call, registers, connection); rpm, current, measured frequency; the emulator |
| Power (Pow) | `device.cpp` 618-750, 796-1003, 3111-3292, 319-353, 3462-3491, `device.h` 278-354, 1565-1702, `base.cpp` 212-238, 321-353 | bytes received and sent, orders, timing, manual mode, state, value | the emulator; texts; values of commands that are not whole numbers; several devices sharing the record used before the first cycle |
| Timers, regulators (Tmr) | `device.cpp` 3526-3654, 497-616, `device.h` 1704-1806, 1518-1562, `base.cpp` 232-238, 321-353 | timers, groups of timers, hysteresis, orders to the actuator, manual mode | a clock that wraps; the sensor and the actuator themselves; regulators without sensor or actuator (do nothing); texts |
| Sensors with IO-Link, scales (Sen) | `device.cpp` 1462-1479, 1496-1499, 1537-1541, 1732-1748, 1975-2058, 2586-2620, 2660-2672, 2804-2831, 2839-2846, 2956-3077, 3367-3407, `device.h` 120-123, 242-255, 453-463, 618-638, 1001-1012, 1329-1338, `bus_coupler_io.cpp` 588-606 | decoding of bytes, state of the port, cycles without data, tare | the emulator; texts of devices; `calc_volume`; the filtering of level switches is C87 and C88, what counters do with the numbers is C89 to C94 |
| Washing sequencer (Cip) | `cip_tech_def.cpp` 36-61, 1242-1384, 1490-1522, 1610-1628, 1696-1718, 1773-2241, parts of 2243-2478, 2891-2965, 3148-3252 and the start values | commands, locking, the order of the steps, pause and resume, errors, reset, putting recipes in and out of service, the check of valves between lines | what a step does, the car wash, the cleaning on request of other lines, functions in Lua, lists for panels, statistics |
| Routes of the washing station (Rte) | `cip_tech_def.cpp` 1524-1606, 2246-2477, 2746-2926, 3431-3561, 3614-3801, 3863-3961, 4101-4213, 4335-4416, 4506-4690, 4725-4809, 4833-5267, 5337-5600, 5614-5635, 5681-5693, 6072-6242, 6445-6583, as far as the valves V00-V12 are concerned | the valves V00 to V12 ordered by setting up and evaluating each step, sorting, the tank of water, feeding, stopping | pumps, regulators, steam, washing heads and drains of the tanks, the end conditions of the steps (inputs), functions in Lua |
| Recipes of washing lines (Mcr) | `mcaRec.cpp` 27-134, 141-166, 174-219, 241-406, 519-633, of media 685-715, 806-809, 894-897, 949-964; `cip_tech_def.cpp` 540-544, 607-649, 1690-1704, 2000-2003 | memory of the recipes byte by byte, names, values, orders, list, file, selection; names of media | valves and devices listed in recipes (407-517), values and files of media, Modbus access |
| Scales (Wgh) | `device.cpp` 1801-1886, 1907-1922, 2074-2107, `device.h` 540-559, 685-705, `iot_wages_eth.cpp` 12-53 | serial scales, scales on Ethernet, strain gauges | the emulator; conversion of a text to a number is an argument of the model; the connection itself |
| Volumes of tanks (Lvl) | `device.cpp` 2154-2163, 2175-2199, 2751-2802, `base.cpp` 756-764 | cylinder, cone, two sensors, state of error; undefined conversions | the emulator; reading of the level (Aio, Sen) |
| Regulators of washing lines (Reg) | `cip_tech_def.cpp` 7542-7793, 2480-2599, 7797-7831, `cip_tech_def.h` 438-542 | regulators, permission of the pump, steam valve, average | the steps that switch the regulators (events of the model); devices in manual mode are inputs |
| Simple devices (Dev) | `device/base.cpp` 44-183, 211-243, 265-303, 321-374, `device/device.cpp` 202-207, 319-351, `param_ex.h` 191-218, 489-506 | parameters by name, commands, manual mode, text for the server | overriding methods of derived classes; `save_device_ex` except of the camera; the buffer's size |
| Virtual counters (Vct) | `device/base.cpp` 530-685, `base.h` 859-913 | readings, settings, resets, states, commands, manual mode | text |
| Cameras (Cam) | `device/device.cpp` 160-303, `device.h` 1389-1465 | `camera_DI3`: evaluation, results, orders, commands | emulation; several parameters |
| Analog valves with IO-Link (Van) | `device/valve.cpp` 2515-2653, `valve.h` 1095-1153, `device/device.cpp` 3462-3491 | position and light sent, data received, orders, commands | emulation; text |

Not modelled at all: devices (`PAC/common/device/`) other than valves on discrete
channels, gateways, terminals and with IO-Link heads, counters, filtered inputs, signal columns, motors, power units and breakers, timers, threshold regulators, the sequence of washing programs and its valves, sensors with IO-Link, scales, the common parts of simple devices, virtual counters, cameras, analog valves with IO-Link, line managers, OPC UA, RFID, Profibus, Lua manager, the main loop and its command line, everything under
`PAC/win`, and the third-party code.

Simplifications common to several areas: one clock reading per call of a function
that reads the clock more than once; a Lua function does not call back into the
object it is called from; the table of restrictions is constant; a technological
object has as many operations as announced to its constructor; diagnostic output is
left out.

## Plan per property

| id | modelled | how proved |
|----|----------|-----------|
| C01, C02 | bump allocator of `NV_memory_manager`, bounds check of `memory_range` with 32-bit wrap, file offset of `SRAM` | invariant over request lists; refinement to per-block arrays |
| C03, C05, C06 | `params_manager` RAM image + storage, `parameters`/`saved_params` templates | refinement to a pair of maps (RAM, storage) keyed by (array, index) |
| C04 | start-up as a list of atomic storage writes, crash = any prefix | case analysis; refutation witness |
| C07 | error vector of `PAC_critical_errors_manager` | induction over op lists, "last operation" spec |
| C08, C09, C47, C48 | `tech_dev_error`, `tech_obj_error`, `errors_manager`, `set_err_msg` | history predicate by induction; fold over devices; invariant on numbers |
| C10 | `siren_lights_manager::eval` | invariant over evaluations |
| C11, C12 | `operation` state machine with oracle results | invariant over command lists, event trace |
| C13, C14, C56-C58 | `operation_state` main and extra steps, times, pauses | invariant, trace of step start/stop events, sum over stretches |
| C15 | numeric decoding of `tech_object::set_cmd` | arithmetic, decode/encode |
| C16, C17, C59, C60 | `tech_object::set_mode` + restrictions, automatic switching | invariant over histories of several objects |
| C74, C75 | the actions of a step as lists of commands executed on device states; histories of steps | last order per action, composed over the step; invariant over histories composed with C12 |
| C76 | seat washing automaton | invariant relating position to the number of finished openings |
| C77-C80 | jumps, enabling, names of devices, additions, checks | characterisation by induction over groups |
| C81, C83 | orders to close, the queue of valves, service cycles, the small valve of a bottom valve | projection of the plant on one valve (its state and its number of places in the queue), invariants over histories |
| C82, C84 | state commands, seats, outputs of eleven classes of valves | case analysis of the classes, invariant of outputs |
| C85, C86 | reported state, feedback, pulses of bistable valves | invariant on the time of the last switching, induction on histories |
| C87, C88 | filtered inputs, level switches | invariant on the last reading that agreed, induction on readings |
| C89, C90, C93, C95 | counters on `float` bit patterns: totals, values, daily values, virtual counters | exactness of addition of whole numbers below 2^24, sums by induction over cycles |
| C91, C92, C94 | supervision of the pump, faults of the channel, conversions | invariant on the begin of supervision, order of floats |
| C96 | requests of a cycle to a signal column | invariant: the lamps are those of the event shown; the event shown by induction on requests |
| C97 | blinking of a lamp over cycles | projection on one lamp, invariant on the begin of the phase |
| C98, C99 | reports, commands and channels of signal columns | invariant on lamps and outputs, case analysis of commands, first places in a text |
| C100-C102 | valves with solenoids in shared bytes | invariant per valve relating bits, sent bits and times to the past of that valve; frame by disjoint ownership |
| C103, C104 | missing channels, numbers not checked | case analysis of classes, bit arithmetic |
| C105-C108 | valves with an IO-Link head | invariant relating output byte, input record and time of switching to the past; report as a function of the past; counterexamples for every number of repetitions |
| C109-C111 | motors on discrete outputs | invariant relating outputs, speed and times to the past; report as a function of the past |
| C112-C114 | motors with an Altivar converter | invariant of the prepared registers (carried words); rank of the steps (liveness); past computed from the trace (state, limit); relative rounding errors (frequency) |
| C115, C117 | power units with IO-Link | invariant relating the order in progress, its time and the record to the past; induction over orders and over cycles |
| C116 | circuit breakers with IO-Link | invariant of the flag, port and manual mode; exact effect of reconnection |
| C118 | timers | induction over the calls from the end; the time as a count of milliseconds |
| C119 | threshold regulators | invariant of parameters; induction over calls within the band; rounding bounds |
| C120-C121 | pressure and level sensors | induction over missed cycles with the bytes in memory; relative rounding bounds |
| C122-C123 | other sensors | decoding of bytes against positions; rounding bounds |
| C124 | scales | induction over missed cycles; rounding bounds; exact cancellation |
| C125 | prefix invariant between the steps begun and the plan of the program; completion by induction on what is left of the plan | Cip |
| C126-C127 | invariants over histories (locked, busy, recipe in service); pause and reset by evaluation in all states | Cip |
| C128 | invariant over all lines: recipes in service are compatible pairwise | Cip |
| C129 | the acts of the sequencer form a chain of steps; an invariant per step (route, exclusive valves), checked for all pairs of steps and all settings by a reflective checker proved sound | Rte |
| C130-C131 | a latch lemma: a remembered condition equals a condition on the readings of the last seconds; induction on the calls | Rte |
| C132 | invariant: feedings begun = counted + running; induction on calls and interruptions | Rte |
| C133 | simulation between bytes of memory and a book of recipes, preserved by every operation; names by the round trip of the code page (C44) | Mcr |
| C134 | invariant: values of file and memory agree unless marked as changed; induction on quiet operations, on the number of changes | Mcr |
| C135 | the list of writes equals a table of defaults, by computation over all numbers | Mcr |
| C136 | induction on the choices; counting of leading bytes under encoding again | Mcr |
| C137 | induction on the number of values | Mcr |
| C138 | fold over answers; parity of exchanges by induction on failed cycles | Wgh |
| C139 | fold over messages; contents of the buffer | Wgh |
| C140 | invariant: a number, whole if P_DT >= 1 (rounding up is exact); exact cancellation | Wgh |
| C141 | relative errors of products, quotients and differences; floor of the result | Lvl |
| C142 | every operation is monotone in the order of floats; a counterexample by computation | Lvl |
| C143 | truncation; finiteness of operands; monotony against level zero | Lvl |
| C144 | invariant over histories: since when steam is allowed; decomposition of the history is unique | Reg |
| C145 | flag = stopped by a signal and not restarted, by induction; last command in a list | Reg |
| C146 | invariant: result, errors and output in range; absorption of not-a-number | Reg |
| C147 | relative errors of the law (as for C70) on reachable states | Reg |
| C148 | invariant of manual mode; first call after each switch | Reg |
| C149 | error of one step, summed by induction | Reg |
| C150 | the text is cut at its separators; decimal digits; error of hundredths | Dev |
| C151 | search for a name by induction; fold over the history | Dev |
| C152 | induction over the history | Dev |
| C153 | last effective event, by induction from the end | Dev |
| C154 | C150 and C151 together; rounding of numbers below 2^25 | Dev |
| C155 | exact sums below 2^24 by induction from the end; filtering of histories; fixed point at 2^24 | Vct |
| C156 | congruence modulo 2^32 by induction from the end | Vct |
| C157 | invariant over histories; comparison of rounded delays by monotonicity of rounding | Cam |
| C158 | the same invariant | Cam |
| C159 | invariant over histories: bytes of the channel, bits by arithmetic | Van |
| C160 | the same invariant; order of bytes by computation on ten bytes | Van |
| C18, C70-C73 | `PID` on `float` bit patterns, commands, clocks | error bound of each operation carried through the formula, monotonicity of rounding, invariants over histories |
| C19-C23, C49 | byte codecs of `ModbusServ` | round trips |
| C24 | list-update confirmation counter | invariant on histories |
| C25, C26, C51, C52 | `modbus_client` buffer accessors, masks, asynchronous calls, frames | round trip / frame; bitwise lemmas; invariant over interleavings |
| C27, C28, C53-C55 | request building and answers in `uni_io_manager` | induction over outputs / register count |
| C29, C30 | `e_communicate` reconnect and link-error logic | invariant |
| C31, C68, C69 | `io_device` channels on `float` bit patterns | error bounds of each rounding, monotonicity of rounding, case analysis over module types |
| C32, C33, C61-C63 | `tcp_client` reconnect timer, connection state machine, polling | invariant over histories; refutation |
| C34 | reply framing | arithmetic |
| C35-C40, C64-C66 | recipe manager | refinement to maps, invariants over histories, parser/printer round trip |
| C41, C42, C67 | `PAC_info` | invariant against bookkeeping of true time; last-command specifications |
| C46 | `cip_def` statistics, its text file | writer and reader composed; induction over the records; restart semantics |
| C43 | `get_delta_millisec` | arithmetic |
| C44, C45, C50 | `utf2cp1251` | finite table facts lifted by induction over strings |


## Mutation tests

`seeded/LOG.jsonl` has one line per attempt: a definition of a model file was edited
in a scratch copy, the development rebuilt, and the theorems that failed recorded. A
survivor is either a change no caller can observe (the line says why) or led to a
tightened theorem, named in the line, and was tried again.

## Assumptions

`Print Assumptions` was run for each of the 618 theorems of MANIFEST.json.
Every one of them answers `Closed under the global context`: no axiom of the standard
library or of anyone else is used.

Theorems by property (all closed under the global context unless listed above):

* C01 (proved; `NvProps.v`): `blocks_disjoint`, `blocks_in_region`, `granted_iff_fits`, `refused_unchanged`, `disjoint_unbounded_refuted`
* C02 (proved; `NvProps.v`): `blocks_are_private_arrays`, `private_arrays_unbounded_refuted`
* C03 (proved; `ParamProps.v`): `saved_parameters_survive`, `project_is_created`
* C04 (proved; `ParamProps.v`): `same_layout_keeps_storage`, `changed_layout_reinitialises`, `stores_complete`, `power_failure_leaves_stale_parameters`
* C05 (proved; `ParamProps.v`): `out_of_range_changes_nothing`, `out_of_range_read`
* C06 (proved; `ParamProps.v`): `allocation`
* C07 (proved; `ErrProps.v`): `listed_iff_last_op_raise`, `listed_once_in_order`, `counter`
* C08 (proved; `ErrProps.v`): `alarm_life_cycle`, `faulty_is_shown`
* C09 (proved; `ErrProps.v`): `one_pass`, `suppressed_hides_others_refuted`
* C10 (proved; `ErrProps.v`): `siren`, `lamps`, `red_blinks`, `blinks`, `manual_mode`
* C11 (proved; `OpProps.v`): `states`, `diagram`, `idle`, `refused`
* C12 (proved; `OpProps.v`): `only_current`, `order`, `all_off`, `unpausing_refuted`
* C13 (proved; `OpProps.v`): `main_step`, `to_step`, `to_next`, `zero_time_refuted`
* C14 (proved; `OpProps.v`): `no_duplicates`, `off`, `exchange_refuted`, `main_extra_refuted`, `check_refuted`, `step_zero_refuted`, `skip_refuted`
* C15 (proved; `TechProps.v`): `unique`, `meaning`, `other`, `script_refuted`, `answer_refuted`, `states`, `no_such_operation`
* C16 (proved; `TechProps.v`): `active_reported`, `agree`, `marked_refuted`, `success_refuted`
* C17 (proved; `TechProps.v`): `refused`, `question`, `never_together`, `pause_refuted`, `one_sided_refuted`
* C18 (proved; `PidProps.v`): `limits`, `number`, `inside`, `old_commands`, `old_command_effect`, `new_commands_refuted`, `nan_refuted`
* C19 (proved; `ModbusProps.v`): `scalars_round_trip`, `register_layout`, `frame`, `big_endian_words_refuted`
* C20 (proved; `ModbusProps.v`): `time_text`, `stays_in_its_registers_refuted`, `wraps_at_100_hours`
* C21 (proved; `ModbusProps.v`): `string_text`
* C22 (proved; `ModbusProps.v`): `round_trip`, `fitting_text_unchanged`, `registers_are_unicode`, `code_page`, `undefined_code_refuted`
* C23 (proved; `ModbusProps.v`): `one_bit`
* C24 (proved; `ModbusProps.v`): `flag`
* C25 (proved; `McProps.v`): `in_bounds`, `stores`, `read_back`, `large_addresses_ignored_refuted`, `reads`, `bits`, `bits_in_bounds_refuted`
* C26 (proved; `McProps.v`): `reverse`, `masks`, `swap_bits`
* C27 (proved; `IoProps.v`): `request`, `bits`, `loop_back`, `announced_count_refuted`, `many_inputs_never_read`
* C28 (proved; `IoProps.v`): `write`, `read`, `read_all`
* C29 (proved; `IoProps.v`): `delay`, `attempts`, `bounds`, `declared_maximum_refuted`
* C30 (proved; `IoProps.v`): `exact`, `reported_once`, `withdrawn`, `any_silence_refuted`
* C31 (proved; `AioProps.v`): `range`, `accuracy`, `order`, `ends`, `read_back`, `small`, `nan_refuted`, `empty_scale_refuted`, `other`, `other_refuted`
* C32 (proved; `NetProps.v`): `waiting_time`, `attempts_apart`, `attempt_made`, `declared_maximum_refuted`
* C33 (proved; `NetProps.v`): `descriptors`, `connected_open`, `own_connection`, `exchange`, `refused_refuted`, `foreign_descriptor_refuted`
* C34 (proved; `NetProps.v`): `data`, `wrong_command`, `unknown_service`, `modbus`, `modbus_silent`, `long_data_refuted`, `failed_service_refuted`
* C35 (proved; `RecProps.v`): `last_store`, `outside`, `bits_refuted`
* C36 (proved; `RecProps.v`): `active_exists`, `selection`
* C37 (proved; `RecProps.v`): `marked_or_on_disk`, `saved_in_the_end`, `failed_write_refuted`, `waiting_for_ever_refuted`, `power_failure_refuted`
* C38 (proved; `RecProps.v`): `round_trip`, `no_drift`, `resized`, `line_break_refuted`, `not_a_number_refuted`, `no_parameters_refuted`, `exact_refuted`
* C39 (proved; `RecProps.v`): `load`, `stopped`, `no_such`, `command`, `last_parameter_refuted`, `negative_refuted`
* C40 (proved; `RecProps.v`): `one_list`, `separate_lists`, `separate_refuted`
* C41 (proved; `PacProps.v`): `exact`, `bounds`, `long_cycle_refuted`, `drift_refuted`
* C42 (proved; `PacProps.v`): `expires`, `lasting`, `defined`, `reset`, `restart`, `clock_zero`, `64bit`
* C43 (proved; `TimeProps.v`): `elapsed_time`, `step_back`, `step_back_three_is_huge`
* C44 (proved; `UtfProps.v`): `round_trip`, `undefined_dropped`, `long_characters_refused`, `whole_code_page_refuted`
* C45 (proved; `UtfProps.v`): `valid_utf8`, `length_of_valid_text`, `length`, `invalid_text`
* C46 (proved; `StatProps.v`): `round_trip`, `records`, `restart`, `marked`, `start_defined`, `cut`, `cut_refuted`, `lost_refuted`, `unwritable_refuted`
* C47 (proved; `ErrProps.v`): `unchanged_counter_means_unchanged_view`
* C48 (proved; `ErrProps.v`): `message_queue`, `numbers_unique`
* C49 (proved; `ModbusProps.v`): `read_coils`, `longer_requests_refuted`, `spare_bits_zero_refuted`
* C50 (proved; `UtfProps.v`): `memory_safe`, `larger_length_refuted`, `foreign_letters_refused_refuted`, `faithful_outside_latin1`
* C51 (proved; `McProps.v`): `success_means_answered`, `success_for_own_request`, `any_script_refuted`
* C52 (proved; `McProps.v`): `frames`, `all_legal_writes_in_buffer_refuted`, `many_coils_refuted`
* C53 (proved; `IoProps.v`): `phoenix`, `wago`, `cut_answers_refuted`
* C54 (proved; `IoProps.v`): `wago_inputs`, `wago_analog`, `wago_requests`, `partial_answers_refuted`
* C55 (proved; `IoProps.v`): `request`, `any_size_refuted`
* C56 (proved; `OpProps.v`): `main`, `limit`, `extra`, `outside_refuted`
* C57 (proved; `OpProps.v`): `next_step`, `pause`, `bad_next_refuted`
* C58 (proved; `OpProps.v`): `running_time`, `stop_refuted`
* C59 (proved; `TechProps.v`): `start`, `messages`
* C60 (proved; `TechProps.v`): `available`, `pause_refuted`, `following_refuted`
* C61 (proved; `NetProps.v`): `in_order`, `success_means_all`, `failure_codes`, `everything_sent`, `endless_refuted`
* C62 (proved; `NetProps.v`): `pass`, `timeout_refuted`
* C63 (proved; `NetProps.v`): `alarm`, `changes`
* C64 (proved; `RecProps.v`): `recognised`, `unambiguous`, `carried_out`, `answer`, `nearest`, `defined`, `fatal_refuted`, `no_negative`
* C65 (proved; `RecProps.v`): `flags_round_trip`, `empty_file_refuted`
* C66 (proved; `RecProps.v`): `last_loaded`, `line_break_refuted`
* C67 (proved; `PacProps.v`): `state`, `nothing_else`, `defined`, `silent_refuted`
* C68 (proved; `AioProps.v`): `fault`, `number`, `current`, `broken_wire_refuted`
* C69 (proved; `AioProps.v`): `missing`, `DO`
* C70 (proved; `PidProps.v`): `law`, `error`, `interval`, `output`, `direction`, `rest`
* C71 (proved; `PidProps2.v`): `enter`, `hold`, `leave`, `jump_refuted`, `other_refuted`, `limits_refuted`, `restart_refuted`
* C72 (proved; `PidProps3.v`): `start`, `undefined_refuted`
* C73 (proved; `PidProps3.v`): `off`, `between`, `stays`, `fresh`, `resume`, `held`
* C74 (proved; `ActProps.v`): `state`, `value`, `seat`, `manual`, `untouched`, `delay_refuted`, `value_refuted`
* C75 (proved; `ActProps.v`): `end`, `engaged`, `operation`, `gap_refuted`, `restart_refuted`
* C76 (proved; `ActProps2.v`): `order`, `times`, `share`, `no_time_refuted`, `skip_refuted`
* C77 (proved; `ActProps2.v`): `jump`, `no_jump`, `setting`, `enabled`, `empty_refuted`, `enabled_refuted`
* C78 (proved; `ActProps2.v`): `whole`, `cut`, `overflow_refuted`
* C79 (proved; `ActProps2.v`): `cells`, `seats`, `gap`, `seats_refuted`
* C80 (proved; `ActProps2.v`): `check`, `only_first_refuted`
* C81 (proved; `ValveProps.v`): `stays_open`, `closes`, `cancelled`, `manual_keeps`
* C82 (proved; `ValveProps.v`): `no_effect`, `bistable`, `seats`, `refuted`
* C83 (proved; `ValveProps.v`): `never_closes`, `closes_if_late`, `reopened_closes`, `small_left_open`, `refuted`
* C84 (proved; `ValveProps2.v`): `exclusive`, `lower_left_open`, `refuted`
* C85 (proved; `ValveProps2.v`): `reported`, `from_start`, `reversed`, `questions`, `refuted`
* C86 (proved; `ValveProps2.v`): `open_pulse`, `close_pulse`, `jam`, `stop_hides_errors`, `fresh`, `refuted`
* C87 (proved; `CtrProps.v`): `no_short_signal`, `lasting_signal`, `filter_forever_refuted`
* C88 (proved; `CtrProps.v`): `lost_link`, `broken_wire`
* C89 (proved; `CtrProps.v`): `total`, `value`, `catches_up`, `monotone_refuted`, `from_zero_refuted`
* C90 (proved; `CtrProps.v`): `ceiling`, `keeps_counting_refuted`
* C91 (proved; `CtrProps.v`): `error_time`, `recovers`, `latched`, `waits_refuted`, `start_anew`, `plain_counter_refuted`
* C92 (proved; `CtrProps2.v`): `fault`, `only_faults_refuted`
* C93 (proved; `CtrProps2.v`): `day`, `before`, `switched_off`, `commands`, `garbage_refuted`
* C94 (proved; `CtrProps2.v`): `range`
* C95 (proved; `CtrProps2.v`): `rises`, `pause_refuted`, `keeps_counting_refuted`
* C96 (proved; `HlaProps.v`): `display`, `blue`, `manual`, `order_refuted`
* C97 (proved; `HlaProps.v`): `blinks`, `shared_refuted`, `one_command_refuted`
* C98 (proved; `HlaProps.v`): `report`, `command`, `setting`
* C99 (proved; `HlaProps.v`): `sequence`, `discrete`, `twice_refuted`
* C100 (proved; `BusProps.v`): `follow`, `one`, `sent`, `numbers`
* C101 (proved; `BusProps.v`): `report`, `errors`, `questions`
* C102 (proved; `BusProps.v`): `stuck`
* C103 (proved; `BusProps.v`): `terminal_safe`, `terminal_unset`, `gateway_crash`
* C104 (proved; `BusProps.v`): `gateway_bytes`, `number_refuted`, `same_number_refuted`, `unknown_state_refuted`
* C105 (proved; `IolProps.v`): `follow`, `first_cycle_refuted`, `gea_crash`, `channel_crash`
* C106 (proved; `IolProps.v`): `report`, `head_error`
* C107 (proved; `IolProps.v`): `once`, `repeated_refuted`, `closing`, `gea_refuted`, `seat_refuted`, `seat_time`
* C108 (proved; `IolProps.v`): `shut_off`, `mixproof_refuted`, `position`
* C109 (proved; `MotProps.v`): `follow`, `stop`, `numbers_refuted`
* C110 (proved; `MotProps.v`): `report`, `error`, `direction_refuted`
* C111 (proved; `MotProps.v`): `stuck`, `unread_refuted`
* C112 (proved; `AtvProps.v`): `words`, `sent`, `refused_refuted`
* C113 (proved; `AtvProps.v`): `state`, `lost`, `silent_refuted`, `off_refuted`, `direction_refuted`
* C114 (proved; `AtvProps.v`): `frequency`, `read_back`, `early_refuted`, `large_refuted`
* C115 (proved; `PowProps.v`): `command`, `idle`, `only`, `repeated`, `early`, `stale_refuted`, `lost_refuted`, `defined`
* C116 (proved; `PowProps.v`): `all`, `one`, `take`, `reconnect`, `state`, `reconnect_refuted`, `start_refuted`
* C117 (proved; `PowProps.v`): `state`, `value`
* C118 (proved; `TmrProps.v`): `work`, `up`, `up_cut`, `group`, `stays_refuted`, `long_refuted`, `paused_refuted`, `wrong_refuted`
* C119 (proved; `TmrProps.v`): `above`, `below`, `nan`, `off`, `off_call`, `value_refuted`, `restart_refuted`
* C120 (proved; `SenProps.v`): `pressure`, `not_ready`, `missed_cycles`, `missed_cycles_refuted`
* C121 (proved; `SenProps.v`): `level`, `lost_node_refuted`
* C122 (proved; `SenProps.v`): `concentration`, `cold_refuted`, `level_switch_LMT`, `level_switch_FTL`, `flow`
* C123 (proved; `SenProps.v`): `temperature`, `signed_char`, `signed_char_refuted`
* C124 (proved; `SenProps.v`): `scale`, `tare`, `missed_cycles`, `missed_cycles_refuted`, `fault_value`
* C125 (proved; `CipProps.v`): `order`, `completes`, `refuted`
* C126 (proved; `CipProps.v`): `locked`, `stopped`, `pause`, `reset`, `skip_mixing`, `needs_program`, `refuted`, `resume_refuted`
* C127 (proved; `CipProps.v`): `service`, `washes`, `starts`, `refuted`, `unlock_refuted`, `washes_refuted`
* C128 (proved; `CipProps.v`): `no_conflict`, `refuted`
* C129 (proved; `RteProps.v`): `routes`, `one_return`, `separate`, `one_return_refuted`, `neutralised_refuted`
* C130 (proved; `RteProps.v`): `sorting`, `full_refuted`
* C131 (proved; `RteProps.v`): `returns`, `takes`
* C132 (proved; `RteProps.v`): `feedings`, `minute`, `limit_refuted`
* C133 (proved; `McrProps.v`): `book`, `others`, `shutdown`, `refuted_dash`, `refuted_wide`, `refuted_index`, `erased`, `refuted_copy`
* C134 (proved; `McrProps.v`): `saved`, `refuted_busy`, `refuted_name`
* C135 (proved; `McrProps.v`): `reset`, `refuted_all`
* C136 (proved; `McrProps.v`): `plain`, `refuted_wide`, `refuted_rename`
* C137 (proved; `McrProps.v`): `select`, `refuted_small`, `refuted_number`
* C138 (proved; `WghProps.v`): `fresh`, `refuted_stale`, `absent`
* C139 (proved; `WghProps.v`): `last`, `refuted_lost`, `refuted_sign`, `refuted_part`
* C140 (proved; `WghProps.v`): `number`, `hold`, `sample`, `tare`, `refuted_error`
* C141 (proved; `LvlProps.v`): `cylinder`, `cone`, `iolink`
* C142 (proved; `LvlProps.v`): `cylinder`, `cone`, `refuted_step`
* C143 (proved; `LvlProps.v`): `error`, `refuted_nan`, `negative`
* C144 (proved; `RegProps.v`): `open`, `opens`, `refuted_direct`
* C145 (proved; `RegProps.v`): `stop`, `restart`, `report`
* C146 (proved; `RegProps.v`): `range`, `nan_stays`, `refuted_manual`
* C147 (proved; `RegProps.v`): `law`, `interval`, `output`
* C148 (proved; `RegProps.v`): `manual`, `refuted_reset`
* C149 (proved; `RegProps.v`): `average`, `restart`, `refuted_constant`
* C150 (proved; `DevProps.v`): `text`, `refuted_camera`, `refuted_number`
* C151 (proved; `DevProps.v`): `command`, `history`, `read`, `refuted_unnamed`
* C152 (proved; `DevProps.v`): `names`
* C153 (proved; `DevProps.v`): `manual`, `defined`, `locked`, `answer`, `refuted_state`, `refuted_letter`
* C154 (proved; `DevProps.v`): `restore`, `refuted_same_name`
* C155 (proved; `VctProps.v`): `litres`, `refuted_pause`, `pause_ignored`, `refuted_large`
* C156 (proved; `VctProps.v`): `total`, `flow`, `state`, `answer`, `defined`, `refuted_restart`
* C157 (proved; `CamProps.v`): `output`, `refuted_off`, `state`, `refuted_uptime`
* C158 (proved; `CamProps.v`): `ready`, `refuted_result`, `defined`
* C159 (proved; `VanProps.v`): `sent`, `defined`, `refuted_limit`, `refuted_early`, `refuted_state`
* C160 (proved; `VanProps.v`): `reported`, `before`, `light`, `refuted_light`

