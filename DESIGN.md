# python-OBD in Rocq: design

The code is read as text from /repo (pinned commit) and modelled by hand, function by function, in
`rocq/theories`. Nothing of /repo is run. Every model definition carries a comment with the file and lines
it models and says where it simplifies.

## Layout

| file | contents |
|---|---|
| `Py.v` | the Python primitives the code uses: exceptions as values, slices, indexing, stable sort, dicts, text, `strip`, utf-8 decoding with "ignore", decimal text, `float()` |
| `Utils.v` | `obd/utils.py` (BitArray, bytes_to_int, bytes_to_hex, twos_comp, isHex, contiguous) |
| `Protocol.v` | `obd/protocols/*.py`: frames, messages, parse_frame / parse_message of the CAN, legacy and unknown families, `Protocol.__call__`, `populate_ecu_map`, `Protocol.__init__`, the class table |
| `Num.v` | Python floats as IEEE binary64 (`Coq.Floats.SpecFloat`, pure Gallina, no axioms) |
| `Codes.v`, `UasTable.v`, `CommandTable.v` | tables generated by `tools/gen_tables.py` from codes.py, UnitsAndScaling.py, commands.py (text in, text out; checked in) |
| `Decoders.v` | `obd/decoders.py`, `obd/UnitsAndScaling.py` (UAS), value types of `obd/OBDResponse.py` |
| `Command.v` | `obd/OBDCommand.py`, `obd/OBDResponse.py` (OBDResponse), `obd/commands.py` (Commands) |
| `Elm.v` | `obd/elm327.py` over an explicit world (what each open / write / read of the port does) and a trace of port activity |
| `Obd.v` | `obd/obd.py` |
| `Async.v` | `obd/asynchronous.py`: the operations as atomic steps and an interleaving semantics of the user thread with any number of update threads; a callback is one step (it may raise) |
| `Fine.v` | the same interleaving at a finer grain: a query of the loop, `close()` and the power calls are sequences of single accesses to the port and to the attributes of the OBD and ELM327 objects, between which other threads may run (callbacks as in `Async.v`) |
| `Look.v` | on top of `Fine.v`: status(), is_connected(), port_name(), protocol_id(), protocol_name(), supports() of the user's thread as sequences of single attribute accesses |
| `SpecAdapter.v`, `SpecAdapter2.v` | an adapter of the ELM327 kind and an arbitrary car, as a specification of port activity (C87-C89): what lines mean, what is printed, which requests reach the car. Written after the data sheet, not code of the project. Not in it: sleeping adapters, I/O errors, an adapter at another baud rate than a given one (probing for the rate is) |
| `AdapterThms*.v`, `AdapterCheck.v` | proofs: exchanges, start-up, queries and histories with such an adapter; a checker (proved sound) by which the examples' port activity is shown to be that adapter's |
| `AsyncHistory.v`, `SpecAsyncCar.v`, `AsyncCar.v` | what an Async object does with its connection (queries of watched commands and close, nothing else), where responses come from; the invariant that relates a run of the threads to the car (C90) |
| `SpecAsyncFast.v`, `AsyncCarFast.v` | the same for objects made with fast=True: the lines they send, with recorded counts and blank lines for repetitions (C100) |
| `SpecAsyncCar2.v`, `AsyncCarCb.v` | C90 and C100 with callbacks that make harmless calls, through the simulation of C73; where the responses in their log come from |
| `SpecDashboard.v` | what the user of an Async object is shown, and truthful cars (C101, C102) |
| `Timed.v`, `SpecTimed.v`, `TimedThms.v` | the update loop with a clock: time.sleep(delay_cmds) (C104) |
| `Args.v`, `SpecArgs.v`, `ArgThms.v` | Python's binding of positional and keyword arguments, the signatures in the code and the documented ones (C105, C106) |
| `Readers.v`, `SpecReaders.v`, `ReaderThms.v` | Async.query() called by further threads, its two accesses to the table as two steps (C107) |
| `SpecFormats.v` | the frame formats of the adapter's protocols, from its data sheet (C108) |
| `SpecAsyncSlow.v`, `AsyncSlow.v` | C90 for the slow adapter of SpecSlow (C103) |
| `SpecSleep.v`, `SleepThms.v`..`3`, `SleepCheck.v` | an adapter with a low power mode (ATLP, woken by anything written); queries of a sleeping object split into the wake-up and the query of C87; a checker for examples (C91, C92) |
| `Repr.v`, `SpecRepr.v`, `ReprThms.v` | `OBDCommand.__repr__`/`__str__`, `print_commands`, Python's `repr` of str, bytes, int; a reader of Python literals and of calls of OBDCommand; round trip |
| `Print.v`, `SpecPrint.v`, `PrintThms.v` | `__str__`, `__len__` and `unit` in OBDResponse.py (str() of pint quantities is a parameter); specification; proofs |
| `SpecUas.v`, `Properties_Uas.v` | the units and scalings and the enumerations of the standard, written down independently of the code's tables; C23, C27, C28 against them |
| `SpecSlow.v`, `SlowThms.v`, `SlowFast.v`, `CutThms.v`, `CutThms2.v`, `SlowCheck.v` | an adapter whose output may come late; proofs (CutThms: what a cut answer consists of; CutThms2: what a command makes of it); checker for examples |
| `SpecRaw.v`, `RawThms.v` | which received lines a message shows; proofs by numbering the lines |
| `DocTables.v` | generated by `tools/gen_docs.py` from the tables of docs/Command Tables.md and docs/Responses.md (the specification of C86; not code) |
| `Async2.v` | callbacks that take time and call the API: any sequence of calls, then return or raise, interleaved with the rest; `join()` of the own thread raises RuntimeError |
| `Scan.v` | `obd/utils.py`: `try_port`, `scan_serial` (platform, the names that exist, what opening each does), `OBD()` without a port |
| `Spec*.v` (`SpecNum`, `SpecSensors` for the numeric formulas) | what the properties are stated with: ISO 15765-2 segmentation, printed hex lines, DTC code text, bit positions ...; written without the model's helpers |
| `*Facts.v`, `*Thms*.v` | proofs (`FloatFacts`, `FloatRatio`, `NumFacts`: the binary64 functions of `Num.v` against Flocq's `round`) |
| `ConformTable.v`, `Conformance.v` | validation, not proof: the assertions of the project's own unit tests (test_uas, test_decoders, test_protocol*, test_OBDCommand, test_commands), evaluated on the model (`tools/gen_conformance.py` extracts the numeric ones) |
| `tools/mutations.py`, `tools/mutate.py` | the wrong programs tried in a scratch copy, and the driver that rebuilds and tells which theorems break; results in `seeded/LOG.jsonl` |
| `Properties_*.v` | one theorem per claim, closed by `exact` (`Assumptions.v` prints what they rest on), and beside it examples that its hypotheses are met |

Model files contain no proofs, so they still evaluate when a proof breaks.

## Modelling conventions

* Python `int` = `Z`; `bytes`, `bytearray` and `str` = `list Z` (byte values / code points); lengths and indices `nat`.
* A Python call returns `Ok v` or `Raise e`. Where the code keeps effects made before an exception
  (ELM327, OBD) the monad returns the state in both cases.
* dict = association list in insertion order; set of commands = duplicate-free list up to `OBDCommand.__eq__`.
* A serial port is a world: three finite lists saying what successive opens, writes and reads do
  (a read yields bytes, or nothing = timeout, or raises; a write succeeds, or raises before or after the bytes went out;
  opening succeeds or raises); all of them exhausted means success / timeout. Theorems quantify over all worlds, so over every adapter behaviour
  whose output is finite, however it depends on what was sent. One write event stands for `flushInput`, `write` and `flush` of `__write`, with a mark that the input was flushed; what flushing, or not flushing, does to unread output is said by the
  adapter (`SpecAdapter.mv_write` throws all of it away, `SpecSlow.sl_write` may let a late part through; without flushing all of it stays, `mv_pile`, `sl_pile`). An adapter that babbles for ever without a prompt is outside (then `__read` itself does not return).
* The interleaving model for `Async` takes one step per shared-attribute access of `asynchronous.py`; a blocking
  `OBD.query` made by the update thread is one step (the whole of the modelled `query` on the world: any answer, an
  exception, loss of the connection). C83 justifies this: in `Fine.v` the same calls are single accesses and the two models have the same runs.
* In `Async.v` and `Async2.v` the loop `for callback in self.__callbacks[c]` runs over the list as it was when the loop began; this differs
  from CPython only if a callback changes that very list while a `stop()` is waiting (C74), when the walk may skip or add an entry.

## Trusted base

* Coq 8.16.1's kernel, its `vm_compute`, and `coqchk`.
* `theories/Assumptions.v` prints the assumptions of all property theorems in two groups. "Closed under the global context" for all theorems of
  Properties_{Protocol,Utils,Commands,Decoders,Elm,Obd,Async,Callbacks,Scan,Connect,Ports,Live,Readings,Mark,Fine,Look,Docs,Adapter,AsyncCar,Sleep,Repr,Raw,Slow,Print}, and the C27 theorems of Properties_Uas: no axioms at all. The model itself uses no axioms (floats are the
  Gallina `SpecFloat` functions, not the primitive ones).
* The theorems of `Properties_Numbers.v` (C23, C24, C29), `Properties_Voltage.v` (C66) and, of `Properties_EndToEnd.v`, C67_sensor and C71_closed_form_partial, of `Properties_Dashboard.v` and `Properties_Dashboard2.v` C101_sensor, C102_sensor, C102_sensor_fast, C101_sensor_fast and C101_sensor_with_callbacks, and of `Properties_Uas.v` C23_standard and C23_standard_monitor compare the binary64 results with the exact real formula and use
  Coq's Reals through Flocq. They rest on exactly these standard-library axioms: `ClassicalDedekindReals.sig_not_dec`,
  `ClassicalDedekindReals.sig_forall_dec`, `FunctionalExtensionality.functional_extensionality_dep`, `Classical_Prop.classic`.
  Flocq adds no axioms of its own. `coqchk` additionally lists axioms of loaded library files (`Coq.Reals`, `Coq.ssr`) that no theorem here uses.
* The reading of the Python code, of CPython's built-ins listed in `Py.v` and of IEEE arithmetic.
* `tools/gen_tables.py`, which copies the tables from /repo by regular expressions. Its output is checked in.
* pint (`v * Unit.x` is the pair of magnitude and unit; quantities of one unit compare by magnitude), pyserial, threading and
  time are not modelled beyond the interfaces above.

### Not modelled

logging (except where a log line's arguments can raise: `Protocol.__init__`, end of `ELM327.__init__`), `time.sleep` (except in C104, `Timed.v`),
`OBDResponse.time`, `str()` of pint quantities and units, `glob` beyond patterns of names in one directory (`Scan.v` takes the names that exist as input),
the mutation of `Frame.data`/`Frame.seq_index` through aliases after a message has been assembled
(nothing reads them later), garbage collection, real time.

## Properties

How each is modelled and proved. "R" marks claims the code violates: the theorem is a refutation with a concrete
witness, plus a `_partial` theorem for what does hold.

| id | model | statement and proof |
|---|---|---|
| C01 | Protocol | for every payload of 8..4095 bytes, its ISO-TP segmentation (SpecIsoTp), printed with any spacing/case, both header widths: `call` = one message with this payload; induction on consecutive frames with the running sequence number |
| C02 | Protocol | same for single frames, with arbitrary trailing bytes |
| C03 | Protocol | inversion of parse_message for every frame list: permutation of CFs, numbering, data equation; converse: exact characterisation by the numbers taken (`SpecCan`) |
| C04 R | Protocol | missing FF, missing CF inside -> no message (proved from C03's inversion for losses below 16 in a row); losing the tail or 16 in a row goes undetected: witnesses; exact result for every multiset and order of received frames |
| C05 R | Protocol | exact condition on consecutive arrivals under which sequence numbers are recovered; proved complete for it; witnesses for 16-before-15 and a back jump of 8; within a displacement of 7 right or nothing: groups of 16 of the numbers taken are sorted, so a wrong number starts an endless chain |
| C06 | Protocol | two line lists with the same sub-list for an ECU give the same messages for it |
| C07 | Protocol | non-hex lines: closed form of the result |
| C08 | Protocol | inserting a malformed line anywhere leaves the result unchanged |
| C09 R | Protocol | exact set of inputs that raise; witnesses `7E8 01 43` and two 6-byte legacy lines |
| C10 | Protocol | legacy round trip for every permutation of the lines; gap/duplicate drops |
| C11, C12 | Protocol | closed form of the data for mode 03 |
| C13 R | Protocol | case analysis of populate_ecu_map against a declarative choice; witness for the TypeError |
| C14 | Protocol | strictly ascending ids, tags |
| C15, C16, C17, C18 | Command | closed forms, equivalence relation |
| C19 R | Command, Decoders | all table commands but AIR_STATUS return; AIR_STATUS raises exactly for ... |
| C20-C22 R | Decoders | pair decoding, injectivity of the code text (finite sweep lifted), table sweep; witnesses for lower-case hex and 00 00 |
| C23, C24 R, C29 | Decoders, Num | the binary64 operations of the model are the correctly rounded real ones (Flocq); each formula is then followed through the roundings, for every raw value, without a sweep |
| C25-C28 | Decoders | bit positions as arithmetic on the bytes; fold over blocks |
| C30 R, C31 R | Decoders | strip set; error text |
| C32, C33 | Utils | arithmetic |
| C34-C42 | Elm | reading: function of the concatenated bytes; monadic invariants over the world |
| C43-C52 | Obd | invariants over operation histories, trace equations |
| C53-C62 | Async | sequential refinement to a subscription map; inductive invariants over all interleavings; witnesses as explicit schedules |
| C63, C64 | CommandTable | the tables are finite: computed and lifted |
| C66 | Decoders, Num, Elm | `float()` of a printed decimal is correctly rounded (division with sticky bit, Flocq); monotonicity of rounding gives the threshold |
| C65 R | Protocol+Decoders | witness; closed form of what is reported |
| C67 | all layers | `reading` (SpecE2E): a query in any session whose last line was answered with given lines; query relation + per-ECU reassembly + ECU map + decoder theorems composed |
| C68 | all layers | one message per reporting ECU (sortedness, own-lines-only), data behind the count, concatenation of byte pairs; marks of any session's protocol share a bit with ECU.ALL (origin invariant) |
| C69 | all layers | determinism of the relation; decoders that look at the first message only |
| C70 R | all layers | witness; echo bytes are dropped by every mode 01 decoder; no heeded message gives the empty response |
| C71 R | all layers | witness; closed form through C24 with shifted data |
| C72 R | Obd | relation `steady` between the interfaces before and after any history; origin invariant for the protocol object; witness |
| C73 | Async2 | forward simulation: callbacks with harmless calls are simulated by the model of C53-C62, where a callback is one step, so those theorems carry over |
| C74 R | Async2 | invariant; witness schedule |
| C75 R | Async2 | inductive invariant for arbitrary callbacks (who owns which thread, where a callback can be), measure on the steps to the failing join, winding-down invariant; witness |
| C76 | Scan | specification of the candidate list by platform, determinism, induction over the candidates; "no operation but connecting opens a port" for every program fragment of Elm/Obd |
| C77 | Elm, Obd | forward symbolic execution of the constructor against a specification of a willing adapter and car (arbitrary chunks, any baud rate found, any listings); induction over the listings |
| C78 | Elm, Obd, Async2 | invariant "ports opened minus ports closed in the trace", kept by every program fragment; refutations by evaluation |
| C79 | Async2 | invariant of the interleaving (a closing user thread has no update thread; one update thread at a time past creation), induction over schedules |
| C80 | Async | variant (steps to the next query, bounded by the number of callbacks) decreasing along every schedule; combined with C55's rounds, every entry of the table has its turns; with callbacks that use the API (C80_with_callbacks): the simulation of C73 refined so that it keeps the loop's own steps |
| C81 | whole stack | composition of C67's payload theorem with C21, C25-C28 (the VIN's reading is under C30) |
| C82 | supported_commands.add as a call of a session (Obd.v OpAdd), test_cmd, query | induction over histories: the set after a history is what connecting found plus what was added since the last close(); SpecMark.v |
| C83 | Fine: query and close as sequences of single accesses, interleaved | the small-step code run alone is the function of Obd.v (agreement, function by function); forward simulation Fine -> Async with the invariant that at most one such code is in progress; backward: every Async run is a Fine run; step count for termination; SpecFine.v |
| C84 R | Fine with power calls of the user's thread | the same simulation extended by power calls as whole steps, for runs that make them only while no loop is running; two witness schedules against the general claim |
| C85 R | Look: the accessors as single attribute accesses, interleaved with the loop's | during a query status and port only go down, everything else a look shows stays (a relation kept by every single access, `dims`); a look's position is tracked through the schedule; witness schedule against port_name(); SpecLook.v |
| C86 R | CommandTable, Decoders, against DocTables | by computation over the finitely many rows (existence, place, `fits`: decoder against documented type) and a proof per decoder that whatever bytes it gets, its value has that type; carried to the API with the wire theorems; SpecDocs.v |
| C87 | Elm, Obd against SpecAdapter | the port activity of every session is one that an adapter and a car (any relation from state, header and request to lines and state) can take part in; invariant over histories: the settings of the adapter, the header in force and the last line agree with what the object believes; then query = one step `ask` of the car |
| C88 R | same | witness: a car with two ECUs, GET_DTC before and after a command with header 7E1; partial: broadcast before, addressed after |
| C89 R | same | witnesses: an ECU that answers first later on; ten frames; partial: with one digit recorded, the first n lines of the same answer |
| C90 | Async, Elm, Obd against SpecAdapter | invariant over schedules: the adapter is usable by the object as it is, and the car's state is what the update threads' queries so far made of it (`served`); a second invariant traces every response in the tables and threads back to a query; with C80 for the end of the loop |
| C91 | Elm, Obd against SpecSleep | a query of an object that believes the adapter asleep is a wake-up followed by the query of the same object awake, to which C87's lemmas apply; invariant over histories: the object's flag is the adapter's state |
| C92 | Elm, Obd against SpecSleep | what start-up writes is never blank or ATLP after the wake-up line, so it is a start-up with an adapter that is awake (C87) |
| C93 | Repr against SpecRepr | the reader reads back each escaped character (induction over the text), then each argument of the call; `printable` is a variable |
| C94 R | Repr against SpecRepr | the bytes literal delimits itself; witness: header 221 and a request that starts with 221; built-in commands: all have the default header |
| C95 | Protocol, Command against SpecRaw | lines numbered, frames keep the number of their line, grouping is a partition; lifted to sessions by `reading` |
| C96 | Elm, Obd against SpecSlow (SpecAdapter with late output) | as C87, with the unread output as part of the state; refuted by a session in which an answer comes after the input buffer was flushed |
| C97 | Elm, Obd, Protocol against SpecSlow, SpecE2E | a prefix of the lines selects a prefix of each ECU's lines; with C69/C70; a line cut short is a frame of the same ECU with a prefix of its data (C03), and decoders see only the first message's data; refuted by cut lines and lost frames |
| C98 | Elm, Obd against SpecSlow | as C87, header by header, under the hypothesis that headers are acknowledged; refuted by a lost acknowledgement |
| C99 R | Print, Decoders | order of the dict of tests as an invariant of the fold over blocks; every line characterised by `tells`; descriptions of the standard contain no colon and are distinct (computed over the table); refuted for manufacturer tests |
| C100 | Async, Obd, Elm, SpecAdapter, SpecAsyncFast | invariant over all steps of the interleaved system as for C90, with the adapter's last line equal to the object's and the recorded frame counts equal to the noted ones; holds while no query raised |
| C101 | as C90, C100, and Protocol, Decoders | C90/C100 say the car answers exactly the queries, and that each response is a reading; split the list of queries at the response, apply C67 and C68 |
| C102 | as C87-C89, and Protocol, Decoders | C87/C89 say the response is a reading of the answer the car gives at the call; for fast=True an induction over the history shows that the count on record is that of every answer (the constructor queries only the listings) |
| C103 | as C96 and C90 | the invariant of C90 with the adapter of C96: awake, set up, sending to all ECUs, between any two steps of the threads; each step that is a query is one use of the lemma behind C96 |
| C104 | the states and steps of Async.v with a clock and, per thread, the time until which it sleeps | an invariant over all timed runs: a thread that has asked c either will not ask it before it sleeps again (the keys left in its round are distinct from c) or sleeps until at least delay_cmds after; a thread that ended did so after its sleep, on a lost connection (which stays lost) or by an exception |
| C105, C106 | the signatures (names, order, defaults), Python's binding of arguments, and what the constructors pass on | the binding function yields exactly the values a relational reading of the signature gives (induction over the signature); documented and actual signatures are compared parameter by parameter, with refutations where they differ (Async()'s seventh place, the names command and bytes) |
| C107 | the states and steps of Async.v with any number of readers, each in one of two places in query() | erasing the readers' steps gives the run without them; a reader's call is linearised at its only or second access; a command is taken out only by the step in which an unwatching call returns (case analysis over all steps), which needs the loop not to run |
| C108 | the protocol object of every session, the table of protocol classes | the protocol object comes from the table (an invariant of all sessions), whose rows are compared with an independent table; then C02 and C10 |
| C109 | Obd, Elm against SpecSlow, fast=True | as C96 with the invariant that the object's last line is the adapter's (C89); refuted by a first answer cut behind the line of another ECU |
| C110 | Commands, Obd, Decoders | from C77 and the induction over the listings: only the last one, PIDS_9A, touches mode 09; refuted for every car on an older protocol |
| C111 | Decoders, Commands | from C67 and the lemma on stripping (as C57); refuted: bytes that look like padding, and two numbers on CAN |
| C112 | Commands, Obd, Decoders | from C77 and the induction over the listings, split at the listing of mode 06: earlier ones and later ones do not touch its 32 numbers |
| C113 | Commands, Obd, Decoders | as C112, for the three listings of mode 01: four bytes of bits never reach the numbers of the next listing |
