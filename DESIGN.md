# Formal model of google/pica in Rocq (Coq 8.16.1)

Everything is in `rocq/theories/` (logical name `Verif`). This file says what is modelled,
how each property of `properties.jsonl` is stated and proved, and what must be trusted.

## 1. Plan: what is modelled and how

The model is a set of total, computable Gallina functions over `N`, `list`, `option`, records and
std++ `gmap`. One Rust function becomes one Gallina function with a citation of its lines.

* `&mut self` functions return the new value and the list of *effects* they cause
  (immediate message to the host, delayed message, ranging timer spawned, ranging timer aborted,
  in-band stop task spawned).
* A panic (`unwrap`, `expect`, `assert!`, `unimplemented!`, index out of bounds, arithmetic overflow
  of the dev profile) is the explicit value `Crash site`.
* Rust integers are `N`/`Z`; the conversions `as u8`, `as u16` are explicit `mod`.
* `HashMap` is `gmap`; wherever the iteration order of a `HashMap` is observable, the order is an
  arbitrary permutation chosen by the environment (a parameter of the step).
* The ranging estimator is an arbitrary function chosen by the environment at each step.
* Concurrency: the event loop processes one command at a time (`pica_command` is not `async`). The
  concurrent part is an interleaving model: a bounded command queue, connection reader and writer
  tasks, ranging timers, delayed notifications, in-band stop tasks, host connections; a schedule is
  an arbitrary list of actions.

| file | models |
|---|---|
| `Base.v` | bytes, little endian, panics (library) |
| `Uci.v`, `Codec.v` | `uci_packets.pdl`: the enums, the command decoder, the message encoder |
| `MacAddress.v` | `mac_address.rs` |
| `AppConfig.v` | `app_config.rs` |
| `Session.v`, `Device.v` | `session.rs`, `device.rs` |
| `Pica.v` | `lib.rs`: the context and its commands |
| `Transport.v` | `packets.rs` framing; `lib.rs` reassembly and segmentation; Python host reader/writer |
| `Sys.v` | interleavings of the tokio tasks around the context |
| `Pcapng.v` | `pcapng.rs` and its use by the connection task |
| `Http.v` | `bin/http-server/main.rs` context and routes |
| `OpenApi.v` | `bin/http-server/main.rs` a request with its method, path and body, from its arrival to its answer |
| `Page.v` | `static/index.html` event listeners, `static/src/components/Map.js` mouse handlers |
| `Ui.v` | `static/index.html`, `Map.js`, `DeviceInfo.js`: selection, dragging, sliders, requests of the page |
| `PyReader.v` | `py/pica/pica/__init__.py` the reader task of `Host` |
| `PyHost.v` | `py/pica/pica/packets/uci.py`, `console.py` `data_transfer` |
| `Console.v` | `py/pica/console.py`: the commands, as packets and as HTTP requests; the names defined by `uci.py` |
| `ConsoleLine.v` | `py/pica/console.py`: the loop of `command_line`, the parameters of the commands and their defaults, `parse_mac_address`; Python's `split`, `strip`, `int` and the binding of arguments, on ASCII texts |
| `Script.v` | `tests/helper.py` `init`, `tests/ranging.py`, `tests/data_transfer.py`: the sends and expectations, `expect_control`, `expect_data` |
| `Position.v` | `bin/http-server/position.rs` (floats with Flocq) |
| `DefaultBin.v` | `bin/main.rs`: the estimator, the commands that can be sent |

Layout of each area `X`: `X.v` is the model, `XSpec.v` a small specification that does not use the
model's helpers, `XFacts.v` the proofs, `PropsX.v` the theorems `Cnn_...`, each followed by an example
that meets its hypotheses and by `Print Assumptions`. The suffix `_partial` marks a theorem weaker than
the property, `_refuted` a proof that the property is false of the code as modelled: an explicit
reachable counterexample, checked by the kernel.

## 2. Per property

| id | statement / proof plan |
|---|---|
| C01, C02 | `segment : bytes -> list bytes`; induction on the remaining length; specification = concatenation of payloads, chunk bounds, header fields |
| C03 | `read_frames` on an arbitrary byte list against an independent frame grammar; induction on the stream |
| C04 | `reassemble` over an arbitrary list of packets; spec = concatenation of fragment payloads; interleaved data packet case refuted by a witness |
| C05 | composition of C01-C04 with the Python host reader/writer |
| C06, C07 | decode (encode m) = Some m for all messages and commands; injectivity as corollary; inverse direction up to reserved bits. The bytes are also written out from the tables of the specification, sharing nothing with the model (`LayoutSpec.v`, `C06_layout`, `C07_layout`) |
| C08, C09, C10 | round trip by list lemmas on hex digits; acceptance iff grammar |
| C11 | independent pcapng reader parses back exactly the written blocks |
| C12-C15 | case analysis on the parameter identifier against a table-driven specification |
| C16-C18 | characterisation of `receive_packet` by packet class |
| C19, C20, C29, C30 | handler level theorems for all reachable states |
| C21, C25, C27, C28 | invariants by induction over arbitrary histories; C27/C28 have refuted parts |
| C22 | refuted (the existing session is replaced), with the exact behaviour proved |
| C23 | transition relation + monitor over the trace of notifications, for every event |
| C24 | all or nothing theorem for `SESSION_SET_APP_CONFIG` |
| C26 | iff theorems for start/stop |
| C31-C34 | list specification of the multicast update; bound refuted with the exact condition under which it holds; restart after emptying refuted |
| C35-C37 | invariants and trace monitors over arbitrary command histories; MAC uniqueness refuted, partial positive |
| C38 | frame theorem for each command |
| C39-C42 | specification of a ranging round as a relation, for arbitrary iteration order and estimator |
| C43, C44 | trace specification of the data buffer; destination property refuted |
| C45 | handler theorem, idempotence; the commands asked for are counted over every execution of the system (`InBandSpec.v`): processed + to come = asked |
| C46, C57 | exact characterisation of the packets that crash; refuted in general, proved for well-formed supported commands |
| C47, C48, C58 | schedule model; refuted by schedules, positive theorem under explicit conditions |
| C49-C52, C56 | state machine of the HTTP context, refinement to a map of devices |
| C53-C55 | binary32 model with Flocq; uses the axioms of the standard library reals; C54 refuted by 1.5 hundredths of a millimetre, exact below 40.96 m |
| C59, C60, C64 | schedule model: the log of messages is, per host, a permutation (responses: exactly the sequence) of what the processed commands produced; induction over schedules |
| C61, C62 | invariant of the set of tasks over schedules; deadlines are the start plus multiples of the interval, which is the RANGING_DURATION read back before the start (`PaceFacts.v`) |
| C63 | progress: from every reachable state a finite continuation drains the queue and the effects |
| C65 | refuted by a schedule; holds for runtimes that fire by deadline |
| C66 | invariant relating connection tasks and devices over schedules; refuted when the task panics |
| C67, C68 | model of the parser and serialiser of the Python library; round trips with the wire format of the simulator, composed with the framing (C05) and with the executions of the schedule model; refuted for one response |
| C69 | model of the console's `data_transfer`; induction over the file, composed with the framing and the data buffer (C43); refuted over 65535 bytes |
| C70 | binary32 model: conversions of the coordinates are exact |
| C71, C72 | model of the page's event listeners (`Page.v`); invariant over the server's actions relating the page to the scene; refuted for the races between the state and the events |
| C73 | induction over mouse movements; refuted for the elevation |
| C74 | model of the reader task of the Python library over a stream that arrives in pieces (`PyReader.v`); induction over the packets of the stream, composed with the segmentation of the simulator |
| C75 | the same model with the end of the stream; refuted: the task never ends |
| C76 | schedules restricted by predicates over their steps (`DialogueSpec.v`); invariant relating the delivered, waiting and remaining messages to what each command gives (`DialogueFacts.v`) |
| C77 | per-command tables; the set-up by induction over the history, with the frame of the other hosts' commands (`SetupFacts.v`) |
| C78 | model of the writers (`Json.v`); JSON grammar and EventSource parsing as a separate specification (`JsonSpec.v`); the texts derive in the grammar, the grammar is unambiguous (induction over derivations), cuts by induction over lines; addresses well formed by an invariant of the server |
| C79 | model of serde_json's reader (`Json.v`, from its published source); complete for the grammar (`JsonRead*.v`, `JsonBody.v`) and sound for it (`JsonSound*.v`), both by induction; refuted for cut bodies |
| C80 | model of the responses to `/events` over the server of C49–C52 (`Stream.v`: a tokio broadcast receiver each, capacity 1024); the response follows the log of events, by induction over histories; composed with C78 and C71 from the bytes to the page |
| C81 | binary32 model with the specification in real numbers (`DirectionSpec.v`: rotations about the axes, angles of a vector); rounding errors followed through the quaternions, the quotient and the arc tangent (`DirectionFacts.v`, `DirectionRotation.v`, `DirectionExact.v`); functions that satisfy the hypotheses are built by rounding the exact ones |
| C82 | composition of C39, C49, C54, C55, C56 and C81 over the server with places in the range of the JSON body (`SceneSpec.v`, `SceneFacts.v`) |
| C83 | model of the test programs as sequences of sends and expectations (`Script.v`), closed with the system: the packets read are those the program has sent given what it received (`ScriptSpec.v`); the schedule is then shown to be in lockstep and C77 gives the messages, by induction over the execution (`ScriptFacts.v`) |
| C84 | the whole program of `tests/ranging.py`, for any number of notifications: a projection of the system on one host (`view`, its effects, delayed notifications, timers, rounds, packets, messages) with its own step relation, shown to simulate the system; an invariant of this projection, by induction on the schedule, ties the stage of the device, the messages received and due, the deadlines of the notifications and of the ranging task; a checker of schedules for the example (2000 ms) and the refutation |
| C85 | the two programs of `tests/data_transfer.py`: each is followed in the projection of C84 (`s_at`, with the data of the session and the messages it has sent as further components), and a joint invariant of the two projections, by induction on the schedule, says that the data are in the session of the first until its first round, and in what the second is due or has received after it (`TransferSpec.v`, `TransferFacts.v`) |
| C86 | C39 lifted to the executions of the system (every notification delivered is the report of one round, `C39_delivered`), with the estimator of `main.rs` (`DefaultBin.v`) and an invariant: no anchor |
| C87 | infinite executions `f : nat -> label`, `s : nat -> sys`; fairness of the event loop, of the tasks whose sleep is over, of the clock and of the connection tasks as hypotheses (`LiveSpec.v`); the queue ahead of a command and the set of notifications due by a deadline decrease. `C87_fair`: every finite execution that comes to rest extends to a fair one |
| C88 | the routes, bodies and answers of `Http.v` and `Json.v` joined into one server that receives requests with a method, a path and the bytes of a body (`OpenApi.v`); the table of the documentation is the specification (`OpenApiSpec.v`); an invariant ties every answer to the request that got it (`OpenApiFacts.v`) |
| C89 | the answers are written out; the table of what the bits of the capabilities mean is the specification (`CapsSpec.v`); C24 (the answer to a list of parameters) and C12, C13 give acceptance |
| C90 | model of every device command of the console, including which names of the library it looks up; what each stands for is a table (`ConsoleSpec.v`); the codec (C68) and the framing give what the device decodes; "no console alone brings a device into service" is C16 over all histories; refuted for six commands |
| C91 | model of the requests and of `json.dumps`; its texts are related to the JSON grammar, then C79 |
| C92 | model of the selection, the mouse handlers and the sliders on a heap of JavaScript objects (`Ui.v`), because the page keeps references; invariant: the selected object is among the shown ones until something removes it; refuted for a removal or a loading during a drag |
| C93 | each gesture is computed in closed form by induction over its movements; ranges by invariant; the composition with the server's handler uses C51 and the listeners of the page |
| C94 | the form of a line, the manual of the commands with their defaults and the meaning of the values are separate (`ConsoleLineSpec.v`: `typed`, `manual`, `supplied`, `stands`); induction over the words, the parameters and the digits; what a misspelled name does is stated for all lines |
| C95 | what a host last set is defined from the commands it sent and the answers it received only (`ReadSpec.v`: `holds`, `exists_after`); induction over the history, with one lemma saying what a step does to one parameter of one session (`step_reads`); the initial values are a table |
| C96 | the CSS transforms of Map.js and Orientation.js as maps of real space (`Draw.v`); the specification is an isometric projection and the rotations of C81 (`DrawSpec.v`); trigonometric identities, no floating point; that the pointer is what the simulator measures as straight ahead is proved through C81 with an error bound (`DrawAhead.v`) |
| C97 | the schemas of `static/openapi.yaml` and what it is for a JSON value to be valid (`SchemaSpec.v`); from C78 (what the texts say), C79 (which bodies are accepted) and an invariant that every measurement announced was computed; refuted as documented, proved for the schemas corrected in three points |
| C98 | what concerns one host in a history (`IsolationSpec.v`: its own commands and rounds, the in-band stops it is notified of); its device and what it is told are computed from this alone, by induction on the history, so two histories which agree on it cannot be told apart by the host; corollary: the order of the commands of different hosts does not matter |
| C99 | ControleeSpec.v defines from the commands and the answers alone the list of controlees (`listed`) and their number (`counted`). ControleeFacts.v shows, by induction on the execution, that these are the values in the configuration of the session; the case of each command is `handle_cfg`, that of each operation of the server `step_cfg`. PropsControlee.v derives what a read answers (`C99_read`), and that a session has one list and one number as long as it exists (`C99_exists`). |
| C100 | MeasureSpec.v defines from the commands, the answers and the notifications alone which sessions are active (`told_active`), which anchors exist (`anchored`) and who is a peer (`peer`, with `holds` of C95 and `listed` of C99). MeasureFacts.v shows that these are what the state says, by induction on the execution; PropsMeasure.v combines this with C39 and C42. |
| C101 | AnswerSpec.v defines the answer to each of these commands from the history of the host (`exists_after` of C95, the last notified state). PropsAnswer.v: by C23 the last notified state is the state, by C95 the sessions are those of the history; then each command is a case analysis of its handler; `C101_unknown` does so for ERROR_SESSION_NOT_EXIST and every command naming a session. |
| C102 | `PowerSpec.v`: the mode of a device as an inductive relation on the history of its host (`mode`: on at first, on after a reset, last value set by an answered CORE_SET_CONFIG) | invariant over `executes`, one lemma by cases of `step` (`step_low`), functionality of the relation from the injectivity of the encoding; `PropsPower.v` |
| C103 | KeepSpec.v: fairness of the ranging tasks, number of rounds. KeepFacts.v: while the session is active its task exists and no abort of it is pending (from the invariant of C61), so that it stays until it acts (`kept_or_fires`); it is due at some moment (clock), acts (fairness), and its command is taken (C87). KeepDemo.v builds an infinite fair execution that satisfies the hypotheses; the notifications are disabled there since the event loop panics when the sequence number overflows (C47). |

## 3. Trusted base

* Coq 8.16.1's kernel (including `vm_compute`, used in examples and counterexamples), and `coqc`'s
  parser and elaborator for the statements.
* `Print Assumptions` of every theorem `Cnn_...` outside `PropsPosition.v`, `PropsDirection.v`, `PropsScene.v` and `PropsDraw.v`, but for `C97_bounds`: **Closed under the global
  context**. (vcheck lists `Coq.ssr.ssrunder.*` among the library axioms of loaded modules: they are
  module-type fields of the standard library's ssreflect, loaded through std++ and Flocq, and no theorem
  depends on them.)
* `Print Assumptions` of `C53_symmetric`, `C53_server`, `C54_accurate_partial`, `C54_exact`, `C54_refuted`,
  `C55_total`, `C70_coordinates`, `C70_angles`, `C81_direction`, `C81_unrotated`, `C81_whole_degrees`, `C82_sound`, `C82_measurements_partial`, `C97_bounds` and those of C96: the four axioms of the standard library's real numbers,
  `ClassicalDedekindReals.sig_not_dec`, `ClassicalDedekindReals.sig_forall_dec`,
  `FunctionalExtensionality.functional_extensionality_dep`, `Classical_Prop.classic`.
* No axiom of our own, no `Admitted`, no section-less `Variable`, no functor or module type, no kernel
  flag changed. Libraries used for definitions and lemmas: the standard library, std++, Flocq.
* That the model says what the Rust code does: read, function by function, from the source; every
  definition cites its lines. It has not been compared with a run of the code (no network, no build).

### Modelled

| Rust | in the model | simplified |
|---|---|---|
| `mac_address.rs` | all but `Debug` (serde: `Json.v`) | text as character codes; `hex` crate by its specification |
| `app_config.rs` | all | the fields that the code never reads are kept as values |
| `uci_packets.pdl` | the enums, all commands, responses and notifications handled or produced by the code | the generated parser by the PDL reference semantics; packets the code never builds or accepts are left out |
| `session.rs`, `device.rs` | all handlers | delayed notifications are effects with their delay; `HashMap` orders are chosen by the environment |
| `lib.rs` | context, commands, ranging, connection tasks, segmentation, reassembly, event loop | one label of `Sys.v` is one indivisible action of one task; the clock is in milliseconds; channels by their tokio documentation |
| `packets.rs` | framing | an I/O error is the end of the stream |
| `pcapng.rs` | all | time stamps are arbitrary; the file is the list of bytes written, cut anywhere by a crash |
| `bin/http-server/main.rs` | context, routes, events, estimator, event task | hyper is a source of requests and polls the bodies of responses; the position type is a parameter; the responses to `/events` in `Stream.v`, with tokio's broadcast channel from its documentation; the JSON texts in `Json.v`, with the functions of serde_json they use (not in /repo, modelled from its published source) |
| `bin/http-server/position.rs` | arithmetic | glam 0.25 (not in the repository) by its scalar code; `sin`, `cos`, `atan` are parameters with stated bounds (C81: accurate to 2^-21, as the platform libraries are; Rust promises no accuracy), and so is glam's `to_euler`, used by `Serialize`; `Display` is not modelled |
| `bin/main.rs` | the task structure, the estimator | argument parsing, logging and socket setup are not modelled |
| `py/pica/pica/__init__.py` | packet reader and writer, reader task, queues | `StreamReader.read` by its documentation: it returns a non-empty part of what has arrived, waits, or returns no bytes at the end of the stream; the asyncio event loop is not modelled |
| `py/pica/pica/packets/uci.py` | the parser for the packets the simulator can send (all groups, the order in which classes are tried), the serialiser of the commands the device handles and of data messages | an exception is `None`; packets that neither side uses are left out |
| `py/pica/console.py` | the device commands and the web commands, `data_transfer`, the loop of `command_line` with the splitting and conversion of the line (ASCII) | completion, line editing, printing of what is received |
| `static/index.html` | the list of devices, the listeners of the events, the loading of the state, the selection, the requests | the rendering (only what is rendered can be pressed); the texts of the events are in `Json.v`; a `TypeError` in a listener leaves the page unchanged |
| `static/src/components/Map.js` | `onMouseDown`, `onMouseUp`, `onMouseMove` | numbers are integers, and the point of the board under the mouse is given (C96: real numbers) |
| `static/src/components/Map.js`, `Orientation.js`: what is drawn | the places and directions of the markers, the elevation arrow, the axes, the pointer and the arcs (`Draw.v`), with the CSS and SVG transform functions by their specifications | real numbers instead of floating point; sizes, colours and line widths; that `screenToSvg` inverts the projection |
| `static/src/components/DeviceInfo.js` | the sliders and the change event | the rendering; a slider gives an integer between its bounds |

### Not modelled

the line editing of `console.py`, the rendering of the web page (but for the geometry of what it draws, C96), log output, argument parsing, TLS/HTTP framing
(hyper), whether tokio is fair (C87 takes it as a hypothesis), memory exhaustion, operating system errors other
than end of stream, failed file creation and short writes.

## 4. Findings

Behaviour of the code that the proofs exposed; each is a `_refuted` theorem or an exact characterisation.

| finding | theorem |
|---|---|
| data packet between two control fragments is glued to the message | C04_interleaved_data_refuted |
| short and extended addresses may have the same numeric value | C10_number_across_kinds_refuted |
| short write to a capture file corrupts it (`write`, not `write_all`) | C11_short_write_refuted |
| `MAC_ADDRESS_MODE` 1 panics | C15_address_mode_1_panics |
| `DEVICE_STATE` reads back as 0xFF | C20_device_state_refuted |
| a repeated `SESSION_INIT` destroys the existing session | C22_refuted |
| refused parameters are not listed when a mandatory one is also missing | C24_list_refuted |
| device remains ACTIVE with no active session, IDLE session keeps its timer, next start panics | C27_refuted, C28_refuted, C34_refuted |
| `RANGING_DURATION` set on an active session is accepted and read back, but the rounds keep their old cadence | C62_reconfigured |
| multicast list can exceed eight controlees | C32_refuted |
| two devices, or a device and an anchor, with the same address | C36_refuted, C36_refuted_devices |
| data messages ignore their destination | C44_refuted |
| packets that stop the whole environment | C46_refuted, C57_refuted; exact set in C46_exact_partial |
| a ranging round queued behind `SESSION_DEINIT` or a disconnection stops the environment | C47_refuted |
| notification after stop | C48_refuted |
| a notification may overtake its response; status notifications may be reordered | C58_refuted, C65_refuted |
| unwritable capture directory: the connection task panics and its device stays for ever | C66_panic_refuted |
| web scene and environment diverge by two races | C49_refuted |
| set-position ambiguous between an anchor and a device of the same address | C51_ambiguous_refuted |
| without a browser on `/events` the first connection ends the process; an anchor request poisons the lock | C52_refuted, C52_first_connection_refuted |
| 17 connections at once end the web server | C52_burst_refuted |
| estimator silent once the lock is poisoned | C56_poisoned_refuted |
| the Python library cannot parse the answer to a multicast list update | C67_multicast_refuted |
| the web page can show a device twice, not at all, or lose it with the anchor of the same address; it shows no neighbours until something moves | C71_refuted, C72_refuted |
| an elevation over 32767 can be set on the page and is refused silently | C73_refuted |
| a request whose body is cut anywhere moves the device to the origin instead of being refused | C79_cut_refuted |
| a page that falls more than 1024 events behind is silently cut off; the browser reconnects, the page does not ask for the state again and shows devices where they were | C80_lagged, C71_reconnect_refuted |
| when the connection closes, the reader task of the Python library loops for ever without suspending, so the host program hangs | C75_refuted |
| a file of more than 65535 bytes sent from the console stops the simulator at the next round | C69_refuted |
| on a slow machine a notification overtakes the response of the same command, and the test programs fail | C83_refuted |
| a round can come between the last notification a program waits for and the processing of its stop command; `tests/ranging.py` then fails, since it expects the response next | C84_refuted |
| the data of a session are sent and forgotten in its next round even if no session receives them: if the second program of `tests/data_transfer.py` is slower to set up than the first round, it never gets the file and fails on an empty data message | C85_refuted |
| the default binary reports every compatible device as measured at distance 0 with status OK, although its comment says that no result can be produced | C86_measurements, C86_example |
| six console commands, the reset among them, end the console with an `AttributeError` (names absent from `uci.py`); a device used from the console alone therefore rejects everything, in every history | C90_misnamed_refuted, C90_useless_refuted |
| the console truncates a session identifier over 32 bits: the command goes to another session | C90_truncated_refuted |
| the console ignores a misspelled parameter: `range_stop sessionid=7` stops session 0 | C94_ignored_refuted, C94_misspelled_refuted |
| a device which is removed, or reloaded, while it is dragged is asked for although it is not what is shown | C92_refuted |
| without a subscriber to the events an anchor is created (or destroyed) and the request gets no response | C50_refuted |
| an abandoned create-anchor request leaves an anchor that is measured by nobody | C82_refuted |
| range more than one centimetre short | C54_refuted |
| coincident devices have an elevation of 90 degrees | C55_coincident (example) |
| the web server answers 406 and 404 where its documentation has no such status, never answers the documented 403, and moves a device to the origin when the required body is missing | C88_refuted |
| the web server ignores the method of a request: a GET destroys an anchor | C88_method, C88_method_refuted |
| no event and no state that the web server sends is as documented: the categories have capitals, the numbers of the position are not under `position`, the state is an object, not a list | C97_event_refuted, C97_state_refuted |
| bodies which are as documented are refused (a coordinate of more than 16 bits, a missing property), others which are not are accepted (a yaw of 200 degrees) | C97_body_refuted |
| extended addresses are declared as supported and accepted, but the first round of two devices that use them stops the program; hopping is declared as not supported and is accepted | C89_extended_refuted, C89_undeclared_refuted |
