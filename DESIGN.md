# Formal model of transceiver-control: design

Source: `/repo` (Rust, pinned commit, read as text only). Prover: Coq 8.16.1.
Everything is in `rocq/theories`. Nothing of the repository is executed: the tie between model and
code is the citation (file and lines) carried by every model definition.

## 1. Trusted base

* Coq's kernel (`coqc`; rechecked by `coqchk`, which has no VM).
* `Print Assumptions` stands under every property theorem and prints
  "Closed under the global context" for all of them: no axiom is used.
* `coqchk -o` also lists axioms of loaded library files, whether used or not. They are the seven
  `Coq.ssr.ssrunder.Under_rel.*` constants of the standard library's ssreflect support, which `lia`'s
  `ZifyBool` loads. No theorem depends on them.
* No axiom, section-less `Variable` or `Hypothesis`, `Admitted`, functor, module type or kernel switch of our
  own. `Context` is used inside sections only, so its contents are quantified in the exported statements.
* That the model says what the code says (section 4 lists what is simplified), and that the
  specification files (`Spec*.v`) say what the English property says.
* What the model assumes about software outside `/repo`:
  * hubpack: an enum is its variant index in one byte, integers are little-endian, `Option` is a 0/1 tag,
    structs and arrays are concatenated without padding; an unknown tag or missing byte is an error,
    bytes left over are returned.
  * bitflags 2.x: text form of a flag word is the names joined by ` | `, remaining bits in hex.
  * std: `from_utf8`, `trim`, `parse::<u8>`, `from_str_radix` (which accepts a `+`), `Vec`, `BTreeMap`,
    formatting of integers, lower-casing (outside ASCII a
    parameter with stated assumptions), `{:.4}` of an `f32` (exact value rounded half to even), byte and char slicing.
  * `f32` arithmetic is IEEE 754 binary32, taken from `Coq.Floats.SpecFloat` (computable, no axioms).
  * `{}` of an `f32` (shortest decimal that reads back) is a parameter `show` of the printing theorems.
  * tokio: `select!` runs one enabled branch at a time; channels are FIFO and lose nothing; the schedule is
    arbitrary. clap: names derive from fields; `requires`, `conflicts_with` (both ways) and required groups (exactly one) are
    checked on options given explicitly. Splitting of the command line into arguments is not modelled.
  * the `tabled` crate: a table is the list of its records; its layout is not modelled.

## 2. Modelling conventions

* Bytes, masks, indices and offsets are `N`. A fixed-width integer is an `N` with an explicit boolean range
  predicate (`Wf.v`). Where the code wraps or overflows, the wrap or the panic is in the model.
* `Result` is `Ok`/`Err`; a panic (slice out of range, `unwrap`, `expect`, `assert!`, `unreachable!`,
  arithmetic overflow in a debug build) is the third outcome `Panic` of `outcome E A`.
* Loops and iterators are structural recursion, `map`, `filter`, `combine`, folds. No fuel that can run out.
* `ModuleId` is its 64-bit mask; per-module data is a list in port order, as in the code. Specifications
  speak of partial functions from ports to values (`reports`, `told_ports`), not of masks and lists.
* The I/O loop is a state machine: an event is one branch of `select!` (caller request, retry tick,
  datagram, socket error). Theorems quantify over all event lists, hence all schedules.
* A controller call is a program over an arbitrary SP: a state type and a step function from
  (request, data) to (response, data) or an RPC error, both quantified. Every request is recorded in a
  trace, so that theorems can speak about what was not sent. An *honest* SP is given by an arbitrary
  verdict and answer for each module and an arbitrary state transition, laid out as messages/src/lib.rs documents.
  Each theorem says whether it holds for every SP or for every honest SP.
* `SpecNet.v` composes I/O loop, a network which may lose, delay, repeat and reorder datagrams, and an SP;
  theorems C59-C61 quantify over all its executions.
* `SpecConc.v` adds any number of calls at a time (C78). Each call is a program of questions, which is told each
  answer's body and data or the error and may go on from either (calls stop at errors; `xcvradm status` does not always,
  C94); all take ids from one
  counter and hand requests to the loop in any order, which covers the FIFO channel. A question with fields out of the
  range of their types is never asked (C80: no call asks one). A call that waits gets the reply with the id of its request.
* `SpecFair.v` adds endless schedules (C79): each call, the channel (in order) and the timer get turns again and again.
* `SpecLive.v` states what an honest SP must satisfy to *drive* modules (`drives`), C74-C76: requests affect only the modules
  they address; looking changes nothing; answers tell status, LED and memory as they are; an accepted request is done
  (enabling power makes both supply bits true, a write changes exactly its bytes, bytes below 128 being common to all
  pages). Which requests are refused, what a refusing module does, and memory after a change of pins are arbitrary.
  `live_rack` is such an SP for any refusals (`rack_drives`).
* Module memory is a function page -> offset -> byte; a rack is a function port -> memory or failure.
* Text is a list of Unicode scalar values; output is a list of lines; bytes to text is UTF-8.

## 3. Files

Model files contain no proofs. `Spec*.v` files hold the vocabulary of the statements and do not use the model's
helper functions. `Props*.v` files contain only property theorems closed by `exact`, refutation witnesses,
`Print Assumptions`, and `Example`s that concrete non-trivial cases meet the hypotheses.

| area | model | vocabulary | proofs | theorems | modelled source |
|---|---|---|---|---|---|
| common | `Base` | `Spec` | `Tac` | | |
| module sets | `ModuleId` | `Spec` | `ModuleIdProofs`, `ModuleIdProps` | `PropsModuleId` C01-C04 | messages/src/module_id.rs |
| wire protocol | `Mgmt`, `Mac`, `Message`, `Codec`, `StatusText`, `Wf` | `SpecMessages`, `SpecWire` | `CodecProofs`, `MessageProofs`, `PageProofs`, `WireProofs` | `PropsMessages` C05-C13, C54, C55, `PropsWire` C72 | messages/src |
| code tables | `Enum`, `Tables`, `Types`, `CodeText`, `Text` | `SpecText` | `CodeTextProofs` | `PropsCodeText` C44, C45 | decode/src: `bitfield_enum!` tables, OUIs, states |
| split accesses, results | `LargeAccess`, `Results` | `SpecResults` | `AccessProofs`, `ResultsProofs`, `2` | `PropsResults` C14-C18, C71 | controller/src/large_access.rs, results.rs |
| I/O loop | `IoLoop` | `SpecIo` | `IoProofs`-`IoProofs4` | `PropsIo` C19-C27 | controller/src/ioloop.rs, messages.rs |
| controller | `Controller` | `SpecController`, `SpecScope` | `ControllerProofs`-`9`, `ControllerSim`, `ScopeProofs`, `2`, `GateProofs` | `PropsController` C28-C40, `PropsGate` C31, `PropsScope` C62, C63 | controller/src/controller.rs |
| crashes by answers | | `SpecCrash` | `CrashProofs` | `PropsCrash` C33 (exact) | controller.rs |
| errors of queries | | `SpecController` | `OrderProofs` | `PropsOrder` C35, C40 (errors, exact) | controller.rs |
| what `set_power` reports | | `SpecExact` | `ExactProofs`, `2` | `PropsExact` C38 (exact) | controller.rs |
| decoders | `DecodePower`, `DecodeVendor`, `DecodeMemory`, `DecodeMonitors`, `DecodeDatapath`, `Utf8` | `SpecDecode` | `DecodeProofs`-`4`, `7`-`9`, `FloatProofs` | `PropsDecode` C41-C43, C46-C49 | decode/src |
| configuration, command line | `Config`, `CliText`, `Cli` | `SpecCli`, `SpecCmd` | `ConfigProofs`, `CliProofs`-`6` | `PropsCli` C50-C53, C56-C58 | controller/src/config.rs, bin/xcvradm.rs |
| caller to SP and back | | `SpecNet` | `NetProofs`-`3` | `PropsNet` C59-C61 | ioloop.rs and controller.rs together |
| decoded queries | `Queries` | `SpecQuery` | `QueryProofs` | `PropsQuery` C64 | controller.rs and decode/src together |
| printed output | `CliTables`, `CliMonitors`, `CliDatapath` | `SpecTable`, `SpecMonitor`, `SpecPath` | `TableProofs`-`3`, `MonitorProofs`, `2`, `PathProofs` | `PropsTable` C65, `PropsMonitor` C66, `PropsPath` C67 | bin/xcvradm.rs 1532-2337 |
| whole tool | `CliMain` | `SpecMain` | `MainProofs`, `2` | `PropsMain` C68-C70 | bin/xcvradm.rs 894-1530 |
| effects on modules | | `SpecLive` | `LiveProofs`-`3` | `PropsLive` C74-C76 | controller.rs over modules that act |
| causes of failure | | `SpecCause` | `CauseProofs` | `PropsCause` C77 (and C37, converse) | controller.rs |
| calls at the same time | | `SpecConc` | `ProgProofs`, `ConcProofs` | `PropsConc` C78 | ioloop.rs and controller.rs together |
| endless fair runs | | `SpecFair` | `FairProofs`, `FairProofs2` | `PropsFair` C79 | ioloop.rs and controller.rs together |
| status numbers | `StatusSerde` | | `StatusSerdeProofs` | `PropsStatus` C82 | message.rs 801-863, 961-1013 |
| JSON forms | `Json`, `JsonPower` | `SpecJson` | `JsonProofs`, `JsonProofs2`-`6` | `PropsJson` C83 | ident.rs 65-155, 476-490; monitors.rs 20-209; datapath.rs 28-191, 675-952; controller lib.rs 266-320 |
| time of resends | `TimedLoop` | `SpecTime` | `TimeProofs` | `PropsTime` C84 | ioloop.rs 67-89, 206-215, 690-720 |
| cost of calls | `Controller`, `Queries`, `CliMain` | `SpecCost` | `CostProofs` | `PropsCost` C85 | controller.rs; xcvradm.rs 946-1516 |
| set-up | `Setup` | `SpecSetup` | `SetupProofs` | `PropsSetup` C86 | controller.rs 86-182; ioloop.rs 67-89; xcvradm.rs 896-944 |
| option rules | `Clap` | `SpecClap` | `ClapProofs` | `PropsClap` C87 | xcvradm.rs 141-216, 329-716 |
| status flags as text | `StatusText`, `Cli` | `SpecFlags` | `FlagProofs`, `FlagProofs2` | `PropsFlags` C89 | message.rs 787-799, 945-965, xcvradm.rs 317-319, 1622-1639 |
| loop and SP-request handler | `Duplex` | `SpecDuplex` | `DuplexProofs` | `PropsDuplex` C90 | ioloop.rs 67-89, 288-296, 774-806, lib.rs 333, xcvradm.rs 915-940 |
| a call in time | `TimedCall` | `SpecDeadline` | `DeadlineProofs` | `PropsDeadline` C91 | controller.rs 299, 305, 588, 672, 1301-1316; ioloop.rs as `TimedLoop` |
| calls at the same time, in time | `TimedCalls` | `SpecCrowd` | `CrowdProofs`, `CrowdProofs2`, `CrowdProofs3`, `CrowdProofs4` | `PropsCrowd` C92 | controller.rs 147, 1301-1316; lib.rs 331-333; ioloop.rs as `TimedLoop` |
| calls given up | `TimedCalls` | `SpecGiveUp` | `GiveUpProofs`, `GiveUpProofs2`, `GiveUpProofs3` | `PropsGiveUp` C93 | as C92; ioloop.rs 193-195, 416-418, 635-637, 742, 758 |
| a run of the tool in time | `CliMain` | `SpecXcvradm` | `XcvradmProofs`, `XcvradmProofs2` | `PropsXcvradm` C94 | xcvradm.rs 894-1516 over controller.rs and ioloop.rs |
| calls beside the SP-request handler, in time | `Beside` (on `TimedCalls`, `Duplex`) | `SpecBeside` | `BesideProofs`, `BesideProofs2`, `BesideProofs3`, `BesideProofs4`, `BesideProofs5` | `PropsBeside` C95 | as C90, C92, C94 |
| calls that change things, over a network that keeps order | | `SpecOnce` (on `SpecNet`, `SpecConc`) | `OnceProofs`, `OnceProofs2`, `OnceProofs3`, `OnceProofs4` | `PropsOnce` C96 | as C59, C74-C78 |
| the order in which pins are set | `Controller` | `SpecPins` (on `SpecLive`, `SpecOnce`) | `PinsProofs`, `PinsProofs2`, `PinsProofs3` | `PropsPins` C97 | controller.rs 290-307, 479-700 |
| what a run of the tool does to modules and shows of them | `CliMain`, `Cli`, `Controller` | `SpecTool`, `SpecRows` (on `SpecLive`, `SpecMain`, `SpecOnce`) | `CoverProofs`-`CoverProofs3`, `ToolProofs`, `ToolProofs2`, `ToolProofs3`, `ToolProofs4`, `RowsProofs`, `OpenProofs` | `PropsTool` C98 | xcvradm.rs 894-1516 |
| calls for several modules and calls for one | `Controller`, `Queries` | `SpecApart` | `ApartProofs`, `2`-`5` | `PropsApart` C99 | controller.rs 185-700, 1005-1334 |
| calls at the same time for different modules | `Controller` | `SpecDisjoint` (on `SpecOnce`, `SpecScope`) | `DisjointProofs`, `2`-`5` | `PropsDisjoint` C100 | controller.rs 90-360, 479-1334, ioloop.rs 668-883 |
| power changes of modules that are on | `Controller` | `SpecSteady` (on `SpecPins`, `SpecLive`) | `SteadyProofs` | `PropsSteady` C101 | controller.rs 479-835 |
| writing back what the tool shows of memory | `CliMain`, `CliText`, `Cli` | `SpecRestore` (on `SpecTool`, `SpecCli`) | `RestoreProofs`, `RestoreProofs2` | `PropsRestore` C102 | xcvradm.rs 704-892, 1164-1290, 1687-1733 |
| runs of the tool that follow each other | `CliMain`, `Cli`, `CliTables`, `Controller` | `SpecFollow` (on `SpecTool`, `SpecTable`) | `FollowProofs` | `PropsFollow` C103 | xcvradm.rs 894-1516, 1640-1733 |
| how queries end | `Controller`, `Queries`, `CliMain` | `SpecFate` | `FateProofs`, `FateProofs2` | `PropsFate` C88 | controller.rs 1177-1298, xcvradm.rs 955-1452 |
| additions after tests | | `SpecMore` | `MoreProofs` | `PropsMore` C07, C50, C65, C66 | codec sizes, config.rs setters, field names of xcvradm |
| code names | | `SpecCodes` | `CodesProofs` | `PropsCodes` C81 | ident.rs, datapath.rs tables |
| what requests contain | | `SpecSent` | `SentProofs` | `PropsSent` C80 | controller.rs |
| the code's own unit tests | | | | `TestsMessages`, `TestsDecode`, `TestsController` (examples only) | test modules of all crates |
| error texts | `ErrorText` | `SpecError` | `ErrorProofs` | `PropsError` C73 | the error types of all crates |

## 4. What is modelled and what is not

Modelled, function by function: all of messages/src except serde/schemars instances; all of decode/src
except `Debug` text; controller/src/large_access.rs, results.rs, ioloop.rs, messages.rs, config.rs; all API calls of
controller.rs; bin/xcvradm.rs from parsed arguments to the two output streams (`main`), the parsing of argument values
and input, and the printing.

Not modelled:
* fairness of tokio's scheduler and, except in `TimedLoop`, `TimedCall` and `TimedCalls`, time (elsewhere a retry tick is an event that may happen at
  any time; `TimedLoop` takes tokio's `Interval` as: panics for period zero, completes at its deadline or later, then moves
  the deadline by one period, `reset` sets it one period from now; `TimedCalls` takes tokio's `mpsc::Sender::send` as: a place
  that becomes free is given to the sender that has waited longest, which puts its request in when it is polled next);
* sockets beyond "datagram sent / received / error" and which set-up calls succeed (`Setup`); spawning of the I/O task and
  `drop`, which aborts it;
* logging, USDT probes, build.rs; of error texts, those of I/O errors;
* clap's splitting of the command line into arguments, `--help` and repeated options; `main`'s log set-up (its handler of SP requests is in `Duplex`); the context lines anyhow adds to an error that ends the tool;
* the layout of tables drawn by the `tabled` crate;
* serde/schemars instances other than the numeric `Status` forms and the JSON forms of vendor information,
  monitors, datapaths, power modes and LED states. JSON is modelled as trees (no text syntax); arrays in place of objects, which serde
  also accepts for structs, are not modelled.

Simplified:
* A `benum` value is a named code or (catch-all index, byte) instead of a Rust enum; `Tables.v` was
  transcribed from the macro invocations.
* `main` is parameterised by the text shown for an error (in the code `ErrorText.te_display`) and by the text of a
  floating-point number.
* The host functions that serve SP requests are a total function from requests to replies.
* `SpecNet` delivers datagrams whole; corrupted datagrams are covered by the theorems about arbitrary datagrams (C21, C25).

## 5. How the properties are proved

* C01-C04: bit algebra with `N.testbit`; lists aligned with masks by induction.
* C05-C07: one round-trip and size lemma for each field combinator, composed by case analysis.
* C08-C13: constructors against arithmetic specifications, exact "if and only if".
* C14, C15: tiling by induction over chunks. C16-C18: results as partial functions.
* C19-C27: invariants over all event lists, with history recorded in the outputs.
* C28-C40, C56-C58, C62, C63: weakest-precondition style lemmas for programs over a quantified SP.
* C41-C49: bytes at the standards' addresses; finite domains (256 values) by computation lifted with
  `forallb_forall`; floating point by error bounds (`FloatProofs`), not enumeration.
* C59-C61: simulation between the composed system and direct calls; invariants on the network's content.
* C64-C67: composition of decoders, controller and printing; output is read back by a specified reader.
* C68-C70: `main` composed of the above, for every command.
* C74-C76: partial correctness over an SP with state; every step is related to what is seen of each module before and after.
* C77: a rule for sequencing of calls whose log of acts is replayed against the SP (`accounted`), for every SP.
* C78: each call is shown equal to a syntactic program; an invariant over all interleavings ties ids, queue, outstanding
  request and waiting calls; the loop's part is C59.
* C79: an outstanding request ends, by induction on the retries left; a queued request moves up until it is taken; a call
  ends by induction on its program; the loop keeps running by an invariant on loop, network, queue and calls.
* C81: sweep over the 256 codes of each table against `SpecCodes`, the standard's tables by code, written from memory of
  SFF-8024 (there is no network) in the wording of the tool.
* C91-C93: invariants over all timed histories; the bounds by a potential that never grows while what is due is served in time.
* C94: a whole run is a program like a call's, built by sequencing and one handler of errors; then C78-C80, C85 and C91 apply to it.
* C95: an invariant bounds how long the loop has waited by the steps the handler has left; then what the loop and the calls did
  is a history of C92 with a larger slack.
* C80: weakest preconditions as in C63; carried over to programs by an SP that plays given answers.
* C96: the datagrams the SP got, without immediate repetitions, are some of the requests in order (the loop sends copies of
  one request at a time); the replies of one call are those of its direct run, by induction on the call's steps.
* C97: weakest preconditions with a guard on every request and the pins of all modules in the assertions; the states a program
  goes through are those after the beginnings of the direct call's log, so C96 carries it to the network.
* C98: every module a call is made for is among its results or its failures (`told_of`, for each call the tool makes), so one
  without a line on standard error is among the results, for which C74-C76 say what was done or read. A module
  for which the SP reports no error to a look is in the results of every query (`OpenProofs`), so it is named. For the status
  command the extended status is a function of the SP's state that looks leave alone (`tells_extended`); `without_extended` is
  an older SP.
* C99: modules are given by arbitrary functions of their own state (`bay`); `fate` says that a call either returns, with the
  report and next state of each module computed from its own state, or some module is to blame. `pt` (calls that always return),
  `link` (two steps), `read_rest_apart` (split reads), `parse_groups_apart` (groups by kind) and `fate_power` build it up;
  `alike_fate` draws the conclusions once for all calls.
* C100: C96 gives the requests the SP did, each once and in order; `theirs` ties each of them to the call that made it, for
  each call those it made, in its order (`theirs_run`). A request of a call that keeps to its modules is for those only, so
  requests of other calls drop out of the state of its modules (`follow_local`), and the rest is the call alone (`calls_within`).
* C103: `then_told` joins what C98 says of the first run (`obeyed`) and of the second (`true_screen`), and finds the rows in the tables.
* C102: what is printed is `printed` of C52 with commas; texts of up to 8 bytes fit the buffer and load as themselves, longer
  ones load, if at all, as 9 bytes or more (`loads_many`), which no write takes; C98 gives what the two runs show and do.
* C101: `walk` is a triple about one module that also says what holds of it after every request; the sets the call computes are
  followed through it. Up to the LPMode request a module that is on is in none of them. Assumed of modules besides `drives`
  (`settled`): a refused request changes nothing, the LPMode pin changes neither memory nor LED;
  and for the software override (`one_kind`): the modules asked for are of one kind at first, and no power pin changes that. The rack meets
  both (`rack_settled`, `rack_one_kind`).

## 6. Findings: where the code does not do what the property says

Each is a `_refuted` theorem with a witness, or a hypothesis of a `_partial` theorem.

Messages
* C01: `contains` shifts by the index: overflow for an index of 64 or more.
* C09, C10: `new_unbanked` does not check that the page may be unbanked; deserialised pages and operations are unvalidated.
* C12: a MAC range whose last address is the last of its OUI is refused (off by one).
* C13: hardware errors are decoded from every byte given, also beyond the failed modules.
* C55: the expected data length of a write request is multiplied by the number of modules, though the data is sent once.

Access and I/O loop
* C15: a write of more than 4 bytes to SFF-8636 memory cannot be built, though splitting uses 64.
* C21, C25: a datagram holding only the header of an SP response stops the I/O loop. `C25_exact` lists all three ways in which a datagram can stop it; one of them is any SP request that is understood after the handler task has gone (`C25_orphan`).
* C94: without `--n-retries` the tool, and without `n_retries` any controller, waits for a silent SP for ever (2^64 - 1 attempts).
* C93: a caller that gives up a call (drops its future, as `tokio::time::timeout` does) while its request is in the channel or
  with the loop stops the loop: whatever the request ends in is sent to the caller with `unwrap` or `expect`
  (ioloop.rs:193-195, 416-418, 635-637, 742, 758). All calls that wait and all later ones then panic
  (controller.rs:1301-1316). Giving up at any other moment does no harm.
* C27: the error sent for an unexpected datagram reuses its header, so its kind is not Error; a response to the SP is sent
  without any header.
* C30: the length of a read answer is checked late.
* C33: panics on an LED byte of 3, an undefined extended-status bit, a read answer of another length
  (`C33_crashes` says exactly which answers do; a read answer that is longer than asked for by less than one module's
  share is cut to size and handed out).
* C63: the modules of an answer are never compared with those of the request.

Controller
* C35, C40: one module of an unsupported kind fails the query for all; errors may be attributed in another order
  (`C40_errors` and `C35_errors` say exactly when).
* C38: for mixed sets `set_power` loses modules (software override, on and off together, mixed kinds), and a refused
  power-up is reported both as success and failure.  `C38_exact` and `C38_reports` say, for modules of one kind in any
  mixture of states, exactly which modules these are; `C38_kinds`: with several kinds only those of the lowest code
  are written to and none is reported as done.
* C39: the CMIS power word is written through an SFF-8636 page.
* C64: one module with undecodable memory panics the query for all modules.

Decoders
* C44: an Ethernet compliance code without name. C45: `+` is accepted in OUI text.
* C82: an extended status offered as u64 (JSON) loses undefined bits silently, offered as u32 it is rejected.
* C84: `ConfigBuilder` and `Config` accept a retry interval of zero, for which `Controller::new` panics in
  tokio's `interval` (`C84_start_refuted`); the tool rejects it when it parses its arguments.
* C83: the datapath of an SFF-8636 module whose compliance byte has no or several bits set is written with
  `Unknown (0x..)` as its Ethernet code; reading that JSON fails and the whole datapath is lost.
* C81: identifier 0x19 (OSFP) is shown as "QSFP 8X Pluggable"; compliance codes 0x31 and 0x33 (active optical cables) as
  "Active Copper Cable ... 2", all of 0x30 to 0x33 with "200GAUI-2" for 100GAUI-2, and the 100G-ER1 codes (0x2d, 0x2e, 0x34,
  0x35) as LR1, unlike the media interface table; host interfaces 0xc0 to 0xcd are not shown as custom (range typed 0xce)
  and connectors 0x75 to 0x7f not as reserved (0x74 for 0x7f).
* C42: panics on reserved CMIS bank codes, the reserved bias scale, an unknown media type, an unlisted application.
* C47: temperatures and voltages are not always correctly rounded; TEC current is decoded as unsigned.
* C48: the mask for auxiliary monitors includes temperature and voltage bits.
* C49: the two nibbles of a datapath state byte are swapped; supported lanes are read from byte 209 instead
  of 210 of page 00h; reserved state codes are reported as states.

Configuration and command line
* C50: an explicit address is compared only with the interface's first IPv6 address.
* C52: autodetection of the data format panics on one-character or multibyte input; text input stops at 512 bytes, raw
  input at 128 or at a short read.
* C53: a read in several chunks panics when a module failed in an earlier chunk.
* C56: addressing by power state fails if any readable module is of an unsupported kind.
* C87: `read-upper` declares `-p` for both `--page` and `--parseable`; clap panics on that in debug builds.
* C57: `status --with ""` reaches `unreachable!`; `--without A|B` means "not all of them".
* C89: `--with 0x200` is accepted although no module can have that bit; the table then shows 0 for every module.
* C90: the loop waits when the channel to the SP-request handler is full, and the handler waits when the channel
  back is full, which only the loop empties. Both hold one item in the tool. Four datagrams with a header of kind
  `SpRequest` (any body that decodes) can leave both waiting for ever, with no resend, time-out or answer for the
  caller (`C90_answer_refuted`). Taking replies first (`biased` in `select!`) would prevent it (`C90_replies_first`).
  The bounds of C84, C91, C92 and C93 and the fairness of C79 speak of a loop that is not in this state; C95 says what
  they are beside such a handler.
* C96: requests carry an id, but nothing stops a resent copy of an earlier request from being acted on after a later one:
  if datagrams overtake each other, `reset` can report success and leave the module in reset (`C96_order_refuted`).
* C97: `set_power` gives power to a module that refused to be put in reset, and takes a module out of reset that refused
  its LPMode pin (it comes up in high power although low power was asked for): the sets of modules for these two requests
  are not reduced by the failures (controller.rs:601, 666) (`C97_requests_refuted`). Nothing keeps two `set_power` calls for one module
  apart: together they can leave LPMode asserted for a module without power, which the order of the requests is
  meant to prevent (`C97_concurrent_refuted`).
* C98: `xcvradm -t 0,2 set-power low` with module 0 in high power and module 2 off prints nothing, ends with status 0 and leaves
  module 0 in high power (`C98_done_refuted`); `xcvradm -t 0,1 set-power high` with both in low power by software control and of
  two kinds leaves module 1 there (`C98_kinds_refuted`). For modules of one kind that are all on or all off the claim holds. Naming modules by presence, kind or power state (xcvradm.rs:1455-1516) drops those
  the SP reports an error for, without a word: `-t present set-power off` then leaves a module on (`C98_all_named_refuted`).
  The exit status is 0 also when failures are printed.
* C99: in a query a module that fails late is reported with the error of one that fails early (`C99_errors_refuted`, cf. C40);
  set_power to low leaves a module that is on as it is if asked together with one that is off, and not if asked alone
  (`C99_power_refuted`, cf. C38).
* C100: nothing keeps calls for the same module apart: `Controller` is shared (its methods take `&self`), and a request of another
  call between the two of a reset leaves the module in reset while the reset reports success (`C100_shared_refuted`).
* C101: `set_software_power_state` pairs the modules of a group with the modes of all modules (controller.rs 762-765), so with
  modules of several kinds the software override of a module is turned off, which the code says it avoids (749-754)
  (`C101_override_refuted`). The other bits of byte 93 or 26 are cleared also for modules already in the state asked for
  (`C101_bits_refuted`; the code's own TODOs at 782-790 and 804-808).
* C102: the tool reads windows of any length, in parts, but writes at most 4 or 8 bytes at a time (`C102_too_long`), though it takes
  128 bytes of input. What it prints of two or more bytes it does not take as input (`C102_commas`); with blanks for the commas, more
  than 46 bytes in binary are cut within a byte without an error (`C102_binary_long`), which is harmless only for that limit.
* C65: vendor text holding a line feed or the separator makes the output ambiguous.
* C73: an error of the management interface met while decoding prints as "Management error" only; the errors for a bad
  interface and for a read past the end print without the name and the number ("End of read (<the value>) is out of ...").
* C66: a bias current with scale 4 can print one too small in the last digit (raw 64027 prints 512.2159, is
  512.2160 mA); `average-rx-power` also shows peak-to-peak power; TEC current is labelled mA though it is a fraction.

Smaller observations, outside the claims:

* `xcvradm --parseable` without `--output` prints nothing for the commands with tables; `macs` asks the SP to resolve `-t` though
  it does not use the modules.
* The tool fills in `Config` itself, so the address checks of `ConfigBuilder::build` do not apply to it; set-up joins the default
  multicast group also if the peer is another group.
* `set_power` sends its requests also for empty sets of modules it arrives at.
* Custom auxiliary monitors are decoded and never printed; labels of auxiliary monitors longer than the column misalign it, as
  does a long identifier in the vendor table; datapath lanes are counted from 0 for SFF-8636 and from 1 for CMIS.
* The handler of SP requests in xcvradm polls a closed channel without end once the I/O loop is gone (C90 describes it before that).
* The repository's own test of MAC address ranges expects the off-by-one of C12, and its test of power modes with failures does not
  notice that the controller never compares the read echoed by the SP with the one asked for.

## 7. Testing the model and the theorems

The repository cannot be run here, so its own unit tests serve as evidence that the model behaves like the code:
`TestsMessages`, `TestsDecode` and `TestsController` transcribe them as `Example`s that run the model. The tests that use
the mock SP run the whole stack, from the API call through the I/O loop to datagrams and back. All pass. Of the 134
tests, only `test_status_schema` is not transcribed (schemas are not modelled); the eight
tests of memory reads and writes in mgmt/mod.rs are one `Example`. `test_config_builder` runs on a fixed list of interfaces, and JSON texts are
given as trees. These are tests, not proofs; no theorem uses them.

`seeded/LOG.jsonl` records, for edits of the model in a scratch copy that imitate realistic bugs, which theorems
stopped proving and which statements were tightened.

## 8. Naming

`Cnn_...` are the property theorems. `_partial`: only part of the property; the comment above states the rest.
`_refuted`: the property, or a clause of it, is false of the code; the theorem exhibits a witness.
