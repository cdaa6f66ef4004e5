# A Rocq model of zigpy-cc

## 1. What is here

* `properties.jsonl` – the properties (written by `tools/gen_properties.py`).
* `rocq/theories/` – the model, the specifications, the proofs, the property theorems.
* `seeded/LOG.jsonl` – wrong programs tried against the theorems (`tools/mutants.py`, `tools/seed.py`): the
  edit is made in a copy, every proof that no longer goes through is replaced by `Admitted` there, and the
  theorems whose proof is, or rests on, such a proof are listed as failed. `survived` lists the properties
  that the edit should break and that still proved; `tightened` what was added for them.
  Lines whose id begins with `a-` are edits made by machine (`tools/auto.py`): one number, comparison, condition,
  name, exception or update at a time, built without examples; there the build stops at the first failure, which
  may be a lemma. Those that survived either led to a theorem or do not change the behaviour, as the note says.
* `MANIFEST.json` – property -> theorems.

Layering of `rocq/theories` (each model definition cites file and lines of /repo):

| file | content | models |
|---|---|---|
| `Base.v` | Python `int`/`bytes`/exceptions as values, `to_bytes`/`from_bytes`, dict as ordered assoc list | language runtime |
| `Types.v` | enums, timeouts, parameter types | `types.py`, `const.py` |
| `Uart.v` | frames, checksum, byte parser, gateway receive/send | `uart.py` |
| `Buffalo.v` | parameter writer / reader | `buffalo.py` |
| `CmdTable.v` | command table (generated by `tools/gen_definition.py`, pure text translation) | `definition.py` |
| `Zpi.v` | command objects | `zpi_object.py` |
| `Api.v` | waiters, waiter matching, response waiters, status check | `api.py` |
| `App.v` | incoming-message handling, building of sends | `zigbee/application.py` |
| `Machine.v` | concurrent machine: tasks, link lock, admission semaphore, clock, timers, received bytes | `api.py`, `application.py`, `uart.py` |
| `Nv.v`, `StartZnp.v` | NV items, start-up coroutines as request/response programs | `nv_items.py`, `start_znp.py`, `types.py:NetworkOptions` |
| `Host.v` | a start-up program running on the machine: its requests and waits are tasks | `api.py`, `start_znp.py`, `application.py` |
| `AppStart.v` | start-up of the application as a program over requests | `application.py` |
| `Form.v` | `form_network` called by a user | `application.py` |
| `Config.v` | the schema of the device section; probing from the section on | `config.py`, `api.py` |
| `Life.v` | choosing, opening, probing, closing, losing and reopening the port | `uart.py`, `api.py`, `application.py` |
| `World.v` | the application with all its API objects, semaphores and ports across lost connections | `application.py`, `api.py` |
| `Port.v` | everything written to one port, from its opening on | `uart.py` |
| `Whole.v` | the same, in which the start-ups make their requests themselves (`AppStart.v`, `StartZnp.v` running on the API objects of `World.v`) | `application.py`, `start_znp.py` |
| `SpecWire`, `SpecCodec`, `SpecApi`, `SpecMachine`, `SpecTrace`, `SpecStart`, `SpecAppStart`, `SpecHost`, `SpecLife`, `SpecEnds`, `SpecFirst`, `SpecBlame`, `SpecHostBlame`, `SpecWorldBlame`, `SpecWholeBlame`, `SpecMatch`, `SpecWaiters`, `SpecStick`, `SpecConfig`, `SpecReply`, `SpecExact`, `SpecWorld`, `SpecWorldProgress`, `SpecWhole`, `SpecWholeEnds`, `SpecWholeFail`, `SpecFair`, `SpecReal`, `SpecSpeech`, `SpecTurn`, `SpecDeliver`, `SpecWorldDeliver`, `SpecLinkStart`, `SpecHonest`, `SpecOverlap`, `SpecDuel`, `SpecSerial`, `SpecChron`, `SpecUndisturbed`, `SpecAnswered` | small specifications, independent of the model's helpers | – |
| `*Proofs*.v`, `MachineBase`, `MachineInv*`, `MachineProgress*`, `MachineFair*`, `MachineFirst`, `MachineReply`, `MachineBlame`, `HostBlame`, `FormBlame`, `LinkBlame*`, `WorldBlame*`, `{Machine,World,Start}Waiters`, `World{Inv,Face,Base,Life,Ops,Fresh,Progress,Progress2,Fair}`, `Whole{Inv,Host,Base,Blind,Time,Parts,Ind,Own,Ends,Ends2,Again,Fail,Fail2,Fair,Blame}`, `WorldOwn`, `StartExec`, `StartSend`, `StartLink` | proofs | – |
| `RepoTests.v` | the project's own tests replayed on the model (tests of the model, no property rests on them) | `tests/` |
| `Props*.v` | only property theorems (`exact lemma.` or a few lines), `Print Assumptions`, and non-vacuity examples | – |

`tools/` holds the scripts that write `properties.jsonl` and `MANIFEST.json`, translate the command table,
and rebuild a scratch copy with an edited definition (`seed.py`, `mutants.py`).

## 2. Modelling conventions

* Python `int` is `Z`; `bytes` is `list Z` (elements 0..255 wherever the wire is concerned; the
  theorems say so explicitly with `bytes_ok`).
* Exceptions are values: `result A := Ok a | Err e` with one constructor of `exn` per Python exception
  class the code can raise. A statement after a raise is not executed, exactly as in Python; state updated
  before the raise stays updated.
* `StopIteration` leaving a coroutine body is `RuntimeError` (PEP 479); leaving a plain function it stays
  `StopIteration`.
* Mutable objects become state passed and returned. Waiter objects are identified by their id; that ids are
  not reused is itself a theorem (C25).
* asyncio is modelled as an arbitrary scheduler: the environment chooses which enabled event happens next
  (task resumption, timer, received chunk, cancellation, clock advance), so theorems hold for every
  schedule, in particular for asyncio's. What is assumed of asyncio is listed in section 4.
* Logging is not modelled.

## 3. Property by property plan

Transport (`Uart.v`; induction on byte histories)
* C01–C03, C06: parser fed with serialised frames; invariant "buffer = prefix of the current frame".
* C02: inversion of one parser step. C07: invariant on the buffer length.
* C04: gateway loop as a fold with early exit; homomorphism over `++`.
* C05: xor cancellation. C08: measure (missing bytes).
* C09: false – the receive loop is aborted by the exception. `_refuted` witness + what holds (`_partial`).
* C10: false for empty payloads – `_refuted`; true for the others (`_partial`).
* C101, C102: exact complements of C10 and C63: the parser state at every prefix of a stream; after garbage, the length field
  that was taken up says how far it reaches.
* C11: shape and refusal condition proved; the 250-byte clause is false – `_refuted`.

Payload codec (`Buffalo.v`, `Zpi.v`; induction on the parameter list)
* C12 against an independent "fits" relation; C13 with an independent masking function for neighbour
  entries; C14, C15: prefix/suffix lemmas of the reader; C16: inversion of the writer.
* C17: finite, boolean check over the generated table lifted with `forallb_forall`.
* C18: composition of C12, C17, C01. C19: false – exact list of undecodable commands.

Request building (`Zpi.v:from_cluster`)
* C20–C22: explicit byte strings. C23: false – `_refuted`.

Waiters and requests (`Api.v`, `Machine.v`; invariants over event lists)
* C25, C27, C29–C33, C37, C38: invariants of the machine.
* C88 (nothing hangs): a measure that every effective step lowers, no reachable state is stuck once the
  time limits have passed. C99: the same with new calls and receptions going on; a call adds a fixed amount to the
  measure. C89: reason for the outcome of each operation.
* C90: one read as a fold with early exit over whole messages. C91: case analysis of the handler over the table.
* C92, C93: the history is cut into receptions and everything else; invariant over event lists.
* C103 (complement of C35): invariant "the future of a waiting request holds the first matching message since its write".
* C104 (complement of C28): the waiters that stop the dispatch loop are those with a usable number; induction over the received frames.
* C105–C110 (complements of C41, C23, C24, C44, C11, C64): exact bytes and outcomes by inversion of the decoder and the builders (`ExactProofs`).
* C94: frame conditions of one reception; a closed port stays closed.
* C24, C26, C28, C34–C36: false in corners – `_refuted` + `_partial`.

Application (`App.v`)
* C39, C40, C42, C43, C46: pure functions with explicit effects. C41, C44, C45: false – `_refuted`, `_partial` where something holds.

Start-up (`StartZnp.v`; programs as trees of requests run against arbitrary answers; crash = answers stop)
* C47–C49, C52, C53, C55–C57. C50, C51, C54: false – `_refuted` + `_partial`.
* C95: the whole course of an initialisation as one script; C48 and C57 follow its pattern.
* C96–C98 (`Host.v`): the program and the machine together; invariant "the program's doings so far are a run of it,
  and the machine's history has the evidence for each answer". With the explicit frames this carries C48 and C47 to the
  bytes on the link.
* C138: a measure of one coroutine – its phase, twice the number of those ahead in the queue, and whether the link is held – that no later call raises and that the turn of the one at the head (or the holder) lowers.
* C100: a program of bounded depth, awaiting only waiters it made; each wait ends by C99.

Life cycle (`Life.v`)
* C60, C61. C58, C59, C62: false in corners – `_refuted` + `_partial`.

Application start-up and LED (`AppStart.v`, `App.v`)
* C81–C87, built on the theorems about starting the stick.

Application across reconnects (`World.v`; each event is cut into small transitions, `wprim`, that invariants are proved for)
* C111, C112, C116–C119: invariants of slots, operations and the log; a statement about every moment follows since every
  prefix of a log is the log of a state in which the invariants hold.
* C115: frame conditions of one reception. C117: a closed API object that the application has is never opened again.
* C122: each step extends the log, and the table changes as what was added to the log says.
* C123: a measure that each small transition lowers or leaves alike for those who are there; once the limits have
  passed, somebody can lower it.
* C113, C120: false – `_refuted` + `_partial`; C114, C121 say what happens.

Start-ups that make their requests themselves, across reconnects (`Whole.v`)
* Everything such a start-up does is an event of `World.v`, so the theorems about `World.v` hold for it.
* C124–C128: each part of a start-up satisfies the invariant of `Host.v` on its API object (for a link on which waits may
  also end with a refused reply), whatever the others do; complete parts put together are runs of the program of `AppStart.v`.
* C129: false – `_refuted` + `_partial`; C130 says what happens. C131: when a loop may next open the port. C132: how its outcome reaches the caller.
* C133: no task of an API object without one who started it; by kind, what each of them can put on the link.
* C134: the rounds of C123 with a turn for each start-up; each of its at most 108 steps takes at most as many rounds as C123 allows, because when nothing else is unfinished a start-up can go on.
* C135: a step of the application moves a reconnect loop nearer to its next attempt or leaves it alone; with C134 for the attempt under way and a turn for each that sleeps (nobody sleeps more than five seconds), the next attempt comes.
* C136: from the last act of a failed start-up; a decoded reply has every field its definition names, so no lookup fails after a matching answer. C137: no part of a start-up goes on after a failure, but for the one handler around the configured mark.
* C139: the measure of C138 carried through the steps of the world (other API objects, lost connections and new semaphores do not raise it). C140, C141: as C134 and C135, but each step of a start-up is charged only with those ahead of it, so the bound does not depend on how much others do.
* C142: an invariant on each exchange whose frame is out: no answer to it has been received since, for otherwise its waiter would be gone. The moment from the statement is the one at which the clock passes the time limit: until then no waiter is removed for being late. For a wait the same, but a message may go to the reply waiter of a request instead, after which dispatching stops (C66). The hypothesis on parameters is that of C103.
* C143: C142 for the last act of the start-up. That nothing but the last act can be the reason is the argument of C136, on the program as a whole. That its requests can be put into frames is C86; that a wait which succeeds got what it waited for is C73.
* C144: the invariant of C142 for each API object, with the steps that a world makes of it (late reply waiters, closing, bytes for others) and with the reply waiters of operations in place of those of requests; then every way in which an operation can end, step by step.
* C145: C136 (which act failed) with C144 (why it did): every world of a run with start-ups is one that C144 speaks of, and the tasks of start-ups are plain requests and waits; success in time from C140.
* C146: the comparison loop by induction on the fields asked for; `same_value`, `has_field` and `replaced` are relations of the specification, tied to the model's lookups and string functions by lemmas, so that no statement rests on the latter being right.
* C147: an invariant over the primitive transitions that names the call behind each waiter; for the application with all its API objects a second one, over the log, that ties each waiter of an operation to the operation. `limit` and the numbers in `makes_waiter` are written out, not taken from the model.
* C148: `SpecStick.v` is a receiver of its own, written after TI's state machine and not after the parser of `uart.py`; one frame is one message, and what is on the wire are whole frames (C71).
* C149: executions of the two calls put together and taken apart; the theorems on the link are those of C96, C100 and C143 for this program.
* C150: the schema against a relation that says which keys and values are there; the port by the lemmas of C61, probing by those of C62.
* C151: the converse of C96. By induction on an execution the events are written down that bring it about: a request is written and its answer fed in as the bytes of the frame; a time-out is its timer. Two simplifications are used: a timer may fire late, so that a listener can wait for its message across other requests, and the request that nobody awaits (`activeEpReq`) is answered at once with status 0. Messages without payload are left out, for their frame is handed over only with the next byte.
* C152: a language of sequences of frames; compositional rules for programs that say a word of it when they return, or when they raise an exception that is caught, and the beginning of one otherwise. Found by editing every number of the model by machine: the profile of an endpoint was in no theorem.
* C153: step by step for one event, then the induction of C132. Found by editing the model by machine: that a cancelled coroutine goes on before its time was in no theorem.
* C154: an invariant over the whole log (`in_order`: what each message received leads to, with the table of that moment), from an exact case analysis of `handle_znp` (`handle_handed`); for the bytes, induction over the events with `parser_run_app`. To which request a reply is attributed is the business of C26, C27 and C65; here it only matters that it is one that fits.
* C155: C154 for the application with all its API objects, from any reachable state on: steps that are not bytes leave what was received alone (`still`, beside `aside` of C122); bytes message by message (`received_sv`, `other_sv`), where the waiters' origins come from C147.
* C156: existence of runs: `wins`/`stops` (LinkStart) build, for any stored state, a course of the program whose answers are decoded frames true of the store; C151 puts it on the link.
* C157: one direction is C156; the other `needs_fails` (LockedProofs) with the `hoare` triples of StartProofs2: a read that expects status 0 cannot return if the item is missing.
* C158: invariant `honest` (SpecHonest); the only delicate case is a mark whose write was not acknowledged but stored: `follows_last` (HonestProofs) completes the sequence and `init_store` applies.  `serves` chains start-ups one after the other; start-ups that overlap on one stick are not chained.
* C159: `only if` is C158 and C72; `if` builds the course as C156 does (LockedProofs2).  It rests on the stick of SpecStart, whose reset may change any item but sets no mark; whether a given firmware's reset loses the channel list and keeps the mark is not modelled.
* C160: an existence statement, so the proof is one execution (PropsOverlap), computed by the kernel; `wire_order` (SpecOverlap) ties the order of the two start-ups' acts to the history of the link.  The model lets a port be opened again while an older API object still has it open, as the code does; whether the operating system refuses that is not modelled.
* C161: invariant `duel` (DuelProofs): one loop sleeps for five more seconds, the other's ping, over a closed link, times out in six; one round of nine events swaps their roles.  In the model time passes only between events, so sending the ping and closing the link can happen at the same time; how likely that is, is not modelled.
* C162: the positive counterpart of C129, C160 and C161.  `one_by_one` (SpecSerial) is a condition on the events and the states they lead through; invariant `Solo` (SerialProofs): what is under way talks to the API object that the application has; `grown`: no step makes more than one coroutine, and one that ended stays so.
* C163: `chronicle` (SpecChron) collects what each event adds, so it is the order in which things happened, whoever did them; invariant `tells` (ChronProofs); the rest is C158.  A stick that serves a request only after the attempt has given it up, e.g. one left in a buffer of the operating system, is not modelled.
* C164: invariant `opens` (UndisturbedProofs) on ports and coroutines.  That a port was not closed does not mean that the stick is still there: a connection lost while start-up waits for the port (uart.py:210) starts no loop (C77) and goes unnoticed until a request times out.
* C165: invariants `Clear` (the request under way did not end with AttributeError) and `Told` (nothing done did), by C164 and `wtask_blamed`, event by event; then C145.  A port can open after the API object exists (it is made before uart.connect returns), so that the port is open now does not alone exclude that it was found closed before: hence the induction.
* C166: C145 with C165; `answered` is `xserved` without its clause on ports.

Where a full statement is false it is kept as it is in `properties.jsonl`, refuted by a theorem
`Cnn_..._refuted`, proved as far as it holds (`Cnn_..._partial`), and a further property states the exact
behaviour (C65–C80, C90, C91, C101–C110, C114, C121, C130).  The status of each is in `MANIFEST.json`.

## 4. Trusted base

* Coq 8.16.1's kernel, including `vm_compute`.
* `Print Assumptions` under every property theorem says "Closed under the global context": no axiom is used,
  neither of the standard library nor of our own. (`coqchk` additionally lists seven parameters of the module
  `Coq.ssr.ssrunder.Under_rel`, a file of the standard library that `ZArith` loads; no theorem depends on
  them.)
* That the model says what the code does. Every definition cites the lines it stands for; the command table is
  translated mechanically from `definition.py`; `RepoTests.v` replays the project's tests on the model.
* Python: integers, `bytes`, `dict` order, truthiness, `int.to_bytes/from_bytes`, `str` methods, PEP 479.
* asyncio, as follows.
  * Code between two awaits runs without interruption. Which ready thing runs next is arbitrary.
  * `asyncio.Lock` is handed over first come, first served; a cancelled waiter leaves the queue.
  * `asyncio.Semaphore` of Python up to 3.9: a newcomer may take a free slot before a woken waiter runs.
  * `wait_for` cancels what it waits for when the time is over; `call_later` fires at or after its time, never
    before. The clock only moves forward, timers may be late by any amount.
  * `Task.cancel` raises `CancelledError` at the await where the task stands. It is not an `Exception`
    (Python 3.8 and later).
* The transport calls `connection_made` first and `connection_lost` at most once.
* For the theorems about starting: the stick keeps what it is told to store, items are shared by the two
  command families that write them, other commands leave items unchanged. This is in the relation `stick` of
  `SpecStart.v`, visible in the statements.

## 5. Modelled / not modelled

Modelled
* `uart.py`: everything but logging. `buffalo.py`, `zpi_object.py`, `definition.py`, `types.py` (enums,
  timeouts, network options), `exception.py`: everything used by the other modules. `config.py`: the device section
  (`Config.v`); the network section as input. Voluptuous is trusted to do what `Config.v` says: `Any` takes the first
  alternative that accepts, a type accepts its instances, missing optional keys get their default, unknown keys are refused.
  Not: a path that is not a string, and zigpy's own part of CONFIG_SCHEMA.
* `api.py`: `Waiter`, `API` with `request`, `_request_raw`, `create_response_waiter`, `wait_for`,
  `data_received`, `connect`, `close`, `version`, `probe`. The three empty `_handle_*` callbacks do nothing.
* `application.py`: `startup`, `form_network`, `set_led`, `handle_znp`, `request`, `mrequest`, `broadcast`,
  `permit_ncp`, `connection_lost`, `reconnect`, `shutdown`. Not: `permit_with_key` (only raises TODO) and
  `force_remove` (only logs).
* `start_znp.py`, `nv_items.py`: everything.

Not modelled
* zigpy itself. `get_device`, `handle_join`, `handle_message`, `get_sequence` and the device objects appear
  as recorded effects or as inputs. The decorator `zigpy.util.retryable_request` (repeating a failed request)
  is not modelled; each repetition is one request of the model.
* Log output, `Repr`, `zigbee/common.py` (constants, the used ones are in `Nv.v`). Whether a backup file
  exists is an input; restoring (`backup.py`) only raises TODO.
* One API object per machine in `Machine.v`; ports, start-ups and reconnect loops are in `Life.v`, and `World.v` puts both together.
  `Life.v` and `World.v` take the outcome of each start-up as given, its requests are among the calls made by the environment;
  in `Whole.v` the start-ups make their requests themselves.
  `StartZnp.v` and `AppStart.v` run against given answers; C73 and C96 (`Host.v`) connect these answers with the machine.
* Memory limits and blocking inside one step.
