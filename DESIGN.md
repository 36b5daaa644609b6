# Formal model of pyzwave in Rocq (Coq 8.16.1)

Source of truth: `/repo` (python, read as text).  Everything here is about that text.
The code was never run on purpose.  Once a helper script was started with `/repo/pyzwave` as its working directory, so
python imported `types.py` from there and wrote a `__pycache__` file; the file was removed, no source changed and nothing
from it was used.

## 1. Approach

* Each python function that matters is transcribed branch by branch into a total, computable Gallina function.
  Exceptions are values (`res A := Ok a | Err e`).  Python integers are `Z`, byte strings are `list Z` (each element in
  0..255 is a hypothesis, `bytes_ok`), dictionaries are insertion ordered association lists.
* Message schemas (the `attributes` tuples) are *data* (`Registry.v`, all 102 registered classes); one generic interpreter
  models `parseAttributes`, `__init__`, `__setattr__`, `__getattr__`, `compose` and `deserialize`.
* Coroutines are state machines.  A task has a program counter for every `await` at which it can be suspended; the
  machine's events are the scheduler's choices (call, datagram, timer expiry, resume, cancel, clock advance).  Theorems
  quantify over *every* event list, which over-approximates asyncio's FIFO scheduler; refutations give an explicit event
  list that asyncio and a gateway can produce.
* Specifications are stated separately (bit lists, big-endian numbers, finite sets, event traces) and do not use the
  model's helper functions.
* If a property a user would rely on is false of the code, the model proves its negation (`..._refuted`, with a concrete
  witness) and the strongest positive part found (`..._partial`).  The status in `MANIFEST.json` is then "partial" and
  the note says what is false and what is proved.

### File layout (`rocq/theories`)

| subject | model | specification | proofs | theorems |
|---|---|---|---|---|
| python built-ins | `Py` | | | |
| codec | `BitStream`, `Schema`, `Registry`, `Codec`, `Text` | `SpecBits`, `SpecWire`, `SpecDecode`, `SpecRound`, `SpecStream`, `SpecTotal`, `SpecFields`, `SpecProvision`, `SpecAddStatus`, `SpecLayout` | `BitLemmas`, `ReaderLemmas`, `WriterLemmas`, `EncodeProofs`, `DecodeLemmas`, `DecodeProofs`, `RoundTrip`, `CodecProofs`, `ParseRel`, `TotalProofs`, `ByteReader`, `HeaderProofs`, `Provision`, `AddStatus`, `Embedded`, `FieldProofs`, `ValueProofs`, `ReportProofs`, `LayoutProofs`, `StreamProofs` | `PropertiesCodec`, `PropertiesStream`, `PropertiesTotal`, `PropertiesFields`, `PropertiesProvision`, `PropertiesAddStatus`, `PropertiesEmbedded`, `PropertiesLayout` |
| transcription check | `Conformance` (test vectors of `/repo/tests` evaluated on the model; examples, not properties) | | | |
| connection | `Waiter`, `Conn` | `SpecConn`, `SpecLive` | `ConnLemmas`, `ConnPacket`, `ConnAck`, `ConnInv`, `ConnCases`, `ConnProps`, `ConnCalm`, `ConnWait`, `ConnReply`, `ConnFirst`, `ConnRest`, `ConnCut`, `ConnLive`, `ConnWitness` | `PropertiesConn`, `PropertiesLive` |
| gateway | `Gateway`, `RemoveM`, `NodeSendM` | `SpecGateway`, `SpecRepeat`, `SpecTableFrom`, `SpecRelay`, `SpecGatewayNm`, `SpecGatewayLive`, `SpecConnect` | `GatewayProofs`, `Repeat`, `TableFrom`, `NewFrom`, `Relay`, `GatewayLinks`, `GatewayLive`, `GatewayPrompt`, `GatewayStory`, `GatewayNm`, `GatewayMode`, `GatewayIp`, `GatewayNode`, `GatewayTable`, `GatewayConnect`, `GatewayUnsol`, `GatewayAnswer`, `GatewaySend` | `PropertiesGateway`, `PropertiesRepeat`, `PropertiesTableFrom`, `PropertiesNewFrom`, `PropertiesRelay`, `PropertiesNm`, `PropertiesSend`, `PropertiesGatewayLive`, `PropertiesConnect` |
| UDP sockets | `UdpM` | `SpecUdp` | `UdpProofs` | `PropertiesUdp` |
| DTLS sockets | `DtlsM` | `SpecDtls` | `DtlsProofs` | `PropertiesDtls` |
| node, listeners | `NodeM`, `Listen` | `SpecNode` | `NodeProofs` | `PropertiesNode` |
| requests of a node | `NodeReq` | `SpecNodeReq`, `SpecNodeLive` | `NodeReqProofs`, `NodeFresh`, `NodeLive` | `PropertiesNodeReq`, `PropertiesNodeLive` |
| command classes | `CmdClass`, `ConfigM` | `SpecClass`, `SpecConfig` | `ClassProofs`, `ConfigProofs` | `PropertiesClass`, `PropertiesConfig` |
| interviews with tables | `AssocM` | `SpecAssoc`, `SpecAssocLive` | `AssocProofs`, `AssocData`, `AssocFresh`, `AssocCourse`, `AssocLife`, `AssocLive` | `PropertiesAssoc`, `PropertiesAssocLive` |
| configuration reads at run time | `ConfigRunM` | `SpecConfigRun` | `ConfigRun` | `PropertiesConfigRun` |
| interviews | `InterviewM` | `SpecInterview`, `SpecInterviewLive` | `InterviewProofs`, `InterviewData`, `InterviewVisit`, `InterviewResult`, `InterviewLive` | `PropertiesInterview`, `PropertiesInterviewLive`, `PropertiesResult` |
| association groups | `GrpInfoM` | `SpecGrpInfo`, `SpecGrpLive` | `GrpInfoProofs`, `GrpInterview`, `GrpLive` | `PropertiesGrpInfo`, `PropertiesGrpLive` |
| mailbox | `MailboxM` | `SpecMailbox`, `SpecMailboxTo`, `SpecMailboxEnd` | `MailboxProofs`, `MailboxMore`, `MailboxCrc`, `MailboxTo`, `MailboxEnd` | `PropertiesMailbox`, `PropertiesMailboxTo`, `PropertiesMailboxEnd` |
| storage | `StorageM` | `SpecStorage`, `SpecSettings` | `StorageProofs`, `StorageLoad` | `PropertiesStorage`, `PropertiesSettings` |
| settings over time | `HistM` | `SpecHist` | `Hist` | `PropertiesHist` |
| application | `AppM` | `SpecApp`, `SpecAppLive`, `SpecAppShow`, `SpecLoad` | `AppProofs`, `AppLive`, `AppShow`, `AppUpdate`, `AppRace`, `AppRoute`, `AppStart`, `AppAnnounce`, `AppLoad` | `PropertiesApp`, `PropertiesAppLive`, `PropertiesAppShow`, `PropertiesLoad` |
| the parts together | `SystemM` | `SpecSystem` | `SystemFrom`, `SystemProofs`, `SystemAnswer`, `SystemHear`, `SystemReach` | `PropertiesSystem` |
| its requests end | `SystemM` | `SpecSystemLive` | `SystemLive`, `SystemBound` | `PropertiesSystemLive` |
| descriptions for the log | `DebugTab`, `DebugM` | `SpecDebug` | `DebugProofs` | `PropertiesDebug` |

The `Properties*` files hold statements, `exact lemma`, `Print Assumptions` and non-vacuity `Example`s.

## 2. Trusted base

* The Coq 8.16.1 kernel, including `vm_compute`.
* `Print Assumptions` of every theorem in `Properties*.v` prints "Closed under the global context": no axioms, neither
  our own nor the standard library's.  (`coqchk -o` over the whole library also lists axioms declared by the standard
  library modules that happen to be loaded, such as `Coq.ssr.ssrunder`; no theorem here uses them.)
* The transcription of python text into Gallina (comments cite file and lines for each definition).  It is guarded by
  `Conformance.v` and by the wrong-program experiments of `seeded/LOG.jsonl`.
* The python semantics assumed in section 4.

## 3. Properties: what is modelled and how it is proved

| id | modelled | proof |
|---|---|---|
| C01 | writer, all attribute serialisers, generic compose over every schema | induction over the schema with a writer invariant "bits written so far"; registry side condition by computation |
| C02 | reader, all attribute deserialisers, generic parse | induction over the schema against a bit-list parser written independently |
| C03 | C01+C02 | composition of the two, induction on Z/IP nesting; counter-examples (Supervision.Get) as `_refuted` |
| C04 | writer | positive: byte sized fields raise; negative witness for bit fields |
| C05, C06 | registry, deserialize | case analysis; registry NoDup by computation on the finite table |
| C07 | fuelled decode | two runs side by side (`ParseRel`): fuel above half the length is irrelevant; induction on bytes left |
| C08 | reader/writer | induction on the list of fields |
| C09, C10 | header extension parser | induction over the option list; C10 false: every other option type fails |
| C11, C12 | NodeList | bit reasoning for all masks; C12 false for 225..232 |
| C13 | SensorSupported | single byte masks proved; several bytes false |
| C14 | Nodes | induction on lists |
| C15, C16 | dsk_t with decimal text | arithmetic on decimal digits; C16 false: witnesses |
| C17 | float_t (mantissa, precision, size, scale) | computation + two's complement specification |
| C18 | ZipPacket.response, connection | symbolic execution of compose/decode, machine step |
| C19, C20 | compose after decode, comparison | false: witnesses; true for classes without duplicate or unencodable attributes |
| C21, C22 | command specific hooks | direct proofs |
| C23-C33 | connection machine with datagrams as raw bytes and a clock | invariants over all event lists; false ones by witness schedule, then "calm" (no datagram is handled between the expiry of a send and the end of that send) or "punctual" (the clock does not pass a due timer) runs |
| C34-C37 | waiters of a connection | invariants linking futures, sessions and traces |
| C38, C39 | a node's `sendAndReceive` | the same for the node variant, which forgets its session |
| C40-C46 | gateway machine: stacks of coroutine frames over several connection machines | projection of gateway executions to connection executions (`GatewayLinks`), story of a task (`GatewayStory`), invariants |
| C47-C52, C57 | node: NIF parser, dispatch, supervision, storage lock; listeners | list induction, case analysis, invariants |
| C53-C56, C72-C74 | command classes, attribute conversion | direct proofs against an environment that answers requests |
| C58-C64, C75 | mailbox machine with handlers split at every await, CRC-16 computed | counting invariants; linearity of the CRC |
| C65-C68, C76 | getstate/setstate through the text tree a YAML BaseLoader returns; file system as a map from path to text, save = truncate then write | induction over trees; case analysis of crash points |
| C69-C71, C77-C79 | application table; every handler a machine with one state per await; announcements to listeners | table invariants for every interleaving; undisturbed runs as functions of the environment's answers; false ones by witness |
| C80, C81, C91 | what the network management calls of the gateway, and `Node.remove`, return and when | story of a task joined with the lone waiter theorem of the connection |
| C82-C84 | association group information: one task per received report, saving and restoring | invariants over all interleavings |
| C90 | a protocol table of 89 layouts, independent of the class declarations | decidable comparison of table and declarations, then C01 and C02 |
| C85-C89 | `Node.interview`, version requests, the copying interviews of ManufacturerSpecific, Version and ZwavePlusInfo on top of the request machine of C38 | invariants relating the stored versions, attributes and flags to the trace of questions and answers |
| C96 | `Node.send` over the gateway | story of a task, projection to the connection, the connection is open when used |
| C97 | interview of the association groups | story of a task, flag as the last mark in the trace |
| C98-C100 | DTLS object, two threads | invariant over all interleavings, progress runs |
| C92-C94 | `connection.py`: connect, listen, callbacks, closing; transports are the environment | invariants over all event lists |
| C95 | `Configuration.set` and `get` against a device that stores frames | refinement: bytes and cache against numbers |
| C101 | results of interview() and the interviewed flag | story of a task, flag step by step |
| C102 | loading one node | plan computed from the answers; table replayed from the trace |
| C103 | no call of a connection hangs | steps and time left of a call; prompt event loops |
| C106 | no request of a node hangs | as C103, from the acknowledgement on |
| C107 | no call of the gateway hangs | every awaited call ends (C103, by the projection to connections), and the stack of frames gets smaller in a well-founded order |
| C108 | the answer to a node's request was sent by that node | every step of the whole projects to steps of the parts; where each message came from, carried along with it |
| C109 | a report reaches the request that waits for it | steps that announce; announced is a permutation of handled and waiting; C38 for the object |
| C110 | descriptions for the log never fail and tell what was received | invariant of decoding: keys have even length, enum and numeric attributes hold numbers; digits to a base |
| C111 | a request of a node object ends, within a bound | what is awaited can always go on; sum of the time outs of a task's calls |
| C112, C113 | association groups and sensor scales hold what the node reported | a task's requests are the node's requests; table after a step against the answers so far; course of each task |
| C114 | the lifeline is set up | when a step sends the command, when a task ends without |
| C115 | connect() sets up the gateway | the course of the call as a sequence of pieces, each of which returns or raises (`andthen`); the node table when nobody else changes it |
| C116 | interviews of associations and sensors end | events that only concern one task (`helps`), outcomes of sending chosen by the network; runs with a bound on sending (`timely`) |
| C117 | interviews of nodes end | as C116, for `InterviewM`; the interviews left to the environment end at any time, in timely runs within a bound |
| C118 | handlers of association group information end | as C117, for `GrpInfoM`; sending is the environment |
| C119 | calls of the application end | runs without end in which the awaits of a call end; what it waits for is its last question in the trace |
| C120 | configuration reads return the parameter asked for | traces of reads; a report is looked up between the question and the return |
| C121 | node objects show what was reported last | the last answer of use in the trace and the object stored for it |
| C122 | a stored mailbox message goes back to the node that pushed it | trace: each delivery, the request before it and an earlier push of the same node |
| C123 | a device finds its settings when its node is added | history of saves, removals and loads; C65's way of looking into classes |
| C124 | the handling of mailbox messages ends | trace: what each handler was given, sent and returned |
| C125 | a repeated packet is acted on once | trace: packets received and commands handed on |
| C126 | the node table holds what the gateway reported | trace: reports received, addresses found |
| C127 | commands go to the address that the node has | trace: addresses found, connections made, calls on them |
| C128 | received commands are announced in the order of arrival | the trace is gone through datagram by datagram; projection of gateway runs to connections |
| C129 | provisioning list entries are decoded with key and metadata | bytes of the report written from its content; induction over the metadata |
| C130 | the report about an added node is decoded with its classes | bytes of the report written from its content; the first n bytes as an inductive relation |
| C131 | a supervised command is decoded as it would be on its own | decoding of the request compared with decoding of the enclosed bytes |
| C132 | the queue handle of a failing node is found in both formats | bytes of both formats |
| C104, C105 | loading any settings file | what a file says against what a class shows; where loading stops |

## 4. Python semantics assumed, simplifications, and what is not modelled

General

* Python before 3.11 (then plain `int` and `list` objects get `__getstate__`).
* `asyncio.wait_for` as in CPython 3.7-3.11: the timer marks the waiting task, the task cancels the inner future, waits
  for the cancellation and then raises TimeoutError; a result that is there first is returned.
* Code between two awaits is not interrupted.  A task runs some time after what it waits for is done; no order between
  runnable tasks is assumed, except that a task waiting in `Event.wait` runs before the `wait_for` timer callback that
  fires after the event was set (callbacks are run in order).
* Python's recursion limit, memory, float rounding (floats are mantissa and precision; `int(x / 8)` is exact below 2^53),
  the identity of objects (two bit field objects never compare equal), unicode digits and white space in `int(text)`.
* Not modelled at all: OpenSSL and its callbacks in `dtlsconnection.py`, logging (what it prints, `__repr__` and `debugString`, is
  modelled for C110 only), documentation.

By module (also stated at the definitions)

* Codec: `int()` of byte strings and of user objects; association end points other than integers or None.
* Connection: closing and socket errors (closing is the subject of C92-C94, the socket object alone), time outs of None.
* DTLS (C98-C100): OpenSSL, the psk and the socket's options; the two threads interleave at every access to a shared attribute.
* Gateway: the psk.  An entry of `_nodes` is its "ip" value.  The iteration order of python sets is an arbitrary parameter `ord`.
* Node: listeners do not change the list of listeners while it is walked, and raise only `Exception`s.
* Command classes (C53-C56, C72-C74): nothing else changes the class while a coroutine waits for its answer (overlap is the
  subject of C82-C89 for the classes there).
* Group information: the class version is known when the interview starts; the storage is not locked.
* Interviews (C85-C89): the interviews of Association, AssociationGrpInfo and SensorMultilevel are left to the environment (they are the subject
  of C112-C114 and C82-C84); the table of supported classes is not replaced during `Node.interview` (python would raise RuntimeError).
* Association and SensorMultilevel (C112-C114): nobody but interviews changes the two tables, the supported classes and the version stay; `Node.send` is
  the environment (any answer or exception at any time); the order of a set of sensors is a parameter of the call.
* Mailbox: `sendToNode` is the environment; cancelling a heartbeat task takes effect at once.
* Storage: PyYAML is "the same tree with every scalar replaced by its text, mappings in key order".
* Settings over time (C123): what changes an object, and when it is saved, loaded, removed or restarted, is left to the environment; disk
  errors other than an interrupted save are not modelled.
* Application: the adapter and the listeners are the environment: they answer at any time with any value or exception.
* Descriptions (C110): what python prints for texts, floats, IP addresses, IntFlag values, sets (their order) and `object.__repr__` is a
  parameter, for which only totality is assumed.  The tables of `DebugTab` (enum members, which attribute has which enum, names of command classes) are
  copied from the source by a script.
* The parts together (C108, C109): what is handed from part to part is what one part observes and the other is given: messages, a request's
  sending and its result.  The application's questions to the adapter stay with the environment; requests are not cancelled.

Restricted runs used by some theorems, each with an `Example` that meets it: *calm*, *punctual* (connection), *alone* (one
waiter for a message id), *undisturbed* / *unmixed* / *only_updates* (no other task changes the application's or gateway's table
meanwhile), *sole* (one start-up), *serial* pushes (mailbox), *one_at_a_time* (interviews).

## 5. Status

132 properties, all with theorems: 60 hold as stated ("proved"), 72 are false of the code in some case ("partial": refutation and
positive part).  `seeded/LOG.jsonl` records the wrong programs tried against the theorems.
The counts are brought up to date with `MANIFEST.json` at each milestone; `vcheck` is run after each of them.
