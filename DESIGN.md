# Formal model of u9n/elgas in Rocq (Coq 8.16.1)

## Shape of the development (rocq/theories)

### Model (no proofs; every definition cites the file and lines it models)

| file | models |
|---|---|
| `Py.v` | the Python primitives used: exceptions as values, `bytes` as `list Z`, slices and indexing with negative bounds, `int.to_bytes/from_bytes`, `bytes.replace/index/strip`, `str(int)`, `bytes.fromhex/hex` |
| `PyTime.v` | `datetime + timedelta` (ordinals as in CPython's `_pydatetime`) |
| `PyFloat.v` | Python floats, `struct.unpack("<f"/"<d")`, `round(x, 7)`, decimal-to-double rounding |
| `PyWait.v` | calls that return, raise, or have not ended |
| `Utils.v` | elgas/utils.py: LRC, checksum, DRC, CRC table and CRC, escaping, BCD, datetimes, text, IP addresses, `pop_many`, password padding |
| `Frames.v` | elgas/constants.py, elgas/frames.py |
| `Application.v` | elgas/application.py: all request and response PDUs, `CallRequest` |
| `Aes.v`, `Security.v` | AES and CBC as `cryptography` provides them; elgas/security.py |
| `State.v`, `Connection.v` | elgas/state.py, elgas/connection.py |
| `ParamLang.v`, `Parameters.v` | a small statement language with an evaluator; elgas/parameters/*.py transcribed into it statement by statement by `tools/gen_parameters.py` (which reads the sources as text), the registry of elgas/parameters/factory.py, elgas/parser.py |
| `Schema.v`, `Schemas.v` | the part of marshmallow 3 in use (fields, dump, load); the schemas of elgas/parameters/*.py and elgas/integration.py, the annotations of the attrs classes, the schema registry (generated by the same tool) |
| `Client.v` | elgas/client.py over an arbitrary transport |
| `Exceptions.v` | class hierarchy of elgas/exceptions.py |
| `Transport.v` | elgas/transport.py: `Timeout`, `BlockingTcpTransport`, `SerialTransport` over an arbitrary socket and clock |
| `Stack.v` | elgas/client.py over the transports of `Transport.v`, as one machine |
| `ClassVars.v` | `object_type`, `value_length`, `data_length` of elgas/parameters/*.py, made by `tools/gen_classvars.py` |
| `Group.v` | several clients with shared transport and connection objects (elgas/client.py) |
| `PyText.v` | CPython's `str(float)` (shortest digits that are read back), `float(text)`, `int(text)` |
| `Json.v` | `json.dumps` and `json.loads` of the Python library, `Schema().dumps`, `Schema().loads` |
| `Threads.v` | calls that overlap in time: threads as sequences of accesses to shared connection and transport objects, any interleaving (elgas/client.py, connection.py, state.py) |
| `Log.v` | the LOG calls of connection.py, state.py, client.py, transport.py: the entries each call writes |
| `Validation.v` | no model: the literals of /repo/tests as closed computations, written by `tools/gen_validation.py`; the 26 objects parsed from the device data of tests/test_parser.py agree with those of tests/test_schema.py in 511 of 531 attributes, the other 20 being differences between the two literals |
| `Secret.v` | `SecretStr`, `SecretByte` of elgas/utils.py and the representations attrs generates |

### Specification

`Spec*.v` hold the small independent definitions the theorems are stated with (XOR of
rotations, polynomial division for the CRC, telegram layout, calendar, field tables,
the conversation with a conforming device, ...).  They do not use the model's helper
functions, only the types of `Py.v` and the model's data types.

### Proofs and theorems

`*Proofs.v`, `*Facts.v` hold the lemmas.  `Prop*.v` hold the property theorems, one
block per property, each closed by `exact`, followed by `Print Assumptions`, with an
`Example` that a concrete non-trivial case meets the hypotheses.

## Conventions

* `bytes`/`bytearray` are `list Z`; `is_bytes l` says that every element is in 0..255.
  Python ints are `Z`.  `str` is a list of code points.
* A call that may raise returns `res A = Ok a | Err e` with `e : exn`.  A method that
  mutates its object returns the new object next to the result, also when it raises.
* Randomness (`random.choices`, `random.randint`) is an argument: an arbitrary function
  `nat -> Z`; theorems quantify over it.
* Network and clock are arguments: lists of results of the socket calls and a function
  of clock readings, over which theorems quantify.
* Where the claim is false of the code the theorem is named `..._refuted`: it proves
  the negation, in general where possible, else with a witness; what does hold is
  proved beside it.

## Per property: what is modelled and how it is proved

| | |
|---|---|
| C01-C03 | `escape_characters` is three replacements from left to right, `return_characters` the popping loop; against a grammar of escape pairs, by induction over the data. C02 cuts a stream of telegrams at 0x0D |
| C04-C06 | folds against closed forms; the CRC table computed by the modelled generator against bitwise polynomial division; linearity of the CRC over XOR for bursts |
| C07, C08 | from C04 and C09: one changed byte changes XOR, sum or framing; exchange of neighbours and two flipped bits by rotations, witnesses for what is missed |
| C09-C13 | symbolic execution of both `to_bytes`/`from_bytes`; runt witness by computation; C10 shows that request addresses are written big-endian and read little-endian |
| C14-C17 | decimal digits by strong induction; datetimes as records against a calendar |
| C18-C24 | PDUs against layouts (offset, width, meaning); C23 the 137 bytes of a registration |
| C25-C27, C59, C60 | AES concretely; `inv_cipher (cipher b) = b` (S-box and GF(2^8) facts by computation over all bytes, lifted to all blocks), CBC by induction over blocks, tampering by C06 |
| C28-C39, C61-C63 | connection: one function per call, histories as lists of calls, invariants by induction; delivery in any chunks by induction over the chunks |
| C40-C42, C64-C66 | client: any list of results of the transport; conforming device as a relation between requests and answers |
| C43-C48 | the parser over the 35 transcribed classes; a symbolic evaluator of the statement language is proved correct and run on each class, and compared with a table of fields (offset, width, kind) |
| C49, C50 | text and IP: list lemmas |
| C44, C94 | an object that announces more bytes than there are is accepted; an announced length below three is counted from the end of the data |
| C51, C52, C70-C72 | schemas: round trip proved once for every schema that agrees with the annotations (decided by computation for the 35 schemas, a finite set), gaps proved as refutations |
| C53-C56, C67, C68 | transport loops over any chunks, outcomes and clock; "has not ended" is a result |
| C57 | call-stack model of `__repr__` over object trees |
| C58 | bit patterns to dyadic rationals, uniqueness, rounding to 7 places |
| C73-C75 | damage on the escaped line: a changed, lost or added byte is traced through the escape pairs to a changed, shortened or lengthened telegram, which length, checksum, DRC or the end character refuses |
| C69, C77, C78 | client and transport as one machine; each step is simulated by the client of `Client.v` with the results of a history of transport calls (refinement), so the theorems about the client carry over; reads do not depend on writes |
| C79, C80 | log entries hold object trees (C57), a renderer shows them by `repr`; two runs with different secrets are proved to stay in lock step (simulation), entry by entry |
| C81 | the lemmas about conversations and about what is sent hold for connections with any addresses in range (`line_from`); clients with default and with given connection are instances |
| C82 | the class variables as a table with inheritance (`ClassVars.v`); every registered class is looked up by computation, blocks by C44, configurations by C72, the device by C41 |
| C83 | objects as numbered references (`Group.v`); induction over the schedule, each call by the conversation lemma of C40/C81; isolation by a simulation that keeps the objects of the chosen clients equal |
| C84 | small-step machine over the accesses of a call (`Threads.v`); uninterrupted runs equal the big-step client; isolation by simulation; for shared objects an invariant ties the open exchange to the prefix of a sequential exchange (refinement to `exchanges`) |
| C85 | `float(str(x))` for the concrete text of a float: rounding is exact on doubles, scaling by ten and the search for the shortest digits only ever return digits that are read back (`NumeralProofs.v`); C51, C71, C72 instantiated |
| C86 | escape and read back of one character, lifted to texts; the text of a number is what the scanner of numbers takes; induction over the data for `json.loads(json.dumps(v))` (`JsonProofs.v`); loading does not distinguish data that is alike, so C72 carries over (`JsonProofs2.v`) |
| C87 | induction over the field kinds: what a field makes of any data is dumped and loaded again alike (`settled`, `JsonProofs3.v`); whatever the scanner returns for a text of Unicode characters is data JSON can hold |
| C88 | the register keeps the parity of the message (all 65536 registers computed once, then induction over the bits); the order of the generator is 32767 (the cycle of the register is computed), so two flips closer than that never cancel |
| C89 | reads with durations on top of the transport model (`SpecTimed.v`: the clock shows the sum of the durations so far), induction over the reads; the whole stack (`Stack.v`) against streams that end in an exception, and against streams without 0x0D |
| C90 | relation between two machines of `Stack.v` (`SpecIndep.v`: same stream of bytes and exceptions), kept by every operation; a byte-at-a-time semantics of the loop of `next_event` serves as the common reference |
| C91 | complete description of a session on any byte stream as an inductive relation (`SpecOutcome.v`: `verdict` of a telegram, `heard` by a request, `paged` by a parameter read, `foretold` for a session); the machine of `Stack.v` satisfies it, and it is deterministic; the data of the answers is read by the specification of C93 (`means`), the objects of a parameter read by that of C94 (`reads`), so the specification uses no decoder or parser of the model |
| C92 | C91 extended by connect and disconnect, by every outcome of the calls of the socket or port and by unusable keys (`SpecLife.v`: `asked`, `read_on`, `does`, `lives`): the machine of `Stack.v` satisfies it for all environments, and it is deterministic |
| C93 | a relational specification of the data of all responses (`SpecMeaning.v`: `means`; `SpecDecode.v`: `means_nothing`) which is total and deterministic; the factory of the model decides it; the statements about the connection and the client (C30, C34, C35, C40, C41, C61, C69, C83, C102) speak of `means`, `unseals` and `reads`, not of the classes of the model |
| C94 | an inductive relation cutting any bytes into objects (`SpecBlock.v`: `block`), total and deterministic, related to the parser by induction over it; the objects conform to the table of C45, and a place of that table shows only one value (`OnceProofs.v`: floats in lowest terms, ties of the rounding cannot happen), so `reads` is exactly what the parser does |
| C95 | a relational specification of acceptable data (`SpecLoad.v`: `accepted`, mutual with items and fields; `without_fraction` over the rationals, the words for booleans by spelling); both directions by induction over kinds and over derivations, for every schema |
| C96 | the relation `written` (`SpecLoad.v`), sound for `dump` and total on instances of the registered classes |
| C97 | AES and CBC written down after the text of the standards (`SpecAes.v`: polynomials over GF(2), inverse and affine map, states by row and column, the recurrence of the key schedule); the field facts by computation over all bytes, key schedule and rounds by induction (`AesStandard.v`); the specification of payloads (C26, C27 and all later ones) uses this AES |
| C98 | SpecNumeral.v writes down the grammars of `int` and `float` from the Python manual (digit runs with underscores, signs, blanks, words, points, exponents) and correct rounding over the rationals (nearest double, ties to the even multiple of the gap, overflow bound); RoundProofs.v proves that `nearest_double` is that rounding over the whole range and that the rounding is a function; ReadProofs.v proves both directions of the reading of texts, by splitting off blanks, sign and digit runs |
| C99 | SpecTold.v says which entries must be in the log, in terms of the history of the transport, the path of protocol states and the results of the calls (one inductive relation each); ToldProofs.v proves that the log of Log.v, split by message, satisfies all four, by following `send`, `next_event`, the pages of `read_parameters`, the calls and the session |
| C100 | SpecGrammar.v is the grammar of RFC 8259 as inductive relations between a text and the data it stands for; GrammarProofs.v proves that the scanner of Json.v reads every text of the grammar (mutual induction over the derivation) and only those (induction over the scanner's calls); numbers by the reading theorems of C98 |
| C101 | SpecShortest.v says what `repr` of a float is (shortest, nearest, even; the two notations) with `nearest` of C98; ShortestProofs.v: rounding is convex, so a decimal that is read back can be replaced by its neighbour on the grid of n digits; distinct doubles near v are at least v/2^53 apart, so 17 digits are enough; the estimate of the decimal exponent is checked for every binary exponent of a double; the text is then compared with the notation, and the notation is shown to be unique |
| C102 | composition (`SpecWhole.v`, `WholeProofs.v`): the memory as a block of C94 whose objects show the documented fields, its pages as a conversation of C69, its objects as a configuration of C86 |
| C103 | a device with a state (`SpecDevice.v`): what it hears in a line, what it does, what it answers; hearing is shown to be a function (unescaping, framing, unsealing and the fields are injective), its pages to be pages of C40 (`DeviceProofs.v`) |
| C104 | refuted claims: a request telegram is no response telegram (first bytes of the frame), so C64 applies to it; a repeated answer makes a conversation of C40 (`EchoProofs.v`) |
| C105 | the device of C103 reacts to the lines that were sent (`SpecLoop.v`); what is sent only grows, so the first new line is that of the call, the device hears its query, and the answer leaves the client at rest; induction over the calls and over the pages, where a tick of the clock changes no page (`LoopProofs.v`) |
| C76 | an invariant over sessions keeps what the transport may still do and that the buffer holds bytes; each exception is traced to its cause |

All properties of `properties.jsonl` are expressed in the model; none is "not applicable".

## Trusted base

* Coq's kernel, including its `vm_compute`.
* Axioms: every property theorem is "Closed under the global context" (`Print
  Assumptions` in the `Prop*.v` files).  The names `Coq.ssr.ssrunder.Under_rel.*`
  that a whole-library listing reports are fields of a module type in Coq's own
  ssreflect library, which is loaded indirectly; no theorem depends on them.
* The reading of the Python sources recorded in the comments, and for
  `Parameters.v`/`Schemas.v`/`ClassVars.v` the transcription tools `tools/gen_parameters.py`
  and `tools/gen_classvars.py`.
* The semantics of CPython primitives in `Py.v`, `PyTime.v`, `PyFloat.v`.
* That `cryptography` computes AES-CBC (`Aes.v`; proved to be that of FIPS-197 and SP 800-38A
  as written in `SpecAes.v`, C97; FIPS-197 vectors are checked as Examples in `PropSecurity.v`).
* marshmallow 3 behaves as in `Schema.v`.  C51, C71 and C72 hold for every Python with
  `float(str(x)) == x` (`lawful`) in which `int(text)`, `float(text)` and `bytes.decode` raise
  nothing but `ValueError` (`value_errors`); C85 proves these for the number texts of CPython
  as modelled in `PyText.v` (compared with CPython on several hundred floats), for any
  treatment of Unicode digits.
* The JSON library of Python behaves as in `Json.v` (compared with CPython on about 700 texts);
  dict keys there hold characters up to 255 only, RecursionError and the limit on the digits
  of an int are left out.
* The attrs validators, converters and generated methods behave as the comments say.

### Not modelled

* exceptions inside logging, processors of structlog other than showing values by `repr`
  (the calls of LOG are in `Log.v`), the `__repr__` of classes without secrets;
* threads below the granularity of `Threads.v`: one access to a shared object (a state look-up, an assignment, `send`/`recv` of the transport, `receive_data`, the reading part of `next_event`) is not divided further, and calls of `transport.send`/`recv` by two threads are each one access;
* floats as clock values: times are exact integers in an arbitrary unit;
* `IntEnum` members as objects (they are their numbers);
* NaN payloads.

## What the refuted claims say about the code

| theorem | in the code |
|---|---|
| C10 | requests are written with big-endian addresses and read with little-endian ones |
| C12, C34 | telegrams too short to hold their fields are accepted when the redundancy codes agree |
| C16, C18 | years from 2100 on give seven bytes; a password shorter than six characters gives a password field shorter than ten bytes |
| C20 | `cryout` has no effect |
| C21 | record ids are read from three of their four bytes |
| C22, C24 | truncated time responses accepted, leading zeros of SIM ids lost |
| C28 | a key without key id silently means no encryption |
| C29, C37, C63 | passing a response object to `send` closes the outstanding exchange; a failing `send` leaves the connection waiting |
| C33, C34, C64 | a device error or an invalid telegram stays in the buffer and blocks the connection |
| C35 | bytes after the first telegram are dropped |
| C42 | a device that never sets the end flag keeps `read_parameters` going |
| C51, C52, C70, C71 | schemas of FLOW_RATE, DEVICE_ERROR, DIFFERENCE_BASE_COUNTER, SET_POINT, ERROR_STANDARD_COUNTER, MODEM do not round-trip; NaN in dumps |
| C54 | a closed peer makes `recv` spin forever, whatever the timeout |
| C57 | secrets inside plain containers, and of connections the user makes, are shown |
| C59-C62 | announced length not checked against the data; iv = key; plain answers accepted with a key configured; combined error flags are read as data |
| C66 | an answer for another archive is accepted |
| C76 | answers of a device raise KeyError, IndexError, ValueError, AssertionError, AttributeError, TypeError, none of them an ElgasError |
| C78 | a call before `connect()`, or any failing call, makes the client unusable for good |
| C79, C80 | without a key the debug log holds the password in clear; decrypted answers are logged |
| C81 | a client that is given a connection ignores its own encryption key and checks no password |
| C82 | twelve parameter classes have an address in archive records but no `value_length` |
| C83 | clients on one connection lock each other out after an exception; a late answer goes to the next client on the transport, addresses of answers are not checked |
| C84 | no locks: two threads can both pass the state check of `send`; `next_event` can clear the answer of another thread; connections on one transport can take each other's answers; `read_parameters` can be interrupted between pages |
| C86 | a high surrogate before a low one in a name comes back from JSON as one character |
| C89 | `recv` can take almost twice its timeout; a call of the client has no time limit at all |
| C104 | an echo of its own request blocks the client; recorded answers are taken again, encrypted or not |
| C67, C68 | `Timeout.restart` keeps the old flags; a failing `shutdown` leaks the socket |
