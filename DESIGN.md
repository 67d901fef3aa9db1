# Formal model of zzztttkkk/httpd — design

## Approach

`/repo` is read as text. Every function that carries logic is rewritten as a total,
computable Gallina function (`rocq/theories/M_*.v`, "model files": definitions only, each
citing the Rust lines it models). Specifications are separate (`S_*.v`): grammars, abstract
maps, sums, orders - written without the model's helpers. Proofs live in `F_*.v`; the
property theorems live in `P_*.v`, each closed by `exact`, each followed by
`Print Assumptions` and by an `Example` meeting its hypotheses.

Conventions

* byte = `Coq.Strings.Ascii.ascii` (exactly `u8`); a Rust `String`/`Vec<u8>` is `list ascii`;
  config strings, where Unicode classification matters, are lists of code points (`N`).
* `usize`/`u64` are `N` with explicit `mod 2^64` where the code can overflow.
* A function that can go wrong returns an `outcome`: `Ret a | Panic | UB | Blocked | NoFuel`.
  `Panic` = unwrap/panic!/todo!, `UB` = out-of-bounds `get_unchecked`, `Blocked` = awaits
  forever, `NoFuel` = the loop did not finish within the fuel. "Diverges" is stated as
  "`NoFuel` for every fuel".
* The network is a list of segments (what successive reads return) plus an ending: EOF, I/O
  error or stall. The kernel, tokio's scheduler and sockets are represented by that list;
  all theorems quantify over it.
* Hash iteration order is an oracle: any permutation.
* Compression codecs, file-system results, TOML syntax, time zone tables, clocks are
  arguments of the model (records/functions), universally quantified in theorems.
* A property the code violates gets a theorem `..._refuted` with a concrete witness (or a
  universal negative statement) plus the strongest true variant, suffix `_partial`.

## Model files

| file | code |
|------|------|
| M_Base | integers, trimming, UTF-8, case folding of the Rust standard library as used |
| M_Reader | tokio `BufReader`, `take`, `read_until`, `read_line`, `read` over a segmented source |
| M_MultiMap | src/internal/multi_map.rs, src/internal/header.rs |
| M_Body | `MessageBody` of src/message.rs, the codec traits of src/compression.rs |
| M_Coders | the wrappers of src/compression.rs around flate2 and brotli (the crates are parameters), std's `write_all` on a body |
| M_Message | src/message.rs: heads, bodies, serialisation |
| M_Serve | src/reqr.rs, src/respw.rs, src/protocols.rs, src/services/*, src/ws_impl.rs, src/ws.rs, src/http2.rs, src/serve.rs |
| M_Net | how responses pass tokio's BufWriter and the socket (src/serve.rs:29, src/message.rs:543-547), the loop of src/serve.rs on top |
| M_Units | src/config/{split_uint,bytes_size,duration_in_millis}.rs |
| M_Settings | src/config/{http,tcp,tls,runtime}.rs |
| M_Paths | path functions of std used, src/utils/paths.rs |
| M_LogConfig | src/config/logging.rs |
| M_Config | src/config/mod.rs, src/config/service.rs, `load_config` of src/main.rs |
| M_Toml | serde attributes of src/config/*.rs, src/config/matchs.rs, reading files in src/config/mod.rs |
| M_Item | src/logging/{item,color,json_line_renderer,colorful_line_renderer}.rs |
| M_Consumer | src/logging/consumer.rs, creation of the consumer |
| M_Trace | log calls about requests: src/services/helloworld.rs:38-63, src/serve.rs, src/main.rs |
| M_Luxon | src/utils/luxon.rs |
| M_Calendar | chrono's dates (days to year, month, day and back), used by src/utils/luxon.rs |
| M_Strftime | luxon::fmtlocal of src/utils/luxon.rs (chrono's format); stamps of src/logging/rotation_file_appender.rs |
| M_System | a service from its start to its clients: run, the connection tasks of src/main.rs with serve of src/serve.rs; tasks share nothing but the settings |
| M_Listen | where the services of src/main.rs listen (tokio's TcpListener::bind), how the program ends |
| M_Console | src/logging/console_appender.rs over tokio's Stdout: the pool threads that write, several appenders on one standard output; the calls of the consumer thread |
| M_Handshake | src/main.rs: the handshake tasks of tls_accept_loop with a clock, tokio::time::timeout (the handshake is asked first, then the timer); over the accept loop of M_Main |
| M_Workdir | the current directory: src/config/mod.rs:122-126 (set_current_dir) and where the paths of a configuration are looked up before and after it; file tree by absolute path, path resolution on Unix by text (no "..", "." or links) |
| M_Threads | src/main.rs:230-252: creating one named thread per service; std::thread::Builder::spawn panics for names with NUL (its documentation) |
| M_Files | src/logging/{file_appender,rotation_file_appender}.rs over tokio's BufWriter and File |
| M_Dispatch | src/logging/dispatcher.rs: channel, flush, shutdown guard |
| M_Main | src/main.rs: starting a service, accept loops; TLS loading of src/config/tls.rs |
| M_PerCore, M_Multi | src/main.rs: `run_per_core`, `run_multi_threads` |
| M_Program | src/main.rs: `main` |

## Per property

| id | model | specification | theorems | proof |
|----|-------|------|------|-------|
| C01, C74 | M_Reader, M_Message, M_Serve | S_Stream | P_Head, P_Conn | every reader operation factors through the flattened stream; lifted to `serve` by induction on fuel |
| C02-C09, C73, C91 | M_Message | S_Wire, S_Accept (grammar of heads) | P_Head | exact characterisation of accepted heads, bounds read off; universal negative theorems where violated |
| C10-C13, C32, C34 | M_Message, M_Body | S_Body | P_Body | induction on the segments; divergence: the step at end of stream is a fixed point |
| C14-C16, C24, C25, C75 | M_Serve | S_Conn | P_Conn | induction over the requests of a connection with exact trace |
| C17-C23, C33, C90, C92, C97 | M_Serve | S_Conn, S_Resp | P_Resp | the same, for the built-in services; serialise/parse round trip |
| C93-C95 | M_Serve | S_Conn, S_Got (requests standing in a stream) | P_End | relation `runs` over the exchanges of a connection; induction on fuel |
| C112 | M_Serve | S_Ends, S_Got | P_Ends | totality of the reading functions on the flattened stream and of all table operations on reachable tables; induction on fuel |
| C113 | M_Body | S_Body | P_Body | simulation of the body by the three states a body can be in, step by step; induction on the history |
| C114 | M_Coders | S_Coders | P_Coders | the wrappers refine the codec of M_Body given a contract for the crates; induction on the rounds of write_all, then on the pieces |
| C115 | M_Serve | S_Http, S_Got | P_Http | refuted for every conflicting request by the pipelining theorem (C15); the part that holds from the requests standing in the stream (C94) |
| C116 | M_Serve | S_Http, S_Resp | P_Http | from the exact responses of scripted handlers (C97) and of the built-in services; heads and bodies are told apart uniquely |
| C117 | M_Serve | S_Http | P_Http | the loop blocks inside the body, by running it on the flattened stream |
| C118 | M_Serve | S_Http, S_Got | P_Http | from C94 and C24; the ending from C112 and the uniqueness of the reading |
| C119 | M_Serve | S_Http | P_Http | refuted by the pipelining theorem for hello world; handlers that close from C93 |
| C107, C108, C25 (sending) | M_Net | S_Net | P_Net | simulation of M_Serve for every socket behaviour; invariant: what was accepted is what was taken plus what is buffered |
| C26-C31, C68 | M_MultiMap | S_MultiMap | P_MultiMap | refinement to a function from names to lists of values; with deletions, a layout of slots and gaps says which calls keep to it |
| C35-C40 | M_Units | S_Units | P_Units | round trip of the group splitter, sums in N, wrap-around explicit |
| C41-C44, C96 | M_Settings, M_Config | S_Config, S_Load | P_Settings, P_Load | case analysis; lifted to loaded configurations |
| C45-C47, C66, C72 | M_Config, M_Paths | S_Config2, S_Paths | P_Config | induction over services and matched entries; glob and TOML results are data |
| C102-C106 | M_Toml | S_Toml | P_Toml | one exactness theorem for any record given by lenses, instantiated for each record; congruence for unknown keys; crash-soundness by composition |
| C86-C89 | M_Config, M_Program | S_Load | P_Load | exact characterisation of loading (`load_parts`, `load_iff`) |
| C48-C50, C77, C81, C82 | M_Main | S_Main | P_Main | decision logic over what the system answers; invariants over event lists |
| C101 | M_Base, M_Reader, M_LogConfig | S_Text | P_Text | UTF-8 decoder inverse to an encoder; decimals against the standard library's `N.to_uint`; tables for case and white space |
| C51-C55, C64, C69-C71, C76, C100 | M_LogConfig, M_Consumer, M_Item | S_Log, S_LogPlace, S_Paths | P_Logging | NoDup and partition by induction; exact safe-iff condition for `comsume` |
| C109-C111 | M_Trace, M_Serve, M_Consumer | S_Trace, S_Got | P_Trace | what is logged read off the exact state of the header table and body given to the handler; rendered text contains the message unchanged |
| C56-C58, C98 | M_Item | S_Json, S_Log | P_Render | JSON grammar; removal of escape sequences |
| C59-C61, C79, C80, C99 | M_Files, M_Luxon | S_Files, S_Luxon | P_Files | ghost-history invariant over file states; arithmetic on local time |
| C120, C121, C78 (layouts) | M_Calendar, M_Strftime, M_Files | S_Calendar, S_Strftime | P_Calendar | days counted one by one against chrono's 400-year cycle; induction over the layout; digits of fixed width |
| C122 | M_System | S_System | P_System | composition: loaded settings are usable (C41, C42), pipelined requests (C15), exact answers (C17, C90), the network (C107), the accept loop (C50), no crash (C112) |
| C123, C124, C125 | M_Listen, M_System | S_Listen | P_Listen | transition system over starting and stopping services; invariant: what is listened on belongs to the service and does not clash |
| C126 | M_Console, M_Consumer | S_Console, S_Log | P_Console | transition system over polls, pool threads and other printing threads; invariants: what was received, what is being written and what is left add up to what was asked |
| C127 | M_Message, M_Serve | S_Lines, S_Accept, S_Got | P_Lines | refuted for every head within the limits, from the grammar of accepted heads (C91) and the requests standing in a stream (C94); the part that holds is exact reading and refusal of other lines |
| C128 | M_Serve | S_Lines, S_Conn | P_Lines | refuted for every sequence of requests by the pipelining theorem (C15) |
| C129 | M_Handshake, M_Main | S_Handshake, S_Main | P_Handshake | transition system over time, accepts, messages, timers and task runs; invariant: what every task knows is where in the history it ran first, its message arrived, its timer fired; refinement to M_Main |
| C130 | M_Workdir, M_Config, M_Program, M_Main | S_Workdir, S_Load, S_LogPlace | P_Workdir | paths resolved against one directory; congruence of loading and starting in the world seen; C88 and C100 read through the resolution |
| C131 | M_Dispatch | S_Backlog | P_Backlog | invariants of schedules: the logger keeps running, what waits is a suffix of what was handed over; induction on the number of calls for the pile-up and the draining |
| C132 | M_Threads, M_Program | S_Load, S_Config2 | P_Threads | loading and starting for an arbitrary name; induction over the services |
| C133 | M_LogConfig, M_Program | S_LogDir, S_LogPlace | P_LogDir | the first file of a section lies in its directory; C100 for an environment in which files need existing directories |
| C134 | M_Serve, M_Reader | S_Got, S_Linger (what TCP does with unread data at close is assumed there, RFC 1122 and RFC 9112) | P_Linger | a run that does not wait on a prefix of the stream never asks for the rest (C74) |
| C135 | M_Serve | S_Conn, S_Resp | P_Growth | summing the lengths of the answers of C17, and the bodies of C16 |
| C136 | M_Serve | S_Upgrade, S_Ws | P_Upgrade | one turn of the connection loop with a handler that calls upgrade; the answer is computed for an arbitrary key |
| C137 | M_Config, M_LogConfig | S_Restart, S_Config2 | P_Restart | erasing the numbers of services commutes with fixing them up; the two orders are permutations of each other |
| C138 | M_Config, M_LogConfig | S_Arrange, S_Restart, S_Config2 | P_Arrange | what entries give is permuted with them; then as C137 |
| C139 | M_Serve, M_Message, M_MultiMap | S_Spelling, S_Body, S_Wire | P_Spelling | the two streams give equal messages head by head; induction over the requests |
| C140 | M_Serve, M_Message, M_MultiMap | S_FieldOrder, S_Conn, S_Wire | P_FieldOrder | equal lookups are kept through the connection loop; induction over the requests |
| C62, C63, C78 | M_Dispatch | S_Dispatch | P_Dispatch | transition system, invariant over all interleavings |
| C65, C83 | M_PerCore | S_PerCore | P_PerCore | transition system, invariants, schedules as witnesses |
| C84, C85 | M_Multi | S_Multi | P_Multi | transition system, invariants |
| C67 | M_Serve | S_Ws (SHA-1 and base64 of the RFCs) | P_Ws | computation of the answer for an arbitrary request |

A property the code violates has status "partial" in MANIFEST.json; its note says what fails,
the `_refuted` theorem proves that it fails, and the `_partial` theorem proves what holds.

## Trusted base

* Coq 8.16.1's kernel (including `vm_compute`, used in examples and closed computations).
* `Print Assumptions` after each theorem in `P_*.v` reports "Closed under the global context":
  no axioms, none of the standard library's either. (Axioms of `Coq.ssr.ssrunder` are loaded
  with `Lia`'s dependencies but no theorem uses them.)
* That the model says what the Rust code does. The model was written by reading; each
  definition cites the lines it stands for, and simplifications are stated there.
* The library behaviour that is modelled from documentation: serde's derived readers over toml
  (missing, repeated, unknown and positional fields, enum tables, dates), tokio's BufReader/BufWriter and
  fs::File, std's path and string functions, HashMap as an unordered map, RwLock, channels,
  the time zone as a function giving the offset of an instant and the candidates of a local time.

## Not modelled

TLS record layer, tokio's scheduling and wakers, timing (except for handshakes, M_Handshake), real compression
codecs (arbitrary ones instead), TOML syntax (a file is a tree of values, read as configuration by M_Toml), chrono's
formatting beyond the specifiers of M_Strftime (an arbitrary formatter there), leap seconds, dates outside chrono's range, memory layout beyond the explicit `UB` outcomes, signals
other than Ctrl-C as an event, what conditions and rules would do (matchs.rs parses nothing and nothing uses them), symbolic links. The dev
profile differs in `load_config` (always ./httpd.toml) and in overflow checks; the release profile
is modelled and the dev profile mentioned where it differs.

## Wrong programs

`seeded/LOG.jsonl` lists edits of the model, one attempt per line. A theorem is listed in
`theorems_failed` only when Coq proves the negation of its exact statement in the edited model
(`refutation` is the proof script, `evidence` says what was done). A proof script that merely stops
working is not counted: scripts also break under edits that leave the statement true, as the control
entry for `header_contains` shows. This test is possible because the statements use only `M_*.v` and
`S_*.v`, so they can be compiled against an edited model without any proofs.
