# Formal model of ariadne-dns in Rocq (Coq 8.16.1)

Target: `/repo` (anBertoli/ariadne-dns, rust), read as text only. Everything lives in
`/verif/rocq/theories` (logical prefix `Verif`).

## Modelling conventions

* **Outcomes.** `exec A := Done a | Panic kind | Diverge`. Every Rust panic path (failed `assert!`,
  `unwrap` on `None`/`Err`, slice index, arithmetic overflow in debug builds, `unreachable!`) is an
  explicit `Panic`. `Diverge` is "never returns" (a fuelled loop that ran out, or a loop shown endless).
  Rust `Result` stays data (`result A E`).
* **Build profile.** A parameter `p : profile` (`Debug`/`Release`) selects overflow checks and
  `debug_assert!`, because the code's behaviour differs (`data_len * 8`, `jump_pos * 8`, `byte << j`).
  Theorems quantify over both unless they say otherwise.
* **Mutation** through `&mut BitsBuf` / `&mut Tokenizer` / `&mut Lookup` becomes state passing.
* **Bytes/strings.** A byte is an `N`; `Vec<u8>`/`String` are `list N` (strings are their UTF-8 bytes);
  in the tokenizer a line is its list of code points, converted with `utf8_encode`.
* **Sizes.** `usize` arithmetic on buffer positions is unbounded `nat` (a buffer of 2^61 bytes is out of
  scope); `u16`/`u32`/`u8` arithmetic wraps or panics explicitly.
* **HashMap** is an association list; iteration order is shown irrelevant (C39) or quantified over.
* **Time** is an `N` of nanoseconds, every `Instant::now()` is an input. **Threads**: operations under a
  mutex are atomic steps; histories are arbitrary lists of steps. **Network/file system/randomness** are
  oracles universally quantified in the theorems.

## Layers (files)

| model file | code modelled |
|---|---|
| `Base.v` | outcome types, casts, list helpers (no code) |
| `Buffer.v` | `shared/buffer/buffer.rs` |
| `Types.v` | `shared/dns/types.rs`, `class.rs`, `OpCode`/`RespCode` of `header.rs`, `errors.rs` |
| `Name.v` | `shared/dns/name.rs` |
| `Codec.v` | `shared/dns/utils.rs`, `header.rs`, `questions.rs`, `records.rs`, `message.rs` |
| `Zone.v` | the zone store and the cross-file validation of `nameserver/zones/parser.rs` |
| `Tokens.v` | `nameserver/zones/tokens.rs` |
| `Parser.v` | `nameserver/zones/{utils,errors,parser_auth,parser_sub}.rs`, `parse_zone_files` |
| `NsHandler.v` | `nameserver/handler.rs`; reading requests and writing replies in `shared/net/{udp_server,tcp_server}.rs` |
| `Cache.v` | `resolver/back_end/cache.rs` (operations, and a step system for its mutex) |
| `Resolver.v` | `resolver/back_end/{recursive,requests,utils,trace,errors}.rs` |
| `Trace.v` | printing in `resolver/back_end/trace.rs` |
| `RsHandler.v` | `resolver/handler.rs` |
| `Pool.v` | `shared/thread_pool.rs` with the threads that feed it: transition system, one step per channel/lock/thread operation |
| `Conf.v` | `nameserver/conf.rs`, `resolver/conf.rs` (`validate`), and where `src/bin/*.rs` and `shared/net/*.rs` use the values |
| `Setup.v` | `shared/net/setup.rs` (`start_servers`, `wake_up_servers`) with the server loops: transition system of three threads |

Specifications a reader should check live in `*Spec.v` (bit strings, RFC 1035 wire layout, name grammar and compressed
names, what a zone store / name server should answer, what a zone file denotes, map with expiry, job histories, the
vocabulary for lookups) and at the head of the `Prop*.v` file where they are used. They do not mention the model's
helper functions, only its data types. Lemmas live in `*Proofs.v`, `Codec{Write,Message,Read,Safe,Facts}.v`,
`Load*`, `Token*`, `ZoneFile*`, `Resolver{Lists,Inv,Run,Facts,Fuel,Stays,Ex}.v`, `HealthRun.v`, `PoolInv.v`; witnesses also in `*Ex.v`/`*Ex2.v`. The property theorems are
in `Prop*.v`; each is followed by `Print Assumptions` and a non-vacuity witness (`..._nonvacuous`, or the refutation
witness when the property fails).

### The environment of a lookup (`Resolver.v`)

A lookup runs against an environment `env : nat -> event`, universally quantified in the theorems: the n-th interaction
(cache access or query) finds two clock readings, an arbitrary function applied to the shared cache (what other threads
did meanwhile), the message id drawn, and what the network delivers for each packet (`None`: timeout or error). So every
theorem about lookups is about all schedules, all upstream behaviours and all histories of the cache; restrictions
(`env_ok`: clocks do not run backwards and stay below the end of `Instant`, bytes are bytes, ids are `u16`, other threads
keep the cache in order) are hypotheses visible in the statements, and `C51_other_lookups_qualify` shows that other
lookups satisfy the one about other threads. C93 removes it altogether: any number of lookups, interleaved access by access.

Only the first address of a name server is ever tried: that is what `send_udp_packet` does (`addrs().first()`), not a
simplification. `recv_from` accepts a datagram from any sender, so does the oracle.

## Plan per property

Refutations: where the faithful model violates the English property, a theorem `..._refuted` gives a witness (or
shows failure for *every* input of a class), and a `_partial`/conditional theorem gives the part that holds.

| id | how modelled / proved |
|---|---|
| C01-C03 | invariant `wf_buf` + abstraction to `(list bool, rd, wr)`; step simulation for each op, lifted to op lists by induction |
| C04 | boolean validator vs independent grammar (`labels` list spec), both directions |
| C05-C07 | split/concat lemmas; loop invariant on the decoder |
| C08 | decoder loop with fuel 300 shown never to exhaust, for every packet |
| C09 | inductive relation `wire_name` (labels/pointers) independent of the decoder; soundness + completeness |
| C10, C12, C13, C16, C17, C22, C33, C34, C36, C43, C52, C60, C61, C62, C65 | expected false of the code: refutation witnesses or universal failure theorems, plus the true part |
| C11 | `rsplit` loop vs list-suffix spec |
| C14 | bit-level refinement + RFC byte layout spec |
| C15, C18-C21 | per-RDATA lemmas over an aligned reader; message by induction over sections |
| C23-C25 | trunc encoder characterised as "longest prefix that fits" |
| C26, C27 | case analysis; UTF-8 validator |
| C28-C38 | handler as a function of zones and request; end-to-end with the loader invariants |
| C39 | association-list refinement + permutation invariance |
| C40-C42 | invariants over all parser runs |
| C44-C47 | tokenizer measure; line-list lemmas; parser equations |
| C48-C52 | history semantics of a map with expiry; invariants of the cache writers |
| C53-C55 | permutation / partition specs |
| C56-C62 | lookup as recursion over fuel with an adversarial environment; measure argument for termination |
| C63 | handler equations |
| C64, C65 | labelled transition system of pool + queue, all schedules |
| C66 | decision logic; then what the accepted values mean for the servers (`Conf.v` on top of `NsHandler`/`Setup`) |
| C67 | histories with panicking callbacks over the cache's mutex |
| C68-C70 | resolver handler from bytes to bytes, on top of C56/C61 |
| C71 | the pool's transition system, drop phase: invariant plus a measure |
| C72 | transition system of `start_servers`: invariant over all schedules, witness schedules for what fails |
| C73, C74 | induction over tries and over the servers of a zone, exact list of packets sent |
| C75, C77 | invariants over whole lookups, with a class of records (`origin`) tracing where each record came from |
| C76 | what the cache holds after a successful lookup (`first_inner`), preserved by anything a lookup does (`ResolverStays.v`), and that a lookup finding it there sends nothing |
| C78 | a directory of what there is, honesty of servers and truth of the cache as separate specification (`HealthSpec.v`); the cache stays true, every zone step gets closer, aliases by induction, sub-lookups for servers without addresses by induction on the depth of zones, broken servers by counting (`HealthRun.v`, `PropHealth.v`); a healthy DNS and counterexamples (`HealthEx.v`), a less tidy healthy DNS (`HealthEx2.v`) |
| C79 | composition: the resolver's query bytes through `serve_udp` into the resolver's `read_response` (`PropTalk.v`) |
| C80 | relational: two runs from states that differ only in traces and tracing flags stay so |
| C81 | `loadable` (ZoneLoadSpec.v, over the grammar of ZoneFileSpec.v): soundness from the runs (ZoneFileLoad.v), completeness by a total-success logic over the token monad and induction on well-formedness (ZoneFileComplete.v); PropZoneLoad.v |
| C82 | a lexical grammar over lines of code points (LexSpec.v), independent of the tokenizer; equivalence by induction on derivations one way and on what is left to read the other (LexProofs.v, PropLex.v). ZoneFileSpec.v is stated over it |
| C83 | Trace.v models printing (indentation and what each line is about, not its wording); a relational specification of the output (TraceSpec.v); refuted by a chain of 260 glueless delegations run from the request's bytes |
| C84 | a relation between traces and packet sequences (TellSpec.v); compositional proof over the lookup monad: each step extends trace and packets by parts that match |
| C85 | files and data agree with the directory of C78 (`PublishSpec.v`); the name server's replies (C28–C31) encoded and decoded are honest in the sense of C78, hence its address is a good server; then C78 (`PropPublish.v`); two zones loaded from texts (`PublishEx.v`) |
| C86 | what clients should be told (`ClientSpec.v`); the handler around C78's lookups, induction over the queries (`PropClient.v`); clients of the zones of C85, and what is published but not found (`PublishEx2.v`) |
| C87 | the crashing requests as an inductive predicate over the decoder and zone data (`CrashSpec.v`); every decoded request gets a reply that can be encoded or one with questions missing; exact outcome of both encoders on the latter (`PropCrash.v`). With it C65 exactly (`PropServer2.v`), C10 and C22 exactly (`NamePathSpec.v`, `PropName2.v`, `PropCodec4.v`) |
| C88 | a grammar of traces (`AccountSpec.v`), each part of the lookup shown to extend the trace by a sentence of it; reading off by mutual induction on accounts (`PropAccount.v`) |
| C89 | the same for the resolver (`CrashSpec2.v`, `PropCrash2.v`), on top of C57's invariant: whatever a lookup returns can be encoded |
| C90 | each function of the lookup shown to depend only on the events it uses and the replies to the packets it sends (`LocalSpec.v`, `PropLocal.v`); hence runs can be moved to an environment where nothing else happens, which turns hypotheses about all packets into hypotheses about those received (`LocalSpec2.v`, `PropLocal2.v`: C56, C60, C61, C70, C75, C77) |
| C91 | the zones of enclosing lookups are distinct and among the zones heard of; an invariant of the trace's nesting along every run (`ResolverNest.v`, `NestRun.v`), on top of the invariants of `ResolverRun.v`; then confined to what was received as in C90 (`PropNest.v`) |
| C92 | `Program.v` models the two `main` functions from the command line to `start_servers` (reading and parsing JSON is a parameter); `ProgramSpec.v` gives the reply due to a question as a relation with four cases, and the reply message; proved by composing C66, C81, C28–C32, C19, C24 and C38: what is due exists, is unique, and is what is sent, byte for byte; exit code 1 exactly otherwise |
| C93 | `Process.v`: the lookup once more, cut at its accesses to cache and network into a process (a tree of accesses); `ProcessRun.v` proves that a process run in an environment of `Resolver.v` is the lookup modelled there. `Many.v`: a small-step semantics of any number of such processes and the cleaning thread on one cache, every access atomic (it holds the lock), any interleaving, with any packets lost up to a number in a row (`g_losses`) beyond what the setting lets happen. Proved: step by step every access keeps the cache in order (rely and guarantee, `ProcessSafe.v`); invariant: every thread's history is a history of the lookup alone in an environment that satisfies `env_ok` — so the assumption about other threads is discharged; ends by well-foundedness of processes and C56 |
| C94 | `ManyTrue.v` on `Many.v` (C93) and `HealthSpec.v` (C78). A setting is healthy if in every environment that draws its ids, delivers what it delivers and loses at most `g_losses` packets in a row the domain name system is healthy. Invariant: the cache is true and every thread's history is a history of the lookup alone in such an environment. That a single access keeps the cache true is derived from C78's theorem about whole lookups: were the cache false after it, the other threads of an environment that watches for this could leave behind two false entries, which no single access can remove; but the lookup, in this environment as in all others, must end with a true cache. Witness: the two zones of C85 with three lookups interleaved and packets lost |
| C95 | `ManyClient.v`: what the request handler does after the lookup (`rs_finish`), proved to be the rest of the handler of `RsHandler.v` (C95_the_handler_is_its_lookup_and_the_rest); composed with C94 (right answers), C93 with the classes of plain records (the reply can be encoded) and of records of known zones (the trace can be logged, C91), and the codec (C19, C25, C38) |
| C96 | `Report.v`: the loops of `Parser.v` once more with the contexts of errors (file, line, zone); `ReportErase.v`: without them it is `Parser.v`. Two runs over files with the same first lines are related by a simulation up to that line (`ReportNear.v`), the reported line bounds what has been read (`ReportSim.v`, `ReportWithin.v`), induction over the entries read (`ReportOwn.v`, `ReportPrefix.v`, `ReportStart.v`, `ReportSub.v`) |
| C97 | `History.v`: what has been delivered in a course of events of `Many.v`, and records and denials heard in it. `PropHistory.v`: a state with a history is reached in the setting in which only the datagrams of that history can be delivered, so that C93 makes each lookup one alone in an environment that delivers only them; the single-lookup theorems (C60, C75, C77) apply, with the class of records heard |
| C98 | `Server.v`: both servers, their pools (`Pool.v`), the handler and the lookups (`Many.v`) as one transition system; `PropServing2.v` counts jobs and replies of a client; `plan_of` says which requests need a lookup, and is proved to be what `RsHandler.v` does. `PropServing.v`: an invariant joins the pools' jobs, the clients, the lookups and the replies; safety from C95; liveness by induction on the number of jobs ahead in the queue (twice that, and one if nobody holds the lock) and C95's liveness for the workers that are busy. `ServerEx.v`: an infinite course of one worker per pool in which nothing is starved. Not modelled: socket errors, partial reads of TCP clients |

## Not modelled

* Log output other than printed traces; ANSI colouring and wording of traces and of error messages (the *structure* of traces is modelled;
  error values are modelled up to the constructor, without their texts; the file and line in zone file errors are modelled in `Report.v`).
* JSON parsing (serde), reading files (a file is the list of its lines, each readable or not).
* The operating system: sockets and threads appear only as the oracles and transition systems above; timing of socket
  timeouts, memory exhaustion, stack depth and the quality of `rand` do not appear. `usize`/`u64` counters are unbounded.
* `HashMap` iteration order and hashing (an association list stands for the map; nothing in the code depends on the order
  except through what C39 shows irrelevant).
* The tests in the repository, `build.rs`-like scripts and benchmarks.

## Trusted base

* Coq 8.16.1's kernel including its `vm_compute` machine (used for witnesses and finite tables only).
* **Axioms: none.** `Print Assumptions` after every property theorem and every witness prints
  `Closed under the global context`. The project uses the standard library only (`List`, `NArith`, `Lia`, ...; the ssr
  base files are merely loaded with it: `Coq.ssr.ssrunder` declares module-type fields that tools list as library axioms; no
  theorem here depends on them).
* The reading of the Rust code recorded in the comments of each definition (file and lines), and of the std functions
  modelled: `str::split`, `rsplit`, `ends_with`, `from_utf8`, `u32::from_str`, `Ipv4Addr::from_str`,
  `char::is_whitespace`, `Vec::swap_remove`, `sort_by` (stable), `HashMap`, `Instant`/`Duration` arithmetic, `mpsc`,
  `Mutex` (with poisoning), `thread::spawn`/`join`.
* Which wrong programs the theorems are known to reject is recorded in `seeded/LOG.jsonl`.
