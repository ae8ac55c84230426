# Formal model of lightway-core in Rocq (Coq 8.16.1)

## 1. Approach

* `/repo/src/he/*.c` is modelled function by function as total, computable Gallina.
* Pure parts (codecs, fragment table, MSS clamp, checksum, version checks, string setters,
  plugin chain, padding, name tables) are ordinary functions over `Z` and `list Z` (bytes), with memory
  accesses bounds-checked: out-of-bounds access, NULL dereference and failed `assert` are
  distinct outcomes, never totalised away.
* The connection (conn.c, flow.c, msg_handlers.c, wolf.c, pmtud.c) is a state+trace
  monad. The world is the connection record and the log of every externally visible action
  (callback calls with arguments, wolfSSL calls, API call boundaries). Everything the code does not
  control (host callback results, wolfSSL's behaviour including *which* I/O callbacks it invokes and
  with what bytes, the clock, the allocator, the RNG) is answered by an `env`,
  a record of functions of the history; theorems quantify over all `env`s, hence over all
  behaviours. API histories are lists of operations; theorems quantify over all lists.
* Integer wrap-around is written explicitly (`mod 2^16`, `mod 2^64`) wherever the C type wraps.
* Host byte order is a parameter (`le : bool`), `ntohs`/`htons` are modelled.

## 2. Plan per property

| id | what is modelled | how it is proved |
|----|------------------|------------------|
| C01 C02 | connection monad, all message handlers | trace invariant over all op lists |
| C03 | change_conn_state, connect, verify_connection | trace invariant |
| C04 | first_message flag | trace invariant; thread model with CAS for the MT build |
| C05 | update_timeout / nudge | trace invariant (sequential); MT race refuted by a schedule |
| C06 | disconnect | trace invariant; the parts that fail (nudge_time_cb, PMTUD callbacks) refuted |
| C07 C08 | he_wolf_dtls_write | exact functional spec of emitted log |
| C09 | frag_and_send | induction on the packet |
| C10 C11 | fragment entry list, table | refinement for contiguous arrivals (partial) + refutations by concrete witnesses |
| C12 | pmtud.c | state invariant over all op lists; refinement of a small search machine (`PmSpec.v`), then invariants and a potential function over it; refutations |
| C13 | mss.c, network.c | functional characterisation, modular arithmetic mod 65535; odd offset refuted |
| C14 C15 C16 | codecs of each message | decode (encode x) = x through the two real functions; for C15 also `Props_Creds.v`: every AUTH sent carries what the host gave, for hosts that call back in at any depth (invariant `G` over the whole log, induction on depth); `Props_Heard.v` for the receiving side of C14, C15 and C16 at any depth: every question, every configuration told and every packet handed over comes from a message received in the same call (invariant `J`, which carries the messages being processed through the calls made inside callbacks) |
| C17 | plugin_chain.c | induction on the chain |
| C18 C36 | ssl_ctx.c version functions | arithmetic; range override refuted |
| C19 C20 | every byte access bounds-checked; wolfSSL_version needs an object (it reads `ssl->version` without a check; the other wolfSSL functions the code calls refuse NULL) | "no stuck outcome" by wp over all handlers; invariant: a state with a connection has an object unless a connect was left without one |
| C21 | he_wolf_tls_read / dtls_read | induction on read-size lists |
| C22 | session rules | trace/state invariant |
| C23 | config.c and setters | list lemmas; length-50 truncation and side effects refuted |
| C24 C31 | length calculation | arithmetic; PMTU part refuted |
| C25 | is_error_fatal | whole domain; spoofed datagram refuted |
| C26 | is_valid_client / server | case analysis |
| C27 C28 C29 C30 | connection monad | trace invariants; `Props_Keep.v`: where PONG events come from for hosts that call back in at any depth |
| C32 | interleaving model of the atomics | induction over schedules; `Props_Alone.v`: a thread alone refines the big-step `solo`; a credit invariant bounds the nudge timers, and a lost timer is exhibited |
| C33 | composition of sender and receiver functions | composition of C09, C10, C14 |
| C34 C35 | handlers | wp |
| C37 | utils.c | finite tables |
| C38 | loops | fuel sufficiency theorems |
| C39 C40 | frag.c, plugin_chain.c, client.c, creation and destruction, on a heap of cells with addresses (`Heap.v`) | ownership: the heap is exactly a list of cells, kept by every operation; refinement of `Frag.v`; leaks refuted |
| C41 | update_timeout, nudge, check_renegotiation in `Conn.v` (`TimerSpec.v`) | invariant by computation (`Frame.v` with the timer functions as hypotheses) relating the fields to the log; the last function of connect and nudge is update_timeout; `Props_Retime.v`: exact list of handshake answers, timeouts and renegotiation answers of a received packet |
| C42 | configure and the connect calls in `Conn.v`, wolfSSL's settings as questions with values (`TlsSpec.v`) | log of one call: settings and operations of wolfSSL; every other function asks none of these questions |
| C43 | he_ssl_ctx_start, _start_server, _start_common with every wolfSSL call (`Start.v`, `StartSpec.v`) | the calls follow a plan up to the first refusal; refinement of `Ctx.v`'s start; missing minimum version on the server refuted |
| C44 | client.c over `Ctx.v` and `Conn.v` (`Client.v`) | simulation: a client history is a connection history and a context history; agreement of is_config_valid and connect proved for hosts that name no version, refuted otherwise |
| C45 | two connections of `Conn.v`, one fed with what the other one sent (`TunnelSpec.v`) | sender: every DATA / fragment message belongs to an accepted packet (`tame` for all other functions); receiver: invariant on the table that each entry holds right bytes of one packet (`Honest.v`: the walk along the nodes for fragments in any order, repeated, lost), induction over `took`; refuted for a table with fewer places than packets that are cut |
| C46 | every place where `Conn.v` stores `wolf_error`, `SslSpec.v` (hard errors of wolfSSL in the log) | per function: the stored error is the last hard error of the log and a TLS error code implies one (`told`/`sure`), for connects a walk through the steps before the handshake; refuted for a refused server name |
| C47 | `Local.v`: the thread-local (or per-connection) packet and error variables under interleaved calls of many connections | only the actions on the same variables matter (`after_slot`), induction over the calls of one thread; refinement of the plain build's read to `Conn.v`; refuted for the multithreaded build when a datagram is left unread |
| C48 | `Stats.v`: plugin_stats.c with the doubles of the standard library's SpecFloat (binary64, to nearest) | adding, squaring and comparing whole numbers below 2^53 is exact (`StatsProofs.v`, on the definitions of SpecFloat, no reals), division is off by half a unit at most; induction over the packets; exactness beyond 2^53 and the standard deviation are refuted in general; `Props_Root.v`: subtraction and division without remainder are exact and the square root is nearest, hence the standard deviation where all is exact |
| C49 | `Conn.v` connect after any history | invariant over the rest of connect for all fields that are settings or belong to a session (`fixed`); what is carried over is refuted by witnesses comparing with a new connection |
| C50 | `Conn.v`, all calls; `Getters.v`: queries | frame invariants per call (`same`, `ready` for connect, `named` for packets), then induction over the history against `chosen_in`, which reads the settings off the log of returned calls; queries of the TLS session need one: `connected` (log) implies it, `Props_Support.v`; hosts that call back in, any depth: invariant `D` by induction on the depth, against `chosen_all` (`DeepSpec.v`, `Props_Deep.v`) |
| C51 | `Settings.v`: every setter and query of ssl_ctx.c with the pointers it stores, NULL contexts, and the copies a connection makes | induction over the calls against `last_choice` (value chosen last); refinement to `Ctx.v` and `Conn.v` (`C51_refines`, `C51_conn_refines`); exceptions refuted |
| C52 | a pair of worlds of `Conn.v`, one client and one server, whose received messages are sent messages of the other (`AgreeSpec.peers`); TLS is assumed to give that | induction over the server's log for the accepted question, C15 and C16 for what messages carry in both directions, and the history invariants of C01/C02 |
| C53 | `Alloc.v`: memory.c with blocks labelled by the allocator they came from, and the direct libc calls of plugin_stats.c; zero-sized requests and the contents of blocks are not modelled | induction over the calls; careless hosts and the plugin refuted |
| C54 | the state machine of `Conn.v` against `moves` and `in_order` (`MoveSpec.v`), over the handshakes, messages and callback answers of a call | invariant: the state owed by the milestones so far is the state, and what must come next is what the code does next; host without calls inside callbacks |
| C55 | the retry of `nudge` and the handlers of `Conn.v` at both ends, against `questions`, `offering`, `configuring` and `LoginSpec.v` | from C54's order of milestones, C15 and C16: one message received fixes what the host is asked; invariant: a client on its way has credentials; host without calls inside callbacks |
| C56 | the receive loop, renegotiate_ssl and check_renegotiation of `Conn.v`, against `requested` (log) and `settles` (`RekeySpec.v`) | exact list of wolfSSL's rekeying answers and events of every call; invariant: the pending flag is the request in the log; the version-method rule as an invariant of the log; lost requests refuted by an execution; host without calls inside callbacks |
| C57 | `handle_auth`, `auth_verdict`, `auth_accepted` and `send_auth_denied` of `Conn.v`, against the debts of `DenySpec.v` (what the last entry of the log makes the endpoint owe) | invariant of every prefix of the log at every nesting depth (`Props_Deny.v`): nothing is owed between the primitive steps of any other function; the login code, run by hand, pays each debt with the very next entry; the misleading status byte is refuted on a concrete server |

## 3. Trusted base

* **Coq 8.16.1's kernel** (and its bytecode VM, used by `vm_compute` in examples and refutations).
* **Axioms.** Every theorem named in MANIFEST.json is followed by `Print Assumptions` in its file; all
  of them print "Closed under the global context". No axiom, `Variable`/`Hypothesis` outside a
  section, `Admitted`, functor or module type is declared. `coqchk` lists seven constants
  `Coq.ssr.ssrunder.Under_rel.*`: fields of a module type of the standard library's ssreflect files,
  which the library files for `lia` load; no theorem depends on them.
* **The model is faithful to the code.** This is by reading only: each definition cites the lines it models.

### What is modelled

| code | model | remarks |
|------|-------|---------|
| `mss.c`, `network.c` | `Mss.v` | all of it, memory accesses checked |
| `frag.c` | `Frag.v` (lists, table), `Conn.v` (`frag_loop`, `frag_and_send`) | the linked list as a Coq list; allocation may fail; time from the host |
| `ssl_ctx.c` | `Ctx.v` | context record, setters, version range, checks of start, with the success or failure of each wolfSSL call |
| `ssl_ctx.c:122-309` | `Start.v` | the same start functions with every call of wolfSSL, its arguments and its answer |
| `client.c` | `Client.v` | he_client_connect, _disconnect, _is_config_valid (creation and destruction: `Heap.v`) |
| `config.c`, `he_safe_strncpy` | `Config.v` | |
| `utils.c` | `Names.v` | tables generated by script from the source |
| message structs of `he_internal.h` | `Wire.v` | packed structs as bytes, host byte order a parameter |
| `conn.c`, `flow.c`, `msg_handlers.c`, `wolf.c`, `pmtud.c`, `core.c`, `plugin_chain.c` | `ConnState.v`, `Conn.v` | state, log and environment; single-threaded build |
| `frag.c`, `plugin_chain.c`, `client.c`, `memory.c`, he_conn_create/destroy, he_ssl_ctx_create/destroy, the allocations of connect and start | `Heap.v` | the same code once more, with pointers, allocation and freeing: an address is never reused, every access to freed memory is a fault |
| atomics of the multithreaded build | `Threads.v` | interleavings of the accesses to the atomic variables, sequentially consistent |

### What is not modelled

* wolfSSL itself: an operation is any finite strategy that reads and writes through the I/O callbacks and
  returns any result; wolfSSL's cryptography is not modelled, so "authenticated" means "came out of wolfSSL_read".
* Re-entrancy: the host may call the API from inside callbacks to any finite depth (`hookn E n`). Theorems over `history E n`
  or `run E n` quantify over the depth; those about `reached`/`call` are about hosts that do not call back (n = 0), and say so.
* What `he_set_allocators` does to memory that is already allocated; NULL arguments (every function returns HE_ERR_NULL_POINTER at once).
* `he_conn_t` fields that only a host reads through getters with no influence elsewhere.
* Time and randomness are answers of the environment.

## 4. How the statements are organised

* `*Spec.v` files contain the vocabulary of the statements; they do not mention the functions of the model
  (message formats: `WireSpec.v`; histories: `ConnSpec.v`, `HistSpec.v`; single calls: `CallSpec.v`; TCP/IP: `MssSpec.v`; ...).
* `Props_*.v` files contain the theorems named in MANIFEST.json, with examples that meet their hypotheses.
* `ConnSteps.v`, `ConnWp*.v`: a program logic; every execution is a sequence of steps, each with facts known when it
  is taken. `Hist*.v`: invariants by induction over steps. `Frame*.v`: invariants by computation. `Seq*.v`: exact results of
  single calls.
* A name ending in `_refuted` is the negation of a statement one may expect, proved by a witness; `_partial` marks a
  theorem that covers only part of its property (what is missing is said in MANIFEST.json).
