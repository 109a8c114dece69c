# Formal model of cppnet: design

Target: `/repo` (chenxuan520/cppnet, C++17 network library), read as text.
Prover: Rocq/Coq 8.16.1, with the std++ library (finite maps, list lemmas).
Everything lives in `rocq/theories`, logical name `Verif`.

## How the model relates to the code

* **Bytes.** `std::string` is `list ascii` (all 256 byte values, NUL included).
* **size_t** is `N` with explicit wrap-around modulo 2^64; `std::string::npos` is
  2^64-1; `int` conversions wrap modulo 2^32 (two's complement).
  `find`, `find_last_of`, `find_first_not_of`, `substr`, `stoi`, `to_string` are
  modelled in `Lib/CxxString.v` following the C++ standard (libstdc++ where it is
  implementation defined). Theorems about them carry the hypothesis that the
  string fits in memory (`fits s`: length at most `max_size`) where wrap-around
  would otherwise make the statement false.
* **Outcomes.** Exceptions, undefined behaviour, non-termination and
  `std::terminate` are separate constructors of the result type
  (`Ok | Throw | UB | Diverge | Blocked | Terminate`), never assumed away.
* **unordered_map** is a finite map; iteration order is an argument `ord` of every
  function that iterates, constrained only to be a permutation of the entries;
  theorems quantify over all such orders.
* **Operating system** (sockets, files, epoll, threads, clocks) is an explicit
  environment: a byte stream with an arbitrary end (EOF / error / silence), an
  abstract file store, an arbitrary stream of kernel events, an arbitrary schedule.
* **Threads.** A program is a step function on states and labels; a schedule is a
  list of labels; theorems quantify over all schedules. Critical sections that are
  protected by the code's mutex may be one step, but every access made *without*
  the mutex is its own step.

File layout: `Lib/` (byte strings, C++ library), `Model/` (definitions only, each
with a comment citing file and lines), `Spec/` (small independent specifications),
`Proof/` (lemmas), `Props/` (final theorem statements, closed by `exact`,
`Print Assumptions`, and non-vacuity examples).

Naming: a property that holds is a theorem named after it. When the full statement
is false of the code, `..._refuted` proves that a concrete input violates it, and
`..._partial` proves the strongest part that holds; the full statement stays visible
as a `Definition ..._full` beside it.

## Trusted base

1. The Coq kernel (and `coqchk`).
2. Axioms: see the `Print Assumptions` output in each `Props` file. Intended: none
   ("Closed under the global context"). The section *Assumptions* below is kept current.
3. The reading of the C++ code recorded in the `Model` files (per-definition
   citations), of the C++ standard library in `Lib/CxxString.v`, and of the OS
   behaviour in the respective model file headers.

## Coverage, file by file

"Model" says where the code is modelled; the last column what is left out. Every
model definition cites the lines it stands for.

| Code (src/cppnet/...) | Model | Left out or simplified |
|---|---|---|
| `utils/string.cpp` | `Model/StringUtil.v` | nothing |
| `utils/trie.cpp`, `trie.hpp` | `Model/Trie.v` | nodes are a tree instead of a heap of shared pointers |
| `utils/file.cpp` | `Model/File.v` | a file system is a state per path; special files |
| `utils/threadpool.cpp` | `Model/ThreadPool.v` | tasks do not throw; time |
| `utils/host.cpp` | `Model/Host.v` | the addresses after the first; the Windows branch |
| `http/req/route/http_route.cpp` | `Model/Route.v` | nothing |
| `http/header/http_header.cpp` | `Model/Header.v` | nothing |
| `http/req/http_req.cpp`, `http/req/method`, `http/version` | `Model/Req.v`, `Model/Enums.v` | nothing |
| `http/resp/http_resp.cpp`, `http/resp/status_code` | `Model/Resp.v`, `Model/Enums.v` | nothing |
| `http/server/http_server.cpp`: groups, static files, dispatch, filters | `Model/Router.v` | handlers are arbitrary functions on a context and a world; logging |
| `http/server/http_server.cpp`: `HandleRead` | `Model/Server.v`, `Model/Https.v`, `Model/Messages.v` (log) | time-outs are `Gap`s of the stream; the log of TLS connections |
| `err_msg_` of `HttpReq`, `HttpRoute`, `HttpHeader`, `HttpResp`, `HttpClient::Send` | `Model/Messages.v` | texts of the operating system are arguments |
| `http/server/http_server.cpp`: `Init`, `InitSSL`, `Run`, `Stop`, `HandleAccept`, `HandleLeave`, `HandleError` | `Model/HttpLife.v` | logging, setting time-outs |
| `http/server/http_server.cpp` with all connections (`EventFunc` on `TcpServer` with epoll) | `Model/HttpSystem.v` | TLS; reuse of descriptor numbers (see `TcpServer.v`); `Stop`; writes that wait (see `SlowPeer.v`) |
| the log of the same, with `HandleAccept`, `HandleLeave`, `HandleError` | `Model/SystemLog.v` | as `HttpSystem.v`; the log of worker threads |
| the same with peers that are slow to read (blocking `send(2)`, `SetWriteTimeout`) | `Model/SlowPeer.v` | as `HttpSystem.v`; one buffer per connection; worker threads; TLS |
| one HTTP server and all its clients | `Model/ClientServer.v` | send(2) of a client takes the whole request; a client closes its connection when all it has sent has arrived; a call that has to wait for bytes is made again when more have arrived; peers that are not clients open connections, send and close as they like; when the process has ended, connections are left as they are |
| an HTTP server with worker threads and all its clients | `Model/ClientThreads.v` | as `HttpThreads.v` and `ClientServer.v`; getpeername(2) works for the connections of clients |
| the same with TLS, one thread with epoll | `Model/HttpsSystem.v` | as `HttpSystem.v`; the handshake is one message, good or bad; the map of sessions (see `HttpLife.v`) |
| the same with worker threads (`kMultiThread`, `kMixed`) | `Model/HttpThreads.v` | TLS; locks of the pool (see `ThreadPool.v`); handlers and writing are one step; `Stop`, logging |
| worker threads and peers that are slow to read | `Model/SlowThreads.v` | as `HttpThreads.v`; one buffer per connection; write time-outs; the order of the bytes of several workers that write to one connection |
| an HTTPS server with worker threads (`kMultiThread`) | `Model/HttpsThreads.v` | as `HttpsSystem.v` and `HttpThreads.v`; a whole `HandleRead` is one step once the request has arrived; getpeername(2) works; what is undefined (a freed session, two workers in one session) ends the process |
| an HTTPS server and all its clients | `Model/ClientServerTls.v` | as `ClientServer.v` and `HttpsSystem.v`; `SSL_write` of a client takes the whole request; a client's handshake is good |
| `http/client/http_client.cpp` | `Model/Client.v` and `Model/ClientTls.v` (`Send`), `Model/HttpLife.v` (`Init`, `InitSSL`, `Close`) | nothing |
| `socket/socket.cpp` | `Model/Socket.v`, `Model/Udp.v` (datagrams) | options have no effect; datagram sockets bound to 0.0.0.0 |
| `socket/address.cpp` | `Model/Address.v` | addresses of a domain after the first; `GetPeerAddr` |
| `timer/timer.cpp` | `Model/Timer.v` | when a timer fires; the BSD branch |
| `log/*` | `Model/Logger.v` | clock and time stamps are arguments; `Stop` is one step |
| `server/tcp_server.cpp`, `server/io_multiplexing/epoll.cpp` | `Model/TcpServer.v` | content of connections is a byte count; socket options |
| `utils/version.cpp`, `server/io_multiplexing/io_multiplexing_factory.cpp` | — | constants chosen at build time; on Linux the factory makes an `Epoll` |
| `err_msg_` of `TcpServer` (`Init`, `AddSoc`, `WakeUp`, `EventLoop`), of `HttpServer` (`Init`, `InitSSL`, `Run`), of `HttpClient` (`Init`, `InitSSL`) | `Model/LifeMessages.v` | texts of the operating system are arguments |
| `server/io_multiplexing/{select,kqueue}.cpp` | `Model/Multiplex.v` | `Init`, `Close`, the set of kqueue (it is in the kernel), error messages, other threads |
| `ssl/ssl_context.cpp`, `ssl/ssl_socket.cpp` | `Model/Ssl.v`, `Model/SslMessages.v`, `Model/SslSocketMessages.v` | cryptography |
| `demo/util/process_ctrl.cpp` (`Guard`, `EndGuard`) | `Model/ProcessCtrl.v` | process groups, stopped children; the Windows branch |
| `demo/util/argc_deal.cpp` | `Model/ArgcDeal.v`, `Model/ArgcPrint.v` | what is printed for --version; the order of the hash table is a parameter |
| `demo/web-server/main.cpp` | `Model/WebServer.v` | the JSON parser (the configuration is a value), output, `BackGround` |
| `demo/{simple-http-server,use-lib-server,use-lib-server-ssl,mnist}/main.cpp` | `Model/Demos.v` | output, reading the network from its file, the network and the JSON library (parameters), `Init` and `Run` (see `HttpLife.v`) |

## Environment models

* **A connection** (`Model/Socket.v`) is a list of bytes that will arrive, with `Gap`s
  where one call of `recv` gives up (time-out, `EAGAIN`, signal), and an end: closed,
  reset, or silence. A blocking call on silence is `Blocked`, not an error. How many
  bytes one `recv` returns is arbitrary (an argument).
* **A TLS connection** (`Model/Ssl.v`) is a list of records. `SSL_read` returns bytes of
  one record and keeps the rest in its own buffer. OpenSSL objects live in a heap with
  fresh names, so leaks and double frees are visible.
* **A datagram network** (`Model/Udp.v`) has datagrams in flight, each of which may
  arrive, arrive again, or get lost, at any moment.
* **Files** (`Model/File.v`): each path is absent, a directory or a regular file with
  permissions; writing is limited by the room on the disk; errors are possible.
* **The kernel of the server** (`Model/TcpServer.v`): a table of descriptors, the accept
  queue, the interest list of epoll. Connections have identities, so that two
  connections with the same number are told apart. Other threads of the program may
  open and close descriptors of their own at any moment.
* **Processes** (`Model/ProcessCtrl.v`): live processes and zombies with their parents.
  A pid is free again when its process has been waited for. Signals are pending until
  the process handles them, which may be between any two of its steps.
* **Threads**: `step : state -> label -> option state`; a run is a list of labels.
  Theorems are about every state reachable by any run; there is no fairness
  assumption, liveness is stated as "if no thread can move, then ...".

## How properties are proved

| Properties | What is modelled | How it is proved |
|---|---|---|
| C01, C02 | `UrlEncode`/`UrlDecode` loops | induction on the string, byte case analysis |
| C03 | `UrlDecode` | against an inductive decoding relation; truncated escape of one digit refuted |
| C04, C05 | `Split` loop with fuel | loop invariant; divergence for the empty delimiter proved for every fuel |
| C06 | the DP table of `WildCardMatch` | invariant on rows against an inductive glob relation |
| C07-C11 | radix tree, `SetNode`/`GetNode`/`SearchNode`/`ForkNode`/`Reset` | refinement to a finite map by structural invariant (first-byte, path compression); C08 refuted plus exact characterisation; C10 refuted plus ASCII safety |
| C12, C13 | `HttpRoute` | parse spec with independent tokenizer; C13 refuted in general, proved for a stated class |
| C14-C19, C78 | `HttpHeader` | finite map laws, printing/parsing induction, decimal printing; refutations for empty values, multiple cookies, custom type, case |
| C20-C25, C80 | `HttpReq` | compose route/header results; exact accept set |
| C26-C30, C81, C82 | `HttpResp`, enums | same; crash witness for C27 |
| C31-C35, C152 | `Socket` object and byte stream | induction on the stream; crash witness |
| C36-C41, C44, C83, C86, C154-C156 | registration on the trie and dispatch | refinement to an abstract routing table |
| C42, C43, C79, C84 | `StaticDir`, `StaticFile` | string reasoning on the served name |
| C45-C50, C85, C157 | `HandleRead`, `HttpClient::Send` over a stream | composition of ReadUntil, Parse, Build |
| C51 | host filter | uses C06; regex engine is a parameter |
| C52-C58, C87-C89 | `ThreadPool` as interleaving system | inductive invariants over all schedules; explicit bad schedules |
| C59-C63, C90, C91 | `FileLogger` ring with flush thread; other loggers | inductive invariant over all schedules |
| C64-C66, C153 | `File` over an abstract store | direct |
| C67, C92, C93 | `Address` with htons/inet_addr | arithmetic |
| C68-C74, C95-C101 | `Epoll::Loop`, `TcpServer` modes, kernel events | trace invariants over all runs; explicit bad runs |
| C75, C76, C102-C106 | `SSLSocket`, `SSLContext` | refinement of a TLS connection to a byte stream; invariants of the object heap |
| C77, C94 | `TimerSocket` | direct |
| C107-C109 | `HandleRead` over TLS | through the refinement of C102 |
| C110-C118 | life cycle of `HttpServer` and `HttpClient`, the TLS session map | invariants over all call and event sequences |
| C119-C124 | the HTTP server with any number of connections | simulation by the run of one connection; progress invariant over all runs; explicit bad runs |
| C125-C128 | Select and KQueue | invariant on the position of a socket in the set while callbacks change it; simulation between the two loops |
| C129-C131 | datagrams between any number of sockets | invariants over all runs of sockets and network; explicit bad runs |
| C132 | writing over TLS | case analysis |
| C133-C137 | `Guard` with its children, signals and other processes | invariants over all runs; explicit bad runs |
| C138, C139 | command line options | against a relation between arguments and options; induction on the arguments |
| C140-C146 | the web server: routes from a configuration, pid file | reduction of dispatch to the items that concern a request; invariant over all starts and ends of servers |
| C147-C151 | the HTTP server with worker threads (`kMultiThread`, `kMixed`) | ownership invariant of descriptor numbers and workers; a measure that server steps decrease; explicit bad runs |
| C158-C162 | the HTTPS server with any number of connections | simulation by the run of one connection; progress invariant over all runs, with what is left in the buffer of the TLS library; explicit bad runs |
| C163-C166 | error texts and the server's log | reduction to the parser's cases; case analysis over every way a call can end; explicit requests |
| C167 | how the loops of the multiplexers end | induction on the answers of the operating system, against a replay of the callbacks |
| C168-C172 | the demos | instances of the theorems about the server (C120 ff.); evaluation of the routing tree for every path by cases on its first bytes; induction on the scores with an order on floating-point numbers |
| C173 | name and address of the host | buffer arithmetic; round trip of addresses |
| C174 | files that are not served | two runs side by side in worlds that differ only there; each handler keeps the worlds related; lengths bounded by what was received |
| C175–C176 | many clients | an invariant for each client: idle, asking (what has arrived and what is under way is the request), or told (what is unread is the response); each service appends to the sequence; a measure (bytes under way, bytes unread, calls going on) that decreases |
| C177 | exact round trips | whatever Parse produces has names and values of the line format, so only such headers come back; for routes, the names read back are the encodings of the names printed, a permutation of a finite set of texts, and encoding never shortens a text |
| C178–C179 | a web site and its visitors | C175/C176 with an invariant of the world (files as at the beginning, no custom content types); the configuration decides each dispatch (C140–C142), and each answer is small enough and free of what does not survive the way back |
| C180–C181 | many clients, many threads | the run is followed by a run of the system of C175 in which what a worker has taken out of the stream counts as unread and a request is served at the moment its handlers run; a measure (bytes under way, bytes unread, tasks, states of the workers, calls going on) that decreases |
| C182–C184 | clients among strangers | the invariant of C175 for the clients only; a stranger's connection holds any bytes, and serving it appends a request to the sequence, answers 400, closes, or ends the process; in the last case the four causes are found by following HandleRead on any bytes |
| C185–C187 | a web site among strangers | C182–C184 with the invariant of C178, which the handlers of the site keep on any request; following the handlers that a request concerns, the only thing that fails is stat(2) |
| C188–C190 | `Send` over TLS | through the refinement of C102: reading a header or a body from records is reading it from their bytes |
| C191–C193 | an HTTPS server, its clients and strangers | as C182–C184, with records: what is in OpenSSL's buffer of a client's connection is empty when the server rests; a measure with handshakes |
| C194–C196 | a web site over HTTPS | C191–C193 with the invariant of C178 |
| C197–C199 | many threads, clients and strangers | the simulation of C180, in which a number that is closed or stands for a stranger is followed only through the world and the order of requests; a measure that needs no assumption about strangers; the two steps that set the process down |
| C200 | bodies with NUL bytes | the theorems of C46, C48 and C49 with the part before the first NUL byte |
| C201 | the table of content types and worker threads | no handler of files writes the table; kept through every step of the model of C147 |
| C202–C204 | a web site on worker threads | C197–C199 with the invariant of C178 |
| C205, C206 | the texts after a failed start of a server or client | by cases over the steps, compared with the first step that fails |
| C207, C208 | the log of a server with all its connections | a simulation of the steps on the open connections and their answers; the entries of one call from the lemmas of C164; which numbers are here by a fold over the log |
| C209, C210 | what UrlDecode and HttpRoute::Parse make of every text, also malformed ones | well-founded induction over the loop of UrlDecode; a relational reading of targets that is total and has one result |
| C211-C213 | peers that are slow to read: who waits for whom, what is lost on a write time-out | simulation of `HttpSystem.v` up to the bytes sent; an invariant counting sent, read, buffered and waiting bytes; explicit bad runs for every buffer size |
| C214 | the type of every static file | a relational table of types, shown to be total and to have one result; invariant of the shared map over all histories of requests |
| C215 | peers that are slow to read, and worker threads | runs are runs of `HttpThreads.v`; an invariant about which worker waits for which connection, and one counting bytes; for kMixed a bad run for every number of workers and every buffer size, and an invariant of what can follow |
| C216-C220 | HTTPS and worker threads: answers, availability, sessions, numbers, what ends the process | an invariant about who uses the number of a connection and in which state its session is; progress of one connection as in C159; a count of busy workers and tasks; explicit runs with a reused number |
| C221, C222 | what reaches the peers, whatever the writes do | every step adds nothing or one write to what a connection was sent; induction over runs, for each of the four servers |
| C223-C225 | a server whose peers do nothing comes to rest | HandleRead closes or takes a byte; a measure (bytes, open connections, tasks, state of each worker) that every own step makes smaller; two endless loops as witnesses |
| C226, C227 | requests made by GET and POST | the map an insertion loop leaves; the build/parse round trip; the text of a form against a decoding relation |
| C228, C229 | the calls that make an answer; Clear | last writer per field, over sequences of calls, then the build/parse round trip |
| C230-C233 | chunked bodies, the end of connections, HEAD, Expect: what RFC 9110/9112 ask and what HandleRead does | chunked grammar as an inductive predicate; the rest from the theorems about single requests |
| C234 | the length of a request's body, for all header lines | std::stoi characterised by a grammar of numbers, then the read of one request |
| C235 | exactly which texts Address::Init takes for an address | grammar of C numbers and dotted parts, then inet_aton for all texts |
| C236 | the lines of the message about options, for all declarations | the map of labels as a permutation of the declarations |
| C237 | the header lines that RFC 9112 asks to refuse, for all header lines | from the answer to a head (C230) |
| C238 | requests for files with other methods than GET | from the method filter (C38) and the answer without a handler (C44) |
| C239 | texts of SSLContext | `Model/SslMessages.v` beside `Model/Ssl.v`; specification: ordered list of reasons |
| C240 | kinds of file-system objects | `Model/File.v`; specification: the object found under the name |
| C241 | texts of SSLSocket | `Model/SslSocketMessages.v` beside `Model/Ssl.v`; specification as C239 |
| C242 | targets that are no paths | from the table of handlers (C36) and the answer without a handler (C44) |
| C243 | unknown methods and versions | from malformed requests (C45) and header lines (C237) |
| C244 | answers with 204 | from the answer to a request (C25, C44) |
| C245 | what an answer consists of, dates | from the answer to a request (C25, C44) and the uniqueness of its lines (C244) |

## Not modelled

* TLS cryptography and certificates: `SSLContext::InitCli` never calls
  `SSL_CTX_set_verify` or `SSL_set1_host`, so a client accepts any certificate, and the
  model has no step that refuses one. The regex engine (a parameter), real time.
* Memory allocation failure, except where OpenSSL reports it.
* The set of sockets of `kqueue.cpp` (it is in the kernel).
* Signals in the library other than the interruption of a system call.

## Testing the theorems

`seeded/LOG.jsonl` records one line per wrong (or repaired) program: the definition
that was edited in a scratch copy, the edit, the claim it breaks, the theorems that
no longer proved, and the theorems that were tightened because of it.

## Assumptions

`Print Assumptions` says "Closed under the global context" for every theorem in
`Props/`: no axiom is used, neither of the standard library nor of any other.

`coqchk` on the compiled files lists no axiom of this development. It mentions seven
items `Coq.ssr.ssrunder.Under_rel.*`: members of a module of the standard library that
is sealed by a module type, which std++ loads through ssreflect's setoid support. No
theorem depends on them.
