{"id": "C01", "title": "UrlDecode inverts UrlEncode", "statement": "For every byte string s, UrlDecode(UrlEncode(s)) returns exactly s.", "quantifier": "all byte strings of any length, including NUL and bytes >= 128", "why_tests_cant": "the input space is infinite; tests try a handful of strings", "anchors": ["src/cppnet/utils/string.cpp: StringUtil::UrlEncode, StringUtil::UrlDecode"]}
{"id": "C02", "title": "UrlEncode output is URL-safe, and nothing else is changed", "statement": "UrlEncode(s) contains only ASCII letters, digits, the characters - _ . ~ / = ? & +, and '%' immediately followed by two upper-case hex digits; in particular never a space, control byte or non-ASCII byte. Letters, digits and - _ . ~ / = ? & stay as they are, a space becomes '+', every other byte becomes '%' and its two upper-case hex digits.", "quantifier": "all byte strings", "why_tests_cant": "a universal statement about every output byte of an infinite input space", "anchors": ["src/cppnet/utils/string.cpp: StringUtil::UrlEncode"]}
{"id": "C03", "title": "UrlDecode decodes exactly the well-formed escapes and rejects truncated ones", "statement": "If every '%' of the input is followed by two hex digits, UrlDecode returns the byte string the form-encoding standard assigns to it; if the input ends in the middle of an escape the result is the empty string.", "quantifier": "all byte strings", "why_tests_cant": "malformed inputs are unbounded in number; the truncated case sits on a one-off boundary", "anchors": ["src/cppnet/utils/string.cpp: StringUtil::UrlDecode"]}
{"id": "C04", "title": "Split is the inverse of join", "statement": "For a non-empty delimiter d, Split(s, d) returns pieces that contain no occurrence of d, and joining them with d gives back s; with keep_delimiter the plain concatenation of the pieces gives back s. The pieces are appended after whatever the output vector already held.", "quantifier": "all strings and all non-empty delimiters, both values of keep_delimiter, any previous vector", "why_tests_cant": "needs every string/delimiter overlap pattern", "anchors": ["src/cppnet/utils/string.cpp: StringUtil::Split"]}
{"id": "C05", "title": "Split terminates", "statement": "Split returns for every string and every delimiter.", "quantifier": "all strings and delimiters, including the empty delimiter", "why_tests_cant": "non-termination cannot be observed by a finite test", "anchors": ["src/cppnet/utils/string.cpp: StringUtil::Split"]}
{"id": "C06", "title": "WildCardMatch implements glob semantics", "statement": "WildCardMatch(pattern, s) is true exactly when s can be produced from the pattern by replacing each '*' with some (possibly empty) byte string, each '?' with one byte and keeping all other bytes.", "quantifier": "all patterns and all sources", "why_tests_cant": "equivalence of a dynamic program with a declarative relation over infinitely many pairs", "anchors": ["src/cppnet/utils/string.cpp: StringUtil::WildCardMatch"]}
{"id": "C07", "title": "Trie: a stored key yields its latest value", "statement": "After any sequence of Set calls with ASCII keys, Get(k) of a key k that has been set returns the value most recently set for k, whatever other keys were set and in whatever order.", "quantifier": "all sequences of Set over all ASCII keys and values", "why_tests_cant": "the radix tree splits edges differently for every insertion history", "anchors": ["src/cppnet/utils/trie.cpp: Trie::SetNode, Trie::GetNode, Trie::ForkNode", "src/cppnet/utils/trie.hpp: Trie::Set, Trie::Get"]}
{"id": "C08", "title": "Trie: a key never stored is absent", "statement": "Get(k) returns null and Check(k) returns false for every key k that was never set.", "quantifier": "all sequences of Set and all queried keys", "why_tests_cant": "absence must be checked for infinitely many keys and histories", "anchors": ["src/cppnet/utils/trie.cpp: Trie::GetNode, Trie::Check"]}
{"id": "C09", "title": "Trie: Search visits exactly the stored prefixes", "statement": "Search(q, cb) calls cb exactly once for every stored key that is a prefix of q, in order of increasing key length, with the latest value of that key, with is_last true exactly for the key equal to q, and stops at the first call for which cb returns false.", "quantifier": "all histories of Set with ASCII keys, all queries, all callbacks", "why_tests_cant": "the visit set depends on the whole insertion history", "anchors": ["src/cppnet/utils/trie.cpp: Trie::SearchNode", "src/cppnet/utils/trie.hpp: Trie::Search"]}
{"id": "C10", "title": "Trie: no key can cause undefined behaviour", "statement": "Set, Get, Check and Search are defined for every byte string used as key.", "quantifier": "all histories and all keys, including bytes >= 128", "why_tests_cant": "an out-of-bounds read may go unnoticed in a test run", "anchors": ["src/cppnet/utils/trie.cpp: Trie::SetNode, Trie::GetNode, Trie::SearchNode, Trie::ForkNode"]}
{"id": "C11", "title": "Trie: Reset forgets everything", "statement": "After Reset, the trie behaves exactly like a newly constructed one, whatever was stored before.", "quantifier": "all histories before and after Reset", "why_tests_cant": "quantifies over all pairs of histories", "anchors": ["src/cppnet/utils/trie.cpp: Trie::Reset"]}
{"id": "C12", "title": "Route: parsing an URL splits path and decoded parameters", "statement": "HttpRoute::Parse(u) fails exactly on the empty string; otherwise the path is the text before the first '?', and for every '&'-separated piece k=v of the rest, GetParam(k) is the form-decoded v of the last piece with that key (empty when the piece has no '='); other keys give the empty string.", "quantifier": "all URLs", "why_tests_cant": "all byte strings with arbitrary placements of ? & = % +", "anchors": ["src/cppnet/http/req/route/http_route.cpp: HttpRoute::Parse, HttpRoute::GetParam, HttpRoute::GetPath"]}
{"id": "C13", "title": "Route: ToString then Parse is the identity", "statement": "For every path and every parameter map, parsing the string printed by ToString gives back the same path and the same parameters.", "quantifier": "all paths, all parameter maps, all iteration orders of the map", "why_tests_cant": "unordered_map iteration order and special characters give infinitely many cases", "anchors": ["src/cppnet/http/req/route/http_route.cpp: HttpRoute::ToString, HttpRoute::Parse"]}
{"id": "C14", "title": "Header: Get returns the last value added", "statement": "After any sequence of Add, operator[] and setter calls since construction or the last Clear, Get(k) returns the last value added under exactly k, or the empty string if none; adding another key does not change it.", "quantifier": "all sequences of updates and all keys", "why_tests_cant": "history dependent, infinitely many histories", "anchors": ["src/cppnet/http/header/http_header.cpp: HttpHeader::Add, HttpHeader::Get"]}
{"id": "C15", "title": "Header: ToString then Parse is the identity", "statement": "For every header map whose names contain no ':' or CRLF and whose values contain no CRLF and do not start with a space, the header lines printed by ToString (without the terminating blank line) parse back to the same map, for every iteration order, including empty values.", "quantifier": "all such header maps and all iteration orders", "why_tests_cant": "infinitely many maps; iteration order is unspecified", "anchors": ["src/cppnet/http/header/http_header.cpp: HttpHeader::ToString, HttpHeader::Parse"]}
{"id": "C16", "title": "Header: Content-Length survives set and get", "statement": "SetContentLength(n) followed by GetContentLength() returns n for every int n >= 0; a missing or non-numeric Content-Length gives -1.", "quantifier": "all ints, all header maps", "why_tests_cant": "2^31 values and all strings", "anchors": ["src/cppnet/http/header/http_header.cpp: HttpHeader::SetContentLength, HttpHeader::GetContentLength"]}
{"id": "C17", "title": "Header: cookie lookup", "statement": "If the Cookie header is k1=v1; k2=v2; ... with well-formed names and values, GetCookieVal(k) returns the value of the first cookie named k, and the empty string if there is none.", "quantifier": "all cookie lists and names", "why_tests_cant": "infinitely many lists", "anchors": ["src/cppnet/http/header/http_header.cpp: HttpHeader::GetCookieVal"]}
{"id": "C18", "title": "Header: every cookie set is delivered as its own cookie", "statement": "After SetCookie calls for different cookies on one response, a browser applying the Set-Cookie rules ends up with every one of those cookies.", "quantifier": "all sequences of SetCookie", "why_tests_cant": "depends on the number and order of calls", "anchors": ["src/cppnet/http/header/http_header.cpp: HttpHeader::SetCookie"]}
{"id": "C19", "title": "Header: content types round-trip", "statement": "For every content type t, after SetContentType(t) GetContentType() returns t; and the content type chosen for a registered custom suffix is the registered string.", "quantifier": "all content types, all custom registrations, all call histories", "why_tests_cant": "the custom table is process-wide mutable state shared by every header", "anchors": ["src/cppnet/http/header/http_header.cpp: HttpHeader::SetContentType, GetContentType, ConvertToStr, ConvertFileType, SetCustomContentType"]}
{"id": "C20", "title": "Request: Build then Parse is the identity", "statement": "A request with a known method and version, a well-formed route and well-formed headers, once printed by Build and parsed into a fresh object, has the same method, version, path, parameters and headers, plus a Host (localhost by default) and a Content-Length equal to the body length.", "quantifier": "all requests, all map iteration orders", "why_tests_cant": "infinitely many requests", "anchors": ["src/cppnet/http/req/http_req.cpp: HttpReq::Build, HttpReq::Parse"]}
{"id": "C21", "title": "Request: Parse never crashes", "statement": "HttpReq::Parse returns normally (success or error) on every byte string; no exception and no out-of-range access.", "quantifier": "all byte strings", "why_tests_cant": "the input comes from the network", "anchors": ["src/cppnet/http/req/http_req.cpp: HttpReq::Parse", "src/cppnet/http/header/http_header.cpp: HttpHeader::Parse"]}
{"id": "C22", "title": "Request: a malformed header line is rejected", "statement": "If some header line of the request (before the blank line) has no ':', Parse reports an error.", "quantifier": "all requests", "why_tests_cant": "the acceptance condition ranges over all byte strings", "anchors": ["src/cppnet/http/req/http_req.cpp: HttpReq::Parse"]}
{"id": "C23", "title": "Request: acceptance is exactly well-formedness of the first line", "statement": "Parse succeeds exactly when the input has a blank line, the first line is METHOD SP target SP VERSION with known method and version and a non-empty target; the headers it stores are those of the lines before the first line that has no ':'.", "quantifier": "all byte strings", "why_tests_cant": "complete characterisation of an accept set", "anchors": ["src/cppnet/http/req/http_req.cpp: HttpReq::Parse"]}
{"id": "C24", "title": "Messages: header values cannot inject headers", "statement": "Whatever strings an application puts in header values, path or parameters, the built message has exactly the headers the application set.", "quantifier": "all applications strings", "why_tests_cant": "needs every string", "anchors": ["src/cppnet/http/req/http_req.cpp: HttpReq::Build", "src/cppnet/http/resp/http_resp.cpp: HttpResp::Build", "src/cppnet/http/header/http_header.cpp: HttpHeader::ToString"]}
{"id": "C25", "title": "Messages: Content-Length equals the number of body bytes", "statement": "Every message printed by Build (request or response) carries a Content-Length header whose value is the decimal length of the body that follows, whatever Content-Length the application had set.", "quantifier": "all messages, all body lengths", "why_tests_cant": "bodies of two gigabytes are not tried by tests", "anchors": ["src/cppnet/http/req/http_req.cpp: HttpReq::Build", "src/cppnet/http/resp/http_resp.cpp: HttpResp::Build"]}
{"id": "C26", "title": "Response: Build then Parse is the identity", "statement": "A response with a known status code and well-formed headers, once printed by Build and parsed into a fresh object, has the same status code, version, headers and body.", "quantifier": "all responses, all iteration orders, all bodies", "why_tests_cant": "infinitely many responses", "anchors": ["src/cppnet/http/resp/http_resp.cpp: HttpResp::Build, HttpResp::Parse"]}
{"id": "C27", "title": "Response: Parse never crashes", "statement": "HttpResp::Parse returns normally on every byte string.", "quantifier": "all byte strings", "why_tests_cant": "the input comes from the network", "anchors": ["src/cppnet/http/resp/http_resp.cpp: HttpResp::Parse"]}
{"id": "C28", "title": "Response: a response without headers is accepted", "statement": "A status line followed directly by the blank line and any body parses successfully with that status and body.", "quantifier": "all status lines and bodies", "why_tests_cant": "infinitely many", "anchors": ["src/cppnet/http/resp/http_resp.cpp: HttpResp::Parse"]}
{"id": "C29", "title": "Response: Build fails only for an unset status", "statement": "Build succeeds for every response whose status code is one of the supported codes and fails, leaving the output untouched, when none has been set.", "quantifier": "all responses", "why_tests_cant": "all header maps and bodies", "anchors": ["src/cppnet/http/resp/http_resp.cpp: HttpResp::Build"]}
{"id": "C30", "title": "Enumerations convert back and forth", "statement": "Method, version and status-code conversions to text/number and back return the original value for every known value and the unknown value for every other input.", "quantifier": "all enumerators and all strings / ints", "why_tests_cant": "all strings", "anchors": ["src/cppnet/http/req/method/http_method.cpp", "src/cppnet/http/version/http_version.cpp", "src/cppnet/http/resp/status_code/http_status_code.cpp"]}
{"id": "C31", "title": "Socket: ReadUntil returns the shortest prefix ending in the delimiter", "statement": "If the peer's byte stream contains the delimiter, ReadUntil returns success with exactly the bytes up to and including its first occurrence and leaves all later bytes unread; if the stream ends first it returns the failing recv result with everything received.", "quantifier": "all byte streams and delimiters", "why_tests_cant": "all chunkings and contents of the stream", "anchors": ["src/cppnet/socket/socket.cpp: Socket::ReadUntil"]}
{"id": "C32", "title": "Socket: ReadUntil never throws", "statement": "No byte sequence sent by a peer makes ReadUntil throw an exception.", "quantifier": "all peer byte streams, all non-empty delimiters", "why_tests_cant": "the crashing prefix is one among all streams; a remote peer chooses it", "anchors": ["src/cppnet/socket/socket.cpp: Socket::ReadUntil", "src/cppnet/http/server/http_server.cpp: HttpServer::HandleRead"]}
{"id": "C33", "title": "Socket: Read delivers the bytes received", "statement": "When Read(buf, n) returns r > 0, buf holds exactly the r next bytes of the stream.", "quantifier": "all stream contents, including NUL bytes", "why_tests_cant": "all binary payloads", "anchors": ["src/cppnet/socket/socket.cpp: Socket::Read, Socket::ReadPeek, Socket::ReadUdp"]}
{"id": "C34", "title": "Socket: a closed socket object is inert", "statement": "After Close, every I/O and option call on that Socket object fails without touching the descriptor number, which the system may have given to somebody else.", "quantifier": "all sequences of calls after Close", "why_tests_cant": "fd reuse depends on the rest of the process", "anchors": ["src/cppnet/socket/socket.cpp", "src/cppnet/socket/socket.hpp"]}
{"id": "C35", "title": "Socket: a descriptor is closed at most once", "statement": "Copies of a Socket share the descriptor; over any sequence of Close calls on the copies the descriptor is closed at most once.", "quantifier": "all sequences of copies and closes", "why_tests_cant": "depends on aliasing history", "anchors": ["src/cppnet/socket/socket.cpp: Socket::Close", "src/cppnet/server/tcp_server.cpp"]}
{"id": "C36", "title": "Server: handlers run in prefix order", "statement": "For a request with path p the handlers that run are exactly those registered for a prefix of p whose filters accept the request (exact handlers only when their path equals p), shorter prefixes first and in registration order within one path, until the server is stopped.", "quantifier": "all registration histories, all requests, all filters and handlers", "why_tests_cant": "depends on the complete registration history", "anchors": ["src/cppnet/http/server/http_server.cpp: HttpServer::HandleRead, HttpGroup::RegisterHandler"]}
{"id": "C37", "title": "Server: every registered route is reachable", "statement": "A handler registered for path p runs for a request whose path is p (and whose method and filters match), whatever was registered before or after.", "quantifier": "all registration histories", "why_tests_cant": "order of registrations matters; tests fix one order", "anchors": ["src/cppnet/http/server/http_server.cpp: HttpGroup::RegisterHandler", "src/cppnet/utils/trie.cpp: Trie::GetNode"]}
{"id": "C38", "title": "Server: method routes only see their method", "statement": "A handler registered with GET(path, ...) never runs for a request with another method, and likewise POST, PUT, DELETE, ...", "quantifier": "all registrations and all requests", "why_tests_cant": "all methods and paths", "anchors": ["src/cppnet/http/server/http_server.cpp: HttpGroup::GET, HttpGroup::POST"]}
{"id": "C39", "title": "Server: group registrations accumulate under the group prefix", "statement": "Registering several handlers for the same path of a group makes all of them run, in order, for requests to prefix+path and for no other path.", "quantifier": "all groups, paths and registration histories", "why_tests_cant": "history dependent", "anchors": ["src/cppnet/http/server/http_server.cpp: HttpGroup::RegisterHandler, HttpGroup::Group"]}
{"id": "C40", "title": "Server: Abort stops the handler chain", "statement": "If a handler calls ctx.Abort() (and nobody calls Next afterwards), no later handler of that request runs.", "quantifier": "all handler chains", "why_tests_cant": "all chains and positions of the aborting handler", "anchors": ["src/cppnet/http/server/http_server.cpp: HttpServer::HandleRead", "src/cppnet/http/server/http_server.hpp: HttpContext"]}
{"id": "C41", "title": "Server: prefix handlers match on whole path segments", "statement": "A middleware or static directory mounted at /a is only applied to /a and paths below /a/.", "quantifier": "all mounts and request paths", "why_tests_cant": "all request paths", "anchors": ["src/cppnet/http/server/http_server.cpp: HttpGroup::Use, HttpGroup::StaticDir"]}
{"id": "C42", "title": "Server: StaticDir never leaves its directory", "statement": "Whatever path is requested, StaticDir only opens files whose name is dir/ followed by text without \"..\".", "quantifier": "all request paths and all mounts", "why_tests_cant": "security property over all adversarial paths", "anchors": ["src/cppnet/http/server/http_server.cpp: HttpGroup::StaticDir"]}
{"id": "C43", "title": "Server: StaticDir strips exactly the mount prefix", "statement": "For a directory mounted at prefix m, a request m/rest serves dir/rest.", "quantifier": "all mounts, groups and request paths", "why_tests_cant": "all prefix repetitions", "anchors": ["src/cppnet/http/server/http_server.cpp: HttpGroup::StaticDir"]}
{"id": "C44", "title": "Server: unanswered requests get 404", "statement": "If no handler sets a status, the client receives a well-formed 404 response; in every case exactly one response is produced for each request that is parsed.", "quantifier": "all handlers and requests", "why_tests_cant": "all handler behaviours", "anchors": ["src/cppnet/http/server/http_server.cpp: HttpServer::HandleRead"]}
{"id": "C45", "title": "Server: malformed requests get 400 and a closed connection", "statement": "If the received header block does not parse, no handler runs, the client receives a 400 response and the connection is removed and closed.", "quantifier": "all malformed byte streams", "why_tests_cant": "all byte streams", "anchors": ["src/cppnet/http/server/http_server.cpp: HttpServer::HandleRead"]}
{"id": "C46", "title": "Server: pipelined requests are framed correctly", "statement": "When a client sends any number of well-formed requests back to back, the server reads each of them exactly, in order, without losing or duplicating a byte.", "quantifier": "all lists of requests", "why_tests_cant": "unbounded pipelines with arbitrary bodies", "anchors": ["src/cppnet/http/server/http_server.cpp: HttpServer::HandleRead", "src/cppnet/socket/socket.cpp: Socket::ReadUntil, Socket::Read"]}
{"id": "C47", "title": "Server: handlers see complete bodies", "statement": "If the connection breaks before Content-Length bytes of body arrived, no handler runs for that request.", "quantifier": "all break points", "why_tests_cant": "every crash point of the peer", "anchors": ["src/cppnet/http/server/http_server.cpp: HttpServer::HandleRead"]}
{"id": "C48", "title": "End to end: the handler sees the client's request", "statement": "For a well-formed request sent by HttpClient, the handler receives the same method, path, parameters, headers and body.", "quantifier": "all requests and iteration orders", "why_tests_cant": "infinitely many requests", "anchors": ["src/cppnet/http/client/http_client.cpp: HttpClient::Send", "src/cppnet/http/server/http_server.cpp: HttpServer::HandleRead"]}
{"id": "C49", "title": "End to end: the client sees the server's response", "statement": "When HttpClient::Send returns success, the response it filled in has the status, headers and body the server sent.", "quantifier": "all responses", "why_tests_cant": "all responses incl. binary bodies", "anchors": ["src/cppnet/http/client/http_client.cpp: HttpClient::Send", "src/cppnet/http/resp/http_resp.cpp"]}
{"id": "C50", "title": "Client: Send reports failure", "statement": "Send returns success only if the client is connected, the request was written and a response was received and parsed.", "quantifier": "all network behaviours", "why_tests_cant": "all failure points", "anchors": ["src/cppnet/http/client/http_client.cpp: HttpClient::Send"]}
{"id": "C51", "title": "Filters: host filter accepts exactly the matching hosts", "statement": "A host filter initialised with only a regex (only a wildcard) accepts a request exactly when its Host header matches the regex (the wildcard).", "quantifier": "all filters and hosts", "why_tests_cant": "all hosts including the missing one", "anchors": ["src/cppnet/http/server/filter/http_host_filter.hpp: HttpHostFilter"]}
{"id": "C52", "title": "ThreadPool: tasks start in FIFO order and at most once", "statement": "Over every interleaving, the tasks started are, in order, a prefix of the tasks accepted (in the order they entered the queue); no task starts twice and none is invented.", "quantifier": "all schedules of workers, adders and Stop", "why_tests_cant": "exponentially many interleavings", "anchors": ["src/cppnet/utils/threadpool.cpp: ThreadPool::Worker, ThreadPool::AddTask"]}
{"id": "C53", "title": "ThreadPool: no lost wake-up on AddTask", "statement": "While the pool is not stopped, it never happens that all free workers sleep while a task waits in the queue (except between the push of an AddTask and its notify, when it holds the mutex); when a worker sleeps, at least as many free workers are awake as tasks wait.", "quantifier": "all schedules, including spurious wake-ups", "why_tests_cant": "race conditions", "anchors": ["src/cppnet/utils/threadpool.cpp: ThreadPool::Worker, ThreadPool::AddTask"]}
{"id": "C54", "title": "ThreadPool: Stop returns", "statement": "From every reachable state in which no task blocks forever, Stop can always be completed: there is no reachable deadlock.", "quantifier": "all schedules", "why_tests_cant": "a lost wake-up needs one precise interleaving", "anchors": ["src/cppnet/utils/threadpool.cpp: ThreadPool::Stop, ThreadPool::Worker"]}
{"id": "C55", "title": "ThreadPool: every accepted task runs", "statement": "If AddTask returned success, the task is eventually started, also when Stop is called later.", "quantifier": "all schedules", "why_tests_cant": "all interleavings of AddTask and Stop", "anchors": ["src/cppnet/utils/threadpool.cpp: ThreadPool::AddTask, ThreadPool::Stop"]}
{"id": "C56", "title": "ThreadPool: after Stop nothing runs", "statement": "Once Stop has returned no task is running and none will ever start; AddTask fails.", "quantifier": "all schedules and later calls", "why_tests_cant": "all interleavings", "anchors": ["src/cppnet/utils/threadpool.cpp: ThreadPool::Stop"]}
{"id": "C57", "title": "ThreadPool: Resize keeps the pool usable", "statement": "After Resize(n) with n > 0, AddTask is accepted and the task is run by one of n workers.", "quantifier": "all states before Resize", "why_tests_cant": "all histories", "anchors": ["src/cppnet/utils/threadpool.cpp: ThreadPool::Resize, ThreadPool::Init"]}
{"id": "C58", "title": "ThreadPool: the busy counter is exact", "statement": "At every moment GetBusyAndTaskNum reports the number of workers inside a task and the number of queued tasks, never more busy workers than threads.", "quantifier": "all schedules", "why_tests_cant": "all interleavings", "anchors": ["src/cppnet/utils/threadpool.cpp: ThreadPool::Worker", "src/cppnet/utils/threadpool.hpp"]}
{"id": "C59", "title": "FileLogger: no line is lost or duplicated", "statement": "After Stop the log file contains, besides what it held before, every line logged at or above the level exactly once and complete, whatever the flush thread's timing.", "quantifier": "all sequences of log calls, all buffer sizes and counts, all schedules of the flush thread", "why_tests_cant": "asynchronous flushing", "anchors": ["src/cppnet/log/file_logger.cpp: FileLogger::CheckFlush, FlushBuffer, Stop"]}
{"id": "C60", "title": "FileLogger: lines appear in the order they were logged", "statement": "The lines in the file are in the order of the log calls, both while running and after Stop.", "quantifier": "all sequences of log calls and schedules", "why_tests_cant": "needs a particular schedule", "anchors": ["src/cppnet/log/file_logger.cpp: FileLogger::CheckFlush, FlushBuffer, Stop"]}
{"id": "C61", "title": "Loggers: level filtering", "statement": "A message is written exactly when its level is at least the configured level, for every logger.", "quantifier": "all levels, messages and loggers", "why_tests_cant": "all combinations and histories", "anchors": ["src/cppnet/log/file_logger.cpp", "src/cppnet/log/std_logger.hpp", "src/cppnet/log/multi_logger.cpp"]}
{"id": "C62", "title": "FileLogger: Init reports unusable files", "statement": "If Init returns success, later messages reach the file.", "quantifier": "all filesystem states", "why_tests_cant": "all filesystem states", "anchors": ["src/cppnet/log/file_logger.cpp: FileLogger::Init"]}
{"id": "C63", "title": "MultiLogger: every logger receives every message", "statement": "Each logger added to a MultiLogger receives every message logged afterwards, in order and once per addition.", "quantifier": "all sequences of AddLogger and log calls", "why_tests_cant": "histories", "anchors": ["src/cppnet/log/multi_logger.cpp"]}
{"id": "C64", "title": "File: Write, Append and Read agree", "statement": "After Write(d) Read returns d; after Append(d) Read returns the former contents followed by d; other files are unchanged; Create never alters an existing file; Remove makes the file absent and succeeds when it is already absent.", "quantifier": "all filesystem states, paths and contents", "why_tests_cant": "all histories", "anchors": ["src/cppnet/utils/file.cpp"]}
{"id": "C65", "title": "File: success means the data is on the file", "statement": "If Write or Append returns success, the data was written.", "quantifier": "all failure points of the underlying write", "why_tests_cant": "disk-full at every byte", "anchors": ["src/cppnet/utils/file.cpp: File::Write, File::Append"]}
{"id": "C66", "title": "File: LineCount and Suffix", "statement": "LineCount is the number of lines (a final line without newline counts); Suffix is the text after the last '.' of the last path component, empty if there is none.", "quantifier": "all contents and all paths", "why_tests_cant": "all strings", "anchors": ["src/cppnet/utils/file.cpp: File::LineCount, File::Suffix"]}
{"id": "C67", "title": "Address: port and IP round-trip", "statement": "Address(ip, port) gives back the same port for every 16-bit port and the same text for every canonical dotted-quad ip, and ToString is ip:port.", "quantifier": "all 2^48 addresses", "why_tests_cant": "2^48 values", "anchors": ["src/cppnet/socket/address.cpp"]}
{"id": "C68", "title": "Epoll: data received before a half-close is delivered", "statement": "If a peer sends data and then closes its writing side, the server sees a read event for the data before the leave event.", "quantifier": "all event masks and timings", "why_tests_cant": "depends on kernel coalescing of events", "anchors": ["src/cppnet/server/io_multiplexing/epoll.cpp: Epoll::Loop"]}
{"id": "C69", "title": "Epoll: set_trigger_type selects the trigger mode", "statement": "After set_trigger_type(t), sockets are monitored with trigger mode t.", "quantifier": "all settings and sockets", "why_tests_cant": "observable only through kernel flags", "anchors": ["src/cppnet/server/io_multiplexing/epoll.cpp: Epoll::MonitorSoc", "src/cppnet/server/io_multiplexing/epoll.hpp", "src/cppnet/server/io_multiplexing/io_multiplexing_base.hpp"]}
{"id": "C70", "title": "TcpServer: every accepted connection is closed exactly once", "statement": "In every mode, each descriptor obtained from accept is eventually closed exactly once after the peer leaves or fails.", "quantifier": "all sequences of accept, read, leave and error events", "why_tests_cant": "leaks need long histories", "anchors": ["src/cppnet/server/tcp_server.cpp: TcpServer::HandleAccept, HandleLeave, HandleError, EventLoop"]}
{"id": "C71", "title": "TcpServer: Stop makes EventLoop return", "statement": "After Stop and WakeUp, EventLoop returns even if no client ever connects again.", "quantifier": "all states and schedules", "why_tests_cant": "blocking forever is not observable", "anchors": ["src/cppnet/server/tcp_server.cpp: TcpServer::Stop, WakeUp, EventLoop", "src/cppnet/server/io_multiplexing/epoll.cpp"]}
{"id": "C72", "title": "TcpServer: callback protocol", "statement": "For each connection the callback sees accept first, then reads, then at most one leave or error, and nothing after it.", "quantifier": "all event sequences the kernel can produce", "why_tests_cant": "histories", "anchors": ["src/cppnet/server/tcp_server.cpp"]}
{"id": "C73", "title": "TcpServer: mixed mode reads each request once", "statement": "In mixed mode a readable connection is handled by one worker at a time, so a request is read by a single worker.", "quantifier": "all schedules of the event loop and the workers", "why_tests_cant": "race conditions", "anchors": ["src/cppnet/server/tcp_server.cpp: TcpServer::EventLoop (kMixed)", "src/cppnet/server/io_multiplexing/epoll.cpp"]}
{"id": "C74", "title": "TcpServer: a failed Init leaks nothing", "statement": "If Init returns an error, every descriptor it opened has been closed.", "quantifier": "all failure points of socket/bind/listen/epoll_create", "why_tests_cant": "every crash point", "anchors": ["src/cppnet/server/tcp_server.cpp: TcpServer::Init, CreateSocket, InitMode"]}
{"id": "C75", "title": "SSL: reads with wait-all are exact", "statement": "SSLSocket::Read with complete=true returns exactly len bytes or an error, whatever the record sizes; peeking does not consume.", "quantifier": "all record fragmentations", "why_tests_cant": "all chunkings", "anchors": ["src/cppnet/ssl/ssl_socket.cpp: SSLSocket::IORead"]}
{"id": "C76", "title": "SSL: server context has certificate and key", "statement": "If InitSvr / InitSvrFile returns success, the context holds the certificate and the private key that were passed; a context is initialised at most once.", "quantifier": "all inputs and call sequences", "why_tests_cant": "all failure points", "anchors": ["src/cppnet/ssl/ssl_context.cpp"]}
{"id": "C77", "title": "Timer: success means armed", "statement": "If TimerSocket::Reset/Init returns success the timer is armed with the requested time.", "quantifier": "all times", "why_tests_cant": "all values of sec and nsec", "anchors": ["src/cppnet/timer/timer.cpp"]}
{"id": "C78", "title": "Header: names are case-insensitive", "statement": "A header received as content-length or Content-Length is found by the same lookup, as HTTP requires.", "quantifier": "all spellings", "why_tests_cant": "all spellings", "anchors": ["src/cppnet/http/header/http_header.cpp: HttpHeader::Get, HttpHeader::Parse"]}
{"id": "C79", "title": "Static files: custom content types", "statement": "A file whose suffix was registered with SetCustomContentType is served with the registered type, by StaticDir and StaticFile, and serving it does not change how other files are served.", "quantifier": "all registrations, files and request histories", "why_tests_cant": "process-wide state across requests", "anchors": ["src/cppnet/http/server/http_server.cpp: HttpGroup::StaticDir, HttpGroup::StaticFile", "src/cppnet/http/header/http_header.cpp"]}
{"id": "C80", "title": "Parsing into a reused object", "statement": "The result of Parse depends only on the parsed bytes, not on what the object held before.", "quantifier": "all previous contents and all inputs", "why_tests_cant": "pairs of histories", "anchors": ["src/cppnet/http/req/http_req.cpp: HttpReq::Parse", "src/cppnet/http/resp/http_resp.cpp: HttpResp::Parse", "src/cppnet/http/req/route/http_route.cpp: HttpRoute::Parse"]}
{"id": "C81", "title": "Response: a text without the blank line is rejected", "statement": "A response text that has no blank line (headers not terminated) is reported as an error by HttpResp::Parse.", "quantifier": "all byte strings without CRLFCRLF", "why_tests_cant": "truncated responses of every shape", "anchors": ["src/cppnet/http/resp/http_resp.cpp: HttpResp::Parse"]}
{"id": "C82", "title": "Response: acceptance is exactly characterised", "statement": "For every response text with a blank line, Parse succeeds exactly when there is at least one header line, every header line has a colon, and the first line is VERSION SP CODE SP rest with a CODE that starts with a number; the stored status, version, headers and body are the ones of the text.", "quantifier": "all byte strings with a blank line", "why_tests_cant": "complete characterisation of an accept set", "anchors": ["src/cppnet/http/resp/http_resp.cpp: HttpResp::Parse"]}
{"id": "C83", "title": "Context: values set on a context are read back", "statement": "HttpContext::Get returns the value last stored under that key with the same type, and reading one key never changes what another key returns.", "quantifier": "all contexts, keys, types and values", "why_tests_cant": "all histories of keys and types", "anchors": ["src/cppnet/http/server/http_server.hpp: HttpContext::Get, HttpContext::Set"]}
{"id": "C84", "title": "Static directories: no request makes the handler throw", "statement": "Whatever path is requested and whatever the file system looks like, the StaticDir handler returns normally.", "quantifier": "all request paths and file systems", "why_tests_cant": "all file system states and paths", "anchors": ["src/cppnet/http/server/http_server.cpp: HttpGroup::StaticDir", "src/cppnet/utils/file.cpp"]}
{"id": "C85", "title": "Server: a peer that goes away does not take the server down", "statement": "Whatever happens to the connection while a response is written, HandleRead returns, and a connection whose write failed is closed.", "quantifier": "all requests, handlers that return, and write outcomes", "why_tests_cant": "every moment at which the peer can disappear", "anchors": ["src/cppnet/http/server/http_server.cpp: HttpServer::HandleRead", "src/cppnet/socket/socket.hpp: Socket::IOWrite"]}
{"id": "C86", "title": "Static routes outlive the group object they were registered through", "statement": "A static route keeps working after the HttpGroup object it was registered through has been destroyed.", "quantifier": "all groups, mounts and object life times", "why_tests_cant": "use after free may go unnoticed in any finite number of runs", "anchors": ["src/cppnet/http/server/http_server.cpp: HttpGroup::StaticDir, HttpGroup::StaticFile, HttpGroup::Group"]}
{"id": "C87", "title": "ThreadPool: Stop may be called by several threads", "statement": "However many threads call Stop, and whatever else runs, the program is not terminated and no thread is joined twice.", "quantifier": "all schedules of workers and callers of AddTask, Stop and GetBusyAndTaskNum", "why_tests_cant": "the window between the test and the setting of the flag is a few instructions wide", "anchors": ["src/cppnet/utils/threadpool.cpp: ThreadPool::Stop"]}
{"id": "C88", "title": "ThreadPool: a pool can always be destroyed", "statement": "Destroying a pool that no other thread is using any more does not terminate the program.", "quantifier": "all histories of the pool and all schedules of its workers", "why_tests_cant": "every history of calls before the destructor", "anchors": ["src/cppnet/utils/threadpool.cpp: ThreadPool::Stop", "src/cppnet/utils/threadpool.hpp: ThreadPool::~ThreadPool", "src/cppnet/utils/threadpool.cpp: ThreadPool::Resize"]}
{"id": "C89", "title": "ThreadPool: Init makes the pool usable", "statement": "After Init(n) with n > 0 the program goes on, AddTask is accepted and the task is run by one of n workers, whatever was done with the pool before.", "quantifier": "all histories of the pool", "why_tests_cant": "every history of calls before Init", "anchors": ["src/cppnet/utils/threadpool.cpp: ThreadPool::Init"]}
{"id": "C90", "title": "FileLogger: reuse after Stop", "statement": "A FileLogger that was stopped can be initialised again and later destroyed without ending the program.", "quantifier": "all histories Init, logging, Stop, Init", "why_tests_cant": "needs the destructor after every history; the effect is std::terminate", "anchors": ["src/cppnet/log/file_logger.cpp: FileLogger::Init, FileLogger::Stop", "src/cppnet/utils/threadpool.cpp: ThreadPool::Init"]}
{"id": "C91", "title": "FileLogger: no data race with the flush thread", "statement": "A log call and the flush thread never use the same non-atomic member of the same buffer at the same time.", "quantifier": "all schedules of the logging thread and the flush thread", "why_tests_cant": "data races depend on the schedule and usually have no visible effect", "anchors": ["src/cppnet/log/file_logger.cpp: FileLogger::CheckFlush, FileLogger::FlushBuffer"]}
{"id": "C92", "title": "Address::Init reports text that is no address", "statement": "Address::Init(ip, port) returns an error when ip is not the text of an IPv4 address; the object never ends up with the address of another host because of a malformed text.", "quantifier": "all byte strings", "why_tests_cant": "unbounded set of texts, and glibc accepts octal, hex and short forms", "anchors": ["src/cppnet/socket/address.cpp:21-26"]}
{"id": "C93", "title": "Address::InitWithDomain yields the resolved address", "statement": "When the name resolves, InitWithDomain succeeds and the object holds exactly the resolved address and the given port; when it does not, an error is returned and the object is unchanged.", "quantifier": "all 2^32 resolved addresses, all ports", "why_tests_cant": "2^48 values and needs a controlled resolver", "anchors": ["src/cppnet/socket/address.cpp:28-42"]}
{"id": "C94", "title": "TimerSocket leaks no descriptor", "statement": "Whatever timerfd_create returns, after Init and Close no timer descriptor is open that was not open before, also when Init is called more than once.", "quantifier": "all return values, times and objects", "why_tests_cant": "needs descriptor 0 to be free and counting of descriptors", "anchors": ["src/cppnet/timer/timer.cpp:15-31", "src/cppnet/socket/socket.cpp:66-76"]}
{"id": "C95", "title": "TcpServer: a successful Init opens exactly what Clean gives back", "statement": "If Init succeeds, the only new descriptors are the listening socket and (not in multithread mode) the epoll descriptor, the listening socket is being watched, EventLoop can start, and Clean closes both.", "quantifier": "every mode, address, descriptor table and every answer of socket/setsockopt/bind/listen/epoll_create1/epoll_ctl", "why_tests_cant": "Tests run with one descriptor table; leaks do not fail a test.", "anchors": ["src/cppnet/server/tcp_server.cpp: TcpServer::Init, InitMode, Clean", "src/cppnet/server/io_multiplexing/epoll.cpp: Epoll::Init, MonitorSoc"]}
{"id": "C96", "title": "TcpServer: a registered callback stays in force", "statement": "A callback given to Register is the one that is called once Init has succeeded, whether it was registered before or after Init.", "quantifier": "every callback, mode and answers of the system", "why_tests_cant": "Tests register in one order only.", "anchors": ["src/cppnet/server/tcp_server.cpp: TcpServer::Register, InitMode"]}
{"id": "C97", "title": "TcpServer: AddSoc is safe after Init", "statement": "After a successful Init, AddSoc never dereferences a null pointer; it succeeds exactly for initialised sockets that epoll accepts, which are then watched.", "quantifier": "every mode, socket and answer of epoll_ctl", "why_tests_cant": "AddSoc is not called by the tests in multithread mode.", "anchors": ["src/cppnet/server/tcp_server.cpp: TcpServer::AddSoc"]}
{"id": "C98", "title": "TcpServer: WakeUp leaves no descriptor open", "statement": "The socket that WakeUp opens is closed again, also when connecting fails; WakeUp succeeds only on a stopped server.", "quantifier": "every server state, descriptor and outcome of connect", "why_tests_cant": "The failing connect does not happen in tests and a leak is silent.", "anchors": ["src/cppnet/server/tcp_server.cpp: TcpServer::WakeUp"]}
{"id": "C99", "title": "TcpServer: Stop, WakeUp and Clean end the event loop", "statement": "After Stop and a successful WakeUp followed at any time by Clean (which is what HttpServer::Stop does), EventLoop returns without help from clients.", "quantifier": "all modes, states and schedules", "why_tests_cant": "depends on whether the sleeping thread runs before or after Clean", "anchors": ["src/cppnet/server/tcp_server.cpp: TcpServer::Stop, WakeUp, Clean, EventLoop", "src/cppnet/http/server/http_server.cpp: HttpServer::Stop"]}
{"id": "C100", "title": "TcpServer: EventLoop runs until it is told to stop", "statement": "As long as Stop and Clean are not called EventLoop does not return, whatever clients do and however system calls fail.", "quantifier": "all modes and executions without Stop or Clean", "why_tests_cant": "needs failing accept calls at arbitrary moments", "anchors": ["src/cppnet/server/tcp_server.cpp: TcpServer::EventLoop"]}
{"id": "C101", "title": "TcpServer: no connection outlives the server", "statement": "When EventLoop has returned and Clean has been called, no accepted connection is still open.", "quantifier": "all modes and executions", "why_tests_cant": "tests exit the process, which closes everything", "anchors": ["src/cppnet/server/tcp_server.cpp: TcpServer::Stop, Clean, EventLoop"]}
{"id": "C102", "title": "SSL: ReadUntil does not depend on record boundaries", "statement": "SSLSocket::ReadUntil returns what Socket::ReadUntil returns on the same bytes, however they are cut into TLS records.", "quantifier": "all byte sequences, delimiters, record cuts", "why_tests_cant": "exponentially many cuts", "anchors": ["src/cppnet/ssl/ssl_socket.cpp: SSLSocket::IORead", "src/cppnet/socket/socket.cpp: Socket::ReadUntil"]}
{"id": "C103", "title": "SSLContext: initialisation leaves nothing behind", "statement": "If InitSvr, InitSvrFile or InitCli fails, every OpenSSL object that it made is freed; after success, Close frees exactly the context.", "quantifier": "all failure points, all heaps", "why_tests_cant": "each failure point needs its own fault injection", "anchors": ["src/cppnet/ssl/ssl_context.cpp: SSLContext::InitSvr, InitSvrFile, InitCli, Close"]}
{"id": "C104", "title": "SSLSocket: Close tells the peer first", "statement": "Close sends the close_notify alert on the descriptor before that is closed (never on a descriptor number that may have been reused); descriptor and session are released at most once however often Close and CloseSSL are called.", "quantifier": "all states and call sequences", "why_tests_cant": "the reuse of the descriptor is a race", "anchors": ["src/cppnet/ssl/ssl_socket.cpp: SSLSocket::Close, CloseSSL"]}
{"id": "C105", "title": "SSLContext: AcceptSSL returns established sessions", "statement": "AcceptSSL returns a socket only if the TLS handshake is complete, and frees the session otherwise.", "quantifier": "all results of SSL_accept, all heaps", "why_tests_cant": "needs hostile peers at each handshake step", "anchors": ["src/cppnet/ssl/ssl_context.cpp: SSLContext::AcceptSSL"]}
{"id": "C106", "title": "SSLSocket: operations without a session are refused", "statement": "Reading from an SSLSocket without a session (never had one, or it was closed) returns an error; it does not dereference a null pointer.", "quantifier": "all call sequences", "why_tests_cant": "all call orders", "anchors": ["src/cppnet/ssl/ssl_socket.cpp: SSLSocket::IORead, CloseSSL"]}
{"id": "C107", "title": "HTTPS: requests are answered as over TCP", "statement": "A complete request that arrives over TLS is answered with exactly the response that the handlers produced, and the bytes after it are left, wherever the records are cut.", "quantifier": "all requests, record cuts, handlers", "why_tests_cant": "all cuts", "anchors": ["src/cppnet/http/server/http_server.cpp: HttpServer::HandleRead", "src/cppnet/ssl/ssl_socket.cpp: SSLSocket::IORead"]}
{"id": "C108", "title": "HTTPS: handlers see complete bodies", "statement": "If a TLS connection breaks before Content-Length bytes of body arrived, no handler runs, nothing is written and the connection is closed.", "quantifier": "all break points and record cuts", "why_tests_cant": "every crash point of the peer", "anchors": ["src/cppnet/http/server/http_server.cpp: HttpServer::HandleRead", "src/cppnet/ssl/ssl_socket.cpp: SSLSocket::IORead"]}
{"id": "C109", "title": "HTTPS: pipelined requests are served", "statement": "A complete request that has arrived over TLS is handled without the peer having to send more.", "quantifier": "all record cuts", "why_tests_cant": "depends on how the peer cuts records", "anchors": ["src/cppnet/http/server/http_server.cpp: HttpServer::HandleRead", "src/cppnet/ssl/ssl_socket.cpp: SSLSocket::IORead", "src/cppnet/server/tcp_server.cpp: TcpServer::EventLoop"]}
{"id": "C110", "title": "Run serves exactly when the server is initialised", "statement": "After any sequence of Init, InitSSL and Stop calls, with any answers of the kernel, Run enters the event loop if the last call that took effect was a successful Init or InitSSL; otherwise it returns an error at once.", "quantifier": "all call sequences and kernel answers", "why_tests_cant": "unbounded sequences of calls with failures", "anchors": ["src/cppnet/http/server/http_server.cpp: HttpServer::Init", "src/cppnet/http/server/http_server.cpp: HttpServer::InitSSL", "src/cppnet/http/server/http_server.cpp: HttpServer::Run", "src/cppnet/http/server/http_server.cpp: HttpServer::Stop"]}
{"id": "C111", "title": "Stop gives everything back", "statement": "After any calls followed by Stop, the process has the descriptors it had before the server was first initialised.", "quantifier": "all call sequences and kernel answers", "why_tests_cant": "unbounded sequences of calls with failures", "anchors": ["src/cppnet/http/server/http_server.cpp: HttpServer::Stop", "src/cppnet/http/server/http_server.cpp: HttpServer::Init", "src/cppnet/server/tcp_server.cpp: TcpServer::Clean", "src/cppnet/server/tcp_server.cpp: TcpServer::WakeUp"]}
{"id": "C112", "title": "Init makes a plain server, InitSSL a TLS server", "statement": "After a successful Init the server speaks plain HTTP; after a successful InitSSL it uses the context given to it. Mixed mode and a null context are refused.", "quantifier": "all call sequences", "why_tests_cant": "all histories of the object", "anchors": ["src/cppnet/http/server/http_server.cpp: HttpServer::Init", "src/cppnet/http/server/http_server.cpp: HttpServer::InitSSL"]}
{"id": "C113", "title": "Each connection has its own TLS session", "statement": "A read event of an open connection is served with the TLS session that was made when this connection was accepted. The session is alive, and no other open connection has it, also when descriptor numbers are reused.", "quantifier": "all event sequences, descriptor reuse, memory and handshake failures", "why_tests_cant": "all interleavings of connections and reuse of descriptor numbers", "anchors": ["src/cppnet/http/server/http_server.cpp: HttpServer::HandleAccept", "src/cppnet/http/server/http_server.cpp: HttpServer::HandleRead", "src/cppnet/http/server/http_server.cpp: HttpServer::HandleLeave"]}
{"id": "C114", "title": "TLS sessions are freed with their connections", "statement": "The TLS sessions that exist are exactly those of the open connections.", "quantifier": "all event sequences", "why_tests_cant": "leak after any sequence of events", "anchors": ["src/cppnet/http/server/http_server.cpp: HttpServer::HandleAccept", "src/cppnet/http/server/http_server.cpp: HttpServer::HandleLeave", "src/cppnet/http/server/http_server.cpp: HttpServer::HandleError"]}
{"id": "C115", "title": "The session map is used by one thread at a time", "statement": "In the modes that InitSSL accepts, at most one thread is inside HttpServer's callbacks, so ssl_sockets_map_ (which has no lock) is not accessed by two threads.", "quantifier": "all schedules, numbers of workers", "why_tests_cant": "all schedules", "anchors": ["src/cppnet/http/server/http_server.cpp: HttpServer::InitSSL", "src/cppnet/http/server/http_server.cpp: HttpServer::HandleAccept", "src/cppnet/server/tcp_server.cpp: TcpServer::EventLoop"]}
{"id": "C116", "title": "The client connects to the address it is given", "statement": "HttpClient::Init and InitSSL connect to the given address, with port 80 or 443 if the port is 0. They return success exactly when all steps succeed.", "quantifier": "all addresses, ports, answers of the kernel and the library", "why_tests_cant": "2^48 addresses and all failures", "anchors": ["src/cppnet/http/client/http_client.cpp: HttpClient::Init", "src/cppnet/http/client/http_client.cpp: HttpClient::InitSSL"]}
{"id": "C117", "title": "Close of the client is safe", "statement": "No sequence of Init, InitSSL and Close calls leads to undefined behaviour.", "quantifier": "all call sequences and failures", "why_tests_cant": "unbounded sequences of calls with failures", "anchors": ["src/cppnet/http/client/http_client.cpp: HttpClient::Close", "src/cppnet/http/client/http_client.cpp: HttpClient::InitSSL", "src/cppnet/http/client/http_client.hpp: ~HttpClient"]}
{"id": "C118", "title": "The client gives back what it took", "statement": "When an HttpClient is destroyed, each descriptor it opened was closed exactly once and all objects of the TLS library are freed.", "quantifier": "all call sequences and failures", "why_tests_cant": "unbounded sequences of calls with failures", "anchors": ["src/cppnet/http/client/http_client.cpp: HttpClient::Init", "src/cppnet/http/client/http_client.cpp: HttpClient::InitSSL", "src/cppnet/http/client/http_client.cpp: HttpClient::Close"]}
{"id": "C119", "title": "Connections do not influence each other's answers", "statement": "If the answers of the handlers depend on the request only and no handler stops the server, then what is read from, written to and kept for a connection is the same as in the run in which only the events of this connection happen.", "quantifier": "all runs of the server with any number of connections, all interleavings of arrivals, events and time-outs, all splittings of what is sent", "why_tests_cant": "interleavings of connections and splittings of their bytes are unbounded", "anchors": ["src/cppnet/http/server/http_server.cpp: HttpServer::HandleRead", "src/cppnet/http/server/http_server.cpp: HttpServer::EventFunc", "src/cppnet/server/tcp_server.cpp: TcpServer::EventLoop"]}
{"id": "C120", "title": "Every request is answered, in order", "statement": "When the server is idle, every connection on which whole requests were sent, in whatever pieces, has got one answer for each of them, in order.", "quantifier": "all runs of the server with any number of connections, all interleavings of arrivals, events and time-outs, all splittings of what is sent", "why_tests_cant": "interleavings of connections and splittings of their bytes are unbounded", "anchors": ["src/cppnet/http/server/http_server.cpp: HttpServer::HandleRead", "src/cppnet/http/server/http_server.cpp: HttpServer::EventFunc", "src/cppnet/server/tcp_server.cpp: TcpServer::EventLoop", "src/cppnet/http/server/http_server.cpp: HttpServer::HandleLeave"]}
{"id": "C121", "title": "A waiting request can always be answered", "statement": "Whenever a whole request is waiting on a connection and the process runs, the server alone, without further input or time-outs, can reach a state in which it has been answered.", "quantifier": "all runs of the server with any number of connections, all interleavings of arrivals, events and time-outs, all splittings of what is sent", "why_tests_cant": "interleavings of connections and splittings of their bytes are unbounded", "anchors": ["src/cppnet/http/server/http_server.cpp: HttpServer::HandleRead", "src/cppnet/http/server/http_server.cpp: HttpServer::EventFunc", "src/cppnet/server/tcp_server.cpp: TcpServer::EventLoop"]}
{"id": "C122", "title": "A read time-out closes the connection", "statement": "A time-out while a request is being read frees the thread, closes this connection without calling a handler and leaves the other connections as they are.", "quantifier": "all runs of the server with any number of connections, all interleavings of arrivals, events and time-outs, all splittings of what is sent", "why_tests_cant": "interleavings of connections and splittings of their bytes are unbounded", "anchors": ["src/cppnet/http/server/http_server.cpp: HttpServer::HandleRead", "src/cppnet/http/server/http_server.cpp: HttpServer::SetReadTimeout", "src/cppnet/socket/socket.cpp: Socket::ReadUntil"]}
{"id": "C123", "title": "Peers cannot bring the process down", "statement": "As long as handlers do not fail and writes are taken, the process keeps running, whatever the peers send.", "quantifier": "all runs of the server with any number of connections, all interleavings of arrivals, events and time-outs, all splittings of what is sent", "why_tests_cant": "interleavings of connections and splittings of their bytes are unbounded", "anchors": ["src/cppnet/http/server/http_server.cpp: HttpServer::HandleRead", "src/cppnet/socket/socket.cpp: Socket::ReadUntil", "src/cppnet/http/server/http_server.cpp: HttpServer::EventFunc"]}
{"id": "C124", "title": "Peers get the whole answer", "statement": "What reaches the peer of a connection is the concatenation of all answers written to it, in order.", "quantifier": "all runs of the server with any number of connections, all interleavings of arrivals, events and time-outs, all splittings of what is sent", "why_tests_cant": "interleavings of connections and splittings of their bytes are unbounded", "anchors": ["src/cppnet/http/server/http_server.cpp: HttpServer::HandleRead", "src/cppnet/socket/socket.cpp: Socket::Write"]}
{"id": "C125", "title": "Select reports every ready socket in each round", "statement": "In a round of Select::Loop every monitored socket that select(2) has found ready is reported, once, unless a callback for another socket removes it; nothing else is reported.", "quantifier": "all sets of sockets, all answers of select and recv, all callbacks and what they monitor, remove and stop", "why_tests_cant": "the callback changes the set while the loop goes through it, in unboundedly many ways", "anchors": ["src/cppnet/server/io_multiplexing/select.cpp: Select::Loop", "src/cppnet/server/io_multiplexing/select.cpp: Select::RemoveSoc"]}
{"id": "C126", "title": "Select starves no socket", "statement": "A socket that stays ready and is not removed is reported within as many rounds as there are sockets before it in the set, plus one, whatever the callbacks for the others do, unless the loop is stopped.", "quantifier": "all sets of sockets, all answers of select and recv, all callbacks and what they monitor, remove and stop", "why_tests_cant": "the callback changes the set while the loop goes through it, in unboundedly many ways", "anchors": ["src/cppnet/server/io_multiplexing/select.cpp: Select::Loop", "src/cppnet/server/io_multiplexing/select.cpp: Select::MonitorSoc", "src/cppnet/server/io_multiplexing/select.cpp: Select::RemoveSoc"]}
{"id": "C127", "title": "Success of Select::MonitorSoc means that the socket is monitored", "statement": "After MonitorSoc has returned success, the socket is in the set, once, and the others are still there.", "quantifier": "all sockets and sets", "why_tests_cant": "the callback changes the set while the loop goes through it, in unboundedly many ways", "anchors": ["src/cppnet/server/io_multiplexing/select.cpp: Select::MonitorSoc"]}
{"id": "C128", "title": "The loops of macOS and Linux are the same for callbacks", "statement": "For the same events, in any number of rounds, KQueue::Loop and Epoll::Loop make the same calls, in the same order, and return the same; a time-out means the same for both.", "quantifier": "all sequences of rounds with any events, all callbacks, all time-outs", "why_tests_cant": "a test runs on one platform only", "anchors": ["src/cppnet/server/io_multiplexing/kqueue.cpp: KQueue::Loop", "src/cppnet/server/io_multiplexing/epoll.cpp: Epoll::Loop"]}
{"id": "C129", "title": "A datagram read is a datagram sent", "statement": "What ReadUdp returns with success is the beginning, of the size asked for, of one datagram that was sent to the address of this socket by the socket whose address is reported.", "quantifier": "all numbers of sockets, all programs that bind, send, read and close, all networks that lose, reorder and duplicate", "why_tests_cant": "the network's behaviours and the contents of datagrams are unbounded", "anchors": ["src/cppnet/socket/socket.cpp: Socket::ReadUdp", "src/cppnet/socket/socket.cpp: Socket::WriteUdp"]}
{"id": "C130", "title": "One read returns one datagram", "statement": "The n-th successful ReadUdp of a socket returns the n-th datagram that has arrived there; those that have not been read are still waiting, in order.", "quantifier": "all numbers of sockets, all programs that bind, send, read and close, all networks that lose, reorder and duplicate", "why_tests_cant": "the network's behaviours and the contents of datagrams are unbounded", "anchors": ["src/cppnet/socket/socket.cpp: Socket::ReadUdp"]}
{"id": "C131", "title": "A reply reaches the one who asked", "statement": "What is sent to the address from which a socket has sent arrives at this socket and at no other.", "quantifier": "all numbers of sockets, all programs that bind, send, read and close, all networks that lose, reorder and duplicate", "why_tests_cant": "the network's behaviours and the contents of datagrams are unbounded", "anchors": ["src/cppnet/socket/socket.cpp: Socket::ReadUdp", "src/cppnet/socket/socket.cpp: Socket::WriteUdp"]}
{"id": "C132", "title": "SSLSocket: Write sends the whole buffer or fails", "statement": "If Write over TLS returns a positive number, it is the size of the buffer and the whole buffer was sent; otherwise nothing was sent.", "quantifier": "all buffers of all sizes", "why_tests_cant": "sizes beyond an int are not tested", "anchors": ["src/cppnet/ssl/ssl_socket.cpp: SSLSocket::IOWrite", "src/cppnet/socket/socket.cpp: Socket::Write"]}
{"id": "C133", "title": "Guard: one worker at a time", "statement": "At any moment at most one process executes the guarded code.", "quantifier": "all interleavings of the guardian, its children, signals and other processes; all handlers; all exit codes and pids", "why_tests_cant": "signals may arrive between any two instructions, and children may die at any moment", "anchors": ["demo/util/process_ctrl.cpp: ProcessCtrl::Guard"]}
{"id": "C134", "title": "Guard: the guardian does not run the guarded code", "statement": "The process that calls Guard keeps guarding; Guard returns only in its children.", "quantifier": "all interleavings of the guardian, its children, signals and other processes; all handlers; all exit codes and pids", "why_tests_cant": "signals may arrive between any two instructions, and children may die at any moment", "anchors": ["demo/util/process_ctrl.cpp: ProcessCtrl::Guard"]}
{"id": "C135", "title": "EndGuard: stopping the guardian stops the worker", "statement": "When a signal ends the guardian, its worker gets a signal, too; no worker is left behind.", "quantifier": "all interleavings of the guardian, its children, signals and other processes; all handlers; all exit codes and pids", "why_tests_cant": "signals may arrive between any two instructions, and children may die at any moment", "anchors": ["demo/util/process_ctrl.cpp: ProcessCtrl::Guard", "demo/util/process_ctrl.cpp: ProcessCtrl::EndGuard"]}
{"id": "C136", "title": "EndGuard: only the own worker is signalled", "statement": "The signal that EndGuard sends goes to a worker of this guardian and to no other process.", "quantifier": "all interleavings of the guardian, its children, signals and other processes; all handlers; all exit codes and pids", "why_tests_cant": "signals may arrive between any two instructions, and children may die at any moment", "anchors": ["demo/util/process_ctrl.cpp: ProcessCtrl::EndGuard"]}
{"id": "C137", "title": "Guard: a worker that has ended is replaced", "statement": "Whenever there is no worker, the guardian by its own steps gets to a state with a new one, provided that the handler agrees and fork succeeds.", "quantifier": "all interleavings of the guardian, its children, signals and other processes; all handlers; all exit codes and pids", "why_tests_cant": "signals may arrive between any two instructions, and children may die at any moment", "anchors": ["demo/util/process_ctrl.cpp: ProcessCtrl::Guard"]}
{"id": "C138", "title": "ArgcDeal: options are found as given", "statement": "Every argument gives exactly one option a value: dashes, the name, and the value after the first '='. GetOption finds exactly the options given, and GetVar the value given first.", "quantifier": "all lists of arguments of all lengths, all names", "why_tests_cant": "arguments are arbitrary strings", "anchors": ["demo/util/argc_deal.cpp: ArgcDeal::ArgcDeal", "demo/util/argc_deal.cpp: ArgcDeal::GetVar", "demo/util/argc_deal.cpp: ArgcDeal::GetOption"]}
{"id": "C139", "title": "ArgcDeal: an obligatory option is obligatory", "statement": "Run calls the program only if every option declared as a must is given; and it does call it then, unless help or the version is asked for.", "quantifier": "all arguments, all sequences of declarations", "why_tests_cant": "the order of declarations and assignments is arbitrary", "anchors": ["demo/util/argc_deal.cpp: ArgcDeal::SetOption", "demo/util/argc_deal.cpp: ArgcDeal::SetVar", "demo/util/argc_deal.cpp: ArgcDeal::Run"]}
{"id": "C140", "title": "Web server: hosts are separate", "statement": "A request is answered as if the items of the configuration that are meant for other hosts were not there.", "quantifier": "all configurations, requests and file systems", "why_tests_cant": "configurations, paths and hosts are unbounded", "anchors": ["demo/web-server/main.cpp: RunWithConfig", "src/cppnet/http/server/filter/http_host_filter.hpp: HttpHostFilter::IsMatchFilter"]}
{"id": "C141", "title": "Web server: redirects work", "statement": "A request for the route and host of a redirect of the configuration is answered with this redirect.", "quantifier": "all configurations, requests and file systems", "why_tests_cant": "configurations, paths and hosts are unbounded", "anchors": ["demo/web-server/main.cpp: RunWithConfig"]}
{"id": "C142", "title": "Web server: static files and directories work", "statement": "A GET for the route and host of a static file of the configuration gets this file; the same for the files of a static directory.", "quantifier": "all configurations, requests and file systems", "why_tests_cant": "configurations, paths and hosts are unbounded", "anchors": ["demo/web-server/main.cpp: RunWithConfig"]}
{"id": "C143", "title": "Web server: starts if all static paths are there", "statement": "RunWithConfig gets to run the server exactly if every static path of the configuration is a file or a directory.", "quantifier": "all configurations and file systems", "why_tests_cant": "configurations are unbounded", "anchors": ["demo/web-server/main.cpp: RunWithConfig"]}
{"id": "C144", "title": "Web server: --stop finds the server", "statement": "--stop and --reload signal the server that was started, if one is running, and never another process.", "quantifier": "all sequences of starts and ends of servers and other programs, all pids", "why_tests_cant": "pids are reused after unboundedly many steps", "anchors": ["demo/web-server/main.cpp: _main", "demo/web-server/main.cpp: RunWithConfig"]}
{"id": "C145", "title": "Web server: --stop starts nothing", "statement": "A call with --stop ends without starting a server.", "quantifier": "all command lines and file systems", "why_tests_cant": "any file may be missing or unreadable", "anchors": ["demo/web-server/main.cpp: _main"]}
{"id": "C146", "title": "Web server: listens where told", "statement": "The server listens on the port of the configuration.", "quantifier": "all ports", "why_tests_cant": "ports beyond 16 bits are not tested", "anchors": ["demo/web-server/main.cpp: RunWithConfig"]}
{"id": "C147", "title": "Worker threads: requests are answered in order", "statement": "In mode kMultiThread every request a peer sends is answered, in order and on the same connection, with what a server with only this connection would answer.", "quantifier": "all schedules of any number of connections and workers, all routers and request bytes", "why_tests_cant": "schedules of threads and peers are unbounded", "anchors": ["src/cppnet/server/tcp_server.cpp: TcpServer::EventLoop", "src/cppnet/http/server/http_server.cpp: HttpServer::HandleRead", "src/cppnet/utils/threadpool.cpp: ThreadPool::Worker"]}
{"id": "C148", "title": "Worker threads: silent peers do not stop the server", "statement": "In mode kMultiThread a request that has arrived can be answered by steps of the server alone, whatever other peers do or leave undone.", "quantifier": "all schedules of any number of connections and workers, all routers and request bytes", "why_tests_cant": "the number of silent peers is unbounded", "anchors": ["src/cppnet/server/tcp_server.cpp: TcpServer::EventLoop", "src/cppnet/http/server/http_server.cpp: HttpServer::HandleRead", "src/cppnet/utils/threadpool.cpp: ThreadPool::Worker"]}
{"id": "C149", "title": "Mixed mode: requests are answered in order", "statement": "In mode kMixed every request a peer sends is answered, in order and on the same connection.", "quantifier": "all schedules of any number of connections and workers, all routers and request bytes", "why_tests_cant": "schedules of threads, event reports and peers are unbounded", "anchors": ["src/cppnet/server/tcp_server.cpp: TcpServer::EventLoop", "src/cppnet/server/tcp_server.cpp: TcpServer::HandleAccept", "src/cppnet/http/server/http_server.cpp: HttpServer::HandleRead", "src/cppnet/utils/threadpool.cpp: ThreadPool::Worker"]}
{"id": "C150", "title": "Worker threads: requests do not bring the server down", "statement": "Peers that send only whole requests do not bring a server with worker threads down.", "quantifier": "all schedules of any number of connections and workers, all routers and request bytes", "why_tests_cant": "a crash needs one particular schedule", "anchors": ["src/cppnet/server/tcp_server.cpp: TcpServer::EventLoop", "src/cppnet/server/tcp_server.cpp: TcpServer::HandleAccept", "src/cppnet/http/server/http_server.cpp: HttpServer::HandleRead"]}
{"id": "C151", "title": "Worker threads: descriptors are given back", "statement": "When the server is at rest, a connection the peer has closed does not hold a descriptor any more.", "quantifier": "all schedules of any number of connections and workers, all routers and request bytes", "why_tests_cant": "schedules of threads and peers are unbounded", "anchors": ["src/cppnet/server/tcp_server.cpp: TcpServer::EventLoop", "src/cppnet/server/tcp_server.cpp: TcpServer::HandleAccept", "src/cppnet/http/server/http_server.cpp: HttpServer::HandleRead"]}
{"id": "C152", "title": "Socket: every descriptor made is given back", "statement": "A Socket object that is closed in the end has closed every descriptor it has made, once for each time it was made; after a successful Init every call acts on the new descriptor.", "quantifier": "all sequences of calls on a Socket and all answers of the kernel", "why_tests_cant": "sequences of calls are unbounded", "anchors": ["src/cppnet/socket/socket.cpp: Socket::Init", "src/cppnet/socket/socket.cpp: Socket::InitUdp", "src/cppnet/socket/socket.cpp: Socket::Close"]}
{"id": "C153", "title": "File: CanWrite tells whether Write works", "statement": "CanWrite returns true exactly if a following Write succeeds.", "quantifier": "all files, permissions and data", "why_tests_cant": "depends on owner, permissions and kind of the file", "anchors": ["src/cppnet/utils/file.cpp: File::CanWrite", "src/cppnet/utils/file.cpp: File::Write"]}
{"id": "C154", "title": "Server: callbacks run as registered", "statement": "After any calls of Use, GET, POST and RegisterHandler, with one or several callbacks, a request runs exactly the callbacks registered for its path: those for shorter prefixes first, then in the order of registration.", "quantifier": "all sequences of calls on a server and its groups, all request paths, callbacks and filters", "why_tests_cant": "the order of calls, the paths and the callbacks are arbitrary", "anchors": ["src/cppnet/http/server/http_server.cpp: HttpGroup::GET", "src/cppnet/http/server/http_server.cpp: HttpGroup::POST", "src/cppnet/http/server/http_server.cpp: HttpGroup::RegisterHandler", "src/cppnet/http/server/http_server.cpp: HttpGroup::Use"]}
{"id": "C155", "title": "Server: Use guards its group", "statement": "A callback given to Use of a group, such as a login check, runs for every request below the route of the group, whatever else is registered.", "quantifier": "all sequences of calls on a server and its groups, all request paths, callbacks and filters", "why_tests_cant": "the order of calls, the paths and the callbacks are arbitrary", "anchors": ["src/cppnet/http/server/http_server.cpp: HttpGroup::Use", "src/cppnet/http/server/http_server.cpp: HttpGroup::RegisterHandler"]}
{"id": "C156", "title": "Server: Use stays inside its group", "statement": "A callback given to Use of a group does not run for a request outside the route of the group.", "quantifier": "all sequences of calls on a server and its groups, all request paths, callbacks and filters", "why_tests_cant": "the order of calls, the paths and the callbacks are arbitrary", "anchors": ["src/cppnet/http/server/http_server.cpp: HttpGroup::Use", "src/cppnet/http/server/http_server.cpp: HttpGroup::RegisterHandler"]}
{"id": "C157", "title": "Client: a response object may be used again", "statement": "Send with a response object that already holds an earlier response gives the same result as Send with a new one: same status, headers, body and bytes read.", "quantifier": "all requests, earlier responses and network behaviours", "why_tests_cant": "needs every earlier response combined with every new one", "anchors": ["src/cppnet/http/client/http_client.cpp: HttpClient::Send", "src/cppnet/http/resp/http_resp.cpp: HttpResp::Parse", "src/cppnet/http/header/http_header.cpp: HttpHeader::Parse"]}
{"id": "C158", "title": "HTTPS: connections do not mix", "statement": "What one connection is answered over TLS depends only on what was sent on it: any run with other connections gives it what some run with it alone gives.", "quantifier": "all runs of the HTTPS server with any number of connections, all interleavings of arrivals, hand-shakes, events and time-outs, all cuts into records", "why_tests_cant": "interleavings of connections and cuts into records are unbounded", "anchors": ["src/cppnet/http/server/http_server.cpp: HttpServer::HandleRead", "src/cppnet/http/server/http_server.cpp: HttpServer::EventFunc", "src/cppnet/http/server/http_server.cpp: HttpServer::HandleAccept", "src/cppnet/ssl/ssl_socket.cpp: SSLSocket::IORead"]}
{"id": "C159", "title": "HTTPS: every request is answered, in order", "statement": "When the server is idle, every connection on which whole requests were sent, in whatever records, has got one answer for each of them, in order.", "quantifier": "all runs of the HTTPS server with any number of connections, all interleavings of arrivals, hand-shakes, events and time-outs, all cuts into records", "why_tests_cant": "interleavings of connections and cuts into records are unbounded", "anchors": ["src/cppnet/http/server/http_server.cpp: HttpServer::HandleRead", "src/cppnet/http/server/http_server.cpp: HttpServer::EventFunc", "src/cppnet/http/server/http_server.cpp: HttpServer::HandleAccept", "src/cppnet/ssl/ssl_socket.cpp: SSLSocket::IORead"]}
{"id": "C160", "title": "HTTPS: a waiting request can always be answered", "statement": "Whenever a whole request is waiting on a connection and the process runs, the server alone, without further input or time-outs, can reach a state in which it has been answered.", "quantifier": "all runs of the HTTPS server with any number of connections, all interleavings of arrivals, hand-shakes, events and time-outs, all cuts into records", "why_tests_cant": "interleavings of connections and cuts into records are unbounded", "anchors": ["src/cppnet/http/server/http_server.cpp: HttpServer::HandleRead", "src/cppnet/http/server/http_server.cpp: HttpServer::EventFunc", "src/cppnet/http/server/http_server.cpp: HttpServer::HandleAccept", "src/cppnet/ssl/ssl_socket.cpp: SSLSocket::IORead"]}
{"id": "C161", "title": "HTTPS: a time-out closes the connection", "statement": "A time-out during the hand-shake or while a request is being read frees the thread, closes this connection without calling a handler and leaves the other connections as they are.", "quantifier": "all runs of the HTTPS server with any number of connections, all interleavings of arrivals, hand-shakes, events and time-outs, all cuts into records", "why_tests_cant": "interleavings of connections and cuts into records are unbounded", "anchors": ["src/cppnet/http/server/http_server.cpp: HttpServer::HandleRead", "src/cppnet/http/server/http_server.cpp: HttpServer::EventFunc", "src/cppnet/http/server/http_server.cpp: HttpServer::HandleAccept", "src/cppnet/ssl/ssl_socket.cpp: SSLSocket::IORead", "src/cppnet/http/server/http_server.cpp: HttpServer::SetReadTimeout"]}
{"id": "C162", "title": "HTTPS: peers cannot bring the process down", "statement": "As long as handlers do not fail and writes are taken, the process keeps running, whatever the peers send over TLS.", "quantifier": "all runs of the HTTPS server with any number of connections, all interleavings of arrivals, hand-shakes, events and time-outs, all cuts into records", "why_tests_cant": "interleavings of connections and cuts into records are unbounded", "anchors": ["src/cppnet/http/server/http_server.cpp: HttpServer::HandleRead", "src/cppnet/http/server/http_server.cpp: HttpServer::EventFunc", "src/cppnet/http/server/http_server.cpp: HttpServer::HandleAccept", "src/cppnet/ssl/ssl_socket.cpp: SSLSocket::IORead"]}
{"id": "C163", "title": "A rejected request is told why", "statement": "Whenever the server answers a malformed request head, the answer is a 400 whose body is the text for what is wrong with this head (there is exactly one), the log holds this text, no handler is called and the connection is closed.", "quantifier": "all request heads shorter than 2^31 bytes, all routers, all outcomes of the write", "why_tests_cant": "what can be wrong with a head is unbounded", "anchors": ["src/cppnet/http/server/http_server.cpp: HttpServer::HandleRead", "src/cppnet/http/req/http_req.cpp: HttpReq::Parse"]}
{"id": "C164", "title": "The log tells which answers were given", "statement": "For every call of HandleRead that returns, the log has an entry \"resp: <status>\" exactly if an answer with that status was handed to the peer; for every whole request it begins with \"req: <method> <path>\", even if handlers then fail.", "quantifier": "all streams, routers, worlds and outcomes of the write", "why_tests_cant": "handlers are arbitrary; every outcome of reading, parsing, dispatching and writing", "anchors": ["src/cppnet/http/server/http_server.cpp: HttpServer::HandleRead"]}
{"id": "C165", "title": "One entry, one line", "statement": "Every entry of the server's log is one line, whatever clients send.", "quantifier": "all byte streams from clients", "why_tests_cant": "clients choose the bytes", "anchors": ["src/cppnet/http/server/http_server.cpp: HttpServer::HandleRead", "src/cppnet/log/std_logger.hpp"]}
{"id": "C166", "title": "The client's error text tells whether it worked", "statement": "After Send the error text is empty exactly if Send succeeded; otherwise it names the step that failed.", "quantifier": "all requests, responses, streams, outcomes of the write, earlier texts", "why_tests_cant": "a peer may send anything, in any pieces", "anchors": ["src/cppnet/http/client/http_client.cpp: HttpClient::Send", "src/cppnet/http/resp/http_resp.cpp: HttpResp::Parse"]}
{"id": "C167", "title": "Event loops end when told", "statement": "The loop of each multiplexer ends with 0 after the round in which a callback called Stop, and in no other case; with an error if the call of the operating system fails, but not for a signal; until then every round is reported.", "quantifier": "all callbacks and all sequences of answers of the operating system", "why_tests_cant": "callbacks are arbitrary and sequences of answers unbounded", "anchors": ["src/cppnet/server/io_multiplexing/select.cpp: Select::Loop", "src/cppnet/server/io_multiplexing/kqueue.cpp: KQueue::Loop", "src/cppnet/server/io_multiplexing/epoll.cpp: Epoll::Loop"]}
{"id": "C168", "title": "The hello server says hello", "statement": "Whoever sends the demo server (with or without TLS) whole requests in turn gets, for each, the page for the path \"/\" and the 404 page otherwise, in order, whatever other clients do.", "quantifier": "all runs of the server with any number of connections, all requests with ASCII paths, all fragmentations", "why_tests_cant": "clients act concurrently in any order, requests and fragmentations are unbounded", "anchors": ["demo/use-lib-server/main.cpp: main", "demo/use-lib-server-ssl/main.cpp: main"]}
{"id": "C169", "title": "The simple server serves its site", "statement": "The server of demo/simple-http-server answers every request with the page of its site: two fixed pages, a start page, the files below the blog directory, 404 otherwise; its handlers do not throw.", "quantifier": "all requests, all states of the file system", "why_tests_cant": "paths and file systems are unbounded", "anchors": ["demo/simple-http-server/main.cpp: main"]}
{"id": "C170", "title": "The digit demo serves its start page", "statement": "The server of demo/mnist serves its start page for \"/\" and only there; \"/mnist\" is answered by the handler that recognises digits.", "quantifier": "all handlers, requests, file systems", "why_tests_cant": "the failure depends on the order of registration and a prefix relation", "anchors": ["demo/mnist/main.cpp: main", "src/cppnet/utils/trie.cpp: Trie::Get"]}
{"id": "C171", "title": "The digit handler always answers", "statement": "Whatever a client posts, the handler of demo/mnist reads nothing out of bounds or uninitialised, and answers.", "quantifier": "all bodies, all networks, all JSON libraries", "why_tests_cant": "uninitialised memory usually looks harmless in a test; bodies are unbounded", "anchors": ["demo/mnist/main.cpp: main"]}
{"id": "C172", "title": "The best digit wins", "statement": "The digit that demo/mnist reports is the first of those with the best score.", "quantifier": "all vectors of floating-point scores, including infinities and NaN", "why_tests_cant": "scores are arbitrary floating-point numbers", "anchors": ["demo/mnist/main.cpp: main"]}
{"id": "C173", "title": "The local host", "statement": "GetLocalName returns the host's name; GetLocalIP returns the canonical text of the first address of that name, from which Address recovers the same address, and the empty text if the name has none.", "quantifier": "all host names that POSIX allows, all resolvers, all IPv4 addresses", "why_tests_cant": "host names and resolvers are given by the environment", "anchors": ["src/cppnet/utils/host.cpp: Host::GetLocalName", "src/cppnet/utils/host.cpp: Host::GetLocalIP"]}
{"id": "C174", "title": "Unpublished files stay private", "statement": "A server that was set up with directories and files to serve, and with callbacks that have nothing to do with files, behaves the same, towards everybody and in every run, whatever is in the files that are not below a served directory and not a served file. It changes no file.", "quantifier": "all sequences of registrations (any groups, paths, nesting), all file systems, all runs over HTTP with one thread, over HTTPS, and with worker threads (fewer than 2^63 bytes per connection, or steps)", "why_tests_cant": "compares two runs, over all requests and all contents of all other files; confusions between routes are included", "anchors": ["src/cppnet/http/server/http_server.cpp: HttpGroup::StaticDir", "src/cppnet/http/server/http_server.cpp: HttpGroup::StaticFile", "src/cppnet/http/server/http_server.cpp: HttpServer::HandleRead"]}
{"id": "C175", "title": "Calls of many clients are served in one order", "statement": "Any number of clients connect to one server, call Send and close their connections; the handlers of the server change what they like. There is one sequence of requests, the same for all clients and growing with time, such that serving them one after the other gives the state of the server; each client's requests are in it in the order of its calls, arriving as they were sent; each call that has come back reported success with the response that the sequence gives; and what is in the sequence at one time is before what is added later. So a call that was over before another one began comes before it.", "quantifier": "all numbers of clients and calls, all handlers, all ways in which requests and responses are cut into pieces and in which the server is interrupted in reading (requests and responses as in C48 and C49, send(2) takes whole responses, no time-outs)", "why_tests_cant": "ranges over all interleavings of clients, network and server, and relates all answers to one another", "anchors": ["src/cppnet/http/client/http_client.cpp: HttpClient::Send", "src/cppnet/http/server/http_server.cpp: HttpServer::HandleRead", "src/cppnet/server/tcp_server.cpp: TcpServer::EventLoop"]}
{"id": "C176", "title": "Every call of Send comes back", "statement": "With the same clients and server as in C175: from any state, only a bounded number of steps are possible without a client that comes or goes or a new call; and when none is possible any more, every call has come back, with success, and the server has closed the connections of all clients that have left.", "quantifier": "all runs, as in C175", "why_tests_cant": "liveness: about all continuations of all runs, and the absence of deadlock", "anchors": ["src/cppnet/http/client/http_client.cpp: HttpClient::Send", "src/cppnet/http/server/http_server.cpp: HttpServer::HandleRead", "src/cppnet/server/tcp_server.cpp: TcpServer::EventLoop"]}
{"id": "C177", "title": "Exactly which messages survive printing and parsing", "statement": "A route comes back from ToString and Parse if and only if its path consists of letters, digits and -_.~/=& , its parameter names of letters, digits and -_.~/? , no value contains '&', and the path is non-empty or there are parameters. A header comes back if and only if every name is free of ':' and CRLF, and every value is non-empty, free of CRLF and does not start with a space. A request that Build accepts is parsed into the same request if and only if its route and its headers (Content-Length and an empty Host aside, which Build sets) are like this; a response if and only if its headers (Content-Length aside) are.", "quantifier": "all routes, headers, requests and responses and all iteration orders of the maps (printed text below 2^31 bytes; for headers and responses 2^63)", "why_tests_cant": "the 'only if' part is about all messages that do not fit the format, including sets of names that might encode to each other", "anchors": ["src/cppnet/http/req/route/http_route.cpp: HttpRoute::ToString, HttpRoute::Parse", "src/cppnet/http/header/http_header.cpp: HttpHeader::ToString, HttpHeader::Parse", "src/cppnet/http/req/http_req.cpp: HttpReq::Build, HttpReq::Parse", "src/cppnet/http/resp/http_resp.cpp: HttpResp::Build, HttpResp::Parse"]}
{"id": "C178", "title": "Every visitor of the configurable web server sees the configured site", "statement": "The web server demo runs with a configuration and a file tree; any number of visitors fetch pages with HttpClient. Each call of Send that has come back reported success, and its response is what the configuration says for that path and host: the content of the file with status 200 if one static file or one file in a static directory covers it, 302 with the configured address if one redirect does, and 404 if nothing does, if the file is missing or unreadable, or if the rest of the path contains '..'.", "quantifier": "all configurations (ASCII, without a route that is a beginning of an earlier one), file trees, numbers of visitors and visits, all ways in which requests and responses are cut into pieces (GET with a Host header; requests as in C48; pages without NUL bytes; send(2) takes whole responses, no time-outs)", "why_tests_cant": "the whole path from the client's request through parsing, routing, files and the response back, for all sites and all interleavings of visitors", "anchors": ["demo/web-server/main.cpp: main", "src/cppnet/http/server/http_server.cpp: HttpServer::HandleRead, HttpGroup::StaticDir, HttpGroup::StaticFile", "src/cppnet/http/client/http_client.cpp: HttpClient::Send"]}
{"id": "C179", "title": "No visitor of the configurable web server waits for ever", "statement": "With the same server and visitors as in C178: from any state, only a bounded number of steps are possible without a visitor who comes or goes or a new visit; and when none is possible any more, every visit has its answer, and the connections of all visitors who have left are closed.", "quantifier": "all runs, as in C178", "why_tests_cant": "liveness: about all continuations of all runs", "anchors": ["demo/web-server/main.cpp: main", "src/cppnet/http/server/http_server.cpp: HttpServer::HandleRead, HttpGroup::StaticDir, HttpGroup::StaticFile", "src/cppnet/http/client/http_client.cpp: HttpClient::Send"]}
{"id": "C180", "title": "With worker threads too, one order of all requests explains what every client sees", "statement": "An HTTP server in mode kMultiThread with any number of worker threads serves any number of HttpClient objects, which come and go. At any moment there is one order of the requests served so far, the same for all clients, such that running the handlers on them one after the other gives the state of the server and every answer that any client has received; each client's requests are in that order in the order of its calls, and the order only grows; the process does not end. (In mode kMixed this is false: two threads can share the bytes of one request, and the client of a correct request is answered 400.)", "quantifier": "all numbers of threads and clients, handlers, requests (as in C175), all interleavings of threads and all ways in which requests and answers are cut into pieces", "why_tests_cant": "about all interleavings of several threads reading byte by byte", "anchors": ["src/cppnet/server/tcp_server.cpp: TcpServer::HandleAccept (kMultiThread), TcpServer::EventLoop", "src/cppnet/http/server/http_server.cpp: HttpServer::HandleRead", "src/cppnet/http/client/http_client.cpp: HttpClient::Send"]}
{"id": "C181", "title": "With worker threads too, every call of Send returns, if there are not more clients than threads at a time", "statement": "With the server and clients of C180: from any state, only a bounded number of steps are possible without a client that comes or goes or a new call; and when none is possible any more and at most as many clients as there are threads have not left, every call of Send has returned with success. (With more clients than threads this is false: a silent client keeps a thread, and a client that calls can wait for ever.)", "quantifier": "all runs, as in C180", "why_tests_cant": "liveness: about all continuations of all runs", "anchors": ["src/cppnet/server/tcp_server.cpp: TcpServer::HandleAccept (kMultiThread), TcpServer::EventLoop", "src/cppnet/http/server/http_server.cpp: HttpServer::HandleRead", "src/cppnet/http/client/http_client.cpp: HttpClient::Send"]}
{"id": "C182", "title": "Strangers do not disturb the order of calls", "statement": "As C175, but among the clients there are any number of other peers, which send any bytes at any time, close when they like, and to which writing may fail. There still is one sequence of requests, growing with time, such that serving them one after the other gives the state of the server; each client's requests are in it in the order of its calls, and each call that has come back reported success with the response that the sequence gives.", "quantifier": "all runs of one server with any number of clients and strangers, all interleavings of arrivals, events and time-outs, all bytes that strangers send, all handlers that keep the state of the server valid", "why_tests_cant": "what strangers send and when, and how it interleaves with the calls of the others, is unbounded", "anchors": ["src/cppnet/http/server/http_server.cpp: HttpServer::HandleRead", "src/cppnet/http/server/http_server.cpp: HttpServer::EventFunc", "src/cppnet/http/client/http_client.cpp: HttpClient::Send"]}
{"id": "C183", "title": "Among strangers too, every call of Send returns, as long as the server runs", "statement": "With the same clients and strangers as in C182, the receive time-out set: from any state, only a bounded number of steps are possible without a client that comes or goes, a new call, or something new from a stranger; and when none is possible any more and the process is still there, every call has come back with success, and the connections of all who have left are closed. (Without the condition that the process is still there this is false: a line feed from a stranger ends it.)", "quantifier": "all runs of one server with any number of clients and strangers, all interleavings of arrivals, events and time-outs, all bytes that strangers send, all handlers that keep the state of the server valid", "why_tests_cant": "what strangers send and when, and how it interleaves with the calls of the others, is unbounded", "anchors": ["src/cppnet/http/server/http_server.cpp: HttpServer::HandleRead", "src/cppnet/http/server/http_server.cpp: HttpServer::EventFunc", "src/cppnet/http/client/http_client.cpp: HttpClient::Send"]}
{"id": "C184", "title": "Only strangers stop the server, and only in four ways", "statement": "With the same clients and strangers as in C182: if the process is gone, then a stranger's connection was being served, and there was a line feed among the first three bytes to be read, or the write of the answer met a closed connection, or a request at the beginning of these bytes makes a handler fail, or there were 2 GiB of them. No client ever stops the server.", "quantifier": "all runs of one server with any number of clients and strangers, all interleavings of arrivals, events and time-outs, all bytes that strangers send, all handlers that keep the state of the server valid", "why_tests_cant": "what strangers send and when, and how it interleaves with the calls of the others, is unbounded", "anchors": ["src/cppnet/http/server/http_server.cpp: HttpServer::HandleRead", "src/cppnet/http/server/http_server.cpp: HttpServer::EventFunc", "src/cppnet/http/client/http_client.cpp: HttpClient::Send"]}
{"id": "C185", "title": "Strangers do not change what visitors of the web site see", "statement": "As C178, but among the visitors there are any number of other peers, which send any bytes at any time. Every visit that has come back still shows the page, the redirection or \"not found\", as the configuration says.", "quantifier": "all configurations with ASCII routes that are registered in order, all contents of the file system, any number of visitors and strangers, all interleavings, all bytes that strangers send", "why_tests_cant": "what strangers send and when, and how it interleaves with the calls of the others, is unbounded", "anchors": ["demo/web-server/main.cpp: RunWithConfig", "src/cppnet/http/server/http_server.cpp: HttpGroup::StaticDir", "src/cppnet/http/server/http_server.cpp: HttpGroup::StaticFile", "src/cppnet/http/server/http_server.cpp: HttpServer::HandleRead"]}
{"id": "C186", "title": "Among strangers too, every visitor gets an answer, as long as the web server runs", "statement": "With the same visitors and strangers as in C185: from any state, only a bounded number of steps are possible without a visitor who comes or goes, a new visit, or something new from a stranger; and when none is possible any more and the process is still there, every visit has its answer, and the connections of all who have left are closed.", "quantifier": "all configurations with ASCII routes that are registered in order, all contents of the file system, any number of visitors and strangers, all interleavings, all bytes that strangers send", "why_tests_cant": "what strangers send and when, and how it interleaves with the calls of the others, is unbounded", "anchors": ["demo/web-server/main.cpp: RunWithConfig", "src/cppnet/http/server/http_server.cpp: HttpGroup::StaticDir", "src/cppnet/http/server/http_server.cpp: HttpGroup::StaticFile", "src/cppnet/http/server/http_server.cpp: HttpServer::HandleRead"]}
{"id": "C187", "title": "What can stop the web server", "statement": "With the same visitors and strangers as in C185: if the process is gone, then a stranger's connection was being served, and there was a line feed among the first three bytes to be read, or 2 GiB of them, or the write of the answer met a closed connection, or there was a request with a byte in its path that is not ASCII, or a GET, for the right host and without \"..\", of something in a directory of the configuration about which stat(2) fails other than by its absence.", "quantifier": "all configurations with ASCII routes that are registered in order, all contents of the file system, any number of visitors and strangers, all interleavings, all bytes that strangers send", "why_tests_cant": "what strangers send and when, and how it interleaves with the calls of the others, is unbounded", "anchors": ["demo/web-server/main.cpp: RunWithConfig", "src/cppnet/http/server/http_server.cpp: HttpGroup::StaticDir", "src/cppnet/http/server/http_server.cpp: HttpGroup::StaticFile", "src/cppnet/http/server/http_server.cpp: HttpServer::HandleRead"]}
{"id": "C188", "title": "Send over TLS is Send over TCP", "statement": "For a request of less than 2 GiB that is written, HttpClient::Send over TLS has the same outcome (result, request, response, bytes sent, exception, waiting) as over TCP with the same bytes and interruptions, wherever the records are cut; after success both leave the same bytes unread.", "quantifier": "all requests, all contents of the response object before the call, all byte streams cut into any TLS records, all interruptions", "why_tests_cant": "where records are cut and where reading is interrupted are unbounded choices of the peer and the network", "anchors": ["src/cppnet/http/client/http_client.cpp: HttpClient::Send", "src/cppnet/ssl/ssl_socket.cpp: SSLSocket::IORead", "src/cppnet/ssl/ssl_socket.cpp: SSLSocket::IOWrite"]}
{"id": "C189", "title": "Over HTTPS the response that was built arrives", "statement": "When an HTTPS server sends a built response in TLS records of any size, HttpClient::Send succeeds, its caller gets the same status, version, headers and body, and what follows the response is not touched.", "quantifier": "all requests, all contents of the response object before the call, all byte streams cut into any TLS records, all interruptions", "why_tests_cant": "where records are cut and where reading is interrupted are unbounded choices of the peer and the network", "anchors": ["src/cppnet/http/client/http_client.cpp: HttpClient::Send", "src/cppnet/ssl/ssl_socket.cpp: SSLSocket::IORead", "src/cppnet/ssl/ssl_socket.cpp: SSLSocket::IOWrite"]}
{"id": "C190", "title": "Over HTTPS success of Send means an exchange took place", "statement": "If HttpClient::Send over TLS returns success, the whole request was sent, and the response is parsed from the bytes received, with a body of exactly the announced length.", "quantifier": "all requests, all contents of the response object before the call, all byte streams cut into any TLS records, all interruptions", "why_tests_cant": "where records are cut and where reading is interrupted are unbounded choices of the peer and the network", "anchors": ["src/cppnet/http/client/http_client.cpp: HttpClient::Send", "src/cppnet/ssl/ssl_socket.cpp: SSLSocket::IORead", "src/cppnet/ssl/ssl_socket.cpp: SSLSocket::IOWrite"]}
{"id": "C191", "title": "Calls of many HTTPS clients are served in one order", "statement": "Any number of clients connect to one HTTPS server, shake hands, call Send and close; strangers connect, shake hands or not, send any records and close. There is one sequence of requests, growing with time, such that serving them one after the other gives the state of the server; each client's requests are in it in the order of its calls, and each call that has come back reported success with the response that the sequence gives.", "quantifier": "all runs of one HTTPS server with any number of clients and strangers, all interleavings of handshakes, records, events and time-outs, all records that strangers send, all handlers that keep the state of the server valid", "why_tests_cant": "what strangers send and when, how records are cut, and how all that interleaves with the calls of the clients, is unbounded", "anchors": ["src/cppnet/http/server/http_server.cpp: HttpServer::HandleAccept", "src/cppnet/http/server/http_server.cpp: HttpServer::HandleRead", "src/cppnet/http/client/http_client.cpp: HttpClient::Send", "src/cppnet/ssl/ssl_socket.cpp"]}
{"id": "C192", "title": "Over HTTPS every call of Send returns, as long as the server runs", "statement": "With the same clients and strangers as in C191, the receive time-out set: from any state, only a bounded number of steps are possible without a client that comes or goes, a new call, or something new from a stranger; and when none is possible any more and the process is still there, every call has come back with success, and the connections of all who have left are closed. A stranger that does not shake hands, or that sends an empty or a half record, only delays the others. (Without the condition that the process is still there this is false.)", "quantifier": "all runs of one HTTPS server with any number of clients and strangers, all interleavings of handshakes, records, events and time-outs, all records that strangers send, all handlers that keep the state of the server valid", "why_tests_cant": "what strangers send and when, how records are cut, and how all that interleaves with the calls of the clients, is unbounded", "anchors": ["src/cppnet/http/server/http_server.cpp: HttpServer::HandleAccept", "src/cppnet/http/server/http_server.cpp: HttpServer::HandleRead", "src/cppnet/http/client/http_client.cpp: HttpClient::Send", "src/cppnet/ssl/ssl_socket.cpp"]}
{"id": "C193", "title": "Only strangers stop the HTTPS server, and only in four ways", "statement": "With the same clients and strangers as in C191: if the process is gone, then a stranger's connection was being served, and there was a line feed among the first three bytes to be read, or the write of the answer met a closed connection, or a request at the beginning of these bytes makes a handler fail, or there were 2 GiB of them. No client and no handshake ever stops the server.", "quantifier": "all runs of one HTTPS server with any number of clients and strangers, all interleavings of handshakes, records, events and time-outs, all records that strangers send, all handlers that keep the state of the server valid", "why_tests_cant": "what strangers send and when, how records are cut, and how all that interleaves with the calls of the clients, is unbounded", "anchors": ["src/cppnet/http/server/http_server.cpp: HttpServer::HandleAccept", "src/cppnet/http/server/http_server.cpp: HttpServer::HandleRead", "src/cppnet/http/client/http_client.cpp: HttpClient::Send", "src/cppnet/ssl/ssl_socket.cpp"]}
{"id": "C194", "title": "The web site over HTTPS shows what the configuration says", "statement": "With a certificate in the configuration: every visit over HTTPS that has come back shows the page, the redirection or \"not found\", as the configuration says (C178), whatever strangers do for the handshake or send in records.", "quantifier": "all configurations with ASCII routes that are registered in order, all contents of the file system, any number of visitors and strangers, all interleavings of handshakes, records, events and time-outs, all records that strangers send", "why_tests_cant": "what strangers send and when, how records are cut, and how all that interleaves with the visits, is unbounded", "anchors": ["demo/web-server/main.cpp: RunWithConfig", "src/cppnet/http/server/http_server.cpp: HttpServer::InitSSL", "src/cppnet/http/server/http_server.cpp: HttpServer::HandleAccept", "src/cppnet/http/server/http_server.cpp: HttpServer::HandleRead", "src/cppnet/ssl/ssl_socket.cpp"]}
{"id": "C195", "title": "Over HTTPS every visitor gets an answer, as long as the web server runs", "statement": "With the same visitors and strangers as in C194: from any state, only a bounded number of steps are possible without a visitor who comes or goes, a new visit, or something new from a stranger; and when none is possible any more and the process is still there, every visit has its answer, and the connections of all who have left are closed.", "quantifier": "all configurations with ASCII routes that are registered in order, all contents of the file system, any number of visitors and strangers, all interleavings of handshakes, records, events and time-outs, all records that strangers send", "why_tests_cant": "what strangers send and when, how records are cut, and how all that interleaves with the visits, is unbounded", "anchors": ["demo/web-server/main.cpp: RunWithConfig", "src/cppnet/http/server/http_server.cpp: HttpServer::InitSSL", "src/cppnet/http/server/http_server.cpp: HttpServer::HandleAccept", "src/cppnet/http/server/http_server.cpp: HttpServer::HandleRead", "src/cppnet/ssl/ssl_socket.cpp"]}
{"id": "C196", "title": "What can stop the web server over HTTPS", "statement": "With the same visitors and strangers as in C194: if the process is gone, then a stranger's connection was being served, and there was a line feed among the first three bytes to be read, or 2 GiB of them, or the write of the answer met a closed connection, or there was a request with a byte in its path that is not ASCII, or a GET, for the right host and without \"..\", of something in a directory of the configuration about which stat(2) fails other than by its absence. No handshake stops it.", "quantifier": "all configurations with ASCII routes that are registered in order, all contents of the file system, any number of visitors and strangers, all interleavings of handshakes, records, events and time-outs, all records that strangers send", "why_tests_cant": "what strangers send and when, how records are cut, and how all that interleaves with the visits, is unbounded", "anchors": ["demo/web-server/main.cpp: RunWithConfig", "src/cppnet/http/server/http_server.cpp: HttpServer::InitSSL", "src/cppnet/http/server/http_server.cpp: HttpServer::HandleAccept", "src/cppnet/http/server/http_server.cpp: HttpServer::HandleRead", "src/cppnet/ssl/ssl_socket.cpp"]}
{"id": "C197", "title": "Strangers do not disturb the clients of a server with worker threads", "statement": "The server of C180 also has connections of strangers, which send any bytes, close when they like, do not read, and may be silent until the receive time-out. As long as the connection of a client never gets a descriptor number that a thread or a task still uses, there is one order of all requests, those of strangers among them, that explains every answer to a client, as in C180. (If a client can get such a number, this is false: the thread of a refused stranger goes on with the number it has closed, shares the bytes of the client's request with another thread, and the client of a correct request is answered 400.)", "quantifier": "all numbers of threads, clients and strangers, handlers that do not wait for ever, requests (as in C175), everything that strangers send, all interleavings of threads, time-outs on strangers, and all ways in which bytes are cut into pieces", "why_tests_cant": "what strangers send and how their threads interleave with those of clients is unbounded", "anchors": ["src/cppnet/server/tcp_server.cpp: TcpServer::HandleAccept (kMultiThread), TcpServer::EventLoop", "src/cppnet/http/server/http_server.cpp: HttpServer::HandleRead", "src/cppnet/http/client/http_client.cpp: HttpClient::Send"]}
{"id": "C198", "title": "With worker threads and strangers, every call of Send returns, unless the process ends", "statement": "With the server, clients and strangers of C197: from any state, only a bounded number of steps are possible without a client that comes or goes, a new call, or something new from a stranger; and when none is possible any more, the process has not ended, and at most as many clients as there are threads have not left, every call of Send has returned with success, however many strangers there are. (Without the proviso about the process this is false.)", "quantifier": "all numbers of threads, clients and strangers, handlers that do not wait for ever, requests (as in C175), everything that strangers send, all interleavings of threads, time-outs on strangers, and all ways in which bytes are cut into pieces", "why_tests_cant": "liveness: about all continuations of all runs", "anchors": ["src/cppnet/server/tcp_server.cpp: TcpServer::HandleAccept (kMultiThread), TcpServer::EventLoop", "src/cppnet/http/server/http_server.cpp: HttpServer::HandleRead", "src/cppnet/http/client/http_client.cpp: HttpClient::Send"]}
{"id": "C199", "title": "What can stop a server with worker threads", "statement": "With the server, clients and strangers of C197: if the process ends, then in a step of a thread that serves a stranger or a number that is closed: it read a line feed from a stranger among the first three bytes of a request, or the 2 GiB-th byte of one; or it wrote to a stranger that has closed (SIGPIPE); or a handler failed.", "quantifier": "all numbers of threads, clients and strangers, handlers that do not wait for ever, requests (as in C175), everything that strangers send, all interleavings of threads, time-outs on strangers, and all ways in which bytes are cut into pieces", "why_tests_cant": "about all bytes and all interleavings", "anchors": ["src/cppnet/server/tcp_server.cpp: TcpServer::HandleAccept (kMultiThread), TcpServer::EventLoop", "src/cppnet/http/server/http_server.cpp: HttpServer::HandleRead", "src/cppnet/http/client/http_client.cpp: HttpClient::Send"]}
{"id": "C200", "title": "Of a body, what comes before its first NUL byte arrives, and the connection stays in step", "statement": "A request with any body (with sendable headers and a plain path) that a client of the library sends reaches the handlers with everything it had, except that its body ends before its first NUL byte; its Content-Length is still the length of the whole body. The same holds for responses, of which Send returns success. Whatever is in the bodies, the next byte to be read on the connection is the first one after the body, so that any number of requests that follow each other on a connection are handled one after the other.", "quantifier": "all requests and responses with any bytes in their bodies, all sequences of requests on one connection", "why_tests_cant": "needs bodies with NUL bytes in all places, for all sequences of requests", "anchors": ["src/cppnet/socket/socket.cpp: Socket::Read", "src/cppnet/http/server/http_server.cpp: HttpServer::HandleRead", "src/cppnet/http/client/http_client.cpp: HttpClient::Send"]}
{"id": "C201", "title": "The shared table of content types is only read while threads serve files", "statement": "While the server with worker threads (kMultiThread or kMixed) serves static files and directories, no two threads are ever both about to run handlers that change the static map HttpHeader::custom_content_type_, which nothing locks. (False with StaticDir once a content type was registered for a suffix but none for the empty one: serving such a file looks up \"\" with operator[] and inserts it. Otherwise the map never changes at all.)", "quantifier": "all routers made with StaticDir, StaticFile and handlers that leave the map alone, all numbers of threads, all clients and schedules", "why_tests_cant": "a data race on an unlocked map shows only in rare interleavings", "anchors": ["src/cppnet/http/header/http_header.cpp: HttpHeader::SetContentType, ConvertToStr", "src/cppnet/http/server/http_server.cpp: HttpGroup::StaticDir, StaticFile"]}
{"id": "C202", "title": "The web site on worker threads shows what the configuration says", "statement": "With the routes of the configuration on a server with worker threads: every visit that has come back shows the page, the redirection or \"not found\", as the configuration says (C178), whatever strangers send and whichever threads serve whom, as long as the number of a new visitor's connection is not in use by a thread or a task.", "quantifier": "all configurations with plain routes in order, all numbers of threads, visitors and strangers, all bytes, all interleavings", "why_tests_cant": "needs all interleavings of threads, visitors and strangers with any bytes", "anchors": ["demo/web-server/main.cpp", "src/cppnet/http/server/http_server.cpp: HttpServer::HandleRead", "src/cppnet/server/tcp_server.cpp: TcpServer::EventLoop (kMultiThread)", "src/cppnet/http/client/http_client.cpp: HttpClient::Send"]}
{"id": "C203", "title": "On worker threads every visitor gets an answer, as long as the web server runs", "statement": "With the same visitors and strangers as in C202: from any state, only a bounded number of steps are possible without a visitor who comes or goes, a new visit, or something new from a stranger; and when none is possible any more, the process is still there, and there are not more visitors present than threads, every visit has its answer.", "quantifier": "all configurations with plain routes in order, all numbers of threads, visitors and strangers, all bytes, all interleavings", "why_tests_cant": "needs all interleavings of threads, visitors and strangers with any bytes", "anchors": ["demo/web-server/main.cpp", "src/cppnet/http/server/http_server.cpp: HttpServer::HandleRead", "src/cppnet/server/tcp_server.cpp: TcpServer::EventLoop (kMultiThread)", "src/cppnet/http/client/http_client.cpp: HttpClient::Send"]}
{"id": "C204", "title": "What can stop the web site on worker threads", "statement": "With the same visitors and strangers as in C202: if the process is gone, then a thread that served a number that was closed or stood for a stranger's connection read a line feed among the first three bytes or the last of 2 GiB, or the write of the answer met a closed connection, or the request had a byte in its path that is not ASCII, or was a GET, for the right host and without \"..\", of something in a directory of the configuration about which stat(2) fails other than by its absence (or had a path of 2 GiB).", "quantifier": "all configurations with plain routes in order, all numbers of threads, visitors and strangers, all bytes, all interleavings", "why_tests_cant": "needs all interleavings of threads, visitors and strangers with any bytes", "anchors": ["demo/web-server/main.cpp", "src/cppnet/http/server/http_server.cpp: HttpServer::HandleRead", "src/cppnet/server/tcp_server.cpp: TcpServer::EventLoop (kMultiThread)", "src/cppnet/http/client/http_client.cpp: HttpClient::Send"]}
{"id": "C205", "title": "A server that does not start says why", "statement": "If HttpServer::Init fails, err_msg() is the text of the system for the first call that failed (socket, setsockopt, bind, listen, epoll_create, epoll_ctl), after one or two tags, or says that the port is missing; if Init succeeds the text is the old one. InitSSL says the same, or what was wrong with the call; Run, WakeUp and AddSoc say why they refuse.", "quantifier": "all addresses, all answers of the system calls, all texts of the system, all modes, all earlier texts", "why_tests_cant": "every combination of failing calls cannot be made to happen in a test", "anchors": ["src/cppnet/server/tcp_server.cpp: CreateSocket, Init, InitMode, AddSoc, WakeUp, EventLoop", "src/cppnet/server/io_multiplexing/epoll.cpp: Init, MonitorSoc", "src/cppnet/http/server/http_server.cpp: Init, InitSSL, Run"]}
{"id": "C206", "title": "A client that does not connect says why", "statement": "If HttpClient::Init or InitSSL fails, err_msg() names the first step that failed: the text of the system for socket or connect, or what TLS could not do; if it succeeds the text is the old one.", "quantifier": "all answers of the system calls and of OpenSSL, all texts of the system, all states of the client", "why_tests_cant": "every combination of failing calls cannot be made to happen in a test", "anchors": ["src/cppnet/http/client/http_client.cpp: Init, InitSSL", "src/cppnet/ssl/ssl_context.cpp: InitCli, CreateSSLSocket", "src/cppnet/socket/socket.cpp: err_msg"]}
{"id": "C207", "title": "The log tells how many connections are open, and which", "statement": "At every moment the number of open connections, and which descriptors they are, can be worked out from the log of the server (mode kIOMultiplexing); every entry for a lost connection says why it was lost.", "quantifier": "all sets of routes, all bytes of all peers, all interleavings of connections, all failures of accept, epoll_ctl, getpeername, reading and writing", "why_tests_cant": "needs all interleavings of connections and failures", "anchors": ["src/cppnet/http/server/http_server.cpp: HandleAccept, HandleLeave, HandleError, HandleRead", "src/cppnet/server/tcp_server.cpp: HandleAccept, HandleLeave, HandleError", "src/cppnet/server/io_multiplexing/epoll.cpp: Epoll::Loop"]}
{"id": "C208", "title": "The log tells what each open connection was answered", "statement": "At every moment, for every open connection, the \"resp:\" entries of the log with the connection's number since the \"accept\" entry with it are the answers given on this connection, in order and with their status, whatever the other connections did and however often numbers are used again.", "quantifier": "all sets of routes, all bytes of all peers, all interleavings of connections, all failures of accept, epoll_ctl, getpeername, reading and writing", "why_tests_cant": "needs all interleavings of connections and failures", "anchors": ["src/cppnet/http/server/http_server.cpp: HandleAccept, HandleLeave, HandleError, HandleRead", "src/cppnet/server/tcp_server.cpp: HandleAccept, HandleLeave, HandleError", "src/cppnet/server/io_multiplexing/epoll.cpp: Epoll::Loop"]}
{"id": "C209", "title": "Malformed escapes are not decoded", "statement": "UrlDecode gives the empty text for every text that does not follow the standard; in particular no byte can be written by an escape with other than hexadecimal digits.", "quantifier": "all byte strings", "why_tests_cant": "an infinite set of malformed texts", "anchors": ["src/cppnet/utils/string.cpp: StringUtil::UrlDecode"]}
{"id": "C210", "title": "Every request target is read in exactly one way, malformed or not", "statement": "For every non-empty target HttpRoute::Parse succeeds; the path is the text before the first '?', the parameters are those of the '&'-separated pieces after it (the last of a name counts; the value is decoded as far as it goes, and is empty when it ends with a bare '%'); names are decoded as values are.", "quantifier": "all targets below 2 GiB, all earlier contents of the route object", "why_tests_cant": "an infinite set of targets, most of them malformed", "anchors": ["src/cppnet/http/req/route/http_route.cpp: HttpRoute::Parse", "src/cppnet/utils/string.cpp: StringUtil::UrlDecode, StringUtil::Split"]}
{"id": "C211", "title": "A request that has arrived gets answered even if other peers do not read their answers", "statement": "Without a write time-out: whatever was asked and answered so far, whatever the size of the buffers and whichever peers have not read, if every peer sends whole requests that the handlers answer, a request that has arrived on a connection can be answered by steps of the server alone.", "quantifier": "all buffer sizes, numbers of connections, requests, handlers and interleavings of sending, reading and serving", "why_tests_cant": "slow readers block only when the buffers of both hosts are full; the number of interleavings is unbounded", "anchors": ["src/cppnet/http/server/http_server.cpp: HttpServer::HandleRead, HttpServer::HandleAccept", "src/cppnet/socket/socket.cpp: Socket::Write", "src/cppnet/server/io_multiplexing/epoll.cpp: Epoll::MonitorSoc"]}
{"id": "C212", "title": "What a peer reads is the text of its answers, in order, without gaps, however slowly it reads", "statement": "Whatever the sizes of the buffers and the order of reading and serving: what a peer has read is a beginning of its answers one after the other; the rest is in the buffer of its connection or in the one write that waits; a write waits for a peer only if the peer has left a whole buffer unread.", "quantifier": "all buffer sizes, runs, connections", "why_tests_cant": "depends on how the peers' reads interleave with the server's writes", "anchors": ["src/cppnet/http/server/http_server.cpp: HttpServer::HandleRead, HttpServer::HandleAccept", "src/cppnet/socket/socket.cpp: Socket::Write", "src/cppnet/server/io_multiplexing/epoll.cpp: Epoll::MonitorSoc"]}
{"id": "C213", "title": "When a write times out the connection is closed, so that no peer takes the next answer for the rest of this one", "statement": "With SetWriteTimeout: if the server gives up waiting for a peer to read, it closes the connection of this peer and goes on with the others.", "quantifier": "all runs in which a write waits", "why_tests_cant": "needs full buffers and a time-out at the right moment", "anchors": ["src/cppnet/http/server/http_server.cpp: HttpServer::HandleRead, HttpServer::HandleAccept", "src/cppnet/socket/socket.cpp: Socket::Write", "src/cppnet/server/io_multiplexing/epoll.cpp: Epoll::MonitorSoc"]}
{"id": "C214", "title": "The type a file is sent with depends on its name and on the registered types only", "statement": "The type in the answer of StaticFile and StaticDir is the one registered last for the suffix of the file name, otherwise that of the built-in table, otherwise application/octet-stream; which files were asked for before does not matter.", "quantifier": "all file names, registered types, routes and histories of requests", "why_tests_cant": "the table of types is process-wide and is changed by requests", "anchors": ["src/cppnet/http/server/http_server.cpp: HttpGroup::StaticDir, HttpGroup::StaticFile", "src/cppnet/http/header/http_header.cpp: HttpHeader::ConvertFileType, HttpHeader::ConvertToStr, HttpHeader::SetCustomContentType", "src/cppnet/utils/file.cpp: File::Suffix"]}
{"id": "C215", "title": "With a worker for every connection a peer that does not read its answers harms only itself", "statement": "Modes kMultiThread and kMixed: with at least as many workers as connections, whatever the size of the buffers and whichever other peers do not read, a peer that has sent whole requests and reads can get the whole answers to all of them. Every byte of an answer is read, in the buffer of the connection, or still to be written by a worker that waits.", "quantifier": "all buffer sizes, numbers of workers, requests, handlers and interleavings of sending, reading, accepting and serving", "why_tests_cant": "workers are lost one by one, each only when buffers are full; tests use few requests and peers that read", "anchors": ["src/cppnet/http/server/http_server.cpp: HttpServer::HandleRead", "src/cppnet/server/tcp_server.cpp: TcpServer::EventLoop, TcpServer::HandleAccept", "src/cppnet/socket/socket.cpp: Socket::Write", "src/cppnet/utils/threadpool.hpp: ThreadPool"]}
{"id": "C216", "title": "An HTTPS server with worker threads answers every request", "statement": "Mode kMultiThread with TLS: when the server has nothing left to do and no connection waits for a worker, every request of a peer that has shaken hands has been answered, in order, and the connection is still open, whatever the other peers send and whatever waits for other peers time out.", "quantifier": "all requests, cuts into records, handlers, numbers of workers, and interleavings of the steps of workers, of the accepting thread and of all peers", "why_tests_cant": "sessions are found by descriptor number; a test would have to make the kernel give a number away between two steps of a worker", "anchors": ["src/cppnet/http/server/http_server.cpp: HttpServer::HandleAccept, HttpServer::HandleRead, HttpServer::HandleLeave", "src/cppnet/server/tcp_server.cpp: TcpServer::EventLoop", "src/cppnet/ssl/ssl_socket.cpp: SSLSocket::Close, SSLSocket::CloseSSL", "src/cppnet/ssl/ssl_context.cpp: SSLContext::AcceptSSL"]}
{"id": "C217", "title": "With a worker for every connection an HTTPS peer can always be served", "statement": "Mode kMultiThread with TLS: with at least as many workers as connections, all requests that a peer has sent can be answered by steps of the server alone, also while other peers do not even do their part of the handshake.", "quantifier": "all requests, cuts into records, handlers, numbers of workers and interleavings, and every behaviour of the other peers", "why_tests_cant": "a test that sees no answer cannot tell a server that will never answer from a slow one", "anchors": ["src/cppnet/http/server/http_server.cpp: HttpServer::HandleAccept, HttpServer::HandleRead, HttpServer::HandleLeave", "src/cppnet/server/tcp_server.cpp: TcpServer::EventLoop", "src/cppnet/ssl/ssl_socket.cpp: SSLSocket::Close, SSLSocket::CloseSSL", "src/cppnet/ssl/ssl_context.cpp: SSLContext::AcceptSSL"]}
{"id": "C218", "title": "No worker reads with a TLS session that another worker has freed", "statement": "Mode kMultiThread with TLS: a worker that waits in the middle of a request holds a session that is in use, its number still stands for the same connection and for the same session, and no other worker uses that number.", "quantifier": "all runs: requests and other texts, handlers, numbers of workers, interleavings, time-outs and failures of writes", "why_tests_cant": "use after free needs a number to be closed, given away again and a third step in between; tests do not control the order", "anchors": ["src/cppnet/http/server/http_server.cpp: HttpServer::HandleAccept, HttpServer::HandleRead, HttpServer::HandleLeave", "src/cppnet/server/tcp_server.cpp: TcpServer::EventLoop", "src/cppnet/ssl/ssl_socket.cpp: SSLSocket::Close, SSLSocket::CloseSSL", "src/cppnet/ssl/ssl_context.cpp: SSLContext::AcceptSSL"]}
{"id": "C219", "title": "A peer that leaves an HTTPS server with worker threads costs it a descriptor", "statement": "Mode kMultiThread with TLS: once the session of a connection has been freed because the peer has left (HandleLeave calls CloseSSL and not Close), the number of the connection is never given back, whatever happens later.", "quantifier": "all runs before and all runs after", "why_tests_cant": "tests end before the descriptors do", "anchors": ["src/cppnet/http/server/http_server.cpp: HttpServer::HandleAccept, HttpServer::HandleRead, HttpServer::HandleLeave", "src/cppnet/server/tcp_server.cpp: TcpServer::EventLoop", "src/cppnet/ssl/ssl_socket.cpp: SSLSocket::Close, SSLSocket::CloseSSL", "src/cppnet/ssl/ssl_context.cpp: SSLContext::AcceptSSL"]}
{"id": "C220", "title": "Peers cannot bring an HTTPS server with worker threads down", "statement": "Mode kMultiThread with TLS: if handlers do not fail and no write meets a closed connection, the process stays up; in particular no session is used after it has been freed or by two workers at a time.", "quantifier": "all runs: requests and other texts, handlers, numbers of workers, interleavings, time-outs", "why_tests_cant": "undefined behaviour in another thread shows up rarely, and needs three threads in a certain order", "anchors": ["src/cppnet/http/server/http_server.cpp: HttpServer::HandleAccept, HttpServer::HandleRead, HttpServer::HandleLeave", "src/cppnet/server/tcp_server.cpp: TcpServer::EventLoop", "src/cppnet/ssl/ssl_socket.cpp: SSLSocket::Close, SSLSocket::CloseSSL"]}
{"id": "C221", "title": "What a peer receives is made of beginnings of its answers, in order", "statement": "Whatever its writes do (take a part, fail, raise a signal), a server sends on a connection a beginning of the first text it writes there, then a beginning of the second, and so on; nothing else, nothing twice, nothing out of order. The same in the modes kIOMultiplexing, kMultiThread and kMixed, and with TLS in the first two.", "quantifier": "all runs: requests, handlers, results of writes, orders of events, time-outs, numbers of workers, reused descriptors", "why_tests_cant": "partial writes and failures at every point in every order of events cannot be tried", "anchors": ["src/cppnet/http/server/http_server.cpp: HttpServer::HandleRead", "src/cppnet/socket/socket.cpp: Socket::Write", "src/cppnet/server/tcp_server.cpp: TcpServer::EventLoop", "src/cppnet/ssl/ssl_socket.cpp: SSLSocket::Write"]}
{"id": "C222", "title": "Over TLS a peer receives whole answers only", "statement": "SSL_write takes a text as a whole or fails: then the bytes that reach the peer of an HTTPS server are all texts written for it, one after the other, or all but the last, and in this case the connection (with worker threads: its session) is closed and nothing follows. With one thread and with worker threads.", "quantifier": "all runs: requests, handlers, results of writes that do not take parts, orders of events, time-outs, numbers of workers, reused descriptors", "why_tests_cant": "a failure may happen at any write, in any order of events", "anchors": ["src/cppnet/http/server/http_server.cpp: HttpServer::HandleRead", "src/cppnet/socket/socket.cpp: Socket::Write", "src/cppnet/server/tcp_server.cpp: TcpServer::EventLoop", "src/cppnet/ssl/ssl_socket.cpp: SSLSocket::Write"]}
{"id": "C223", "title": "A server with one thread whose peers do nothing comes to rest", "statement": "In mode kIOMultiplexing, with or without TLS: whatever the peers have sent and however the writes go, the thread makes at most 2*(bytes not read) + 2*(open connections) + 3 steps until a peer does something or a time-out ends a wait; it never goes round the event loop without reading or closing. When it can make no step it is gone, waits inside a handshake or a request of one connection, or has nothing to read on any open connection.", "quantifier": "all runs: connections, bytes, records, requests, handlers, results of writes, orders of events", "why_tests_cant": "the absence of an endless loop in every reachable state cannot be tried", "anchors": ["src/cppnet/server/tcp_server.cpp: TcpServer::EventLoop", "src/cppnet/http/server/http_server.cpp: HttpServer::HandleRead, HttpServer::HandleAccept, HttpServer::HandleLeave", "src/cppnet/server/io_multiplexing/epoll.cpp: Epoll::Loop", "src/cppnet/socket/socket.cpp: Socket::ReadUntil, Socket::Read"]}
{"id": "C224", "title": "A server with worker threads whose peers do nothing comes to rest", "statement": "With worker threads the threads make a bounded number of steps until a peer does something. In mode kMultiThread: at most 4*(bytes not read) + 5*(tasks) + 6*(workers) + 1, in any order. Not so in kMixed: the main thread reports a connection again and again while the task for it waits, and each report is one more task, so the queue has no bound; there every report costs at most six steps.", "quantifier": "all runs in both modes: connections, bytes, requests, handlers, numbers of workers, interleavings, time-outs, reused descriptors", "why_tests_cant": "every interleaving of the workers; the absence of an endless loop", "anchors": ["src/cppnet/server/tcp_server.cpp: TcpServer::EventLoop", "src/cppnet/http/server/http_server.cpp: HttpServer::HandleRead, HttpServer::HandleAccept, HttpServer::HandleLeave", "src/cppnet/server/io_multiplexing/epoll.cpp: Epoll::Loop", "src/cppnet/socket/socket.cpp: Socket::ReadUntil, Socket::Read", "src/cppnet/utils/threadpool.hpp: ThreadPool::AddTask"]}
{"id": "C225", "title": "An HTTPS server with worker threads whose peers do nothing comes to rest", "statement": "The workers of an HTTPS server in mode kMultiThread make a bounded number of steps until a peer does something. Not so when a worker still watches a number that was closed and given to the next peer: the first bytes of that peer's handshake make it call HandleRead with the closed session of the one before, which returns at once, for ever. Each such call costs two steps; all others are bounded.", "quantifier": "all runs: connections, records, handshakes, requests, handlers, numbers of workers, interleavings, time-outs, reused descriptors", "why_tests_cant": "every interleaving of the workers; the absence of an endless loop", "anchors": ["src/cppnet/server/tcp_server.cpp: TcpServer::EventLoop", "src/cppnet/http/server/http_server.cpp: HttpServer::HandleRead, HttpServer::HandleAccept, HttpServer::HandleLeave", "src/cppnet/server/io_multiplexing/epoll.cpp: Epoll::Loop", "src/cppnet/socket/socket.cpp: Socket::ReadUntil, Socket::Read", "src/cppnet/ssl/ssl_socket.cpp: SSLSocket::Close"]}
{"id": "C226", "title": "HttpReq::GET and HttpReq::POST make the request asked for", "statement": "After GET(url, params, header) the object holds the method GET, HTTP/1.1, the path url, exactly the given parameters, the given headers over those it had, and no body; after POST(url, body, header) the method POST, the path, the headers and exactly the body. True for a fresh object and for POST's body and path always; a GET on an object that was used before keeps its old parameters and its old body and sends them along. What a fresh GET builds is parsed back by a server to the same path, parameters and headers.", "quantifier": "all urls, maps of parameters and headers, bodies, previous contents of the object, orders of iteration", "why_tests_cant": "an object reused after any history", "anchors": ["src/cppnet/http/req/http_req.cpp: HttpReq::GET, HttpReq::POST, HttpReq::Build"]}
{"id": "C227", "title": "The form that HttpReq::POST makes of a map", "statement": "The body made of a map of parameters is an application/x-www-form-urlencoded form with exactly these entries. True for a fresh object when no name or value has one of + % & and no name has '='. Else not: nothing is escaped, a reused object keeps its old body in front, and an empty map removes the last byte of the old body.", "quantifier": "all maps, previous contents of the object, orders of iteration", "why_tests_cant": "every byte in names and values", "anchors": ["src/cppnet/http/req/http_req.cpp: HttpReq::GET, HttpReq::POST, HttpReq::Build"]}
{"id": "C228", "title": "Of the calls a handler makes for its answer the last one counts", "statement": "After any calls of NotFound, Redirect, Success..., BadRequest, InternalServerError, Json, Text in any order: status, content type, body and Location are those the last call gave that gives one, everything else is as before, the client reads exactly that, and the types of files stay. Not so: Success(type, \"\") leaves the body of an earlier call (200 with the page \"404 Not Found\"), and Success(kCustom, ...) registers an empty type for files without suffix.", "quantifier": "all sequences of calls, arguments, previous contents, registered types, orders of iteration", "why_tests_cant": "all sequences of calls", "anchors": ["src/cppnet/http/resp/http_resp.cpp: HttpResp::NotFound, HttpResp::Redirect, HttpResp::SuccessWithBinary, HttpResp::SuccessWithJson, HttpResp::Success, HttpResp::BadRequest, HttpResp::InternalServerError, HttpResp::Json, HttpResp::Text"]}
{"id": "C229", "title": "Clear makes an object like new", "statement": "After Clear, an HttpReq or HttpResp behaves like a new object. True for Parse, GET and POST, whatever the object held. Not true for the version: a cleared request has none, so Build fails where it succeeds for a new one with the same method; a cleared answer keeps the version it had.", "quantifier": "all previous contents, all texts and arguments", "why_tests_cant": "all histories of an object", "anchors": ["src/cppnet/http/req/http_req.cpp: HttpReq::Clear", "src/cppnet/http/resp/http_resp.cpp: HttpResp::Clear"]}
{"id": "C230", "title": "Requests with a chunked body", "statement": "The handlers see the data of a body sent with \"Transfer-Encoding: chunked\" (RFC 9112, 7.1). Not so. Without a Content-Length the handlers see the request without a body, and the chunks are read as the next request: no handler ever runs for them, but if the first chunk's size is one character (a chunk of less than 16 bytes, or the empty body) ReadUntil throws and the server process ends; else the answer is 400 and the connection is closed. With a Content-Length beside it the handlers can be made to see a request that is hidden in the data of a chunk.", "quantifier": "all request heads, all chunked bodies, all error texts, outcomes of writes and orders of iteration", "why_tests_cant": "all chunked bodies", "anchors": ["src/cppnet/http/server/http_server.cpp: HttpServer::HandleRead", "src/cppnet/socket/socket.cpp: Socket::ReadUntil"]}
{"id": "C231", "title": "A connection ends when the request says so", "statement": "After the answer the connection is closed if and only if the request says \"Connection: close\" or is HTTP/1.0 without \"keep-alive\" (RFC 9112, 9.3). Not so: after every well-formed request whose answer could be written the connection stays open, and the next request is read where this one ended. So the rule holds exactly for the requests that do not ask for closing.", "quantifier": "all well-formed requests, handlers and following input", "why_tests_cant": "all requests", "anchors": ["src/cppnet/http/server/http_server.cpp: HttpServer::HandleRead"]}
{"id": "C232", "title": "Answers to HEAD have no body", "statement": "The answer to a HEAD request has no body (RFC 9110, 9.3.2). The method is not looked at: the answer is without body exactly if a handler set a status and left the body empty; in particular the 404 page is sent with its body.", "quantifier": "all requests, handlers, outcomes of writes and orders of iteration", "why_tests_cant": "all handlers", "anchors": ["src/cppnet/http/server/http_server.cpp: HttpServer::HandleRead"]}
{"id": "C233", "title": "A client that waits for 100 (Continue) gets an answer", "statement": "A client that sends \"Expect: 100-continue\" and waits before it sends the body gets an answer (RFC 9110, 10.1.1). Not so: while it waits the server's thread waits too, and a time-out ends the connection with nothing written. A client that sends the body anyway is answered as without the expectation.", "quantifier": "all request heads, bodies, handlers and following input", "why_tests_cant": "all heads and timings", "anchors": ["src/cppnet/http/server/http_server.cpp: HttpServer::HandleRead"]}
{"id": "C234", "title": "How many bytes are taken for a request's body", "statement": "A request's body is as long as its Content-Length says; a request whose Content-Length is no number, or that has two different ones, is refused (RFC 9112, 6.3). For requests with valid lengths and the name spelled Content-Length: true. In general: the number of bytes taken is the positive int that the last Content-Length (exactly so spelled) begins with as std::stoi reads it (white space, sign, digits, anything), else 0; whatever the header lines are, no request is refused for them: once these bytes have arrived the handlers see it. So with two different lengths the body can hold a request that the handlers see.", "quantifier": "all header lines, bodies, following input and outcomes of writes", "why_tests_cant": "all header lines", "anchors": ["src/cppnet/http/server/http_server.cpp: HttpServer::HandleRead", "src/cppnet/http/header/http_header.cpp: HttpHeader::GetContentLength"]}
{"id": "C235", "title": "Exactly which texts are addresses", "statement": "Address::Init never reports an error. The address is the one that the text up to its first NUL byte says: one to four C numbers (decimal, octal after 0, hexadecimal after 0x) separated by dots, all but the last below 256, the last filling the bytes that are left; white space ends the text. For every other text the address is 255.255.255.255. A text says at most one address. The port is the one given.", "quantifier": "all texts and ports", "why_tests_cant": "all texts", "anchors": ["src/cppnet/socket/address.cpp: Address::Init"]}
{"id": "C236", "title": "The message lists every option", "statement": "The message about the options of an application has a line for every option and variable that was declared, with its usage and whether it must be given, and for --help and --version. True if no name is declared twice: the lines are then exactly the declarations, each once (in any order), filled up to columns of 32 characters. For a name that is declared twice only the first usage is shown.", "quantifier": "all sequences of declarations, arguments and orders of the hash table", "why_tests_cant": "all sequences of declarations", "anchors": ["demo/util/argc_deal.cpp: ArgcDeal::MsgPrint", "demo/util/argc_deal.cpp: ArgcDeal::SetOption", "demo/util/argc_deal.cpp: ArgcDeal::SetVar"]}
{"id": "C237", "title": "Header lines that have to be refused", "statement": "A server refuses a request in HTTP/1.1 that has not exactly one Host line, or a header line that is no name with a colon right after it (RFC 9112, 3.2 and 5.1); its handlers see the others. The second half is true; the first is false: whatever the header lines are, the handlers see the request and it is answered.", "quantifier": "all header lines, following input and outcomes of writes", "why_tests_cant": "all header lines", "anchors": ["src/cppnet/http/server/http_server.cpp: HttpServer::HandleRead", "src/cppnet/http/header/http_header.cpp: HttpHeader::Parse"]}
{"id": "C238", "title": "HEAD requests for files", "statement": "A HEAD request for a file that a GET request would get with 200 is answered with 200 too (RFC 9110, 9.1 and 9.3.2). Not so: with StaticDir and StaticFile every request with another method than GET is answered with 404, whether the file is there or not; no file is opened.", "quantifier": "all requests with another method than GET, files, paths, directories and following input", "why_tests_cant": "all requests and files", "anchors": ["src/cppnet/http/server/http_server.cpp: HttpGroup::StaticDir", "src/cppnet/http/server/http_server.cpp: HttpGroup::StaticFile", "src/cppnet/http/server/http_server.cpp: HttpServer::HandleRead"]}
{"id": "C239", "title": "What an SSL context says about failures", "statement": "After any calls of InitCli, InitSvr, InitSvrFile and Close on an SSLContext, err_msg() is empty exactly if the last call succeeded. Not so: no call clears the text, so it stays after a later success. Proved: whatever came before, a call fails exactly if there is a reason for it (context already there, empty argument, no memory, certificate or key not taken), and err_msg() is then the text for the first reason in the order of the steps; a call that succeeds leaves the text as it was; on a new object the text is empty exactly if the first call succeeded. The same for AcceptSSL.", "quantifier": "all calls, states, certificates, keys, file contents, library answers and error texts", "why_tests_cant": "all combinations of failures in the library", "anchors": ["src/cppnet/ssl/ssl_context.cpp: SSLContext::InitCli", "src/cppnet/ssl/ssl_context.cpp: SSLContext::InitSvr", "src/cppnet/ssl/ssl_context.cpp: SSLContext::InitSvrFile", "src/cppnet/ssl/ssl_context.cpp: SSLContext::AcceptSSL"]}
{"id": "C240", "title": "Files, directories and missing names", "statement": "IsFile, Exist and IsDir answer for every name, rightly, and if Remove succeeds nothing is left under the name. Not so: all throw if stat(2) fails for another reason than a missing file (for no other name), and Remove of a directory says success and leaves it. Proved: for every other name the answers are right, and both are false exactly for missing names; after a successful Write or Append the name is a file and was no directory, and the answers for other names are as before; Remove leaves nothing unless the name is a directory.", "quantifier": "all file systems, names, data and device sizes", "why_tests_cant": "all file systems and names", "anchors": ["src/cppnet/utils/file.cpp: File::Exist", "src/cppnet/utils/file.cpp: File::IsDir", "src/cppnet/utils/file.cpp: File::IsFile", "src/cppnet/utils/file.cpp: File::Remove", "src/cppnet/utils/file.cpp: File::Write", "src/cppnet/utils/file.cpp: File::Append"]}
{"id": "C241", "title": "What a TLS socket says about failures", "statement": "If a call on an SSLSocket fails, err_msg() says why. Not so for reads without `complete` and for reads on closed sockets: they leave the text alone. Proved: the constructor makes an object that can be used exactly if the text is empty, else the text is the first reason; Close and Connect fail exactly if there is a reason, which is then the text, and leave the text alone if they succeed; a complete read on an open socket returns kSysErr with its text or a number that is not negative without touching the text.", "quantifier": "all sockets, sessions, results of connect(2) and SSL_connect, records, lengths and earlier texts", "why_tests_cant": "all states, records and results", "anchors": ["src/cppnet/ssl/ssl_socket.cpp: SSLSocket::SSLSocket", "src/cppnet/ssl/ssl_socket.cpp: SSLSocket::Close", "src/cppnet/ssl/ssl_socket.cpp: SSLSocket::Connect", "src/cppnet/ssl/ssl_socket.cpp: SSLSocket::IORead"]}
{"id": "C242", "title": "Request targets in absolute form", "statement": "A request for http://host/path is answered like one for /path with that host (RFC 9112, 3.2.2). Not so: whatever is registered for paths, in whatever order, a request whose target does not start with a slash (the absolute form, * and others) is answered with 404 and no handler sees it.", "quantifier": "all registrations, requests, following input and lengths of writes", "why_tests_cant": "all registrations and targets", "anchors": ["src/cppnet/http/server/http_server.cpp: HttpServer::HandleRead", "src/cppnet/http/req/route/http_route.cpp: HttpRoute::Parse"]}
{"id": "C243", "title": "Methods and versions that the server does not know", "statement": "A method that is not known is answered with 501, another major version than 1 with 505, and a request with a higher minor version is handled (RFC 9110, 2.5, 9.1 and 15.6.6). Not so: exactly the requests with one of nine methods and one of HTTP/1.0, HTTP/1.1 and HTTP/2.0 are handled, HTTP/2.0 like HTTP/1.1; every other method or version gets 400 and a closed connection, and no handler sees it.", "quantifier": "all methods, versions, targets that are paths, header lines, routers and following input", "why_tests_cant": "all methods and versions", "anchors": ["src/cppnet/http/server/http_server.cpp: HttpServer::HandleRead", "src/cppnet/http/req/http_req.cpp: HttpReq::Parse"]}
{"id": "C244", "title": "Answers with 204", "statement": "An answer with 204 (No Content) has no Content-Length and ends after its header lines (RFC 9110, 8.6 and 15.3.5). Not so: every answer with 204 has a Content-Length, and whatever a handler has set as the body is sent, so that a client that follows the rule takes exactly that body for the beginning of the next answer.", "quantifier": "all requests, routers, handlers that set 204, bodies and following input", "why_tests_cant": "all handlers and bodies", "anchors": ["src/cppnet/http/server/http_server.cpp: HttpServer::HandleRead", "src/cppnet/http/resp/http_resp.cpp: HttpResp::Build"]}
{"id": "C245", "title": "What an answer consists of", "statement": "An answer consists of exactly: the status line; one header line for each field that the handlers have set, except a length of their own, and one line with the length of the body; the body. Without a status set it is the page for 404 with its type added. So an answer says when it was made (RFC 9110, 6.6.1) only if a handler has set that field; the rule that every answer says so does not hold.", "quantifier": "all requests, routers, handlers, fields, bodies and orders of the fields", "why_tests_cant": "all handlers, fields and bodies", "anchors": ["src/cppnet/http/server/http_server.cpp: HttpServer::HandleRead", "src/cppnet/http/resp/http_resp.cpp: HttpResp::Build"]}
