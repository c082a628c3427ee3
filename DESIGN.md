# Formal model of seznam/fastrpc in Rocq (Coq 8.16.1)

## How the development is organised

All Coq sources are in `rocq/theories/` (logical name `Verif`).

* `Base.v`, `Value.v` - bytes, results (`Ok` / `Err` exception / `UB`), value trees.
* `M_*.v` - the **model**: one file per group of C++ sources, only definitions, each with a
  comment giving file and lines in `/repo/src`.
* `S_*.v` - small **specifications**, written without using the model's helpers.
* `L_*.v` - lemmas.
* `P_*.v` - the **property theorems**, each closed by `exact`-ing a lemma or by a short proof,
  followed by `Print Assumptions` and by `Example`s showing that the hypotheses
  are met by concrete non-trivial data.

Naming: `CNN_...` is the theorem (or theorems) of property `CNN`.  `..._refuted` is a proof that
the full property is false of the faithful model (with an explicit witness); it comes
together with `..._partial`, the strongest part that holds.

## Conventions of the model

* A C++ `char`/`unsigned char` buffer is `list byte` (`Coq.Init.Byte.byte`, 256 values); integers are `Z`
  with explicit conversion (`u8`, `s16`, `s32`, `u64`, ... of `Base.v`) where the C++ type wraps.
* Exceptions are constructors of `exn`; undefined behaviour is the distinct outcome `UB`, never
  silently totalised.
* Structs (`std::map<std::string, Value_t*>`) are association lists; `wf` says they are strictly
  sorted by key (what `std::map` guarantees) and that numbers are in range of their C++ types.
* Doubles are their 64-bit patterns.
* The network is a schedule: a list of segments / partial-send sizes chosen by the environment.
* Platform assumptions: little endian, `char` signed, 8-bit bytes, 64-bit `time_t`, `size_t` and pointers (x86-64
  Linux, as in the project's builds).

## Trusted base

* Coq's kernel (and `coqchk`).
* Axioms: none.  `Print Assumptions` stands behind every property theorem in the `P_*.v` files and prints
  `Closed under the global context` for every one of them.  (Loading `Lia` brings the seven constants of
  `Coq.ssr.ssrunder` into the environment; no theorem uses them.)
* That the model files say what the C++ says: comments cite the lines, and the simplifications are listed
  in each comment.
* What is outside the library enters as a parameter, quantified over in the theorems unless a hypothesis says what it
  is expected to do:
  * libxml2: `delivery` (S_Xml.v) says which callbacks a document gives, `faithful` and `orderly` (S_XmlUm.v) what a
    parser object does with the pieces of a document; parsers meeting them are exhibited.
  * The printing and reading of doubles (`ostream`, `strtod`), and `errno` as found on entry (`erange`).
  * `mktime`, `localtime_r` and the time zone; the clock of the proxy cache (its readings are inputs).
  * `mbrtowc` (`utf8_locale` of S_Validate.v describes a UTF-8 locale); the other `<cctype>` functions in the C locale.
  * `getaddrinfo`, and the answers of the kernel to `socket`, `connect`, `poll`, `recv`, `send`: every answer is
    possible; calls interrupted by signals (`EINTR`) are not modelled, bytes seen by a peek stay available.
  * What user code does: methods of a registry are functions to outcomes (a value or any exception), the user's
    logger and callbacks do not throw.
  * libstdc++: `operator>>` for numbers, `multimap::find` giving the first of several equal keys, a vector moved
    to itself becoming empty.
* The proxy cache works under a mutex, so that its operations are atomic; other objects of the library are not to be
  shared between threads.
* Memory allocation never fails, and nothing is as long as 2^64 bytes.

### What is modelled

| source | model |
|--------|-------|
| frpcbinmarshaller, frpctreefeeder | M_Marshal.v, M_Secrets.v |
| frpcbinunmarshaller, frpctreebuilder | M_BinUnmarshal.v, M_TreeBuilder.v, M_Secrets.v |
| frpcbase64, frpcb64writer, frpcb64unmarshaller | M_Base64.v |
| frpcxmlmarshaller, frpcxmlunmarshaller | M_Xml.v, M_XmlUm.v |
| frpcunmarshaller (choice of the format) | M_Detect.v |
| frpcjsonmarshaller, frpcurlunmarshaller | M_Json.v, M_Url.v |
| frpc.cc: dump, ISO dates, logging of structured calls | M_Dump.v, M_Iso.v, M_Log.v |
| frpchttp, frpchttpio | M_Http.v, M_HttpIO.v |
| frpchttpclient, frpcserverproxy | M_HttpWriter.v, M_Client.v, M_Proxy.v |
| frpcserver, frpcmethodregistry | M_HttpWriter.v, M_Server.v, M_Registry.v |
| frpcconnector | M_Connector.v |
| frpcarray, frpcstruct, frpccompare, frpcstring (validation) | M_Values.v, M_Validate.v |
| frpcpool and clone() of all values | M_Pool.v |
| frpcdatetime, dates made by frpcpool | M_DateTime.v, M_TreeBuilder.v |
| frpcconverters, wide strings of frpcstring | M_Convert.v |
| python/pythonfeeder.cc, pythonbuilder.{h,cc}, dumps and loads of fastrpcmodule.cc (Python 3, binary) | M_Python.v (CPython's UTF-8 codec as in the Unicode standard, mktime and localtime of the host as a parameter) |
| method registry of python/pythonserver.cc (register, dispatchCall, system methods, callbacks; Python 3) | M_PyRegistry.v (callables are functions of a world; the texts of the interpreter's own exceptions are a parameter; a callable run while an exception is pending is not disturbed by it) |
| Server_t of python/pythonserver.cc (serve, readRequest, write, flush, sendResponse; Python 3) | M_PyServer.v (the socket as in M_HttpIO.v; sending never fails; the header fields a call adds are a function of the world after it) |
| dumps and loads of fastrpcmodule.cc in both formats, finding out the format (Python 3) | M_PyDumps.v (the XML parser as in M_XmlUm.v, printing and reading of floats as in M_Xml.v) |
| python/fastrpc/handler/flask.py, aiohttp.py, tornado.py (with the fastrpc module; the frameworks give the fields Content-Type and Accept and the chunks of the body) | M_PyHandlers.v |
| ServerProxy of python/fastrpcmodule.cc (making a proxy, method names, header fields, calls with their hooks) with the HTTP client of frpchttpclient.cc in both transfer modes | M_PyClient.v (network and sockets as in M_Client.v; not ConfigParser objects, stringMode, datetimeBuilder, hooks that use the proxy) |
| javascript/fastrpc.mjs: parse, serializeCall | M_Js.v (the engine's TextEncoder and TextDecoder as in the WHATWG standard, its clock and Math.log as parameters) |
| javascript/fastrpc.mjs: hints, wrapped values, numbers as doubles | M_JsHints.v |
| python/fastrpcmodule.cc: DateTime, LocalTime, UTCTime, Boolean, boolean | M_PyDate.v |
| python/fastrpcmodule.cc: dumpTree, printPyFastRPCTree, printString | M_PyTree.v (printing of doubles, repr and str of bytes are parameters) |
| python/pythonbuilder.cc: buildDateTime with datetimeBuilder | M_PyBuilder.v |
| netcat/fastrpc-netcat3: printing of results, meaning of lines, the loop, completion | M_Netcat.v (texts of floats, bytes and foreign objects, int of a text, and what evaluated code does are parameters) |
| src/frpcmethodregistry.cc: which method objects are deleted | M_Owner.v |
| python/pyerrors.cc: the three error classes; python/fastrpcmodule.cc: errorRepr (Python 3) | M_PyErrors.v |
| python/pythonbuilder.{h,cc}: the references taken and given back (Python 3, without datetimeBuilder) | M_PyRefs.v |
| frpcerror.cc (and the other error classes): format; the texts of errors of frpcarray.cc, frpcstruct.cc, frpcvalue.cc and the conversions | M_ErrText.v |
| python/pythonfeeder.cc: recursion of feedValue over objects in memory that may contain themselves | M_PyCycle.v |
| frpctreefeeder.cc: feedValueImpl over values in memory | M_PoolFeed.v |

Not modelled: SSL (there is none), the `printValue` output to the console, of fastrpc-netcat3 the database client, printing with a trailing * and the older fastrpc-netcat for Python 2, the
texts of most exceptions, of the Python binding Python 2, stringMode (without effect in Python 3), ConfigParser objects, reference counts (but for those of the builder of objects), objects that contain themselves elsewhere than in the feeder, the TypeScript source (the JavaScript generated from it is modelled), of the
JavaScript implementation invalid dates and elements of binary arrays that are no numbers, Windows.

## Plan per property

| id | what is modelled | how it is proved |
|----|------------------|------------------|
| C01 | BinMarshaller, TreeFeeder, BinUnMarshaller driver + state machine, TreeBuilder | induction on the value (nested), driver step lemmas, tree builder invariant |
| C02 | same, method call | same + induction on the parameter list |
| C03 | packFault, FaultBuilder | direct computation of driver steps |
| C04 | Driver_t buffering (`buffer`, `dataWanted`, `finish`) generic in the builder | simulation: buffered state and one-piece state agree; induction on the pieces |
| C05 | packInt, getNumberType, zigzag, getInt64 | arithmetic on byte lists |
| C06 | protocol 1 packInt | refuted by witness; partial for 0 .. 2^32-1 |
| C07 | packDateTime, getDateTime(V3) | bit arithmetic; refuted for years >= 2624 |
| C08 | S_STRING_LEN, ... | case analysis of one step |
| C09 | every read guarded: out-of-range read is `UB` | invariant: `UB` unreachable |
| C10 | event trace of the decoder | invariant relating recursion stack and the trace's nesting |
| C11 | finish | refuted (response without value, fault without message); partial |
| C12 | finish on prefixes of an encoding | from round trip by prefix induction |
| C13 | Driver_t::finish after exception | invariant on buffered failing state |
| C14 | unMarshallKnown | simulation with unMarshall |
| C15 | encoding | corollary of generalised round trip |
| C16 | packNull, names | case analysis |
| C17, C18 | TreeFeeder calls, TreeBuilder | induction |
| C19 | escape/unescape | induction |
| C20 | Secrets_t, SecretKey_t, secret tree, ExtTreeBuilder | refuted (index 10); partial |
| C21 | dumpFastrpcTree | induction, relation "equal up to secrets" |
| C22 | compare | induction; refuted with NaN |
| C23, C24 | Struct_t, Array_t | map laws |
| C25-C27 | Base64 | state machine simulation |
| C28, C54 | URLUnMarshaller | percent decoding: undefined exactly for a dangling `%`; whole call: grouping invariant + tree builder lemmas |
| C29, C30 | JSONMarshaller | induction; small JSON grammar as specification |
| C31 | writeQuotedString | induction |
| C55 | XMLMarshaller, SAX handlers of XMLUnMarshaller | text of a value -> callbacks of a conforming parser -> builder calls, by induction; refuted: CR, ill-formed text, INT64_MIN, stale errno |
| C56 | SAX handlers, version sniffing | invariant: open elements = open containers; refuted: nested methodResponse in a fault, std::out_of_range, version by cutting |
| C32 | getISODateTime, parseISODateTime | decimal printing lemmas |
| C33, C34 | HTTPClient/Server write buffers | invariant on storage; refuted for big first write |
| C35-C37 | HTTPIO with a scheduled socket | simulation against the flat stream |
| C38 | polishName, HTTPHeader_t | list induction |
| C39 | URL_t | string lemmas; refuted witnesses |
| C40-C42 | MethodRegistry | case analysis over method outcomes |
| C43 | registry reader, Server readRequest, binary UnMarshaller finish | induction over the cut message (head, length, chunks) and over the parameters of a cut call (L_CutCall, P_CutBody); refuted: call cut between parameters, registry reader |
| C44, C45 | ProxyCache_t with its timer queues, construction and destruction of proxies (M_Proxy) | invariant of the timer queues; every history against a list of kept connections (S_Proxy); refuted: headers of the previous owner, clock set back |
| C47, C66 | configFromStruct | case analysis; refuted: version text |
| C46, C48, C62, C63 | ServerProxy::call, connectSocket, sendRequest (M_Client) over a network with failures | histories; invariant: the kept connection holds no unread bytes |
| C49 | validateBytes over mbrtowc (M_Validate) | induction over characters in a UTF-8 locale; refuted: malformed text makes no progress and is read out of bounds |
| C50, C67 | logStructuredCalls, with_logger (M_Log) | case analysis, induction over the entries; refuted by witnesses composed with the registry |
| C51, C64, C65 | readResponse (M_Client), ownership of the unmarshaller included | refuted by witness + partial; every input (XML: when a fault is the last thing in a document, refuted otherwise); every cut |
| C52, C61 | Server serve loop | induction over the requests of a connection against an HTTP specification (S_Server.v); refuted: requests of unknown type, broken requests of HTTP/1.0 answered in chunks |
| C60 | Server serve loop | every round takes a line from the socket and nothing undefined happens (invariants of all reading functions); XML over any `orderly` parser (S_XmlUm); URL-encoded requests: what is fed comes from the connection (L_ServerUrl) and only a dangling `%` is undefined (L_UrlSafe); refuted: URL decoder, INT64_MIN, dangling header, XML error numbers beyond the table of texts |
| C53, C68 | Pool_t and clone() over a memory of objects with pointers (M_Pool) | history invariant on occurrences of every object; clones by induction over the value read; refuted: overwritten pools, views, forced dates, cycles |
| C69 | connectSocket of all connectors down to the system calls (M_Connector) | all outcomes of a connect enumerated once, then induction over the history; agreement with the client model; refuted for a connector used alone |
| C70 | makeConnector, the connectors' addresses, URL_t | C39 lemmas; refuted: long UNIX paths, port 0, UNIX socket as proxy, empty host |
| C71 | Server_t::serve, readRequest, sendHttpError | induction over served requests, then each kind of refused request (P_Refuse.v) |
| C57 | registry, server and client together, binary and XML (`xml_um`: XML unmarshaller over a parser parameter) | composition of C01-C03, C33-C37, C40; XML with parsers that are `faithful` (S_XmlUm; `at_once_faithful` shows one) |
| C72, C73 | constructors of DateTime_t and Pool_t's functions making dates (M_DateTime), the C library's clock by specification | the Gregorian calendar (S_Calendar: every day has one date), then C01 and C32; refuted: UTCTime, zones of ISO texts, receivers in other zones |
| C58 | MethodRegistry with Callbacks | case analysis over method outcomes |
| C59 | system methods | history induction over registrations |
| C74 | UnMarshaller_t::create from data (M_Detect) | equal to the unmarshaller of the format for first pieces of 4 bytes and more, composed with C01-C03 and C55; refuted for shorter ones and for the wanted type |
| C75 | parse of fastrpc.mjs over what bin_run writes (M_Js; S_Js relates values of both languages, texts by their characters) | induction over values; UTF-8 and UTF-16 by the states of the decoder; refuted for what does not fit |
| C76 | serializeCall of fastrpc.mjs, read by the C++ unmarshaller and tree builder | the bytes equal those of the C++ marshaller for the corresponding value (members in any order: decodes_any), then C02; refuted for what js_sends leaves out |
| C77 | parse of fastrpc.mjs on prefixes | induction over values: a strict prefix throws or is eaten up whole by a last text; refuted: texts, calls |
| C78 | to_array, to_struct, array_cnvt, wide strings (M_Convert) | induction over the container for any conversion function, then C01; refuted: names, wide strings |
| C79 | dumps and the feeder (M_Python), read by the C++ unmarshaller and tree builder | the calls of the feeder are those of the C++ feeder for the corresponding value (members in any order: decodes_any), then C01-C03; the exceptions by induction over the object; refuted: large integers, aware datetimes, codes, versions |
| C80 | loads and the builder over what bin_run writes | induction over values with the builder's stack; refuted: NUL in names, messages of faults |
| C81 | dumps, then loads | C79 and C80 composed, `seen` says what comes back |
| C82 | loads on prefixes | refuted for every prefix: `finish` is not called |
| C83 | loads on all byte strings | invariant of unmarshaller and builder with the trace of builder calls |
| C84 | dispatchCall with callbacks over arbitrary callables (M_PyRegistry); S_PyRegistry `handled` | case analysis per stage, fuel by the nesting of the parameters (`dispatch_unfold`); refuted: exceptions without text, long names |
| C85 | system_multicall | induction over the entries, each by C84; refuted: no single-item arrays |
| C86 | register, stringToSignature, introspection | history induction over registrations, grammar of signatures by induction on length; refuted: str as help text |
| C87 | serve of the Python server (M_PyServer), S_PyServer `py_connection` | the HTTP lemmas of C33 generalised to any sink, C84 for the call, induction over the requests; refuted: path of forms, closed keep-alive connections, left-over fields |
| C88 | serve on any byte sequence | L_ReadAny.v (reading HTTP with any sink), L_PyCall.v (any binary body), L_PyXml.v (any XML body), L_PyServer3.v (any request, any connection): L_PyStrs.v (strings of what the builder builds): the only causes of a crash are bad versions and missing names in XML bodies, bad forms, results of received calls that cannot be written, and a postprocessor with a name or parameters that are not UTF-8; refuted: texts that are not UTF-8, versions, names, smallest and too large integers, member names, forms, preRead |
| C89 | ServerProxy of the Python module: Method_call, operator(), the HTTP client in chunked and in plain mode (M_PyClient), S_PyClient `py_sent` | what is given to the network is a prefix of the text of one request (induction over the writes, L_PyClient), sockets are counted (L_PyClient2), cases of a call (L_PyClient3) |
| C90 | the feeder and the marshaller within a call | C79 for the arguments, then C89; refuted: chunks, 2^63 |
| C91 | histories of calls and closings (S_PyClient `py_after`, `py_answered`) | invariant: the kept connection holds no unread bytes; values by C80; refuted: a second response |
| C92 | the call with and without hooks | both runs share the exchange; `told` says what postCall is given; refuted: texts that are not UTF-8 |
| C93 | attribute lookup of proxies and methods | induction on the names; refuted: NUL |
| C94 | histories; `given_fields` says which fields an object stands for | C89 for every call, the fields of a call are dropped by the exchange; refuted: unusable entries |
| C95 | status lines (`error_head`) | the exchange depends on what arrives only through the reading; refuted: empty reason |
| C96 | the readers of responses on any bytes (S_PyClient `py_troubles`, `told_of`) | what reaches an unmarshaller is part of what arrives; binary by C83, XML by an invariant on open containers; refuted: faults, versions |
| C97 | dumps_any, loads_data (M_PyDumps), S_PyXml `xml_has`, `undated` | feeding an object writes the XML of its value (induction), reading by C55 with the builder of C80; refuted: what XML does not have, cut texts |
| C98 | loads_any on any data | the invariant of C96 on open containers, for a call, a response and a fault; refuted: version, fault |
| C99 | `flask_handle`, `aiohttp_handle`, `tornado_post` (M_PyHandlers), S_PyHandlers `listed` | the elements of a list with commas are those a string is cut into; case analysis; refuted: ranges, parameters, XML of aiohttp.py |
| C100 | the same with S_PyHandlers `asks`, `tells`, `with_status`, `latest` | requests by C80 and C55, answers by C79 and C97, registration by induction; refuted: chunks, plain functions |
| C101 | the same | as C100 with the answers for unknown names and exceptions |
| C102 | the same, `first_ones` | names of a dict by induction on the registrations |
| C103 | the same on any body | C83, C98, and dumps on any object without the smallest time; refuted: fault, version, smallest integer |
| C104 | `body_len` | length of UTF-8 by induction; refuted: a letter outside of ASCII |
| C105 | how hints are written and looked up, wrapped values, numbers as doubles | positions without dots are written uniquely; mutual induction over the typed data gives the message of C76; refuted for fractions, infinities, dots and the hint for all of binary |
| C106 | readContent against the cases of RFC 7230 3.3.3 (S_Framing.v) | from the theorems of C37; refuted: request smuggling by two lengths, by both fields, by a space after the name, by 0x in a chunk size |
| C107 | the constructors of DateTime, LocalTime and UTCTime, newDateTime, over M_DateTime.v and M_Iso.v | from the lemmas of C72; refuted: UTCTime(t), DateTime(t, zone), the unix time of UTCTime() and of texts, far times |
| C108 | DateTimeObject_richcmp and _to_timestamp; mktime told it is not summer time (S_PyDate.v) | arithmetic over the calendar; refuted: one moment in two zones |
| C109 | Boolean, boolean(), the attributes of dates | by cases; refuted: numbers cut, del |
| C110 | dumpTree of Python: what differs only in what is hidden or deep gives the same dump | induction over the relation; refuted: names that are no dict, names with NUL, bytes keys |
| C111 | dumpTree of Python: of any data there is a dump | induction over the object; refuted: strings cut within a character, wide numbers, surrogates |
| C112 | datetimeBuilder of loads: a callable with a world | induction on the value as for C80, with the list of dates; refuted: times beyond 32 bits |
| C113 | what the console prints of two results | the text is read back from the left: kinds and names have no spaces, numbers end at a character that is no digit, texts at a quote; refuted: quotes, bytes, zones |
| C114 | the same with sorted members | sorting by a strict total order gives one list for all orders (NoDup names) |
| C115 | lines of words; the help text as an inductive relation between lines and actions | cutting a line into its words, case by case; refuted: exit with a result (no line at all), timeout |
| C116 | the loop over lines and Ctrl+C, commands as functions of a world | induction on the script; refuted: exec, EOFError |
| C117 | Completer, the words of a client | filter lemmas |
| C118 | registerMethod, registerDefaultMethod, registerHeadMethod, constructor and destructor, objects as numbers | conservation (permutation) by induction on the history; refuted: replaced methods, last default, two names |
| C119 | dumpFastrpcTree, the limit on strings, binaries and binary references | induction on the bytes and the pieces; refuted: dots at exactly the limit, limit 0 |
| C120 | pyerrors.cc, errorRepr, over every history of an error object | cases on the arguments, text is cut at the colon and the digits; invariant on the method; refuted: any object as the method (undefined behaviour), ambiguous texts with a method |
| C121 | references taken and given back by an error object | balance invariant over histories; refuted: wrong number of arguments, second initialisation |
| C122 | serve from two states of the server object (M_Server.v) | relation between the states, preserved by every round; refuted: HEAD |
| C123 | Server.serve of the Python binding from two states (M_PyServer.v) | as C122; refuted: version after a request that cannot be read, HEAD |
| C124 | references of the builder of Python objects, numbered, each with its holder (M_PyRefs.v) | invariant: whatever is held hangs on the result or is lost; induction on the calls; refuted: names that are not ASCII, faults, nulls after an error |
| C125 | texts of errors of element access, member access, checkItems and conversions (M_ErrText.v) | texts are taken apart at characters a number or name cannot have; induction on the format; refuted: item number, range, long keys and keys with NUL |
| C126 | _decodeUTF8 with TextDecoder (M_Js.v), all bytes | every step without a replacement character takes the UTF-8 of one character; refuted: cut off texts, byte order marks |
| C127 | recursion of Feeder_t::feedValue over a heap of objects (M_PyCycle.v), all stacks | more stack does no harm; trees are fed as by M_Python.v, and what is written is a tree; trees have no cycle by depth; refuted: an item of itself exhausts every stack, induction on the stack |
| C128 | feedValueImpl over the memory of M_Pool.v (M_PoolFeed.v), all stacks | induction on the tree a value reads as, and on the stack for the converse; C68 for clones; refuted: an array that is an item of itself, induction on the stack |
