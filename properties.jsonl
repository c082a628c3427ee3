{"id": "C01", "title": "Binary round trip of a method response", "statement": "Marshalling a method response carrying a value in the binary format (protocol 2.1 or 3.x) and unmarshalling the produced bytes into a tree builder yields exactly that value, with string views read back as strings, binary references as binaries and secret wrappers removed.", "quantifier": "every finite value tree (any nesting depth, any struct/array width) whose struct keys have 1-255 bytes, whose strings, binaries, arrays and structs stay below 2^30 elements and whose date-times lie in the representable domain", "why_tests_cant": "The set of inputs is infinite and the interesting cases sit at width, nesting and boundary combinations; a finite test set cannot cover them.", "anchors": ["src/frpcbinmarshaller.cc: BinMarshaller_t::pack*", "src/frpctreefeeder.cc: feedValueImpl", "src/frpcbinunmarshaller.cc: unMarshallInternal", "src/frpctreebuilder.cc: TreeBuilder_t"]}
{"id": "C02", "title": "Binary round trip of a method call", "statement": "Marshalling a method call (name and parameters) in the binary format and unmarshalling it gives back the same method name and the same parameter list in the same order.", "quantifier": "every method name of 1-255 bytes and every list of well-formed parameter trees", "why_tests_cant": "The set of inputs is infinite and the interesting cases sit at width, nesting and boundary combinations; a finite test set cannot cover them.", "anchors": ["src/frpcbinmarshaller.cc: packMethodCall", "src/frpcbinunmarshaller.cc: S_METHOD_NAME_LEN, S_METHOD_NAME", "src/frpctreebuilder.cc: buildMethodCall"]}
{"id": "C03", "title": "Binary round trip of a fault", "statement": "Marshalling a fault in the binary format (protocol 2 or 3) and unmarshalling it reports the same fault number and message to the builder and no value.", "quantifier": "every 32-bit fault number and every message below 2^30 bytes", "why_tests_cant": "The set of inputs is infinite and the interesting cases sit at width, nesting and boundary combinations; a finite test set cannot cover them.", "anchors": ["src/frpcbinmarshaller.cc: packFault", "src/frpcbinunmarshaller.cc: FaultBuilder_t", "src/frpctreebuilder.cc: buildFault"]}
{"id": "C04", "title": "Unmarshalling does not depend on how the stream is cut", "statement": "Feeding a byte stream to the binary unmarshaller in any sequence of pieces produces the same builder calls, in the same order, and the same success or error as feeding it in one piece.", "quantifier": "every byte stream (valid or not), every way to cut it into pieces including empty ones, every builder", "why_tests_cant": "The number of cuttings is exponential in the stream length and the defects live in the buffering corner cases.", "anchors": ["src/frpcbinunmarshaller.cc: Driver_t, unMarshall"]}
{"id": "C05", "title": "Binary integers survive the wire", "statement": "Under protocol 2 and 3 an integer is decoded to the very integer that was encoded, and the encoding uses the smallest number of payload bytes that can carry it.", "quantifier": "every signed 64-bit integer", "why_tests_cant": "The set of inputs is infinite and the interesting cases sit at width, nesting and boundary combinations; a finite test set cannot cover them.", "anchors": ["src/frpcbinmarshaller.cc: packInt, zigzagEncode, getNumberType", "src/frpcbinunmarshaller.cc: S_INT, S_INTP8, S_INTN8, zigzagDecode, getInt64"]}
{"id": "C06", "title": "Protocol 1 integers", "statement": "Under protocol 1 every integer the marshaller accepts is decoded to itself.", "quantifier": "every signed 64-bit integer accepted by the marshaller", "why_tests_cant": "The set of inputs is infinite and the interesting cases sit at width, nesting and boundary combinations; a finite test set cannot cover them.", "anchors": ["src/frpcbinmarshaller.cc: getNumberType, packInt", "src/frpcinternals.h: OLD_INT32_MASK", "src/frpcbinunmarshaller.cc: S_INT"]}
{"id": "C07", "title": "Binary date-times survive the wire", "statement": "A date-time with the documented field ranges (year 1600-3647, month 1-12, ...) is decoded to itself.", "quantifier": "every date-time in the documented ranges whose time zone is a multiple of a quarter hour, for each protocol version", "why_tests_cant": "The set of inputs is infinite and the interesting cases sit at width, nesting and boundary combinations; a finite test set cannot cover them.", "anchors": ["src/frpcbinmarshaller.cc: packDateTime", "src/frpcinternals.h: DateTimeData_t::pack", "src/frpcbinunmarshaller.cc: getDateTime, getDateTimeV3"]}
{"id": "C08", "title": "Oversized elements are refused before any allocation or builder call", "statement": "When a binary stream announces a string, binary, array or struct of 2^30 or more elements (or a negative count), unMarshall throws a stream error and the builder is not told about that element.", "quantifier": "every stream and every position in it", "why_tests_cant": "The set of inputs is infinite and the interesting cases sit at width, nesting and boundary combinations; a finite test set cannot cover them.", "anchors": ["src/frpcbinunmarshaller.cc: ELEMENT_SIZE_LIMIT, S_STRING_LEN, S_BINARY_LEN, S_STRUCT, S_ARRAY"]}
{"id": "C09", "title": "The binary unmarshaller never reads outside its input", "statement": "Whatever bytes arrive, in whatever pieces, the unmarshaller reads only bytes it has been given; every call ends by returning or by throwing.", "quantifier": "every sequence of unMarshall calls with arbitrary bytes", "why_tests_cant": "The set of inputs is infinite and the interesting cases sit at width, nesting and boundary combinations; a finite test set cannot cover them.", "anchors": ["src/frpcbinunmarshaller.cc: Driver_t::operator[], data, unMarshallInternal"]}
{"id": "C10", "title": "Builder calls are always well nested", "statement": "Whatever bytes arrive, the calls the builder receives form a prefix of a well nested sequence: every close matches the last open container of the same kind, inside a struct every value is preceded by exactly one member name, and a container is closed exactly when the announced number of items has been delivered.", "quantifier": "every byte stream, every cutting", "why_tests_cant": "The set of inputs is infinite and the interesting cases sit at width, nesting and boundary combinations; a finite test set cannot cover them.", "anchors": ["src/frpcbinunmarshaller.cc: decrementMember, unMarshallInternal"]}
{"id": "C11", "title": "finish() accepts only complete messages", "statement": "If unMarshall has consumed a stream without error and finish() returns, then the stream was a complete message: a call with complete parameters, a response with a value, or a fault with number and message.", "quantifier": "every byte stream", "why_tests_cant": "The set of inputs is infinite and the interesting cases sit at width, nesting and boundary combinations; a finite test set cannot cover them.", "anchors": ["src/frpcbinunmarshaller.cc: finish"]}
{"id": "C12", "title": "Truncated responses are detected", "statement": "If a response carrying one value is cut anywhere inside the encoding of the value, finish() throws.", "quantifier": "every well-formed value and every proper prefix that contains at least one byte of the value", "why_tests_cant": "The set of inputs is infinite and the interesting cases sit at width, nesting and boundary combinations; a finite test set cannot cover them.", "anchors": ["src/frpcbinunmarshaller.cc: finish, unMarshall"]}
{"id": "C13", "title": "A failed stream stays failed", "statement": "After unMarshall has thrown, every later unMarshall on the same object throws again and the builder receives no further calls.", "quantifier": "every stream on which decoding fails for a reason the decoder itself detects, every continuation", "why_tests_cant": "The set of inputs is infinite and the interesting cases sit at width, nesting and boundary combinations; a finite test set cannot cover them.", "anchors": ["src/frpcbinunmarshaller.cc: unMarshall, Driver_t::finish"]}
{"id": "C14", "title": "Partial unmarshalling reports exactly the consumed prefix", "statement": "unMarshallPartial returns the length of the longest prefix it has decoded when it meets an unknown type tag at a value boundary, and the builder has seen exactly the calls for that prefix.", "quantifier": "every byte stream", "why_tests_cant": "The set of inputs is infinite and the interesting cases sit at width, nesting and boundary combinations; a finite test set cannot cover them.", "anchors": ["src/frpcbinunmarshaller.cc: unMarshallKnown", "src/frpcunmarshaller.cc: extras::unMarshallPartial"]}
{"id": "C15", "title": "Binary encodings are self-delimiting and injective", "statement": "Two different values never have encodings of which one is a prefix of the other followed by arbitrary bytes; in particular different values have different encodings.", "quantifier": "every pair of well-formed values and every pair of trailers", "why_tests_cant": "The set of inputs is infinite and the interesting cases sit at width, nesting and boundary combinations; a finite test set cannot cover them.", "anchors": ["src/frpcbinmarshaller.cc", "src/frpctreefeeder.cc"]}
{"id": "C16", "title": "Version gates and name limits of the binary marshaller", "statement": "Null is written only under protocol 2.1 or newer and otherwise raises a stream error; method and member names are written only when 1-255 bytes long and otherwise raise a length error; nothing is written for the refused item.", "quantifier": "every protocol version, every name", "why_tests_cant": "The set of inputs is infinite and the interesting cases sit at width, nesting and boundary combinations; a finite test set cannot cover them.", "anchors": ["src/frpcbinmarshaller.cc: packNull, packMethodCall, packStructMember"]}
{"id": "C17", "title": "Feeding then building reproduces the tree", "statement": "Replaying the calls the tree feeder makes for a value into a tree builder yields that value; duplicate member names arriving from the wire keep the last value.", "quantifier": "every value tree", "why_tests_cant": "The set of inputs is infinite and the interesting cases sit at width, nesting and boundary combinations; a finite test set cannot cover them.", "anchors": ["src/frpctreefeeder.cc: feedValueImpl", "src/frpctreebuilder.cc: TreeBuilder_t"]}
{"id": "C18", "title": "One message, one value", "statement": "After a complete response value the tree builder refuses any further value with a stream error and keeps the first value.", "quantifier": "every pair of values", "why_tests_cant": "The set of inputs is infinite and the interesting cases sit at width, nesting and boundary combinations; a finite test set cannot cover them.", "anchors": ["src/frpctreebuilder.h: isFirst, isMember", "src/frpctreebuilder.cc"]}
{"id": "C19", "title": "Secret pointer segments escape and unescape losslessly", "statement": "Unescaping an escaped pointer segment returns the original segment, an escaped segment contains neither '/' nor ',', and unescaping never succeeds on a malformed escape.", "quantifier": "every byte string", "why_tests_cant": "The set of inputs is infinite and the interesting cases sit at width, nesting and boundary combinations; a finite test set cannot cover them.", "anchors": ["src/frpctreefeeder.cc: escape_segment", "src/frpctreebuilder.cc: unescape_segment"]}
{"id": "C20", "title": "Secrets marked by the sender are secret at the receiver", "statement": "When the pointers gathered while feeding call parameters are given to the extended tree builder, every value that was marked secret is wrapped as secret in the rebuilt parameters.", "quantifier": "every parameter list with any set of secret-marked values", "why_tests_cant": "The set of inputs is infinite and the interesting cases sit at width, nesting and boundary combinations; a finite test set cannot cover them.", "anchors": ["src/frpctreefeeder.cc: Secrets_t, feedValueAndGatherSecrets", "src/frpctreebuilder.cc: SecretKey_t::to_int, build_secret_tree, match_secret, build_node"]}
{"id": "C21", "title": "Dumping never reveals secrets", "statement": "The textual dump of a value is the same whatever the secret parts contain, and the same whatever is stored under the hidden member names and hidden top-level positions.", "quantifier": "every value tree, every replacement of secret contents, every set of hidden names and positions, every depth limit", "why_tests_cant": "The set of inputs is infinite and the interesting cases sit at width, nesting and boundary combinations; a finite test set cannot cover them.", "anchors": ["src/frpc.cc: dumpFastrpcTree"]}
{"id": "C22", "title": "Value comparison is a total preorder", "statement": "Comparing values is reflexive, antisymmetric in sign and transitive.", "quantifier": "every triple of comparable value trees", "why_tests_cant": "The set of inputs is infinite and the interesting cases sit at width, nesting and boundary combinations; a finite test set cannot cover them.", "anchors": ["src/frpccompare.cc", "src/frpccompare.h"]}
{"id": "C23", "title": "Struct members behave like a finite map", "statement": "After setting a member, looking it up returns the new value, all other members are unchanged, the size grows only for a new name, iteration is in strictly increasing name order, and a name longer than 255 bytes is refused without change.", "quantifier": "every struct, name and value", "why_tests_cant": "The set of inputs is infinite and the interesting cases sit at width, nesting and boundary combinations; a finite test set cannot cover them.", "anchors": ["src/frpcstruct.cc", "src/frpcstruct.h"]}
{"id": "C24", "title": "Array item checks", "statement": "checkItems succeeds exactly when the array has the number of items the format prescribes and each has the type its letter names.", "quantifier": "every array and every format string", "why_tests_cant": "The set of inputs is infinite and the interesting cases sit at width, nesting and boundary combinations; a finite test set cannot cover them.", "anchors": ["src/frpcarray.cc: checkItems"]}
{"id": "C25", "title": "Base64 round trip independent of piece sizes", "statement": "Writing bytes through the Base64 writer in any pieces, flushing, and decoding the text gives back the bytes; the text does not depend on the pieces.", "quantifier": "every byte string and every cutting of the input", "why_tests_cant": "The set of inputs is infinite and the interesting cases sit at width, nesting and boundary combinations; a finite test set cannot cover them.", "anchors": ["src/frpcb64writer.cc", "src/frpcbase64.cc: process"]}
{"id": "C26", "title": "Base64 decoding does not depend on how the text is cut", "statement": "Decoding Base64 text yields the same bytes whatever pieces it arrives in.", "quantifier": "every text and every cutting", "why_tests_cant": "The set of inputs is infinite and the interesting cases sit at width, nesting and boundary combinations; a finite test set cannot cover them.", "anchors": ["src/frpcbase64.cc: process", "src/frpcb64unmarshaller.cc"]}
{"id": "C27", "title": "XML Base64 encoding is decodable and line-bounded", "statement": "The Base64 text the XML marshaller writes for a binary decodes to that binary and no line of it exceeds the line limit.", "quantifier": "every byte string", "why_tests_cant": "The set of inputs is infinite and the interesting cases sit at width, nesting and boundary combinations; a finite test set cannot cover them.", "anchors": ["src/frpcxmlmarshaller.cc: writeEncodeBase64", "src/frpcbase64.cc"]}
{"id": "C28", "title": "Percent decoding", "statement": "Decoding a percent-encoded component returns the encoded bytes; decoding never reads outside the component.", "quantifier": "every byte string", "why_tests_cant": "The set of inputs is infinite and the interesting cases sit at width, nesting and boundary combinations; a finite test set cannot cover them.", "anchors": ["src/frpcurlunmarshaller.cc: urldecode"]}
{"id": "C29", "title": "JSON strings are quoted safely", "statement": "A string written by the JSON marshaller is a single JSON string token that decodes to the original bytes: it contains no unescaped quote, backslash or control character except the delimiters.", "quantifier": "every byte string", "why_tests_cant": "The set of inputs is infinite and the interesting cases sit at width, nesting and boundary combinations; a finite test set cannot cover them.", "anchors": ["src/frpcjsonmarshaller.cc: quote, escape"]}
{"id": "C30", "title": "JSON output is well formed", "statement": "The JSON marshaller's output for a value is a well-formed JSON text with balanced brackets and correctly placed commas.", "quantifier": "every value tree fed by the tree feeder", "why_tests_cant": "The set of inputs is infinite and the interesting cases sit at width, nesting and boundary combinations; a finite test set cannot cover them.", "anchors": ["src/frpcjsonmarshaller.cc"]}
{"id": "C31", "title": "XML text cannot inject markup", "statement": "A string written as XML text contains no raw '<' or '&' markup introduced by the data and unescapes to the original bytes.", "quantifier": "every byte string", "why_tests_cant": "The set of inputs is infinite and the interesting cases sit at width, nesting and boundary combinations; a finite test set cannot cover them.", "anchors": ["src/frpcxmlmarshaller.cc: writeQuotedString"]}
{"id": "C32", "title": "ISO date-time text round trip", "statement": "Formatting a date-time as ISO 8601 text never overflows the buffer and parsing the text returns the same fields.", "quantifier": "every date-time with in-range fields and a whole-minute zone offset", "why_tests_cant": "The set of inputs is infinite and the interesting cases sit at width, nesting and boundary combinations; a finite test set cannot cover them.", "anchors": ["src/frpc.cc: getISODateTime, parseISODateTime"]}
{"id": "C33", "title": "Chunked bodies carry exactly the written bytes", "statement": "In chunked mode the sequence of chunks sent for a message decodes, by HTTP/1.1 chunked rules, to the concatenation of the bytes written, with a single terminating chunk.", "quantifier": "every sequence of writes of any sizes", "why_tests_cant": "The set of inputs is infinite and the interesting cases sit at width, nesting and boundary combinations; a finite test set cannot cover them.", "anchors": ["src/frpchttpclient.cc: write, sendRequest, flush", "src/frpcserver.cc: write, sendResponse, flush"]}
{"id": "C34", "title": "Content-Length matches the body", "statement": "Without chunking the Content-Length header equals the number of body bytes sent and the body is the concatenation of the writes.", "quantifier": "every sequence of writes of any sizes", "why_tests_cant": "The set of inputs is infinite and the interesting cases sit at width, nesting and boundary combinations; a finite test set cannot cover them.", "anchors": ["src/frpchttpclient.cc: write, sendRequest", "src/frpcserver.cc: write, sendResponse"]}
{"id": "C35", "title": "Reading a line does not depend on segmentation", "statement": "readLine returns the same line and leaves the same unread bytes however the network splits the data.", "quantifier": "every byte stream and every segmentation that does not end the connection early", "why_tests_cant": "The number of segmentations is exponential; tests exercise a few.", "anchors": ["src/frpchttpio.cc: readLineOpt"]}
{"id": "C36", "title": "sendData delivers everything once", "statement": "If sendData returns normally, the bytes handed to the kernel are exactly the buffer, in order, whatever partial sends happen.", "quantifier": "every buffer and every schedule of partial sends", "why_tests_cant": "The set of inputs is infinite and the interesting cases sit at width, nesting and boundary combinations; a finite test set cannot cover them.", "anchors": ["src/frpchttpio.cc: sendData"]}
{"id": "C37", "title": "Body readers deliver exactly the body", "statement": "Reading a body with a content length delivers exactly that many bytes to the sink and leaves the rest unread; reading a chunked body delivers the decoded chunks; both independent of segmentation; the body limit is enforced.", "quantifier": "every body, segmentation, chunking and limit", "why_tests_cant": "The set of inputs is infinite and the interesting cases sit at width, nesting and boundary combinations; a finite test set cannot cover them.", "anchors": ["src/frpchttpio.cc: readBlock, readChunkedContent, readContent"]}
{"id": "C38", "title": "Header names are case-insensitive", "statement": "Looking up, setting, adding and removing a header depends on the name only up to letter case, and the usual map laws hold.", "quantifier": "every header list, name and value", "why_tests_cant": "The set of inputs is infinite and the interesting cases sit at width, nesting and boundary combinations; a finite test set cannot cover them.", "anchors": ["src/frpchttp.cc: polishName, HTTPHeader_t"]}
{"id": "C39", "title": "URL parsing", "statement": "Parsing a well-formed URL yields its host, port (default 80/443) and path, and getUrl returns an equivalent URL.", "quantifier": "every host without ':' '/' ']' , every port 1-65535 and every path", "why_tests_cant": "The set of inputs is infinite and the interesting cases sit at width, nesting and boundary combinations; a finite test set cannot cover them.", "anchors": ["src/frpchttp.cc: URL_t::parse, getUrl"]}
{"id": "C40", "title": "Every call is answered exactly once", "statement": "processing a call produces exactly one well-formed response: either a complete method response or a complete fault.", "quantifier": "every method outcome (value, fault or any exception) and every returned value", "why_tests_cant": "The set of inputs is infinite and the interesting cases sit at width, nesting and boundary combinations; a finite test set cannot cover them.", "anchors": ["src/frpcmethodregistry.cc: processCall"]}
{"id": "C41", "title": "Exception to fault mapping", "statement": "An exception escaping a method is reported as a fault with the documented code: type/length errors as type error, key/index errors as index error, stream errors as parse error, unknown methods as no-such-method unless a default method is installed, and a fault with its own code and message.", "quantifier": "every registry, method name, parameters and method outcome", "why_tests_cant": "The set of inputs is infinite and the interesting cases sit at width, nesting and boundary combinations; a finite test set cannot cover them.", "anchors": ["src/frpcmethodregistry.cc: processCall"]}
{"id": "C42", "title": "Multicall isolates its entries", "statement": "system.multicall returns one result per entry in order; an entry's failure is reported in its own position and does not affect the other entries.", "quantifier": "every list of entries and every outcome of every entry", "why_tests_cant": "The set of inputs is infinite and the interesting cases sit at width, nesting and boundary combinations; a finite test set cannot cover them.", "anchors": ["src/frpcmethodregistry.cc: muticall"]}
{"id": "C43", "title": "A truncated call is never executed", "statement": "If the request body ends before the call is complete, no method is executed.", "quantifier": "every prefix of every encoded call", "why_tests_cant": "The set of inputs is infinite and the interesting cases sit at width, nesting and boundary combinations; a finite test set cannot cover them.", "anchors": ["src/frpcmethodregistry.cc: processCall(reader)", "src/frpcserver.cc: readRequest"]}
{"id": "C44", "title": "Proxy cache hands out only fresh matching connections, once", "statement": "With the proxy cache enabled (time-out of 1 to 2147483 seconds) a cached connection is handed out at most once, only for the URL it was deposited for, never after its time-out, and is found if one is still fresh.", "quantifier": "every history of deposits and look-ups with a non-decreasing clock", "why_tests_cant": "Needs all histories of timer-queue operations.", "anchors": ["src/frpcserverproxy.cc: ProxyCache_t"]}
{"id": "C45", "title": "A new proxy starts without another proxy's headers", "statement": "A freshly constructed ServerProxy sends only the request headers added to it.", "quantifier": "every history of proxies sharing a URL", "why_tests_cant": "Needs all histories.", "anchors": ["src/frpcserverproxy.cc: ProxyCache_t::lookup, addRequestHttpHeader"]}
{"id": "C46", "title": "Per-call headers are sent with exactly one call", "statement": "A header added for one call is sent with the next call and never again, even if that call fails.", "quantifier": "every history of header additions and calls", "why_tests_cant": "Needs all histories.", "anchors": ["src/frpcserverproxy.cc: addRequestHttpHeaderForCall, call"]}
{"id": "C47", "title": "The configured protocol version is honoured", "statement": "The text 'M.m' in the proxy configuration selects protocol version M.m.", "quantifier": "every version text", "why_tests_cant": "The set of inputs is infinite and the interesting cases sit at width, nesting and boundary combinations; a finite test set cannot cover them.", "anchors": ["src/frpcserverproxy.cc: parseProtocolVersion"]}
{"id": "C48", "title": "Transfer mode selection", "statement": "With transfer mode NEVER only XML is sent, with ALWAYS only binary, with ON_SUPPORT binary exactly when the last response advertised it.", "quantifier": "every history of responses", "why_tests_cant": "The set of inputs is infinite and the interesting cases sit at width, nesting and boundary combinations; a finite test set cannot cover them.", "anchors": ["src/frpcserverproxy.cc: createMarshaller"]}
{"id": "C49", "title": "String validation accepts exactly well-formed text", "statement": "With string validation enabled, constructing a string terminates and succeeds exactly when the bytes are valid UTF-8 of XML characters.", "quantifier": "every byte string", "why_tests_cant": "The set of inputs is infinite and the interesting cases sit at width, nesting and boundary combinations; a finite test set cannot cover them.", "anchors": ["src/frpcstring.cc: validateBytes"]}
{"id": "C50", "title": "Structured call logging is memory safe", "statement": "Logging a multicall request never reads outside its data, whatever structs the request contains.", "quantifier": "every request value", "why_tests_cant": "The set of inputs is infinite and the interesting cases sit at width, nesting and boundary combinations; a finite test set cannot cover them.", "anchors": ["src/frpc.cc: logStructuredCalls"]}
{"id": "C51", "title": "Client responses with unknown content type are safe to retry", "statement": "After readResponse has thrown for an unknown content type the client object can be destroyed or reused without releasing memory twice.", "quantifier": "every sequence of responses on one client", "why_tests_cant": "The set of inputs is infinite and the interesting cases sit at width, nesting and boundary combinations; a finite test set cannot cover them.", "anchors": ["src/frpchttpclient.cc: readResponse, ~HTTPClient_t"]}
{"id": "C52", "title": "Keep-alive decisions", "statement": "The server keeps a connection open after a request only when the protocol version and Connection header ask for it, keep-alive is enabled and the request limit is not reached.", "quantifier": "every request history", "why_tests_cant": "The set of inputs is infinite and the interesting cases sit at width, nesting and boundary combinations; a finite test set cannot cover them.", "anchors": ["src/frpcserver.cc: serve, readRequest"]}
{"id": "C53", "title": "Pool frees every value exactly once", "statement": "Every value created in a pool is released exactly once, after any sequence of creations, moves, steals and frees.", "quantifier": "every history of pool operations", "why_tests_cant": "The set of inputs is infinite and the interesting cases sit at width, nesting and boundary combinations; a finite test set cannot cover them.", "anchors": ["src/frpcpool.cc", "src/frpcpool.h: steal_pointers"]}
{"id": "C54", "title": "URL-encoded calls arrive as written", "statement": "A request for path /a/b with a query of name=value pairs, each value written in any percent encoding, is dispatched as the call a.b with one struct argument; member k is the array of everything given as k[] or else the first value given as k, and there are no other members.", "quantifier": "every path, every list of pairs and every percent encoding of their values", "why_tests_cant": "The set of inputs is infinite and the interesting cases sit at width, nesting and boundary combinations; a finite test set cannot cover them.", "anchors": ["src/frpcurlunmarshaller.cc: URLUnMarshaller_t::finish, Values_t, urldecode, unquote, resolveType"]}
{"id": "C55", "title": "XML messages round trip", "statement": "A method call, response or fault written as XML is a well-formed document, and an XML parser feeding the unmarshaller with it, in any pieces, yields the same method name, parameters, value or fault (dates as far as ISO 8601 text carries them).", "quantifier": "every value, name and fault; every cutting of the text into pieces and of its characters into callbacks", "why_tests_cant": "The set of inputs is infinite and the interesting cases sit at width, nesting and boundary combinations; a finite test set cannot cover them.", "anchors": ["src/frpcxmlmarshaller.cc", "src/frpcxmlunmarshaller.cc"]}
{"id": "C56", "title": "The XML unmarshaller is robust", "statement": "Whatever document arrives, the XML unmarshaller calls the builder with matching open and close calls, fails only with its own exceptions, and reports a protocol version that depends on the text only.", "quantifier": "every document and every cutting of it", "why_tests_cant": "The set of inputs is infinite and the interesting cases sit at width, nesting and boundary combinations; a finite test set cannot cover them.", "anchors": ["src/frpcxmlunmarshaller.cc: setValueType, setValueData, closeEntity, unMarshall"]}
{"id": "C57", "title": "A call reaches the method and its result the caller", "statement": "A call sent by the client is executed exactly once, with the parameters given, and the caller gets exactly the value or the fault the method ended with, however the bytes of request and response are cut by the transport.", "quantifier": "every method name, parameter list, method outcome, protocol version and segmentation", "why_tests_cant": "The set of inputs is infinite and the interesting cases sit at width, nesting and boundary combinations; a finite test set cannot cover them.", "anchors": ["src/frpcmethodregistry.cc: processCall", "src/frpcserver.cc", "src/frpchttpclient.cc", "src/frpcserverproxy.cc"]}
{"id": "C58", "title": "Callbacks see every call begin and end once", "statement": "For every call the registered callbacks are told once before it is run and once after it ended, with the value or fault that is sent.", "quantifier": "every registry, call, method outcome and output format", "why_tests_cant": "The set of inputs is infinite and the interesting cases sit at width, nesting and boundary combinations; a finite test set cannot cover them.", "anchors": ["src/frpcmethodregistry.cc: processCall", "src/frpcmethodregistry.h: Callbacks_t"]}
{"id": "C59", "title": "Introspection reflects the registrations", "statement": "system.listMethods returns every registered name once, in order; system.methodHelp and system.methodSignature return what the last registration of the name declared, the signature as one list of type words per comma separated alternative.", "quantifier": "every history of registrations and every signature text", "why_tests_cant": "The set of inputs is infinite and the interesting cases sit at width, nesting and boundary combinations; a finite test set cannot cover them.", "anchors": ["src/frpcmethodregistry.cc: listMethods, methodHelp, methodSignature"]}
{"id": "C60", "title": "The server survives any input", "statement": "Whatever bytes arrive on a connection, serving it ends with a return or a C++ exception, never with undefined behaviour or without end.", "quantifier": "every byte sequence, segmentation and end of the connection, every configuration and registry, and every history of the server object", "why_tests_cant": "The set of inputs is infinite and the interesting cases sit at width, nesting and boundary combinations; a finite test set cannot cover them.", "anchors": ["src/frpcserver.cc: serve, readRequest, write, flush"]}
{"id": "C61", "title": "Requests of a connection are kept apart", "statement": "Every request of a connection is answered by exactly one response, in order, in the format it asks for, and bytes of a request's body are never taken for another request.", "quantifier": "every sequence of requests, framing, segmentation and configuration", "why_tests_cant": "The set of inputs is infinite and the interesting cases sit at width, nesting and boundary combinations; a finite test set cannot cover them.", "anchors": ["src/frpcserver.cc: serve, readRequest", "src/frpchttpio.cc: readContent"]}
{"id": "C62", "title": "A caller gets its own response, and connections do not leak", "statement": "A call that returns gives the fields and the value of the response to its own request, never of another; every connection made is closed or kept for the next call, and kept only after a response read to its end with keep-alive configured.", "quantifier": "every history of calls on a proxy, every behaviour of the network (failures to connect and send, early responses, closed connections) and every segmentation", "why_tests_cant": "The set of inputs is infinite and the interesting cases sit at width, nesting and boundary combinations; a finite test set cannot cover them.", "anchors": ["src/frpcserverproxy.cc: call", "src/frpchttpclient.cc: sendRequest, readResponse", "src/frpcconnector.cc: connectSocket, closeSocketIfPeerClosed"]}
{"id": "C63", "title": "A call is sent at most once", "statement": "A call sends at most one request, over at most one new connection, and never repeats it; the request goes to the URL's path with the configured version, the headers and the body of the call, and a response is returned only if a request was sent.", "quantifier": "every call, configuration and behaviour of the network", "why_tests_cant": "The set of inputs is infinite and the interesting cases sit at width, nesting and boundary combinations; a finite test set cannot cover them.", "anchors": ["src/frpcserverproxy.cc: call", "src/frpchttpclient.cc: sendRequest, createHeader", "src/frpchttpio.cc: sendData"]}
{"id": "C64", "title": "The client survives any response", "statement": "Whatever bytes arrive and however the connection behaves, a call ends with a value, a fault or a C++ exception, never with undefined behaviour.", "quantifier": "every byte sequence, segmentation, behaviour of the network and configuration", "why_tests_cant": "The set of inputs is infinite and the interesting cases sit at width, nesting and boundary combinations; a finite test set cannot cover them.", "anchors": ["src/frpchttpclient.cc: readResponse", "src/frpcserverproxy.cc: call"]}
{"id": "C65", "title": "A response cut off is never returned", "statement": "If the connection ends within the head of a response or within a body sent with a length or in chunks, the call throws and the connection is closed.", "quantifier": "every response, every point of the cut, every history of the proxy", "why_tests_cant": "The set of inputs is infinite and the interesting cases sit at width, nesting and boundary combinations; a finite test set cannot cover them.", "anchors": ["src/frpchttpclient.cc: readResponse", "src/frpchttpio.cc: readContent, readChunkedContent"]}
{"id": "C66", "title": "A proxy is configured by its configuration", "statement": "A ServerProxy made from a struct has the settings in the struct and the documented defaults for those not in it; a setting of another type is refused with TypeError; a proxy taken from the cache has the configuration it is constructed with, for the address given.", "quantifier": "every struct with time-outs of 31 bits; every history of proxies", "why_tests_cant": "The set of inputs is infinite and the interesting cases sit at width, nesting and boundary combinations; a finite test set cannot cover them.", "anchors": ["src/frpcserverproxy.cc: configFromStruct, createImpl, ProxyCache_t::lookup"]}
{"id": "C67", "title": "Logging does not change a call", "statement": "A logger set for a proxy is told of the start of every call and once of its end, with the value, fault or error of the call, and before that of every call within a multicall, one by one in order; the outcome of the call is the same as without a logger.", "quantifier": "every call name, parameter list and outcome", "why_tests_cant": "The set of inputs is infinite and the interesting cases sit at width, nesting and boundary combinations; a finite test set cannot cover them.", "anchors": ["src/frpc.cc: logStructuredCalls", "src/frpcserverproxy.cc: with_logger"]}
{"id": "C68", "title": "A clone is independent of the original", "statement": "clone() gives a value that reads the same as the original and consists of new objects of the pool given, so that it stays as it is whatever happens to the original, its pool and other values, until its own pool is emptied, moved or destroyed.", "quantifier": "every value and every history of pools, values and buffers before and after", "why_tests_cant": "The set of inputs is infinite and the interesting cases sit at width, nesting and boundary combinations; a finite test set cannot cover them.", "anchors": ["src/frpcarray.cc: clone", "src/frpcstruct.cc: clone", "src/frpcsecret.cc: clone", "src/frpcdatetime.cc: clone", "src/frpcstring_view.cc: clone", "src/frpcpool.cc"]}
{"id": "C69", "title": "Connecting leaks no socket and reports no connection that was not made", "statement": "However the system calls end, every socket opened for a connection is closed once or is the one held for the next request, no descriptor is closed twice, and a request is sent only on a socket whose connection was completed and not closed since; a kept connection the peer has closed is replaced by a new one.", "quantifier": "every history of connects and every outcome of every system call in it (socket, fcntl, setsockopt, connect, poll, recv, getsockopt)", "why_tests_cant": "The set of inputs is infinite and the interesting cases sit at width, nesting and boundary combinations; a finite test set cannot cover them.", "anchors": ["src/frpcconnector.cc: connectSocket, closeSocketIfPeerClosed, waitConnectSocket, checkSocket, SocketCloser_t", "src/frpchttpclient.cc: sendRequest"]}
{"id": "C70", "title": "A proxy connects to the address in its URL", "statement": "A proxy connects only to the host and port in the URL it was made with (an IPv6 address if it stands in brackets), to the UNIX socket whose path is given, or to the configured HTTP proxy; a host that cannot be resolved makes the constructor throw.", "quantifier": "every URL, proxy URL and answer of the resolver, every history of connects", "why_tests_cant": "The set of inputs is infinite and the interesting cases sit at width, nesting and boundary combinations; a finite test set cannot cover them.", "anchors": ["src/frpcserverproxy.cc: makeConnector", "src/frpcconnector.cc: SimpleConnectorIPv6_t, SimpleConnectorUnix_t::connectSocket", "src/frpchttp.cc: URL_t"]}
{"id": "C71", "title": "A request that cannot be served is refused", "statement": "A request line that is not three words, another HTTP version, a method other than POST and HEAD, a HEAD request the application has no method for or declines, and a body that carries no call are each answered by one response with the status for it (400, 505, 405, 503) and no body; no method is called, the connection ends, and the answers to earlier requests are not affected. A HEAD request that is accepted is answered by a 200 head without body.", "quantifier": "every such request after every sequence of served requests, with any header fields and segmentation", "why_tests_cant": "The set of inputs is infinite and the interesting cases sit at width, nesting and boundary combinations; a finite test set cannot cover them.", "anchors": ["src/frpcserver.cc: Server_t::serve, readRequest, sendHttpError"]}
{"id": "C72", "title": "A date made from a time stands for this time", "statement": "The fields of a date made from a time by LocalTime are the calendar date and clock time of the host's zone, together with the zone they stand for the given time, which is also the date's unix time; dates made from fields have the unix time at which the local clock shows them, dates made as UTC show UTC, and a date read from ISO text has the unix time the text with its zone stands for.", "quantifier": "every time, every date of the calendar, every time zone with or without summer time", "why_tests_cant": "The set of inputs is infinite and the interesting cases sit at width, nesting and boundary combinations; a finite test set cannot cover them.", "anchors": ["src/frpcdatetime.cc: DateTime_t::DateTime_t", "src/frpcpool.cc: Pool_t::DateTime, LocalTime, UTCTime, ForceUTCTime"]}
{"id": "C73", "title": "A date keeps its moment on the wire", "statement": "A date made from a time and sent to another host still stands for the same time there, unix time included, whatever the receiver's time zone and configuration of date validation.", "quantifier": "every time, every pair of time zones, every segmentation of the message", "why_tests_cant": "The set of inputs is infinite and the interesting cases sit at width, nesting and boundary combinations; a finite test set cannot cover them.", "anchors": ["src/frpcdatetime.cc: DateTime_t::DateTime_t", "src/frpctreebuilder.cc: buildDateTime", "src/frpcbinmarshaller.cc: packDateTime", "src/frpcbinunmarshaller.cc: S_DATETIME"]}
{"id": "C74", "title": "The format of a message is recognised from its first bytes", "statement": "An unmarshaller created from the first piece of a message reads the message exactly as an unmarshaller made for its format would: binary messages begin with the magic number and everything else is XML. Responses, calls and faults written by either marshaller are read back whatever the cutting; the type of message the user wants is checked.", "quantifier": "every message, every way of cutting it into pieces", "why_tests_cant": "The set of inputs is infinite and the interesting cases sit at width, nesting and boundary combinations; a finite test set cannot cover them.", "anchors": ["src/frpcunmarshaller.cc: UnMarshaller_t::create"]}
{"id": "C75", "title": "The JavaScript client reads what the C++ library sends", "statement": "parse() of the JavaScript implementation returns, for a response written by the C++ library, the value that was sent (the same numbers, texts, bytes, times, members and elements), for a call its name and parameters in order, and for a fault it throws an error with the fault's number and message.", "quantifier": "every value, method name and fault, every protocol version", "why_tests_cant": "The set of inputs is infinite and the interesting cases sit at width, nesting and boundary combinations; a finite test set cannot cover them.", "anchors": ["javascript/fastrpc.mjs: parse, _parseValue, _getInt, _getZigzag, _getDouble, _decodeUTF8", "typescript/fastrpc.ts", "src/frpcbinmarshaller.cc"]}
{"id": "C76", "title": "The C++ library reads the calls the JavaScript client sends", "statement": "A call written by serializeCall() of the JavaScript implementation reaches the C++ server with the same method name and the same parameters in order, whatever the cutting of the request.", "quantifier": "every method name and every list of JavaScript values, protocol versions 2 and 3, every clock and Math.log of the engine, every segmentation", "why_tests_cant": "The set of inputs is infinite and the interesting cases sit at width, nesting and boundary combinations; a finite test set cannot cover them.", "anchors": ["javascript/fastrpc.mjs: serializeCall, _serializeValue, _serializeDate, _encodeInt, _encodeZigzag, _encodeDouble", "src/frpcbinunmarshaller.cc", "src/frpctreebuilder.cc"]}
{"id": "C77", "title": "The JavaScript client refuses the beginning of a message", "statement": "parse() throws for every message that was cut short, and for every response with bytes after its end; it never returns a value made of the part that arrived.", "quantifier": "every message and every place of the cut", "why_tests_cant": "The set of inputs is infinite and the interesting cases sit at width, nesting and boundary combinations; a finite test set cannot cover them.", "anchors": ["javascript/fastrpc.mjs: parse, _getByte, _decodeUTF8, _parseMember"]}
{"id": "C78", "title": "Containers are converted element by element", "statement": "to_array() gives an array with the conversions of the elements in their order, to_struct() a struct with one member per key that has the conversion of the first element with this key; converters nest, the exception of the first element that cannot be converted is passed on, a converted container can be sent and is read as such by the receiver, and wide strings keep their text.", "quantifier": "every container content and every conversion function", "why_tests_cant": "The set of inputs is infinite and the interesting cases sit at width, nesting and boundary combinations; a finite test set cannot cover them.", "anchors": ["src/frpcconverters.h: to_array, to_struct, array_cnvt, pair_cnvt", "src/frpcstring.cc: String_t::String_t(std::wstring), operator std::wstring", "src/frpcstruct.cc: insert"]}
{"id": "C79", "title": "The C++ library reads what Python's dumps writes", "statement": "dumps() of the Python module writes a message exactly if the name and the objects have a counterpart in the format and otherwise raises an exception; the C++ library reads the message as a call, response or fault with the same name, code and values, whatever the cutting.", "quantifier": "every Python object, method name and fault, every protocol version, every clock of the host, every segmentation", "why_tests_cant": "The set of inputs is infinite and the interesting cases sit at width, nesting and boundary combinations; a finite test set cannot cover them.", "anchors": ["python/fastrpcmodule.cc: dumps", "python/pythonfeeder.cc: Feeder_t::feedValue, datetimeToTm", "src/frpcbinmarshaller.cc", "src/frpcbinunmarshaller.cc"]}
{"id": "C80", "title": "Python's loads reads what the C++ library sends", "statement": "loads() of the Python module returns for a message of the C++ library the object that stands for the value sent, the parameters of a call in a tuple together with its name, raises Fault with code and message for a fault, and UnicodeDecodeError if a text is not UTF-8.", "quantifier": "every value, name and fault, every protocol version, every clock of the host", "why_tests_cant": "The set of inputs is infinite and the interesting cases sit at width, nesting and boundary combinations; a finite test set cannot cover them.", "anchors": ["python/fastrpcmodule.cc: loads, newDateTime", "python/pythonbuilder.cc: Builder_t", "python/pythonbuilder.h: isMember, isFirst, getUnMarshaledData, getMethodName", "src/frpcbinmarshaller.cc"]}
{"id": "C81", "title": "Objects come back from dumps and loads", "statement": "loads() of what dumps() has written gives the objects and the name back: the same numbers, texts, bytes and dict items in the same order, lists for lists and tuples, the chosen kind of booleans, DateTime objects for dates.", "quantifier": "every list of Python objects the format has, every method name, every protocol version, every clock of the host", "why_tests_cant": "The set of inputs is infinite and the interesting cases sit at width, nesting and boundary combinations; a finite test set cannot cover them.", "anchors": ["python/fastrpcmodule.cc: dumps, loads", "python/pythonfeeder.cc", "python/pythonbuilder.cc"]}
{"id": "C82", "title": "loads refuses a message that ends too early", "statement": "loads() of the Python module raises an exception for every message that was cut short; it never returns an object made of the part that arrived.", "quantifier": "every message and every place of the cut", "why_tests_cant": "The set of inputs is infinite and the interesting cases sit at width, nesting and boundary combinations; a finite test set cannot cover them.", "anchors": ["python/fastrpcmodule.cc: loads", "src/frpcunmarshaller.h: finish", "src/frpcbinunmarshaller.cc"]}
{"id": "C83", "title": "loads is safe for any data", "statement": "For any bytes loads() returns an object or raises UnicodeDecodeError, RuntimeError or the Fault of the message; the interpreter does not crash and is not terminated.", "quantifier": "every byte string", "why_tests_cant": "The set of inputs is infinite and the interesting cases sit at width, nesting and boundary combinations; a finite test set cannot cover them.", "anchors": ["python/fastrpcmodule.cc: loads", "python/pythonbuilder.cc: buildFault, closeArray, closeStruct", "python/pythonbuilder.h", "src/frpcbinunmarshaller.cc"]}
{"id": "C84", "title": "Python server: preprocessor, method, postprocessor", "statement": "A call on the Python server runs the preprocessor with method name, client address and parameters, then, unless it raised, the method registered under the name (or the default method, or gives the fault 'Method not found'), then the postprocessor with the value, the fault or the exception; each exactly once. The caller gets the method's value, its fault, or an internal error with the text of its exception, replaced by what the postprocessor returns or raises. Every call gets a result.", "quantifier": "every registry, every behaviour of the callables, every method name and parameter list", "why_tests_cant": "The set of inputs is infinite and the interesting cases sit at width, nesting and boundary combinations; a finite test set cannot cover them.", "anchors": ["python/pythonserver.cc: dispatchCall, makeFault, fetchException, Method_t::operator()"]}
{"id": "C85", "title": "Python server: multicall answers every entry", "statement": "system.multicall of the Python server returns a list with one result for every entry, in their order: the call's value, or a struct with faultCode and faultString for a fault or an entry that is no call; an entry that fails does not disturb the others.", "quantifier": "every registry, every behaviour of the callables, every list of entries", "why_tests_cant": "The set of inputs is infinite and the interesting cases sit at width, nesting and boundary combinations; a finite test set cannot cover them.", "anchors": ["python/pythonserver.cc: system_multicall, makeFaultStruct, faultToStruct, dispatchCall"]}
{"id": "C86", "title": "Python server: registering and introspection", "statement": "The last registration of a name counts; system.listMethods lists every registered name once, system.methodSignature and system.methodHelp tell what was registered, signatures given as text as the lists of the type names; a text that is no signature is refused. Introspection can be switched off.", "quantifier": "every sequence of registrations, every signature text, every method name", "why_tests_cant": "The set of inputs is infinite and the interesting cases sit at width, nesting and boundary combinations; a finite test set cannot cover them.", "anchors": ["python/pythonserver.cc: register, stringToSignature, system_listMethods, system_methodSignature, system_methodHelp, Method_t::Method_t, MethodRegistryObject_new"]}
{"id": "C87", "title": "Python server: a connection answers its requests in order", "statement": "The Python server answers the requests of a connection in order, each with the result of the one call it carries, in the format the client accepts and with the header fields the application added for this call, and ends the connection exactly when the client, the settings or the request limit demand it; every request is handled as the C++ server would handle it.", "quantifier": "every sequence of well-formed requests and its segmentation, every registry, every behaviour of the callables", "why_tests_cant": "The set of inputs is infinite and the interesting cases sit at width, nesting and boundary combinations; a finite test set cannot cover them.", "anchors": ["python/pythonserver.cc: Server_t::serve, readRequest, write, flush, sendResponse, sendHttpError, ServerObject serve"]}
{"id": "C88", "title": "Python server: any input ends in a response or an exception", "statement": "Whatever bytes arrive on a connection and whatever the methods return, serve() of the Python server returns or raises a Python exception; the interpreter is neither terminated nor crashed, and a method is only run with the parameters that were sent.", "quantifier": "every byte sequence on the connection, every registry, every result of a method", "why_tests_cant": "The set of inputs is infinite and the interesting cases sit at width, nesting and boundary combinations; a finite test set cannot cover them.", "anchors": ["python/pythonserver.cc: Server_t::serve, readRequest, dispatchCall", "python/pythonbuilder.h", "python/pythonfeeder.cc", "src/frpcxmlunmarshaller.cc", "src/frpcmarshaller.cc: Marshaller_t::create"]}
{"id": "C89", "title": "Python client: a call sends its request at most once", "statement": "A call of the Python client sends nothing or a beginning of one request, which carries the method name and the arguments in the format the server is known to accept, with the header fields of the proxy, of the call and of the callback, over at most one new connection. Every connection made is closed or kept, and one that is kept after the call was sent the whole request and its whole response was read.", "quantifier": "every state of the proxy, every list of arguments, every behaviour of the network and of the hooks", "why_tests_cant": "The set of inputs is infinite and the interesting cases sit at width, nesting and boundary combinations; a finite test set cannot cover them.", "anchors": ["python/fastrpcmodule.cc: Method_call, Proxy_t::operator(), feed_headers", "src/frpchttpclient.cc: sendRequest, readResponse, write, flush"]}
{"id": "C90", "title": "Python client: arguments that cannot be sent", "statement": "A call with an argument that has no counterpart in the format raises a Python exception; nothing is sent and the connection is not touched.", "quantifier": "every list of Python objects, every state of the proxy, every behaviour of the network", "why_tests_cant": "The set of inputs is infinite and the interesting cases sit at width, nesting and boundary combinations; a finite test set cannot cover them.", "anchors": ["python/fastrpcmodule.cc: Proxy_t::operator()", "python/pythonfeeder.cc: Feeder_t::feedValue", "src/frpchttpclient.cc: write, flush"]}
{"id": "C91", "title": "Python client: a call gets the response to it", "statement": "In any history of a proxy a call that returns an object or raises a Fault does so because of the response to this call and not of another: the object is the one sent, the Fault has the code and the message sent. Connections may fail or be closed at any point.", "quantifier": "every history of calls, every behaviour of the network, every cutting of the responses", "why_tests_cant": "The set of inputs is infinite and the interesting cases sit at width, nesting and boundary combinations; a finite test set cannot cover them.", "anchors": ["python/fastrpcmodule.cc: Proxy_t::operator(), Method_call, ServerProxy_ServerProxy", "python/pythonbuilder.cc", "src/frpchttpclient.cc: readResponse, sendRequest", "src/frpcconnector.cc: connectSocket"]}
{"id": "C92", "title": "Python client: the hooks of a call", "statement": "preCall is run once before a call with the method name and the arguments, postCall once after it with the same, what preCall returned and the exception of the call if there was one. They change neither what is sent, nor the state of the proxy, nor what the call returns or raises, even if they raise exceptions themselves.", "quantifier": "every call, every behaviour of the network, every behaviour of the hooks", "why_tests_cant": "The set of inputs is infinite and the interesting cases sit at width, nesting and boundary combinations; a finite test set cannot cover them.", "anchors": ["python/fastrpcmodule.cc: Proxy_t::operator(), Method_call, ServerProxy_ServerProxy"]}
{"id": "C93", "title": "Python client: names of methods", "statement": "proxy.a.b.c(...) calls the method 'a.b.c', for all names that are no attributes of the proxy itself and do not begin with two underscores; those raise AttributeError. Different names call different methods. last_call of the proxy is the name of the method called last.", "quantifier": "every sequence of attribute names", "why_tests_cant": "The set of inputs is infinite and the interesting cases sit at width, nesting and boundary combinations; a finite test set cannot cover them.", "anchors": ["python/fastrpcmodule.cc: ServerProxy_getattro, Method_getattro"]}
{"id": "C94", "title": "Python client: header fields", "statement": "The header fields given to a proxy are sent with every call and those given with a call with this call and no other, in their order; fields that cannot be used raise an exception.", "quantifier": "every history of calls, every list of header fields, every behaviour of the network", "why_tests_cant": "The set of inputs is infinite and the interesting cases sit at width, nesting and boundary combinations; a finite test set cannot cover them.", "anchors": ["python/fastrpcmodule.cc: feed_headers, Method_call, Proxy_t::operator(), ServerProxy_ServerProxy", "src/frpchttpclient.cc: addCustomRequestHeader"]}
{"id": "C95", "title": "Python client: errors told by HTTP", "statement": "If the server answers a call with an HTTP status other than 200, ProtocolError is raised with the number and the text of the status line, the connection is closed, and what the proxy knows of the server stays.", "quantifier": "every status code, reason and rest of the response, every call", "why_tests_cant": "The set of inputs is infinite and the interesting cases sit at width, nesting and boundary combinations; a finite test set cannot cover them.", "anchors": ["python/fastrpcmodule.cc: Proxy_t::operator()", "src/frpchttpclient.cc: readResponse"]}
{"id": "C96", "title": "Python client: any response ends in a result or an exception", "statement": "Whatever a server sends, a call of the Python client returns an object or raises a Python exception, and the proxy can be used for further calls; the interpreter is neither terminated nor crashed.", "quantifier": "every byte sequence that arrives, every behaviour of the network, every call", "why_tests_cant": "The set of inputs is infinite and the interesting cases sit at width, nesting and boundary combinations; a finite test set cannot cover them.", "anchors": ["python/fastrpcmodule.cc: Proxy_t::operator()", "python/pythonbuilder.h", "src/frpchttpclient.cc: readResponse", "src/frpcxmlunmarshaller.cc", "src/frpcbinunmarshaller.cc"]}
{"id": "C97", "title": "Python binding: XML round trip", "statement": "A call, response or fault of Python objects that XML has, written by dumps with useBinary=0, is read by loads as the same objects, name, code and message, whether the format is given or found out; of a date the day of the week and the time are those the host computes.", "quantifier": "every list of Python objects, names, codes and messages, every version from 2.0", "why_tests_cant": "The set of inputs is infinite and the interesting cases sit at width, nesting and boundary combinations; a finite test set cannot cover them.", "anchors": ["python/fastrpcmodule.cc: dumps, loads", "python/pythonfeeder.cc", "python/pythonbuilder.h", "src/frpcxmlmarshaller.cc", "src/frpcxmlunmarshaller.cc", "src/frpcunmarshaller.cc: UnMarshaller_t::create"]}
{"id": "C98", "title": "Python binding: loads of any XML", "statement": "Whatever text loads is given as XML, it returns objects or raises a Python exception; the interpreter is neither terminated nor crashed.", "quantifier": "every byte sequence", "why_tests_cant": "The set of inputs is infinite and the interesting cases sit at width, nesting and boundary combinations; a finite test set cannot cover them.", "anchors": ["python/fastrpcmodule.cc: loads", "python/pythonbuilder.h", "src/frpcxmlunmarshaller.cc", "src/frpcunmarshaller.cc: UnMarshaller_t::create"]}
{"id": "C99", "title": "Python web handlers: which requests are taken, and the type of the answer", "statement": "A handler for a Python web framework (Flask, aiohttp, Tornado) answers a request if its Content-Type is one it supports and its Accept field, if it has one, allows one of the types it supports; others are refused without running a method. The answer has a type the request accepts, and its body is of this type.", "quantifier": "every request, every set of methods and of allowed types", "why_tests_cant": "The set of inputs is infinite and the interesting cases sit at width, nesting and boundary combinations; a finite test set cannot cover them.", "anchors": ["python/fastrpc/handler/flask.py: handle, _get_accepted_content_types, _create_response", "python/fastrpc/handler/aiohttp.py: handle, _get_accepted_content_types, _create_response", "python/fastrpc/handler/tornado.py: FastRpcHandler.post"]}
{"id": "C100", "title": "Python web handlers: a call runs its method", "statement": "A request that carries a call, in the binary format or in XML and in whatever pieces it arrives, runs the function registered last under the name, once, with the parameters sent, and the answer carries what it returned; with Flask a dict gets a status 200 and the message OK unless it has a status.", "quantifier": "every call, every set of methods, every state of the program", "why_tests_cant": "The set of inputs is infinite and the interesting cases sit at width, nesting and boundary combinations; a finite test set cannot cover them.", "anchors": ["python/fastrpc/handler/flask.py: handle, _create_response, _response_autostatus, register_method", "python/fastrpc/handler/aiohttp.py: handle, _create_response, register_method", "python/fastrpc/handler/tornado.py: FastRpcHandler.post"]}
{"id": "C101", "title": "Python web handlers: unknown methods and exceptions", "statement": "A call of a method that is not registered runs nothing and is answered with status 501 and its name (Flask, aiohttp); an exception of a method is answered with status 500 and its text (Flask, aiohttp) or as fault -500 with its class and text (Tornado).", "quantifier": "every call, every exception, every set of methods", "why_tests_cant": "The set of inputs is infinite and the interesting cases sit at width, nesting and boundary combinations; a finite test set cannot cover them.", "anchors": ["python/fastrpc/handler/flask.py: _create_response", "python/fastrpc/handler/aiohttp.py: _create_response", "python/fastrpc/handler/tornado.py: FastRpcHandler.post"]}
{"id": "C102", "title": "Python web handlers: introspection", "statement": "system.listMethods returns the names of all registered methods, each once, system.methodHelp the documentation of a method; server.stat of the Flask handler answers status 200.", "quantifier": "every sequence of registrations", "why_tests_cant": "The set of inputs is infinite and the interesting cases sit at width, nesting and boundary combinations; a finite test set cannot cover them.", "anchors": ["python/fastrpc/handler/flask.py: _system_list_methods, _system_method_help, stat, register_method", "python/fastrpc/handler/aiohttp.py: _system_list_methods, _system_method_help", "python/fastrpc/handler/tornado.py: system_list_methods, system_method_help"]}
{"id": "C103", "title": "Python web handlers: any request ends in an answer or an exception", "statement": "Whatever the body of a request is, a handler answers it or raises a Python exception; the interpreter is neither terminated nor crashed.", "quantifier": "every request, every set of methods", "why_tests_cant": "The set of inputs is infinite and the interesting cases sit at width, nesting and boundary combinations; a finite test set cannot cover them.", "anchors": ["python/fastrpc/handler/flask.py: handle", "python/fastrpc/handler/aiohttp.py: handle", "python/fastrpc/handler/tornado.py: FastRpcHandler.post", "python/fastrpcmodule.cc: loads, dumps"]}
{"id": "C104", "title": "Python web handlers: the declared length of an answer", "statement": "The Content-Length of an answer is the number of bytes of its body.", "quantifier": "every request, every result of a method", "why_tests_cant": "The set of inputs is infinite and the interesting cases sit at width, nesting and boundary combinations; a finite test set cannot cover them.", "anchors": ["python/fastrpc/handler/flask.py: _create_response", "python/fastrpc/handler/aiohttp.py: _create_response", "python/fastrpc/handler/tornado.py: FastRpcHandler.post"]}
{"id": "C105", "title": "JavaScript: hints give the types of what is sent", "statement": "A number in a call of the JavaScript implementation arrives as a double if a hint for its position, the hint for all or a wrapper says it is a float, and as the integer it is otherwise; an array arrives as binary data if a hint for its position or a wrapper says so; hints for other positions change nothing; data with undefined values or functions raise an exception.", "quantifier": "every data, every set of hints, protocol versions 2 and 3, every cutting of the message", "why_tests_cant": "The set of inputs is infinite and the interesting cases sit at width, nesting and boundary combinations; a finite test set cannot cover them.", "anchors": ["javascript/fastrpc.mjs: serializeCall, serialize, _getHint, _serializeValue, _serializeArray, _serializeBinary, _serializeStruct, _encodeInt, _encodeZigzag", "typescript/fastrpc.ts"]}
{"id": "C106", "title": "A request ends where HTTP says", "statement": "The body of a request is the one RFC 7230 (3.3.3) says: chunks if its transfer encoding is chunked, whatever Content-Length says, else as many bytes as all its Content-Length fields agree on, else nothing; a request whose end is told in no valid way is refused. What is inside a body is never taken for another request.", "quantifier": "every header, every body, every cutting, every consumer", "why_tests_cant": "The set of inputs is infinite and the interesting cases sit at width, nesting and boundary combinations; a finite test set cannot cover them.", "anchors": ["src/frpchttpio.cc: readContent, readChunkedContent, readChunkSize, readHeader", "src/frpchttp.cc: HTTPHeader_t::get", "src/frpcserver.cc: Server_t::serve"]}
{"id": "C107", "title": "Python: dates stand for the moment they are made from", "statement": "LocalTime(t), UTCTime(t) and DateTime(t, zone) stand for the moment t and show it in their zone, and t is their unix time; LocalTime() and UTCTime() stand for the present; DateTime(text) stands for the moment the text tells, and the text of a date gives the date again. No arguments crash the interpreter.", "quantifier": "every time, every zone, every text, every local clock", "why_tests_cant": "The set of inputs is infinite and the interesting cases sit at width, nesting and boundary combinations; a finite test set cannot cover them.", "anchors": ["python/fastrpcmodule.cc: DateTimeObject_init, LocalTimeObject_init, UTCTimeObject_init, TimeObject_init_getNow, TimeObject_init_parseInt, TimeObject_init_parseString, DateTimeObject_repr, newDateTime"]}
{"id": "C108", "title": "Python: dates are compared as moments", "statement": "Dates are equal if they stand for the same moment, and ordered as their moments are, whatever their zones; the comparisons are a total order; a date is unequal to an object of another class and not ordered with it.", "quantifier": "every two dates and objects, every local clock", "why_tests_cant": "The set of inputs is infinite and the interesting cases sit at width, nesting and boundary combinations; a finite test set cannot cover them.", "anchors": ["python/fastrpcmodule.cc: DateTimeObject_richcmp, DateTimeObject_to_timestamp"]}
{"id": "C109", "title": "Python: Booleans and the attributes of dates", "statement": "A Boolean holds the truth of the value it is made from, whatever it is, and compares as that; boolean(value, choices) chooses by it. A number assigned to an attribute of a date is read again and no other attribute changes; a number the attribute has no room for is refused.", "quantifier": "every value, every attribute, every number", "why_tests_cant": "The set of inputs is infinite and the interesting cases sit at width, nesting and boundary combinations; a finite test set cannot cover them.", "anchors": ["python/fastrpcmodule.cc: BooleanObject_init, BooleanObject_setattr, BooleanObject_richcmp, fastrpc_boolean, DateTimeObject_setattr, DateTimeObject_getattr"]}
{"id": "C110", "title": "Python: dumpTree shows nothing to be hidden and nothing too deep", "statement": "What dumpTree shows of an object does not depend on the values of members whose names are in names, on the items whose bits are set in pos, and on what is deeper than level.", "quantifier": "every object, every names, pos and level, every printing of doubles and other objects", "why_tests_cant": "The set of inputs is infinite and the interesting cases sit at width, nesting and boundary combinations; a finite test set cannot cover them.", "anchors": ["python/fastrpcmodule.cc: printPyFastRPCTree, printString, fastrpc_dumpTree"]}
{"id": "C111", "title": "Python: of any data there is a dump", "statement": "dumpTree of any data is a string; no exception is raised and the interpreter does not crash.", "quantifier": "every object, every names, pos and level", "why_tests_cant": "The set of inputs is infinite and the interesting cases sit at width, nesting and boundary combinations; a finite test set cannot cover them.", "anchors": ["python/fastrpcmodule.cc: printPyFastRPCTree, printString, fastrpc_dumpTree"]}
{"id": "C112", "title": "Python: datetimeBuilder makes the dates", "statement": "loads() with a callable as datetimeBuilder calls it once for each date of the message, in order, with the year, month, day, hour, minute, second, day of the week, unix time and zone of the date, puts what it returns where the date is, and raises what it raises; all else is as without it.", "quantifier": "every message, every callable and state of it", "why_tests_cant": "The set of inputs is infinite and the interesting cases sit at width, nesting and boundary combinations; a finite test set cannot cover them.", "anchors": ["python/pythonbuilder.cc: buildDateTime", "python/fastrpcmodule.cc: fastrpc_loads"]}
{"id": "C113", "title": "Console: what is printed tells the result", "statement": "Two different results of calls that fastrpc-netcat3 prints are printed differently: kinds, members, elements, texts, numbers and dates with their zone can be read off.", "quantifier": "all results, sorted or not", "why_tests_cant": "nested results are unbounded, and that no two of infinitely many texts collide is no property of samples", "anchors": ["netcat/fastrpc-netcat3:_write_out", "netcat/fastrpc-netcat3:write_out_list", "netcat/fastrpc-netcat3:_type"]}
{"id": "C114", "title": "Console: autosort", "statement": "With autosort on, results that are equal but for the order of their members, at any depth, are printed alike, and printing does not fail.", "quantifier": "all results and all orders of their members", "why_tests_cant": "the orders of nested structs cannot be enumerated", "anchors": ["netcat/fastrpc-netcat3:_write_out"]}
{"id": "C115", "title": "Console: lines mean what the help says", "statement": "A line of the form the help text describes does what is described there (connect, connectdb, charset, name, autocommit, autosort, timeout in milliseconds, help, METHOD -h, exit with a result, shell, exec, !); any other line is evaluated as an expression.", "quantifier": "all lines of words", "why_tests_cant": "hosts, ports, names and expressions are arbitrary texts, and each branch can take lines from a later one", "anchors": ["netcat/fastrpc-netcat3:main"]}
{"id": "C116", "title": "Console: scripts and sessions", "statement": "A script is run line by line until a line fails, which gives the status 255, or the end or an exit, which gives 0; no line after a failing one is run. At a terminal a line that fails does not end the console, nor does Ctrl+C unless pressed twice in a row; it ends with 0 at exit or the end of the input.", "quantifier": "all scripts and all behaviours of the commands", "why_tests_cant": "scripts and what their commands do are unbounded", "anchors": ["netcat/fastrpc-netcat3:main"]}
{"id": "C117", "title": "Console: completion", "statement": "Completion offers exactly the known words that begin with the text typed, each in order, then nothing; the words of a client are the methods its server lists except those of system.", "quantifier": "all lists of words, texts and lists of methods", "why_tests_cant": "word lists come from servers", "anchors": ["netcat/fastrpc-netcat3:Completer", "netcat/fastrpc-netcat3:main"]}
{"id": "C118", "title": "Method objects are deleted once", "statement": "Every method object given to a registry, under a name, as the default method or for HEAD, is deleted exactly once, when it is replaced or the registry is destroyed, and is not used after that.", "quantifier": "all histories of registrations, with or without the registry's own methods", "why_tests_cant": "histories of registrations are unbounded, and leaks and double deletions show no effect in a test", "anchors": ["src/frpcmethodregistry.cc:MethodRegistry_t::registerMethod", "src/frpcmethodregistry.cc:MethodRegistry_t::~MethodRegistry_t"]}
{"id": "C119", "title": "A dump shows strings and binaries up to the limit", "statement": "A dump shows of every string and every binary the first maxlen bytes (all if it is -1), binaries in hexadecimal, and says by three dots that there is more exactly if there is; data given in pieces are shown as the same data in one piece.", "quantifier": "all strings, binaries, ways of cutting them and limits", "why_tests_cant": "lengths and limits are unbounded, and errors sit where a length meets the limit", "anchors": ["src/frpc.cc:dumpFastrpcTree"]}
{"id": "C120", "title": "The text of a Python error says what it is", "statement": "fastrpc.Fault, ProtocolError and ResponseError are made from (a number,) a string and, if wanted, the method called; their text then is the class, the number, the message and the method, and from it an error without a method can be told exactly. Getting the text is always defined, whatever was done to the attributes.", "quantifier": "all arguments, all histories of initialisations and of assignments to and deletions of attributes", "why_tests_cant": "objects, texts and histories are unbounded, and what is read as a method may be any object", "anchors": ["python/pyerrors.cc:Fault_init", "python/pyerrors.cc:ProtocolError_init", "python/pyerrors.cc:ResponseError_init", "python/fastrpcmodule.cc:errorRepr"]}
{"id": "C121", "title": "Python error objects take and give back the same references", "statement": "Over the life of an error object, every reference it gives back is one it took, and it keeps none once it is gone.", "quantifier": "all histories of initialisations, assignments and deletions", "why_tests_cant": "histories are unbounded, and a lost or surplus reference shows no effect in a test", "anchors": ["python/pyerrors.cc:Fault_init", "python/pyerrors.cc:Fault_clear", "python/pyerrors.cc:Fault_dealloc"]}
{"id": "C122", "title": "A server's answers do not depend on what it served before", "statement": "Whatever a server object has served, on this connection or on others, it answers what comes next exactly as a new server object does.", "quantifier": "all states a server object can be in, all input and ways of cutting it, all registries", "why_tests_cant": "earlier requests and connections are unbounded histories, and what is left of them shows only in odd sequences", "anchors": ["src/frpcserver.cc:Server_t::serve", "src/frpcserver.cc:Server_t::readRequest", "src/frpcserver.cc:Server_t::sendResponse"]}
{"id": "C123", "title": "A Python server's answers do not depend on what it served before", "statement": "Whatever a fastrpc.Server object has served, on this connection or on others, it answers what comes next exactly as a new one does.", "quantifier": "all states a server object can be in, all input and ways of cutting it, all registries", "why_tests_cant": "earlier requests and connections are unbounded histories, and what is left of them shows only in odd sequences", "anchors": ["python/pythonserver.cc:Server_t::serve", "python/pythonserver.cc:Server_t::readRequest"]}
{"id": "C124", "title": "The builder of Python objects gives back every reference it took", "statement": "When a call, a response or a fault has been built and the result is dropped, no reference taken while building is left, also if a text could not be decoded.", "quantifier": "all sequences of builder calls a reader makes, whole or cut off anywhere", "why_tests_cant": "documents are unbounded and nested, and a lost reference shows no effect in a test", "anchors": ["python/pythonbuilder.h:Builder_t::isMember", "python/pythonbuilder.h:Builder_t::setError", "python/pythonbuilder.cc:Builder_t::buildFault", "python/pythonbuilder.cc:Builder_t::buildNull"]}
{"id": "C125", "title": "Errors of access to values name what was asked for", "statement": "The text of the error raised for an index, a key, a type or a wrong item says which index, key, type or item was wrong and what there is, so that it can be told from the text; an error is raised exactly if the access is wrong.", "quantifier": "all values, indices, keys and formats", "why_tests_cant": "values and keys are unbounded, and texts are cut off and numbers converted silently", "anchors": ["src/frpcarray.cc:Array_t::checkItems", "src/frpcarray.cc:Array_t::operator[]", "src/frpcstruct.cc:Struct_t::operator[]", "src/frpcvalue.cc:Value_t::operator[]", "src/frpcerror.cc:Error_t::format"]}
{"id": "C126", "title": "JavaScript reads no other text than was sent", "statement": "Text read by the JavaScript binding is exactly the text that was sent, or shows a replacement character where it was not UTF-8; a text cut off is an error.", "quantifier": "all byte sequences read as text, whole or cut off", "why_tests_cant": "texts are unbounded and errors sit in single bounds of bytes", "anchors": ["javascript/fastrpc.mjs:_decodeUTF8"]}
{"id": "C127", "title": "Every Python object handed over is written or refused", "statement": "Handing any Python object to the Python module's encoder ends: the object is written, or an exception says that it cannot be, whatever objects it contains and however they share parts; the process does not end.", "quantifier": "all Python objects in memory, also lists, tuples and dicts that contain themselves directly or indirectly, and all stack sizes", "why_tests_cant": "tests feed literals, which are finite trees; an object that contains itself has no finite literal", "anchors": ["python/pythonfeeder.cc:Feeder_t::feedValue"]}
{"id": "C128", "title": "A value in memory is marshalled as what it reads as", "statement": "TreeFeeder_t::feedValue gives the marshaller exactly the tree a value in memory reads as, whatever parts it shares with other values or with itself, whichever pools they belong to, and whether it is an original or a clone; it ends for every value a program can build.", "quantifier": "all states a program can reach with pools, values, clones and buffers, all values in them, all stack sizes", "why_tests_cant": "the values in memory form arbitrary graphs, of any depth and sharing, after any history of operations", "anchors": ["src/frpctreefeeder.cc:feedValueImpl", "src/frpctreefeeder.cc:packArray", "src/frpctreefeeder.cc:packStruct", "src/frpcarray.cc:append"]}
