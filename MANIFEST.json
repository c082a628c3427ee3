{
 "claims": [
  {
   "property": "C01",
   "status": "proved",
   "theorems": [
    "C01_response_round_trip",
    "C01_response_round_trip_exact",
    "C01_response_calls"
   ],
   "note": "For every value the format can carry (wf: sizes < 2^30, names 1-255, date-times within the range of C07), every modern version, every cut into pieces. With date-time validation on, unix time and weekday are recomputed by the receiver (make_datetime)."
  },
  {
   "property": "C02",
   "status": "proved",
   "theorems": [
    "C02_call_round_trip",
    "C02_call_calls"
   ],
   "note": "Any method name of 1-255 bytes and any list of wf parameters."
  },
  {
   "property": "C03",
   "status": "proved",
   "theorems": [
    "C03_fault_round_trip",
    "C03_fault_calls",
    "C03_empty_message_replaced"
   ],
   "note": "Builder level for every message; at the tree builder for non-empty ones (an empty one is replaced by a default text, shown)."
  },
  {
   "property": "C04",
   "status": "proved",
   "theorems": [
    "C04_segmentation",
    "C04_segmentation_calls",
    "C04_segmentation_tree"
   ],
   "note": "Any builder, any bytes, any two cuts."
  },
  {
   "property": "C05",
   "status": "proved",
   "theorems": [
    "C05_integers",
    "C05_integers_minimal"
   ],
   "note": ""
  },
  {
   "property": "C06",
   "status": "partial",
   "theorems": [
    "C06_protocol1_integers_refuted",
    "C06_protocol1_integers_partial",
    "C06_protocol1_minimal"
   ],
   "note": "The property is false of the code; proved: exactly 0..2^32-1 survive, in the smallest number of bytes."
  },
  {
   "property": "C07",
   "status": "partial",
   "theorems": [
    "C07_datetime_refuted",
    "C07_datetime_partial"
   ],
   "note": "False for years 2624-3647 (signed shift); proved for 1600-2623."
  },
  {
   "property": "C08",
   "status": "proved",
   "theorems": [
    "C08_calls_bounded",
    "C08_oversized_refused"
   ],
   "note": ""
  },
  {
   "property": "C09",
   "status": "proved",
   "theorems": [
    "C09_no_bad_read",
    "C09_tree_no_bad_read",
    "C09_tree_exceptions",
    "C09_after_builder_exception_refuted"
   ],
   "note": "Up to and including the first exception. After an exception thrown by a builder from a close call the code can read out of bounds (witness)."
  },
  {
   "property": "C10",
   "status": "proved",
   "theorems": [
    "C10_well_nested"
   ],
   "note": ""
  },
  {
   "property": "C11",
   "status": "partial",
   "theorems": [
    "C11_finish_refuted",
    "C11_finish_fault_refuted",
    "C11_finish_partial"
   ],
   "note": "False of the code (response without value, fault without message are accepted); proved: every reported value is complete."
  },
  {
   "property": "C12",
   "status": "proved",
   "theorems": [
    "C12_truncated_response"
   ],
   "note": "Every proper prefix, including cuts in the header; the 5-byte prefix yields the 'No data' fault instead."
  },
  {
   "property": "C13",
   "status": "proved",
   "theorems": [
    "C13_stays_failed",
    "C13_tree_stays_failed"
   ],
   "note": "For builders that accept every call and for the tree builder."
  },
  {
   "property": "C14",
   "status": "partial",
   "theorems": [
    "C14_partial_refuted",
    "C14_known_prefix_partial"
   ],
   "note": "False when the unknown tag stands for a member's value (it is swallowed); proved otherwise."
  },
  {
   "property": "C15",
   "status": "proved",
   "theorems": [
    "C15_self_delimiting"
   ],
   "note": ""
  },
  {
   "property": "C16",
   "status": "proved",
   "theorems": [
    "C16_refused_writes_nothing",
    "C16_accepted",
    "C16_sendable",
    "C16_errors"
   ],
   "note": ""
  },
  {
   "property": "C17",
   "status": "proved",
   "theorems": [
    "C17_feed_build",
    "C17_duplicates_keep_last"
   ],
   "note": ""
  },
  {
   "property": "C18",
   "status": "proved",
   "theorems": [
    "C18_builder_refuses",
    "C18_extra_data_refused"
   ],
   "note": ""
  },
  {
   "property": "C19",
   "status": "proved",
   "theorems": [
    "C19_escape_round_trip",
    "C19_unescape_exact"
   ],
   "note": ""
  },
  {
   "property": "C20",
   "status": "partial",
   "theorems": [
    "C20_secrets_arrive_partial",
    "C20_content_untouched",
    "C20_index_ten_refuted",
    "C20_nested_refuted"
   ],
   "note": "End to end over the wire. False of the code for array positions with a digit 0 and for secrets inside secrets (witnesses); proved for all others. Pointers, even hostile, never change the content."
  },
  {
   "property": "C21",
   "status": "proved",
   "theorems": [
    "C21_dump_hides"
   ],
   "note": ""
  },
  {
   "property": "C22",
   "status": "partial",
   "theorems": [
    "C22_total_preorder_partial",
    "C22_equality",
    "C22_nan_refuted",
    "C22_unsupported_refuted"
   ],
   "note": "Total preorder and equality on all comparable values; false of the code for NaN and for string views, binary references and secrets (witnesses)."
  },
  {
   "property": "C23",
   "status": "partial",
   "theorems": [
    "C23_struct_history",
    "C23_long_name_refused",
    "C23_append_size",
    "C23_insert_long_name_refuted"
   ],
   "note": "The map laws hold for every history; only append(key,value) checks the name length (witness)."
  },
  {
   "property": "C24",
   "status": "proved",
   "theorems": [
    "C24_check_items",
    "C24_any_format_safe"
   ],
   "note": ""
  },
  {
   "property": "C25",
   "status": "proved",
   "theorems": [
    "C25_round_trip",
    "C25_message_round_trip"
   ],
   "note": ""
  },
  {
   "property": "C26",
   "status": "partial",
   "theorems": [
    "C26_cutting_partial",
    "C26_encodings",
    "C26_after_padding_refuted"
   ],
   "note": "False when the text goes on after the padding (witness); proved for every cutting of any text without padding, and for every encoding with blanks."
  },
  {
   "property": "C27",
   "status": "proved",
   "theorems": [
    "C27_xml_base64",
    "C27_no_breaks"
   ],
   "note": ""
  },
  {
   "property": "C28",
   "status": "partial",
   "theorems": [
    "C28_decode",
    "C28_safe_partial",
    "C28_unsafe_exactly",
    "C28_percent_at_end_refuted"
   ],
   "note": "Every percent encoding decodes to its bytes; the decoder runs past the end of exactly the texts whose last character is a '%' beginning an escape (witness)."
  },
  {
   "property": "C32",
   "status": "proved",
   "theorems": [
    "C32_round_trip",
    "C32_no_overflow"
   ],
   "note": ""
  },
  {
   "property": "C54",
   "status": "partial",
   "theorems": [
    "C54_url_call",
    "C54_members_unique",
    "C54_stale_errno_refuted",
    "C54_negative_refuted"
   ],
   "note": "Proved when errno is not ERANGE on entry (the code never clears it: witness), for strings, booleans, null, non-negative integers, doubles (strtod is a parameter) and date-times; negative numbers are refused (witness)."
  },
  {
   "property": "C29",
   "status": "proved",
   "theorems": [
    "C29_json_string"
   ],
   "note": ""
  },
  {
   "property": "C30",
   "status": "partial",
   "theorems": [
    "C30_json_partial",
    "C30_fault",
    "C30_infinity_refuted"
   ],
   "note": "False of the code for infinities and NaN (witness); proved for every other value, with the printing of doubles a parameter required to yield JSON numbers."
  },
  {
   "property": "C31",
   "status": "proved",
   "theorems": [
    "C31_quoted_text",
    "C31_unambiguous",
    "C31_no_markup",
    "C31_in_document"
   ],
   "note": ""
  },
  {
   "property": "C55",
   "status": "partial",
   "theorems": [
    "C55_response_partial",
    "C55_call_partial",
    "C55_fault_partial",
    "C55_like_binary_partial",
    "C55_calls_partial",
    "C55_version_partial",
    "C55_carriage_return_refuted",
    "C55_ill_formed_refuted",
    "C55_smallest_integer_refuted",
    "C55_stale_errno_refuted"
   ],
   "note": "libxml2 is not modelled: delivery states what a conforming parser does. Proved for protocol versions 2 and 3, text of XML characters without carriage returns, integers above -2^63, in-range dates, doubles that strtod reads back, and errno not ERANGE on entry; false of the code outside these (witnesses)."
  },
  {
   "property": "C56",
   "status": "partial",
   "theorems": [
    "C56_server_partial",
    "C56_requests_partial",
    "C56_responses_partial",
    "C56_no_fault_partial",
    "C56_client_refuted",
    "C56_out_of_range_refuted",
    "C56_version_refuted"
   ],
   "note": "Proved for every well nested document on the server side (with the tree builder nothing undefined happens, for every parser whose callbacks nest and whose error numbers are outside 102..815) and, for any receiver, for every document without a fault element; with the tree builder nothing undefined happens at any receiver as long as a fault is the last thing in the document; a document makes a client close a container it never opened (undefined behaviour), std::out_of_range can escape, and the version seen depends on the cutting (witnesses)."
  },
  {
   "property": "C35",
   "status": "proved",
   "theorems": [
    "C35_segmentation",
    "C35_line",
    "C35_only_lines",
    "C35_optional_refuted"
   ],
   "note": "The optional first line of a request drops a partial line at a time-out (C35_optional_refuted); that too is independent of segmentation."
  },
  {
   "property": "C36",
   "status": "proved",
   "theorems": [
    "C36_send",
    "C36_progress"
   ],
   "note": ""
  },
  {
   "property": "C37",
   "status": "partial",
   "theorems": [
    "C37_content_length",
    "C37_chunked",
    "C37_until_close",
    "C37_no_body",
    "C37_short",
    "C37_short_chunked",
    "C37_huge_length",
    "C37_huge_chunk",
    "C37_limit_partial",
    "C37_limit_refuted",
    "C37_defined",
    "C37_defined_refuted"
   ],
   "note": "Exact delivery is proved for every consumer and segmentation. The limit is enforced exactly for bodies with a length and chunked ones, but a body ended by the connection may exceed it by one buffer (witness), and with a limit a huge chunk size overflows a signed sum (witness)."
  },
  {
   "property": "C38",
   "status": "proved",
   "theorems": [
    "C38_case",
    "C38_get",
    "C38_add",
    "C38_set",
    "C38_remove"
   ],
   "note": ""
  },
  {
   "property": "C39",
   "status": "partial",
   "theorems": [
    "C39_parse_partial",
    "C39_parse_refuted",
    "C39_print_partial",
    "C39_print_refuted",
    "C39_total"
   ],
   "note": "False of the code when ']' occurs in the path: an explicit port is missed, and the URL printed for a UNIX socket names a TCP host (witnesses); proved for all other URLs."
  },
  {
   "property": "C33",
   "status": "partial",
   "theorems": [
    "C33_client_partial",
    "C33_server_partial",
    "C33_refuted",
    "C33_empty_refuted"
   ],
   "note": "Proved for every sequence of writes whose first non-empty write fits the buffer (true of both marshallers, whose first write is the magic or the XML prologue); a larger first write emits a premature terminating chunk and an empty message two of them (theorems for every such message)."
  },
  {
   "property": "C34",
   "status": "partial",
   "theorems": [
    "C34_client",
    "C34_server",
    "C34_refuted"
   ],
   "note": "The length is counted in 32 bits: exact for every message below 4 GiB and too small for every larger one (both proved)."
  },
  {
   "property": "C40",
   "status": "partial",
   "theorems": [
    "C40_response_partial",
    "C40_fault_partial",
    "C40_binary_partial",
    "C40_refused_value_refuted",
    "C40_transport_error_refuted"
   ],
   "note": "Proved for every marshaller and every value it accepts, and for every exception but those of the transport; a value the marshaller refuses half-way leaves the beginning of a response before the fault, and an HTTP or protocol error thrown by a method leaves no answer (witnesses)."
  },
  {
   "property": "C41",
   "status": "partial",
   "theorems": [
    "C41_documented_partial",
    "C41_documented_value",
    "C41_internal",
    "C41_unknown",
    "C41_default",
    "C41_binary_partial",
    "C41_nul_refuted"
   ],
   "note": "The code is always the documented one; the message is cut at a NUL (witness)."
  },
  {
   "property": "C42",
   "status": "partial",
   "theorems": [
    "C42_entries_partial",
    "C42_total_partial",
    "C42_stream_error_refuted"
   ],
   "note": "False of the code for entries whose method throws a stream error or a foreign exception (witness); proved for every other outcome, malformed entries and nested multicalls included."
  },
  {
   "property": "C58",
   "status": "partial",
   "theorems": [
    "C58_value_partial",
    "C58_fault_partial",
    "C58_internal_partial",
    "C58_twice_refuted",
    "C58_never_refuted"
   ],
   "note": "Proved for every call answered as in C40; otherwise the end is reported twice or never (witnesses)."
  },
  {
   "property": "C59",
   "status": "proved",
   "theorems": [
    "C59_list",
    "C59_help",
    "C59_signature",
    "C59_signature_total",
    "C59_unknown"
   ],
   "note": ""
  },
  {
   "property": "C57",
   "status": "partial",
   "theorems": [
    "C57_session_partial",
    "C57_formats_partial",
    "C57_registry_value",
    "C57_registry_fault"
   ],
   "note": "For any sequence of calls over one kept connection through the client's and the server's HTTP code, for every segmentation of requests and answers: in the binary format (C57_session_partial), and in either format with the client switching as the server advertises (C57_formats_partial, version 2.1, for XML parsers that report a document as S_XmlUm.faithful says; at_once_faithful exhibits one). And over the registry's reader interface. libxml2 itself is not modelled."
  },
  {
   "property": "C43",
   "status": "partial",
   "theorems": [
    "C43_cut_partial",
    "C43_inside_partial",
    "C43_base64_partial",
    "C43_body_partial",
    "C43_between_parameters_refuted",
    "C43_reader_refuted"
   ],
   "note": "Proved for a connection that ends anywhere within a request, after any number of complete ones, and for a request of consistent length whose body, binary or base64, is any beginning of a call not ending between two parameters: it is answered by one parse error, nothing is executed. A body of consistent length that ends between two parameters is a valid shorter call, and the registry's own reader executes incomplete calls (witnesses)."
  },
  {
   "property": "C52",
   "status": "partial",
   "theorems": [
    "C52_connection",
    "C52_base64_calls",
    "C52_unknown_type_refuted",
    "C52_http10_refuted"
   ],
   "note": "Exact for every sequence of well-formed requests of known type; a request whose type is unknown or whose body does not decode leaves the connection open whatever it asks for, and a broken request of HTTP/1.0 is answered in chunks (witnesses)."
  },
  {
   "property": "C60",
   "status": "partial",
   "theorems": [
    "C60_any_input_partial",
    "C60_forms_partial",
    "C60_url_refuted",
    "C60_smallest_integer_refuted",
    "C60_next_connection_refuted",
    "C60_error_number_refuted"
   ],
   "note": "Proved for binary and base64 requests and all four answer formats, given methods that do not return the smallest integer or time; XML requests for every parser whose callbacks nest and whose error numbers have a text; with the library's URL decoder, only input containing a form with a value that ends in the middle of an escape can do anything undefined (C60_forms_partial). False of the code for a URL-encoded '%' at the end, for methods returning the smallest integer, for a server object reused after an HTTP error, and for XML errors numbered 102 to 815, such as libxml2's 108 for an unknown XML version (witnesses)."
  },
  {
   "property": "C61",
   "status": "partial",
   "theorems": [
    "C52_connection",
    "C61_body_executed_refuted"
   ],
   "note": "Proved for every sequence of well-formed requests of known type whose calls decode; a request of unknown type has its body executed as the next request (witness)."
  },
  {
   "property": "C46",
   "status": "proved",
   "theorems": [
    "C46_headers"
   ],
   "note": "Over every history of a proxy; the values sent are those of at_most_one's request. What a failed call sent is covered too."
  },
  {
   "property": "C48",
   "status": "proved",
   "theorems": [
    "C48_mode"
   ],
   "note": "Over every history whose returned calls were each answered by one well-formed response."
  },
  {
   "property": "C51",
   "status": "partial",
   "theorems": [
    "C51_partial",
    "C51_refuted"
   ],
   "note": "False of the code for a client object that has read a response before (double delete, witness); proved for a new client object, which is what every proxy call uses, and for all sequences without a later unknown type."
  },
  {
   "property": "C62",
   "status": "partial",
   "theorems": [
    "C62_no_leak",
    "C62_own_partial",
    "C62_stale_refuted"
   ],
   "note": "No leak for every network; own response for every history in which the server sends one response per request; a server sending two has the second one taken for the answer to the next call (witness)."
  },
  {
   "property": "C63",
   "status": "proved",
   "theorems": [
    "C63_once"
   ],
   "note": "The request text is stated for bodies below 4 GiB (C34)."
  },
  {
   "property": "C64",
   "status": "partial",
   "theorems": [
    "C64_any_response_partial",
    "C64_xml_partial",
    "C64_xml_refuted"
   ],
   "note": "For every network and every bytes, binary responses without condition, XML responses when the parser's callbacks nest, its error numbers are known and a fault is the last thing in a document; refuted (undefined behaviour, witness) for a document in which a response begins inside a fault. Parameters must not contain the smallest integer or time."
  },
  {
   "property": "C65",
   "status": "proved",
   "theorems": [
    "C65_cut"
   ],
   "note": ""
  },
  {
   "property": "C44",
   "status": "proved",
   "theorems": [
    "C44_cache",
    "C44_once",
    "C44_determined",
    "C44_clock",
    "C44_clock_back_refuted",
    "C44_overflow_refuted"
   ],
   "note": "For every history of constructions and destructions with a clock that does not go back; the address (host, port, path) is what identifies a connection, the scheme is not compared. The other two show what fails with a clock set back and with a time-out above 2147483 seconds."
  },
  {
   "property": "C45",
   "status": "partial",
   "theorems": [
    "C45_new_partial",
    "C45_clean_partial",
    "C45_refuted",
    "C45_once_refuted"
   ],
   "note": "False of the code: a proxy taken from the cache sends the headers of the previous one (witness). Holds without keep-alive, without the cache, and as long as no proxy is destroyed with headers."
  },
  {
   "property": "C47",
   "status": "partial",
   "theorems": [
    "C47_refuted",
    "C47_partial"
   ],
   "note": "False for every text M.m of digits (characters are read as numbers, every call is refused); holds when no version is given."
  },
  {
   "property": "C66",
   "status": "proved",
   "theorems": [
    "C66_config",
    "C66_type",
    "C45_configured",
    "C66_wide_refuted"
   ],
   "note": "Time-outs beyond 31 bits are cut (witness), which the quantifier excludes."
  },
  {
   "property": "C49",
   "status": "partial",
   "theorems": [
    "C49_utf8_partial",
    "C49_off",
    "C49_refuted"
   ],
   "note": "For every sequence of Unicode scalar values, encoded in UTF-8, in a UTF-8 locale: accepted exactly if every one is let through as the documentation says. False of the code for text that is not UTF-8: validation does not advance and reads outside the text (theorem for every such text)."
  },
  {
   "property": "C50",
   "status": "partial",
   "theorems": [
    "C50_partial",
    "C50_refuted"
   ],
   "note": "False of the code for a multicall struct without params, which this library's server answers with a fault (witness, composed with the registry); safe for all other calls."
  },
  {
   "property": "C67",
   "status": "partial",
   "theorems": [
    "C67_plain",
    "C67_structured_partial",
    "C67_exception",
    "C67_refuted",
    "C67_result_refuted"
   ],
   "note": "For calls other than multicalls, failed calls, and multicalls of properly formed structs with proper results; otherwise logging throws TypeError and the results of the call are lost (witnesses). The user's logger is assumed not to throw."
  },
  {
   "property": "C53",
   "status": "partial",
   "theorems": [
    "C53_at_most_once",
    "C53_free",
    "C53_exactly_once_partial",
    "C53_refuted"
   ],
   "note": "At most once for every history. False of the code for exactly once: moving a pool onto one that owns values, onto itself, or stealing from itself loses them (witnesses); exactly once for all other histories."
  },
  {
   "property": "C68",
   "status": "partial",
   "theorems": [
    "C68_clone",
    "C68_lives",
    "C68_independent_partial",
    "C68_view_refuted",
    "C68_date_refuted",
    "C68_cycle_refuted"
   ],
   "note": "Proved for every value without string views whose dates agree with the calendar; a cloned string view keeps pointing to the original's buffer, a clone of a date made by ForceUTCTime has another time under validation, and cloning an array that contains itself does not end (witnesses)."
  },
  {
   "property": "C69",
   "status": "proved",
   "theorems": [
    "C69_descriptors",
    "C69_client",
    "C69_reconnects",
    "C69_call",
    "C69_agrees",
    "C69_connector_refuted"
   ],
   "note": "For the client, down to the system calls; C69_agrees shows the client model of the other claims to be this one seen from outside. A connector used alone, outside the client, may report an unconnected socket after a reconnect that timed out (witness). Interrupted system calls are not modelled."
  },
  {
   "property": "C70",
   "status": "partial",
   "theorems": [
    "C70_inet_partial",
    "C70_unix_partial",
    "C70_long_refuted",
    "C70_refuted"
   ],
   "note": "False of the code for UNIX paths above 107 characters (theorem for every such path), for port 0, for a UNIX socket as HTTP proxy and for an empty host (witnesses); proved for all other URLs."
  },
  {
   "property": "C71",
   "status": "proved",
   "theorems": [
    "C71_refused",
    "C71_head"
   ],
   "note": "After any number of served requests, for any header fields and any segmentation; the unmarshallers are parameters, a body without call being one they accept without building a call."
  },
  {
   "property": "C72",
   "status": "partial",
   "theorems": [
    "C72_local_time",
    "C72_local_fields",
    "C72_text_round_trip",
    "C72_utc_time_refuted",
    "C72_utc_fields_refuted",
    "C72_text_zone_refuted",
    "C72_zone_sign_refuted",
    "C72_year_refuted"
   ],
   "note": "The C library's clock enters through a specification (S_DateTime.follows, met by zone_host for every zone with or without summer time). LocalTime is right for every time with a 16-bit year where summer time is one hour; UTCTime shows local time, ISO text is read without regard to its zone, and the zone has the opposite of the documented sign (theorems for every zone other than UTC)."
  },
  {
   "property": "C73",
   "status": "partial",
   "theorems": [
    "C73_same_zone_partial",
    "C73_other_zone_refuted"
   ],
   "note": "Kept between hosts whose clocks show the same, and without validation; false for every other zone, as validation (the default) recomputes the unix time from the fields in the receiver's zone (theorem)."
  },
  {
   "property": "C74",
   "status": "partial",
   "theorems": [
    "C74_binary",
    "C74_xml",
    "C74_response_partial",
    "C74_call_partial",
    "C74_fault_partial",
    "C74_short_refuted",
    "C74_wanted_refuted"
   ],
   "note": "Proved for every message whose first piece has at least four bytes, no type being wanted. With less than four bytes a binary message is taken for XML and refused (for a parser that notices text that is not UTF-8), a single byte is read beyond its end; the type wanted is not checked for what came with the first piece (witnesses)."
  },
  {
   "property": "C75",
   "status": "partial",
   "theorems": [
    "C75_js_reads_response_partial",
    "C75_js_reads_call_partial",
    "C75_js_reads_fault_partial",
    "C75_early_date_refuted",
    "C75_subnormal_refuted",
    "C75_mark_refuted",
    "C75_proto_refuted",
    "C75_int_refuted",
    "C75_version1_refuted"
   ],
   "note": "Proved for protocol versions 2 and 3 and every value that fits (S_Js.js_fits). False of the code for dates before 1970, subnormal doubles (all of them), texts that begin with a byte order mark, members called __proto__, integers beyond the doubles, and negative integers in version 1 (all of them). TextDecoder is modelled from the WHATWG standard."
  },
  {
   "property": "C76",
   "status": "partial",
   "theorems": [
    "C76_js_calls_partial",
    "C76_negative_refuted",
    "C76_many_refuted",
    "C76_large_refuted",
    "C76_small_double_refuted",
    "C76_log_refuted",
    "C76_date_refuted"
   ],
   "note": "Proved for every call that js_sends (S_Js). False of the code for every negative integer in version 3 (arrives one less), 256 parameters and more, integers from 2^64 on, the smallest normal doubles, an engine whose logarithm is rounded up, times with milliseconds and times before 1970. How hints are looked up is not modelled."
  },
  {
   "property": "C77",
   "status": "partial",
   "theorems": [
    "C77_cut_response_partial",
    "C77_trailing_response",
    "C77_text_refuted",
    "C77_call_refuted"
   ],
   "note": "Every cut of a response whose value does not end with a text is refused. A response that ends with a text is accepted wherever the text is cut, padded with NULs (theorem for every text), and a cut call is accepted with less parameters or another name (witnesses)."
  },
  {
   "property": "C78",
   "status": "partial",
   "theorems": [
    "C78_array",
    "C78_struct",
    "C78_sent",
    "C78_name_refuted",
    "C78_wide_refuted"
   ],
   "note": "Arrays and structs for every container and conversion. False of the code: names are not checked, so a struct with an empty or long name cannot be sent (every such name), and on every platform but Windows a wide string becomes the empty string (every text)."
  },
  {
   "property": "C79",
   "status": "partial",
   "theorems": [
    "C79_python_calls",
    "C79_python_responses",
    "C79_python_faults",
    "C79_large_refuted",
    "C79_aware_refuted",
    "C79_code_refuted",
    "C79_dropped_refuted",
    "C79_version_refuted"
   ],
   "note": "Calls and responses in both directions (written exactly if the objects fit, else an exception) for every object without integers from 2^63 to 2^64-1; faults with 32-bit codes. False of the code: the large integers arrive as negative ones (every one), offsets of aware datetimes are dropped, codes of faults are cut to 32 bits, further values of a response are dropped, a protocol version above 3 terminates the interpreter. Objects that contain themselves are outside the model."
  },
  {
   "property": "C80",
   "status": "partial",
   "theorems": [
    "C80_loads_responses_partial",
    "C80_not_text",
    "C80_loads_calls_partial",
    "C80_loads_faults_partial",
    "C80_nul_refuted",
    "C80_fault_refuted"
   ],
   "note": "Every value whose names have no NUL; texts that are not UTF-8 raise UnicodeDecodeError. False of the code: names are cut at a NUL, so two members become one, and the message of a fault that is not UTF-8 is undefined behaviour (a call with null arguments)."
  },
  {
   "property": "C81",
   "status": "proved",
   "theorems": [
    "C81_round_trip",
    "C81_response_round_trip"
   ],
   "note": "For every protocol version 2 and 3, objects that fit and names without a NUL."
  },
  {
   "property": "C82",
   "status": "partial",
   "theorems": [
    "C82_cut_refuted",
    "C82_cut_call_refuted"
   ],
   "note": "False of the code: loads does not call finish, so every beginning of every message is accepted (theorem for all of them, calls included)."
  },
  {
   "property": "C83",
   "status": "partial",
   "theorems": [
    "C83_any_data_partial"
   ],
   "note": "For every byte string in the binary format: an object, one of the three exceptions, or undefined behaviour, the last only for a fault whose message is not UTF-8 and that is the only thing in the message. XML data are not covered."
  },
  {
   "property": "C84",
   "status": "partial",
   "theorems": [
    "C84_call_partial",
    "C84_only_partial",
    "C84_always_partial",
    "C84_refused_refuted",
    "C84_no_text_refuted",
    "C84_long_name_refuted"
   ],
   "note": "For callables whose exceptions have a text: order, arguments and result as specified, and every call gets a result (for names in UTF-8, or without a postprocessor). False of the code: a preprocessor that raises an exception whose text cannot be made does not stop the method, such an exception of a method leaves the registry without a result and crashes a multicall, and an unknown name longer than 491 bytes may give an internal error."
  },
  {
   "property": "C85",
   "status": "partial",
   "theorems": [
    "C85_entries_partial",
    "C85_params",
    "C85_single_item_refuted"
   ],
   "note": "One result per entry in order, each as if called alone (names without NUL). False of the code: results are not wrapped in single-item arrays as the help text of the method promises."
  },
  {
   "property": "C86",
   "status": "partial",
   "theorems": [
    "C86_last_partial",
    "C86_system",
    "C86_unknown",
    "C86_signature_text",
    "C86_list",
    "C86_default_list",
    "C86_told",
    "C86_not_found",
    "C86_disabled",
    "C86_doc_refuted"
   ],
   "note": "Registrations, lists, signatures (exactly the grammar) and help. False of the code in Python 3: a help text that is a str is refused (every one), only bytes are accepted."
  },
  {
   "property": "C87",
   "status": "partial",
   "theorems": [
    "C87_connection_partial",
    "C87_binary_calls",
    "C87_base64_calls",
    "C87_cut_calls",
    "C87_xml_calls_partial",
    "C87_form_path_refuted",
    "C87_keep_alive_refuted",
    "C87_fields_refuted"
   ],
   "note": "For every sequence of well-formed requests (empty lines between them allowed), every cutting, settings, preRead callback and registry: the answers in order, each once, with the added header fields first. False of the code: forms are read without the path of the request, so another method is called than in the C++ server; a client closing a kept connection makes serve() raise; fields added for a call that ends in an HTTP error are sent with the next response, even on another connection."
  },
  {
   "property": "C88",
   "status": "partial",
   "theorems": [
    "C88_any_input_partial",
    "C88_declaration_refuted",
    "C88_form_refuted",
    "C88_large_integer_refuted",
    "C88_postprocessor_refuted",
    "C88_arguments_refuted",
    "C88_version_refuted",
    "C88_no_name_refuted",
    "C88_smallest_integer_refuted",
    "C88_pre_read_refuted",
    "C88_member_name_refuted"
   ],
   "note": "False of the code: a string that is not UTF-8 gives null parameters to a postprocessor and runs the method without parameters, XML requests of an unknown version or without a method name terminate or crash the interpreter, results with an empty or over-long member name terminate it, the smallest integer is undefined behaviour, a Fault raised by preRead is lost (SystemError), 2^63 as a result is taken for -2^63, a form with a '%' at the end of a value is read past its end. Proved: for every input there is no other cause of a crash than an XML request that declares an unknown version or declares it across byte 80, an XML request without a method name, such a form, the result of a received call that cannot be written, and a postprocessor with a received call whose name is not UTF-8 or whose parameters could not be decoded."
  },
  {
   "property": "C89",
   "status": "proved",
   "theorems": [
    "C89_once",
    "request_nonempty"
   ],
   "note": "For every network, every state of the proxy and every hook; method names without a NUL and header fields that are text (else see C94); with chunked transfer the arguments have to be writable and no field may be called Content-Length."
  },
  {
   "property": "C90",
   "status": "partial",
   "theorems": [
    "C90_unsendable_partial",
    "C90_chunked_refuted",
    "C90_large_refuted"
   ],
   "note": "Binary format, not chunked. False of the code: with chunked transfer the beginning of the request is sent and the connection kept, so that the next request continues it; 2^63 is sent as -2^63."
  },
  {
   "property": "C91",
   "status": "partial",
   "theorems": [
    "C91_own_partial",
    "C91_binary_values",
    "C91_binary_faults",
    "C91_xml_values_partial",
    "C91_xml_faults_partial",
    "C91_stale_refuted"
   ],
   "note": "For every history, every behaviour of the network in calls that fail, if the server sends exactly one response for each call that gets one. False of the code: a further response that arrives is taken for the response to the next call."
  },
  {
   "property": "C92",
   "status": "partial",
   "theorems": [
    "C92_hooks_partial",
    "C92_text_refuted"
   ],
   "note": "For hooks that do not crash themselves, header fields that are text and a proxy of version 3 or less. False of the code: if the text of an exception is not UTF-8, another exception is raised with hooks (SystemError) than without (UnicodeDecodeError)."
  },
  {
   "property": "C93",
   "status": "partial",
   "theorems": [
    "C93_names",
    "C93_special",
    "C93_last_call",
    "C93_nul_refuted"
   ],
   "note": "For every sequence of names without a NUL. False of the code: names are cut at a NUL, so that two names call one method."
  },
  {
   "property": "C94",
   "status": "partial",
   "theorems": [
    "C94_fields_partial",
    "C94_unusable",
    "C94_left_over_refuted",
    "C94_surrogate_refuted",
    "C94_new_refuted"
   ],
   "note": "For every history of calls with fields that are text. False of the code: of a list with an unusable entry those before it are sent with the next call, a text with a surrogate is undefined behaviour (a null pointer), and a proxy made with unusable fields raises SystemError."
  },
  {
   "property": "C95",
   "status": "partial",
   "theorems": [
    "C95_errors_partial",
    "C95_no_reason_refuted"
   ],
   "note": "For every status line with a reason phrase in UTF-8, over every network over which the call could get a response. False of the code: without a reason phrase (which HTTP allows) another number is raised."
  },
  {
   "property": "C96",
   "status": "partial",
   "theorems": [
    "C96_any_response_partial",
    "C96_fault_refuted",
    "C96_after_fault_refuted",
    "C96_version_refuted",
    "C96_declaration_refuted"
   ],
   "note": "False of the code: a binary fault whose message is not UTF-8 and an XML fault that contains a response are undefined behaviour, an XML response that declares an unknown version, or declares it across byte 80, terminates the interpreter (witnesses). Proved: for arguments that can be written there is no other cause, whatever arrives. The XML parser is a parameter (orderly)."
  },
  {
   "property": "C97",
   "status": "partial",
   "theorems": [
    "C97_calls_partial",
    "C97_responses_partial",
    "C97_faults_partial",
    "C97_control_refuted",
    "C97_carriage_return_refuted",
    "C97_smallest_integer_refuted",
    "C97_datetime_refuted",
    "C97_cut_refuted"
   ],
   "note": "For integers above -2^63, strings of XML characters without carriage returns, dates of four digits and floats that survive printing, for every XML parser that reports a whole document at once. Outside that false of the code: control characters give a text that is no XML, carriage returns become line feeds, the smallest integer is undefined behaviour, a datetime.datetime is written as universal time though it is local, and a text that is cut is read as the part that is there."
  },
  {
   "property": "C98",
   "status": "partial",
   "theorems": [
    "C98_any_xml_partial",
    "C98_version_refuted",
    "C98_fault_refuted"
   ],
   "note": "False of the code: a version declared across byte 80 ends the interpreter, a fault that contains a response is undefined behaviour. Proved: there is no other cause, for every parser that reports matching tags and UTF-8 text; data of less than four bytes with the format to be found out are not covered."
  },
  {
   "property": "C99",
   "status": "partial",
   "theorems": [
    "C99_flask_partial",
    "C99_aiohttp_partial",
    "C99_tornado_partial",
    "C99_flask_type_partial",
    "C99_tornado_type_partial",
    "C99_range_refuted",
    "C99_charset_refuted",
    "C99_no_accept_refuted",
    "C99_not_allowed_refuted",
    "C99_aiohttp_type_refuted"
   ],
   "note": "Proved: a request is refused, without running a method, exactly if its type is not one of the names allowed or Accept does not name one of them literally; the type of the answers of flask.py and tornado.py. False of the code: type ranges, weights and parameters of types are not understood; flask.py refuses a request without Accept; it answers in the binary format also if that is not allowed; every answer of aiohttp.py is in the binary format, also one declared to be XML."
  },
  {
   "property": "C100",
   "status": "partial",
   "theorems": [
    "C100_flask_partial",
    "C100_aiohttp_partial",
    "C100_tornado_partial",
    "C100_aiohttp_plain_refuted",
    "C100_server_refuted",
    "C100_chunks_refuted"
   ],
   "note": "For requests of C++ clients in both formats, answers as read by a C++ client (binary) or a Python client (XML); aiohttp.py only with binary answers. False of the code: flask.py takes one chunk of a binary request for the whole and runs the method with part of the parameters, and cannot take binary requests without uWSGI; aiohttp.py runs a method that is no coroutine and answers an error. The frameworks are not modelled."
  },
  {
   "property": "C101",
   "status": "partial",
   "theorems": [
    "C101_flask_unknown_partial",
    "C101_flask_exception_partial",
    "C101_flask_passed",
    "C101_aiohttp_unknown_partial",
    "C101_aiohttp_exception_partial",
    "C101_tornado_unknown",
    "C101_tornado_exception_partial",
    "C101_response_refuted"
   ],
   "note": "For texts the format of the answer has. tornado.py raises KeyError for an unknown method, which the framework answers. A body that is a response is answered as a call of a method None."
  },
  {
   "property": "C102",
   "status": "partial",
   "theorems": [
    "C102_flask_names_partial",
    "C102_flask_help_partial",
    "C102_flask_no_help_partial",
    "C102_flask_stat_partial",
    "C102_aiohttp_names_partial",
    "C102_tornado_names_partial",
    "C102_tornado_help_partial"
   ],
   "note": "For names and texts the format of the answer has, as long as the system methods are not registered anew."
  },
  {
   "property": "C103",
   "status": "partial",
   "theorems": [
    "C103_binary_partial",
    "C103_xml_partial",
    "C103_fault_refuted",
    "C103_version_refuted",
    "C103_least_integer_refuted"
   ],
   "note": "False of the code: a fault whose message is not UTF-8 is undefined behaviour, an XML body that declares its version across byte 80 ends the interpreter, and so does (undefined) an answer in XML with the smallest integer. Proved: with answers in the binary format there is no other cause."
  },
  {
   "property": "C104",
   "status": "partial",
   "theorems": [
    "C104_binary",
    "C104_xml_partial",
    "C104_xml_refuted"
   ],
   "note": "Proved for all binary answers and for XML of ASCII characters. False of the code for other XML: characters are counted (Werkzeug replaces the field, Tornado does not)."
  },
  {
   "property": "C105",
   "status": "partial",
   "theorems": [
    "C105_hints_partial",
    "C105_undefined",
    "C105_fraction_refuted",
    "C105_infinite_refuted",
    "C105_dot_refuted",
    "C105_scalar_binary_refuted"
   ],
   "note": "Proved for names without dots and values that can be sent (C76). False of the code: without a hint a number with a fraction loses it, and in version 3 becomes another number (z + 1/2 arrives as -(z+1), theorem for every z), infinity and NaN become 0; a hint for a.b applies to a member called a.b, too; the hint binary makes the numbers of the parameter list the bytes of the message."
  },
  {
   "property": "C106",
   "status": "partial",
   "theorems": [
    "C106_framing_partial",
    "C106_both_refuted",
    "C106_server_refuted",
    "C106_refused_refuted",
    "C106_chunk_size_refuted"
   ],
   "note": "Proved for valid headers that do not have both a length and a transfer encoding. False of the code: with both, Content-Length wins (theorem for all), so a call hidden in the content of one request is run (witness); differing and malformed lengths are taken, a length whose field name is followed by a space is ignored and the body run as the next request, chunk sizes like 0x5 are taken."
  },
  {
   "property": "C107",
   "status": "partial",
   "theorems": [
    "C107_local_time",
    "C107_local_now",
    "C107_own_zone_partial",
    "C107_zone_refuted",
    "C107_utc_time_refuted",
    "C107_utc_now_refuted",
    "C107_text_partial",
    "C107_text_round_trip",
    "C107_any_text",
    "C107_text_zone_refuted",
    "C107_far_refuted",
    "C107_no_number_refuted",
    "C107_received_partial"
   ],
   "note": "Proved for LocalTime, for every clock that follows the calendar, and for what a text tells. False of the code: UTCTime(t) and DateTime(t, zone) hold what the local clock shows, so they stand for another moment unless that is its zone; the unix time of UTCTime() and of a text of another zone is wrong; a time whose year is no int crashes the interpreter, what is no number gives SystemError with two arguments."
  },
  {
   "property": "C108",
   "status": "partial",
   "theorems": [
    "C108_one_zone_partial",
    "C108_order",
    "C108_other_objects",
    "C108_equal_refuted",
    "C108_order_refuted"
   ],
   "note": "Proved for dates of one zone; the comparisons are a total order for all dates and every C library. False of the code: the zone is subtracted where it is to be added, so the same moment in two zones is unequal, and dates of two zones less than twice their difference apart are ordered the wrong way round."
  },
  {
   "property": "C109",
   "status": "partial",
   "theorems": [
    "C109_truth",
    "C109_choice",
    "C109_compare",
    "C109_unlike",
    "C109_assign",
    "C109_field_partial",
    "C109_wide_refuted",
    "C109_delete_refuted"
   ],
   "note": "False of the code: a number an attribute has no room for is cut to its width (for every such number); deleting an attribute dereferences a null pointer."
  },
  {
   "property": "C110",
   "status": "partial",
   "theorems": [
    "C110_hidden",
    "C110_names_refuted",
    "C110_kind_refuted"
   ],
   "note": "Proved of what is to be hidden by a dict of names, for every object. False of the code: names that are no dict (a list or a set) hide nothing, and neither do names with NUL or names that are bytes."
  },
  {
   "property": "C111",
   "status": "partial",
   "theorems": [
    "C111_text_partial",
    "C111_no_crash",
    "C111_cut_refuted",
    "C111_wide_refuted",
    "C111_surrogate_refuted"
   ],
   "note": "Proved of objects whose strings are ASCII or short and whose numbers have 64 bits; of all objects (finite trees) the dump is a string, UnicodeDecodeError or SystemError. False of the code: a string cut after ten bytes within a character gives UnicodeDecodeError, a wide number or a surrogate SystemError. Not modelled: the stack a deep object takes."
  },
  {
   "property": "C112",
   "status": "partial",
   "theorems": [
    "C112_responses_partial",
    "C112_calls_partial",
    "C112_time_refuted"
   ],
   "note": "For calls and responses in the binary format, texts in UTF-8, names without NUL, callables that return no Fault, and dates whose unix time has 32 bits. False of the code: any other time is cut to 32 bits (theorem for all of them, time_t read as int)."
  },
  {
   "property": "C113",
   "status": "partial",
   "theorems": [
    "C113_unique_partial",
    "C113_quotes_refuted",
    "C113_bytes_refuted",
    "C113_zone_refuted"
   ],
   "note": "For texts without quotes and usual names (no spaces), with or without sorting; the printing of floats is a parameter. False of the code: quotes are not escaped, bytes look like their text, zones are printed times 100 (theorem for every date)."
  },
  {
   "property": "C114",
   "status": "proved",
   "theorems": [
    "C114_order"
   ],
   "note": "For members named by texts, as every result of a server has."
  },
  {
   "property": "C115",
   "status": "partial",
   "theorems": [
    "C115_commands_partial",
    "C115_spaces",
    "C115_line_ends",
    "C115_default_port",
    "C115_own_host",
    "C115_exit_refuted",
    "C115_exit_line_refuted",
    "C115_timeout_refuted"
   ],
   "note": "Every documented form but two, for all words. False of the code: no line ends the console with a result, exit N is evaluated as an expression (theorems for all lines); timeout takes its number times 1000 (for every number)."
  },
  {
   "property": "C116",
   "status": "partial",
   "theorems": [
    "C116_script_partial",
    "C116_connect",
    "C116_switch",
    "C116_terminal",
    "C116_exec_refuted",
    "C116_eof_refuted"
   ],
   "note": "Scripts: for commands that raise neither EOFError nor SystemExit; at a terminal: for all. False of the code: a program run by exec that fails does not stop the script; EOFError ends it with 0."
  },
  {
   "property": "C117",
   "status": "proved",
   "theorems": [
    "C117_words",
    "C117_methods"
   ],
   "note": ""
  },
  {
   "property": "C118",
   "status": "partial",
   "theorems": [
    "C118_balance",
    "C118_once_partial",
    "C118_alive_partial",
    "C118_replaced_refuted",
    "C118_default_refuted",
    "C118_two_names_refuted",
    "C118_default_again_refuted"
   ],
   "note": "For every history the objects given are, counted, those deleted, those replaced by name and the last default method and method for HEAD: the latter three are never deleted (false of the code). An object under two names is deleted twice, a default method given again is used after its deletion. Proved for objects given once that are not lost."
  },
  {
   "property": "C119",
   "status": "partial",
   "theorems": [
    "C119_string",
    "C119_binary_partial",
    "C119_pieces_partial",
    "C119_dots_refuted",
    "C119_zero_refuted"
   ],
   "note": "Strings exactly. Binaries for every limit but 0, with dots also if exactly maxlen bytes are there (false of the code, theorem for every binary); with the limit 0 every binary is shown whole (theorem); binary references are shown without the opening of a binary."
  },
  {
   "property": "C120",
   "status": "partial",
   "theorems": [
    "C120_arguments",
    "C120_attributes",
    "C120_plain",
    "C120_response",
    "C120_determines",
    "C120_method",
    "C120_response_method",
    "C120_defined",
    "C120_method_text_refuted",
    "C120_any_method_refuted"
   ],
   "note": "What the constructors accept, and the text of errors with numbers that are ints and messages that are str; without a method it determines class, number and message. Never undefined if only methods and None are given as the method, over every history. Refuted: any other object given as the method is accepted and reinterpreted (undefined behaviour); with a method the text is ambiguous. Texts of objects of other classes are parameters."
  },
  {
   "property": "C121",
   "status": "partial",
   "theorems": [
    "C121_exact",
    "C121_once",
    "C121_wrong_count_refuted",
    "C121_again_refuted"
   ],
   "note": "Exactly what is kept and surplus, over every history of initialisations, assignments and deletions. It is nothing for an object initialised once with the right number of arguments. Refuted: an initialisation with a wrong number of arguments gives back a reference to None that was never taken; a second initialisation keeps the attributes of the first for good."
  },
  {
   "property": "C122",
   "status": "partial",
   "theorems": [
    "C122_like_new_partial",
    "C122_no_header_partial",
    "C122_next_request",
    "C122_head_refuted",
    "C122_head_again_refuted"
   ],
   "note": "For every state, input and registry that refuses HEAD: the same bytes sent, input left, calls, application state and outcome as with a new object, or undefined behaviour (the header of an earlier connection, C60_next_connection_refuted), which is excluded if no header was left. Refuted: the answer to HEAD has the content type and transfer coding of the request before it."
  },
  {
   "property": "C123",
   "status": "partial",
   "theorems": [
    "C123_like_new_partial",
    "C123_next_request",
    "C123_version_refuted",
    "C123_head_refuted"
   ],
   "note": "For every input and settings that refuse HEAD, from every state without header fields left over (C87_fields_refuted) and with the version 2.1. Refuted: a request that cannot be read is answered in the version of the client before; HEAD is answered in the format of the request before, with a body."
  },
  {
   "property": "C124",
   "status": "partial",
   "theorems": [
    "C124_left_partial",
    "C124_read_partial",
    "C124_nothing_left",
    "C124_names_refuted",
    "C124_fault_refuted",
    "C124_nulls_refuted",
    "C124_extra_refuted"
   ],
   "note": "Exactly how many references are left, for every well nested sequence of calls (the reader makes only such, C10_well_nested; of responses with one value) unless a fault message is not UTF-8, cut off anywhere, and so for all bytes given to the reader in any pieces. It is nothing for calls and responses with UTF-8 texts and ASCII names. Refuted: every member name that is not ASCII, every fault, every null after a text that is not UTF-8 and every further value of a response costs a reference."
  },
  {
   "property": "C125",
   "status": "partial",
   "theorems": [
    "C125_items_partial",
    "C125_items_told",
    "C125_number_refuted",
    "C125_index_partial",
    "C125_index_told",
    "C125_range_refuted",
    "C125_key_partial",
    "C125_key_told",
    "C125_key_refuted",
    "C125_type_told"
   ],
   "note": "Formats of the documented letters, keys without NUL of up to 1001 bytes. Refuted: checkItems counts every '?' before the item into its number (theorem for all formats); the range said for an index includes the size, and indices from 2^63 on are said as negative numbers; keys that agree in the first 1018 bytes or up to a NUL have the same text."
  },
  {
   "property": "C126",
   "status": "partial",
   "theorems": [
    "C126_text_partial",
    "C126_not_utf8",
    "C126_told_apart_partial",
    "C126_string_partial",
    "C126_cut_refuted",
    "C126_mark_refuted"
   ],
   "note": "For all bytes, up to a byte order mark at the beginning, which is lost (refuted for every text); strings inside a message if all of it is there. Refuted: a text that is cut off is read without an error, with a NUL for each missing byte (every text). TextDecoder is modelled after the WHATWG standard, not proved of an engine."
  },
  {
   "property": "C127",
   "status": "partial",
   "theorems": [
    "C127_tree_partial",
    "C127_written_partial",
    "C127_never_written_partial",
    "C127_refuted",
    "C127_any_cycle_refuted"
   ],
   "note": "Objects that are finite trees, with shared parts, are written as those trees if the stack holds one call per level; only finite trees are written. Refuted: feedValue has no guard against recursion, so a list or tuple that is an item of itself exhausts every stack (theorem for all heaps), as does every cycle of lists, tuples and dicts where nothing else is refused. The order and keys of a dict are those of the heap; the size of a stack frame is not modelled, the stack is a number of calls."
  },
  {
   "property": "C128",
   "status": "partial",
   "theorems": [
    "C128_partial",
    "C128_reads_partial",
    "C128_clone_partial",
    "C128_never_partial",
    "C128_refuted"
   ],
   "note": "All values that read as a tree are fed as it, with a stack deep enough, and only those; clones are fed as the original, whatever happens to it later. Refuted: append takes the array itself, and the feeder has no guard against recursion, so such an array exhausts every stack (theorem for all states). The marshaller does not throw in this model, the stack is a number of calls."
  }
 ]
}