{"id": "C01", "title": "Percent escaping is lossless and stays inside the character class", "statement": "For every byte string used as the user or password of a URI, or as a URI parameter or header name/value, the text written when the URI is serialised consists only of characters legal at that position and %hh triples, and percent-decoding that text gives back exactly the original bytes; hence two different strings never serialise to the same text.", "quantifier": "all byte strings of any length, all character classes used by the URI serialiser", "why_tests_cant": "Strings are unbounded; a test picks a handful of bytes and cannot exclude a collision or an unescaped delimiter.", "anchors": ["sip/escape.go:appendEscaped", "sip/charsets.go", "sip/uri.go:URI.Append", "sip/uriparam.go", "sip/uriheader.go", "sip/uri_parse.rl:hexHi,hexLo"]}
{"id": "C02", "title": "Quoting is injection safe", "statement": "Whatever bytes a display name or a parameter value contains, the text produced for it is either a run of token characters and spaces or a double-quoted string in which every quote and backslash is escaped and every line break is part of a folded continuation (CR LF followed by space or tab); it can never close the quoted string early nor start a new header line.", "quantifier": "all byte strings used as Addr.Display, Addr/Via parameter value", "why_tests_cant": "An injection needs one adversarial string out of infinitely many.", "anchors": ["sip/quote.go:appendQuoted,appendSanitized,appendQuoteQuoted", "sip/charsets.go:tokenc,qdtextc,qdtextesc"]}
{"id": "C03", "title": "Quoted strings read back unchanged", "statement": "A quoted display name or parameter value made of printable text is parsed back to exactly the same bytes when the serialised message is parsed.", "quantifier": "all byte strings accepted by the quoting alphabet", "why_tests_cant": "The claim ranges over all strings and over every way of interleaving escapes.", "anchors": ["sip/quote.go:appendQuoted", "sip/sip.rl:quoted_string", "sip/msg_parse.go:ParseMsg"]}
{"id": "C04", "title": "Sanitised names contain token characters only", "statement": "Parameter and header names written to the wire consist only of token characters; characters that are not token characters are dropped, the others keep their order, and names that are already tokens are written unchanged.", "quantifier": "all byte strings used as parameter or extension header names", "why_tests_cant": "Unbounded strings.", "anchors": ["sip/quote.go:appendSanitized", "sip/param.go:Param.Append", "sip/xheader.go:XHeader.Append"]}
{"id": "C05", "title": "A URI survives serialise-then-parse", "statement": "For every well-formed URI value (scheme, host, optional user/password of arbitrary bytes, optional port, parameters and headers with arbitrary bytes), parsing the text produced by String gives back an equal URI.", "quantifier": "all well-formed URI values; all parameter/header lists of any length", "why_tests_cant": "Infinitely many URIs; escapes, optional parts and list order interact.", "anchors": ["sip/uri.go:URI.Append,URI.String", "sip/uri_parse.rl", "sip/uri_parse.go:ParseURI"]}
{"id": "C06", "title": "ParseURI implements the URI grammar exactly", "statement": "ParseURI accepts exactly the texts of the form scheme ':' [user [':' password] '@'] host [':' digits] {';' name ['=' value]} ['?' name ['=' value] {'&' name ['=' value]}] with the documented character classes and %hh escapes, and the result is the decoded components (scheme and host in lower case, the port modulo 2^16: see C09); every other text is an error.", "quantifier": "all byte strings", "why_tests_cant": "The equivalence is about the 59 state generated automaton on all inputs.", "anchors": ["sip/uri_parse.go:ParseURI", "sip/uri_parse.rl", "sip/sip.rl"]}
{"id": "C07", "title": "ParseURI never panics and always terminates", "statement": "For every byte string ParseURI returns a URI or an error after a number of automaton steps bounded by the input length; it never indexes outside a buffer.", "quantifier": "all byte strings of any length", "why_tests_cant": "Fuzzing samples inputs; absence of an out-of-range index needs an invariant over all of them.", "anchors": ["sip/uri_parse.go:ParseURI"]}
{"id": "C08", "title": "Re-serialising an accepted URI is stable", "statement": "If ParseURI accepts a text, then String of the result is accepted again and denotes an equal URI.", "quantifier": "all byte strings accepted by ParseURI", "why_tests_cant": "Quantifies over the whole accepted language.", "anchors": ["sip/uri_parse.go:ParseURI", "sip/uri.go:URI.Append", "sip/uriheader.go:URIHeader.Append"]}
{"id": "C09", "title": "Ports out of range are not silently changed", "statement": "A port number in a URI or Via that does not fit 16 bits is rejected rather than replaced with another port.", "quantifier": "all digit strings in port position", "why_tests_cant": "Needs all digit strings, in particular overlong ones.", "anchors": ["sip/uri_parse.rl:port", "sip/sip.rl:ViaPort"]}
{"id": "C10", "title": "Host/port comparison ignores only the default port", "statement": "Two URIs (or Vias) compare equal exactly when both are present, their hosts are equal and their ports are equal after replacing an absent port with 5060 (5061 for sips); the comparison is reflexive on present values, symmetric and transitive.", "quantifier": "all pairs/triples of URIs or Vias including nil", "why_tests_cant": "Algebraic laws over all values.", "anchors": ["sip/uri.go:CompareHostPort,GetPort", "sip/via.go:CompareHostPort"]}
{"id": "C11", "title": "Parameter lookup is case-insensitive and returns the newest match", "statement": "Get(name) on a parameter list returns the most recently added parameter whose name equals the argument ignoring ASCII case, and nil if there is none; it never panics on an empty list.", "quantifier": "all parameter lists and names", "why_tests_cant": "Unbounded lists and all case variants.", "anchors": ["sip/param.go:Param.Get", "sip/uriparam.go:URIParam.Get"]}
{"id": "C12", "title": "Parameters keep their order on the wire", "statement": "Parameters and headers of a URI, address or Via are written in the order in which they were added (the order in which they appeared in a parsed text).", "quantifier": "all parameter lists of any length", "why_tests_cant": "Unbounded lists; needs induction.", "anchors": ["sip/param.go:Param.Append", "sip/uriparam.go:URIParam.Append", "sip/uriheader.go:URIHeader.Append"]}
{"id": "C13", "title": "ParseMsg never panics", "statement": "For every packet ParseMsg returns a message or an error: no index out of range, no nil dereference, no negative slice.", "quantifier": "all byte strings of any length", "why_tests_cant": "A crashable parser is a remote denial of service; only an invariant over the 782 state automaton excludes it for all packets.", "anchors": ["sip/msg_parse.go:ParseMsg", "sip/sip.rl", "sip/msg_parse.rl"]}
{"id": "C14", "title": "ParseMsg terminates", "statement": "For every packet the parser stops, within a number of automaton steps bounded by a function of the packet length, although it backtracks when it re-reads an unquoted display name or an extension header name.", "quantifier": "all byte strings of any length", "why_tests_cant": "Backtracking (fexec mark, fhold) means termination is not obvious and no finite test set shows it.", "anchors": ["sip/msg_parse.go:ParseMsg", "sip/sip.rl:mark,backtrack,hold"]}
{"id": "C15", "title": "Accepted messages are structurally complete", "statement": "Every message returned without error is either a request with a non-empty method and a request URI or a response with a three digit status; every address in it has a URI and every Via a protocol, version, transport and host.", "quantifier": "all byte strings accepted by ParseMsg", "why_tests_cant": "Callers dereference these pointers unconditionally; must hold for all accepted packets.", "anchors": ["sip/msg_parse.go:ParseMsg", "sip/sip.rl"]}
{"id": "C16", "title": "A message survives serialise-then-parse", "statement": "For every well-formed message value, parsing the bytes produced by Append yields a message with the same method/status, request URI, Via list, From/To/Contact/Route/Record-Route lists, Call-ID, CSeq, Max-Forwards, string headers and payload.", "quantifier": "all well-formed messages; address, Via, parameter and extension header lists of any length", "why_tests_cant": "Product of unbounded lists and strings.", "anchors": ["sip/msg.go:Msg.Append", "sip/msg_parse.go:ParseMsg"]}
{"id": "C17", "title": "Content-Length decides the payload exactly", "statement": "If a packet carries a positive Content-Length, ParseMsg accepts it only if exactly that many bytes follow the header block, and the payload is exactly those bytes (or their SDP parse).", "quantifier": "all packets", "why_tests_cant": "All lengths and all bodies.", "anchors": ["sip/msg_parse.rl:ParseMsg", "sip/msg_parse.go:ParseMsg"]}
{"id": "C18", "title": "Serialised Content-Length is truthful", "statement": "Whatever the message contains, the bytes written by Append end with a blank line followed by exactly the payload bytes, and the Content-Length header written equals the payload's length in bytes.", "quantifier": "all messages and payloads", "why_tests_cant": "All payload sizes and contents.", "anchors": ["sip/msg.go:Msg.Append", "sip/payload.go"]}
{"id": "C19", "title": "Compact header names set only their own header", "statement": "A packet that uses the one-letter compact form of a header gives the same message as the packet using the long form.", "quantifier": "all packets using compact header forms", "why_tests_cant": "Header value ranges over all legal values; the effect on the other fields matters.", "anchors": ["sip/msg_parse.rl:clen", "sip/msg_parse.go:ParseMsg"]}
{"id": "C20", "title": "Unknown extension headers are preserved", "statement": "A header whose name is any token that is not a header known to the parser is kept, name and value unchanged, in the message's extension header list.", "quantifier": "all token names not in the table, all header values", "why_tests_cant": "All names, including those sharing a prefix with a known name.", "anchors": ["sip/sip.rl:xheader", "sip/msg_parse.go:ParseMsg"]}
{"id": "C21", "title": "Header names are case-insensitive", "statement": "Changing the letter case of a known header name in a packet changes neither whether ParseMsg accepts it nor the message it gives.", "quantifier": "all case variants of all known header names, all values", "why_tests_cant": "Exponentially many case variants.", "anchors": ["sip/sip.rl:header", "sip/msg_parse.go:ParseMsg"]}
{"id": "C22", "title": "Parsed header values cannot inject headers", "statement": "No string field of an accepted message contains a line break that is not followed by whitespace, so writing it back into a header cannot start a new header. When an accepted message is serialised again, the text consists of the start line, the lines From, To, one Via line for each Via, at most one line for each other header the message has a field for, one line for each extension header that was read, and the headers of the payload, and of no other line.", "quantifier": "all accepted packets", "why_tests_cant": "All packets.", "anchors": ["sip/sip.rl:value", "sip/msg_parse.go:ParseMsg"]}
{"id": "C23", "title": "Copy gives an equal and independent message", "statement": "Msg.Copy, Addr.Copy, Via.Copy and URI.Copy return a value equal to the original, and later changes made through the copy's URIs and list nodes do not show in the original.", "quantifier": "all messages", "why_tests_cant": "Equality over all field combinations, and aliasing over all later mutations.", "anchors": ["sip/msg.go:Msg.Copy", "sip/addr.go:Addr.Copy", "sip/via.go:Via.Copy", "sip/uri.go:URI.Copy"]}
{"id": "C24", "title": "sdp.Parse never panics", "statement": "For every text sdp.Parse returns a description or an error.", "quantifier": "all byte strings", "why_tests_cant": "Parser of untrusted input; needs all inputs.", "anchors": ["sdp/sdp.go:Parse,parseMediaInfo,populateCodecs,parseOriginLine"]}
{"id": "C25", "title": "An SDP survives serialise-then-parse", "statement": "For every well-formed session description, parsing the text produced by String gives back an equal description.", "quantifier": "all well-formed SDP values, any number of codecs and attributes", "why_tests_cant": "Unbounded codec/attribute lists.", "anchors": ["sdp/sdp.go:SDP.Append,Parse", "sdp/media.go", "sdp/codec.go", "sdp/origin.go"]}
{"id": "C26", "title": "Accepted descriptions are usable", "statement": "Every description accepted by sdp.Parse has an origin, a connection address and at least one audio or video stream with at least one codec; every codec has a name and a rate either from its rtpmap or from the standard table, and a dynamic payload type without rtpmap is an error.", "quantifier": "all byte strings accepted by sdp.Parse", "why_tests_cant": "All accepted inputs.", "anchors": ["sdp/sdp.go:Parse,populateCodecs", "sdp/codecs.go:StandardCodecs"]}
{"id": "C27", "title": "RTP header encode/decode round trip", "statement": "Writing a header and reading it back yields the same payload type, mark bit, sequence number, timestamp and SSRC for all field values in range; the 12 bytes written have the RFC 3550 layout.", "quantifier": "all header field values (7, 1, 16, 32 and 32 bits)", "why_tests_cant": "2^88 headers.", "anchors": ["rtp/rtp.go:Header.Write,Header.Read"]}
{"id": "C28", "title": "RTP header decode is total and strict", "statement": "Reading a header from any packet never panics: it fails for packets shorter than 12 bytes, for versions other than 2 and when the extension bit is set, and succeeds otherwise.", "quantifier": "all byte strings", "why_tests_cant": "All packets.", "anchors": ["rtp/rtp.go:Header.Read"]}
{"id": "C29", "title": "RTP stream numbering", "statement": "Over any sequence of successful or failing sends of audio frames, raw payloads and DTMF digits, packet sequence numbers on the wire increase by exactly one modulo 2^16, and timestamps advance by 160 per audio frame modulo 2^32; SSRC and version never change.", "quantifier": "all sequences of Send, SendRaw, SendDTMF calls with any socket outcomes", "why_tests_cant": "Unbounded histories including wraparound.", "anchors": ["rtp/session.go:Send,SendRaw,SendDTMF", "rtp/rtp.go"]}
{"id": "C30", "title": "DTMF digits are transmitted as one RFC 4733 event", "statement": "Sending a valid digit writes packets of which only the first has the mark bit, durations never decrease and the last three carry the end bit with the total duration, all for the event code of the digit; an invalid digit writes nothing.", "quantifier": "all digits/bytes, all prior session states, all socket outcomes", "why_tests_cant": "All session states.", "anchors": ["rtp/session.go:SendDTMF", "rtp/session.go:dtmfCodes"]}
{"id": "C31", "title": "Digits are distinguishable events", "statement": "Two consecutive digits sent by SendDTMF form two different RFC 4733 events (their packets carry different timestamps), so pressing a key twice is not received as one press.", "quantifier": "all pairs of digits, all session states", "why_tests_cant": "All session states.", "anchors": ["rtp/session.go:SendDTMF"]}
{"id": "C32", "title": "DTMF character table is a bijection", "statement": "CharToDtmf and DtmfToChar are inverse to each other up to letter case on the seventeen telephone events (0-9 * # A-D and hook flash), reject everything else, and agree with the codes SendDTMF puts on the wire.", "quantifier": "all characters and all event codes, jointly for three tables", "why_tests_cant": "Relational claim between three independently written tables.", "anchors": ["rtp/dtmf.go:DtmfToChar,CharToDtmf", "rtp/session.go:dtmfCodes"]}
{"id": "C33", "title": "RTP receive filtering", "statement": "From any stream of packets exactly those that are well-formed 20 ms mu-law packets are delivered, in arrival order, each decoded sample by sample; all other packets are dropped without ending the session.", "quantifier": "all packet sequences", "why_tests_cant": "Unbounded streams of arbitrary packets.", "anchors": ["rtp/session.go:receiver", "rtp/rtp.go:Header.Read"]}
{"id": "C34", "title": "Closing an RTP session terminates", "statement": "Closing an RTP session returns and stops its receive goroutine under every interleaving.", "quantifier": "all schedules of application, Close and the receive goroutine", "why_tests_cant": "Schedules cannot be enumerated by tests.", "anchors": ["rtp/session.go:Close,CloseAfterError,receiver"]}
{"id": "C35", "title": "mu-law decode/encode identity", "statement": "Decoding any mu-law byte and encoding the result gives the same byte back, except that the two codes for zero share one encoding.", "quantifier": "all bytes and the whole int16 range", "why_tests_cant": "Relational property between assembly routine and table over the whole range.", "anchors": ["dsp/dsp_amd64.s:LinearToUlaw", "dsp/dsp_amd64.s:UlawToLinear"]}
{"id": "C36", "title": "mu-law encoding error is bounded and monotone", "statement": "For every 16 bit sample the encoded-and-decoded value has the same sign, differs from the sample by at most half of the segment's step (clipping excepted), and larger samples never decode to smaller values.", "quantifier": "all pairs of int16 samples", "why_tests_cant": "Pairs of samples; error bound for all.", "anchors": ["dsp/dsp_amd64.s:LinearToUlaw", "dsp/dsp_amd64.s:UlawToLinear"]}
{"id": "C37", "title": "Mixing adds with saturation", "statement": "Mixing two 160 sample frames stores in each destination sample the saturated sum of the two samples at the same index and changes nothing else.", "quantifier": "all pairs of 160 sample frames", "why_tests_cant": "2^5120 inputs.", "anchors": ["dsp/dsp_amd64.s:L16MixSat160"]}
{"id": "C38", "title": "Noise generator stays inside its tables", "statement": "The Gaussian noise generator's shuffle table index is always within the table and its linear congruential states stay inside their modulus, for every number of samples drawn.", "quantifier": "all seeds and all numbers of draws", "why_tests_cant": "Unbounded histories.", "anchors": ["dsp/awgn.go:AWGN"]}
{"id": "C39", "title": "A response is matched to the request it answers", "statement": "A message is treated as the answer to a request only if it is a response and Call-ID, CSeq number, CSeq method, topmost Via host and port and Via branch all agree with the request; conversely a response created for a received request with NewResponse always matches it.", "quantifier": "all pairs of messages", "why_tests_cant": "All pairs of messages.", "anchors": ["dialog/messages.go:ResponseMatch,NewResponse", "sip/via.go:CompareBranch,CompareHostPort"]}
{"id": "C40", "title": "Acknowledgements belong to their INVITE", "statement": "The ACK generated for a final response has the response's Call-ID, From, To and CSeq number with method ACK, is addressed to the remote Contact, and carries the reversed Record-Route as its Route; it is accepted by the matching rule for the response it acknowledges.", "quantifier": "all INVITE/response pairs", "why_tests_cant": "All messages.", "anchors": ["dialog/messages.go:NewAck,AckMatch"]}
{"id": "C41", "title": "CANCEL repeats the INVITE's transaction", "statement": "A CANCEL generated for an INVITE has the same request URI, Call-ID, From, To, CSeq number, Route and topmost Via including branch; its method, in the start line and in CSeq, is CANCEL, and it carries no payload.", "quantifier": "all INVITEs", "why_tests_cant": "All messages.", "anchors": ["dialog/messages.go:NewCancel"]}
{"id": "C42", "title": "BYE is a new in-dialog request", "statement": "A BYE generated after an INVITE was answered has the dialog's Call-ID and From/To including tags, a CSeq strictly greater than the INVITE's and than that of every BYE before it, the remote Contact as request URI and the reversed Record-Route as its Route.", "quantifier": "all INVITE/response pairs and all histories of sequence numbers", "why_tests_cant": "Histories.", "anchors": ["dialog/messages.go:NewBye", "dialog/dialog.go"]}
{"id": "C43", "title": "Routing follows RFC 3261 16.12", "statement": "A request without Route goes to the request URI's host and port; with a loose-routing topmost Route it goes to that route's host and port and keeps Route and request URI; with a strict-routing topmost Route the request URI becomes that route, it is removed from Route and the old request URI is appended at the end.", "quantifier": "all requests and Route lists", "why_tests_cant": "Unbounded Route lists.", "anchors": ["dialog/route.go:RouteMessage"]}
{"id": "C44", "title": "Strict-router rewriting is undone on reception", "statement": "A request whose URI was moved to the end of the Route list by a strict router is restored on reception to the URI and Route list the sender had.", "quantifier": "all requests and Route lists", "why_tests_cant": "Unbounded Route lists.", "anchors": ["dialog/receiver.go:fixMessagesFromStrictRouters", "dialog/route.go"]}
{"id": "C45", "title": "Responses go back to where the request came from", "statement": "A response to a request received from address A and port P is sent to A and P (RFC 3261 18.2 and RFC 3581), whatever the request's Via claims.", "quantifier": "all received requests, all source addresses", "why_tests_cant": "All Via parameter lists, including forged ones.", "anchors": ["dialog/receiver.go:addReceived", "dialog/route.go:RouteMessage", "dialog/messages.go:NewResponse"]}
{"id": "C46", "title": "Populating a message completes it", "statement": "After a message is populated for sending it has Via with branch, Contact, From with tag, Call-ID, CSeq with matching method, Max-Forwards and User-Agent; fields that were present are left alone; populating twice changes nothing more.", "quantifier": "all messages", "why_tests_cant": "All combinations of missing and present fields.", "anchors": ["dialog/route.go:PopulateMessage", "dialog/dialog.go:populate"]}
{"id": "C47", "title": "SRV/DNS candidates are tried in priority order", "statement": "The list of addresses tried for a host contains exactly the resolved addresses, in the order of the SRV answer; an IP literal or explicit port yields exactly one candidate.", "quantifier": "all hosts and resolver answers", "why_tests_cant": "All resolver answers.", "anchors": ["dialog/route.go:RouteAddress"]}
{"id": "C48", "title": "In-dialog requests are processed in order", "statement": "A request with a CSeq lower than one already processed in the dialog is refused and has no effect; the remembered remote CSeq never decreases.", "quantifier": "all sequences of incoming messages", "why_tests_cant": "Histories.", "anchors": ["dialog/dialog.go:handleRequest"]}
{"id": "C49", "title": "Messages of other calls are refused", "statement": "A message whose Call-ID differs from the dialog's is never acted upon: it changes no dialog state.", "quantifier": "all messages in all dialog states", "why_tests_cant": "All states and messages.", "anchors": ["dialog/dialog.go:handleMessage"]}
{"id": "C50", "title": "Retransmission is bounded", "statement": "A request is transmitted at most maxResends+1 times to one address, and over the life of the dialog the INVITE is transmitted a bounded number of times, whatever arrives in between.", "quantifier": "all event sequences", "why_tests_cant": "Unbounded histories.", "anchors": ["dialog/dialog.go:resendRequest,sendRequest,send"]}
{"id": "C51", "title": "A dialog ends exactly once", "statement": "In every execution the dialog emits at most one error and at most one Hangup, never both, and nothing is sent or reported after either of them.", "quantifier": "all event sequences and socket outcomes", "why_tests_cant": "Unbounded histories.", "anchors": ["dialog/dialog.go:run"]}
{"id": "C52", "title": "Answering is not undone by late provisional responses", "statement": "Once Answered has been reported, the dialog does not go back to Ringing or Proceeding.", "quantifier": "all event sequences, including reordered datagrams", "why_tests_cant": "Orderings of UDP datagrams.", "anchors": ["dialog/dialog.go:handleResponse,transition"]}
{"id": "C53", "title": "Every final INVITE response is acknowledged", "statement": "Each final response to the INVITE that matches the outstanding request (including retransmissions of it) is answered with an ACK.", "quantifier": "all event sequences", "why_tests_cant": "Histories with retransmissions.", "anchors": ["dialog/dialog.go:handleResponse"]}
{"id": "C54", "title": "Failover to the next server", "statement": "When a server answers 503, refuses the datagram or does not answer, the next candidate address is tried, until none is left and an error is reported.", "quantifier": "all candidate lists and event sequences", "why_tests_cant": "All failure orders.", "anchors": ["dialog/dialog.go:handleResponse,popRoute,run"]}
{"id": "C55", "title": "A remote peer cannot crash the dialog", "statement": "No message sequence from the network makes the dialog goroutine panic.", "quantifier": "all sequences of parseable messages", "why_tests_cant": "Adversarial sequences.", "anchors": ["dialog/dialog.go", "dialog/receiver.go:addReceived", "dialog/messages.go"]}
{"id": "C56", "title": "A dialog releases its sockets and channels", "statement": "After the dialog has ended, its sockets are closed, its receive goroutines stop and its notification channels are closed, under every interleaving.", "quantifier": "all schedules of dialog and receiver goroutines", "why_tests_cant": "Schedules.", "anchors": ["dialog/dialog.go:cleanupSock,cleanupCSock,cleanup", "dialog/receiver.go:ReceiveMessages"]}
{"id": "C57", "title": "Delivered messages are immutable", "statement": "A message delivered by the receive loop is not changed by datagrams that arrive later.", "quantifier": "all datagram sequences", "why_tests_cant": "Aliasing shows only for particular later packets.", "anchors": ["dialog/receiver.go:ReceiveMessages", "sip/msg_parse.go:ParseMsg"]}
{"id": "C58", "title": "Generated identifiers have the promised format", "statement": "Whatever random bytes are drawn, generated branches start with the z9hG4bK cookie, tags are twelve lower-case hex digits, and Call-IDs are RFC 4122 version 4 UUIDs in 8-4-4-4-12 form; different random draws give different identifiers, and all of them are legal tokens that survive serialisation unquoted.", "quantifier": "all outcomes of the random source", "why_tests_cant": "All random outcomes.", "anchors": ["util/util.go"]}
{"id": "C59", "title": "Each transaction gets a fresh branch", "statement": "Two different requests sent through one transport carry different Via branch values (up to collisions of the random source).", "quantifier": "all sequences of sends", "why_tests_cant": "Histories with shared mutable state.", "anchors": ["dialog/transport.go:Send", "dialog/route.go:PopulateMessage"]}
{"id": "C60", "title": "Hop limit is enforced", "statement": "Each transmission of a message with positive Max-Forwards decrements it by one, and a message whose Max-Forwards reaches zero is not transmitted.", "quantifier": "all messages and numbers of transmissions", "why_tests_cant": "Histories.", "anchors": ["dialog/transport.go:Send", "dialog/dialog.go:send"]}
{"id": "C61", "title": "ParseMsg accepts exactly the message grammar", "statement": "ParseMsg accepts exactly the packets of the form start line, header lines, empty line, body in which every header value has the documented form for that header, and the message returned is the one the lines denote, read in order; every other packet is an error. The cut into lines is unique.", "quantifier": "all byte strings", "why_tests_cant": "Infinitely many inputs; soundness and completeness of the parser.", "anchors": ["sip/msg_parse.rl", "sip/msg_parse.go:ParseMsg"]}
{"id": "C62", "title": "Requests without a port go to 5060", "statement": "A request routed to a host without an explicit port is transmitted to port 5060 of that host.", "quantifier": "all requests and all resolver answers without SRV records", "why_tests_cant": "Two independent send paths; all routing cases.", "anchors": ["dialog/route.go:RouteAddress", "dialog/transport.go:Send"]}
{"id": "C63", "title": "Hanging up ends the call and says so", "statement": "When the application hangs up before the call is answered, a CANCEL of the INVITE is sent; after it is answered, a BYE; and when the peer confirms, the dialog reports Hangup and no error.", "quantifier": "all dialog states and all responses", "why_tests_cant": "All histories.", "anchors": ["dialog/dialog.go:sendHangup,handleResponse,run"]}
{"id": "C64", "title": "In-dialog requests are answered", "statement": "Each request of the call that arrives in order is answered: BYE with 200, after which the dialog reports Hangup and ends; OPTIONS with 200; INVITE with 200 and our session description, repeated until the ACK arrives, at most maxResends times, after which the call is ended with a BYE; an ACK is never answered; any other method with 405.", "quantifier": "all dialog states and all requests", "why_tests_cant": "All states and messages.", "anchors": ["dialog/dialog.go:handleRequest,sendResponse,resendResponse", "dialog/messages.go:NewResponse"]}
{"id": "C65", "title": "The dialog places the call it was given", "statement": "Every INVITE a dialog transmits, first or repeated, redirected or sent to another server, is the application's: method, Call-ID, CSeq, To, From, subject and all other headers, extension headers and body are those the application set; what it left out is filled in once and stays the same. Only Via, Contact, Max-Forwards, Route and the request URI are the dialog's business. All requests of the dialog carry that one Call-ID.", "quantifier": "all dialogs, event sequences, network outcomes and random draws", "why_tests_cant": "Unbounded histories with retransmission, failover and redirects.", "anchors": ["dialog/dialog.go:sendRequest,popRoute,populate,resendRequest,handleResponse,sendHangup", "dialog/route.go:PopulateMessage,RouteMessage"]}
{"id": "C66", "title": "A transport advertises the address it listens at", "statement": "The Contact of a new transport is the first address the application gave, with the port the socket really got and transport=udp; its Via names the socket's own address. Whatever was sent through the transport before, a request that brings no Via or no Contact is transmitted with exactly these.", "quantifier": "all contacts, all socket addresses, all histories of messages sent, all requests", "why_tests_cant": "All histories of use: messages without a Via share the transport's own Via object.", "anchors": ["dialog/transport.go:NewTransport,Send", "dialog/route.go:PopulateMessage"]}
{"id": "C67", "title": "Reception changes only routing information", "statement": "A delivered message is the message in the datagram except: its first Via entry gains received, rport and (if switched on) a time stamp, never losing or changing a parameter that has a value; the first Route entry is removed if and only if it names the receiver; and if a strict router has put the receiver's loose-routing URI in place of the request URI, the last Route entry becomes the request URI again. No other header, and not the body, is touched.", "quantifier": "all datagrams that fit the buffer, all source and local addresses", "why_tests_cant": "All messages: a frame property over every header.", "anchors": ["dialog/receiver.go:ReceiveMessages,addReceived,addTimestamp,fixMessagesFromStrictRouters"]}
{"id": "C68", "title": "The application is told the state of the call, and nothing else", "statement": "OnState reports Proceeding, Ringing or Answered at once when a 100, a 180 or 183, or the first 200 to the outstanding INVITE arrives, and Hangup when the peer's BYE or the peer's confirmation of our hanging up arrives; the state the dialog acts on is the one it reported last; no state is ever reported for another reason.", "quantifier": "all event sequences, all messages, all dialog states", "why_tests_cant": "All event sequences: 'never for another reason' is about every message in every state.", "anchors": ["dialog/dialog.go:handleResponse,handleRequest,transition,sendHangup"]}
{"id": "C69", "title": "The application learns where to send audio", "statement": "The connection address and audio port of a session description that comes in a provisional response, in an answer (with a Contact) to the INVITE, or in an INVITE of the peer that is in order are reported by OnPeer before the state is reported, unless the socket fails first; OnPeer never reports anything else.", "quantifier": "all event sequences, all session descriptions with audio, all dialog states", "why_tests_cant": "All event sequences and descriptions.", "anchors": ["dialog/dialog.go:checkSDP,handleResponse,handleRequest"]}
{"id": "C70", "title": "Refusals are reported, redirects are followed", "statement": "When the INVITE or the BYE is refused, the application gets the response itself as the error, after the ACK has been sent for an INVITE, and the dialog ends; the text of that error is the status and the phrase of the response. When the INVITE is redirected with 301 or 302, the same INVITE is sent to the address in the Contact, without Route, after the ACK. The application gets a response as an error for no other reason.", "quantifier": "all states, all responses", "why_tests_cant": "All responses and states.", "anchors": ["dialog/dialog.go:handleResponse,sendRequest", "sip/errors.go:ResponseError"]}
{"id": "C71", "title": "The requests of a dialog name the socket they leave from", "statement": "Every datagram of a dialog is the text of its message and goes to the address the dialog's socket is connected to. A request it puts together has, on top, a Via with the local port of that socket and a branch drawn for this address, and a Contact with the port at which the dialog takes requests: that of its contact socket if it has one, else of the same socket. This holds again after failing over to another address, for which the request is given the new port and a new branch. Host names the application gave are kept.", "quantifier": "all event sequences, all answers of resolver, sockets and random source, all requests", "why_tests_cant": "All executions: failing over at any point must renew what names the socket.", "anchors": ["dialog/dialog.go:populate,connect,popRoute,sendRequest,send"]}
{"id": "C72", "title": "A parse error names the place where the input is wrong", "statement": "The offset in a MsgParseError is a position in the packet, and the cause lies there: every packet with the same bytes up to that position (and the two bytes after it, which the parser looks at to recognise folded lines) is rejected at the same position, so no position inside the beginning of an acceptable packet is ever blamed. The position in an error of ParseURI has the same property among the URIs with, or without, a user part.", "quantifier": "all byte strings, all continuations", "why_tests_cant": "All packets and all continuations of their beginnings.", "anchors": ["sip/msg_parse.go:ParseMsg", "sip/msgerror.go:MsgParseError", "sip/uri_parse.go:ParseURI"]}
{"id": "C73", "title": "The text of a parse error shows the place", "statement": "The text of a MsgParseError names the line (from 1) and the place in the line (from 0) of the error, and shows the whole packet, line by line, with a mark under the offending byte. The text of a MsgIncompleteError says so, shows the whole packet, and is never that of a parse error.", "quantifier": "all rejected packets", "why_tests_cant": "All packets, lines of any length, errors at any byte.", "anchors": ["sip/msgerror.go:MsgParseError.Error"]}
{"id": "C74", "title": "Asking to hang up never blocks and is never lost", "statement": "An application may send on Dialog.Hangup at any time, also after the end of the dialog: the send returns, the dialog deals with every request made while it lives, and with none that was not made.", "quantifier": "all schedules of application, peer and event loop", "why_tests_cant": "The order in which the application, the peer and the timers act is not under the control of a test.", "anchors": ["dialog/dialog.go:NewDialog", "dialog/dialog.go:dialogState.run"]}
{"id": "C75", "title": "Hanging up again is harmless", "statement": "A second request to hang up does not change how the dialog ends: before the answer the same CANCEL is sent again, after the answer the confirmation of the BYE is recognised and Hangup is reported.", "quantifier": "all dialog states and histories", "why_tests_cant": "All states in which the second request can arrive.", "anchors": ["dialog/dialog.go:dialogState.sendHangup", "dialog/messages.go:NewBye", "dialog/messages.go:ResponseMatch"]}
{"id": "C76", "title": "The application hears everything the dialog reports, in order", "statement": "However late the application takes from OnErr, OnState and OnPeer, it gets the notifications of the event loop in the order in which they were made, none lost, repeated or invented, and its slowness does not change what the dialog does with the events it gets.", "quantifier": "all schedules of application and event loop", "why_tests_cant": "All interleavings.", "anchors": ["dialog/dialog.go:dialogState.run", "dialog/dialog.go:NewDialog"]}
{"id": "C77", "title": "A call goes through", "statement": "In a network without faults, and with a peer that answers in time and names in its Contact (or whose last proxy recorded) the address to which the INVITE went, a call placed with NewDialog goes through: the peer can read the INVITE; each provisional answer it writes is received, recognised and reported, with the address for its audio; its 200 is received and reported as Answered, after an ACK the peer can read; when the application hangs up, a BYE goes to the peer's Contact with the Call-ID, the From with its tag, the peer's To and the next CSeq; and when the peer confirms it, Hangup is reported and nothing more is sent or reported. Datagrams longer than the 2048 bytes that receivers read are excluded; C100 is about them.", "quantifier": "all INVITEs an application may give, all local IPv4 addresses (port not 5060), names, SRV records and random draws, all lists of provisional answers and all contents of the answers", "why_tests_cant": "It needs every layer at once, serialiser, parser, routing, receiver, event loop, for all messages and worlds.", "anchors": ["dialog/dialog.go:NewDialog", "dialog/dialog.go:dialogState.run", "dialog/receiver.go:ReceiveMessages", "sip/msg.go:Msg.Append", "sip/msg_parse.rl:ParseMsg", "dialog/messages.go:ResponseMatch"]}
{"id": "C78", "title": "Writing a message leaves it as it is", "statement": "Serialising a message changes nothing in it, except that a response without a reason phrase gets the phrase of its status, the one written; serialising it again writes the same bytes and changes nothing more.", "quantifier": "all messages, all random draws", "why_tests_cant": "An accidental write to any of forty fields, in any combination, is to be excluded; tests compare texts of a few messages.", "anchors": ["sip/msg.go:Msg.Append", "sdp/origin.go:Origin.Append", "sip/status.go:Phrase"]}
{"id": "C79", "title": "Two transports talk", "statement": "Let two transports be made at different addresses, and used in any way before. If the network resolves names, accepts datagrams and does not lose or alter them, then a request without Via and Route that an application sends through the first, in which every field it gave can be written, is sent once, to the address of its request URI, with everything the application gave; a receiver at the destination delivers it with the method, URI, Call-ID, CSeq, addresses, extension headers, body and Max-Forwards sent (but 70 where that is 0, see the hop limit); a response made for it there, with any status, To tag, Contact, Record-Route and body, and sent through the second transport, goes once to the source address of the request; and a receiver there delivers it with that status, Contact, Record-Route and body, the request's Call-ID, CSeq and From, and it is recognised as the response to the request sent. Covered are first transports at ports other than 5060 and draws of a CSeq number other than 0. Datagrams longer than the 2048 bytes that receivers read are excluded; C100 is about them.", "quantifier": "all transports and their histories, all requests and responses within the grammar, all source addresses, random draws and receive buffers", "why_tests_cant": "The transports, serialiser, parser, receiver, routing and matching work together over two machines, for every message; a test tries a few.", "anchors": ["dialog/transport.go:Transport.Send", "dialog/transport.go:NewTransport", "dialog/receiver.go:ReceiveMessages", "dialog/messages.go:NewResponse", "dialog/messages.go:ResponseMatch", "dialog/route.go:RouteMessage", "sip/msg.go:Msg.Append", "sip/msg_parse.rl:ParseMsg"]}
{"id": "C80", "title": "The sound of one session is the sound of the other", "statement": "Let an application use a session with a peer in any way: frames of 160 samples with Send, digits with SendDTMF, raw payloads with SendRaw, any of them failing at the socket. A second session reading what left the socket, in order, gives its application exactly one frame for each Send, and for each SendRaw of one G.711 frame, that returned nil, in the order of the calls, and nothing for digits and other payloads; every sample of a frame is at most half a G.711 quantisation step from the sample sent and on the same side of zero, or the loudest value of its sign if it was beyond the G.711 range. If the network loses datagrams, the frames of the remaining calls arrive in order; if it also reorders or repeats them or mixes in datagrams that are not G.711 frames, every frame given is still that of a call that returned nil. A frame received and sent on is unchanged.", "quantifier": "all histories of calls, all samples, all socket outcomes, all losses, orders and additions on the way, all earlier contents of the receive buffer", "why_tests_cant": "Companding, packetising, numbering and the receive loop must agree for every history and every loss pattern; a test plays a few frames.", "anchors": ["rtp/session.go:Send", "rtp/session.go:SendRaw", "rtp/session.go:SendDTMF", "rtp/session.go:receiver", "rtp/rtp.go:Header.Write", "rtp/rtp.go:Header.Read", "dsp/dsp_amd64.s:LinearToUlaw", "dsp/dsp_amd64.s:UlawToLinear"]}
{"id": "C81", "title": "How the telephone ends", "statement": "The telephone program runs until its dialog reports that the call is over: it ends with status 0, the terminal restored, if and only if the call was answered and then hung up, with status 1 if the call was hung up before it was answered or the dialog reported an error. By then it has heard everything the dialog reported. When the dialog has ended, the program ends after hearing what is left to be heard, and never crashes.", "quantifier": "all executions: all interleavings of the main loop with the dialog, the RTP receive loop and the user's interrupts, all responses, all socket outcomes", "why_tests_cant": "The main loop selects among eight channels; which one is ready depends on the schedule.", "anchors": ["fone/main.go:main", "dialog/dialog.go:NewDialog", "rtp/session.go:Close", "rtp/session.go:CloseAfterError"]}
{"id": "C82", "title": "The telephone does not hang", "statement": "The main loop of the telephone program always comes back: a frame taken from the RTP session can be given back, closing the RTP session returns, and the request to hang up, at each interrupt, does not block.", "quantifier": "all executions of the telephone program", "why_tests_cant": "A deadlock needs a particular interleaving of the program, the dialog and the RTP receive loop.", "anchors": ["fone/main.go:main", "dialog/dialog.go:Dialog.Hangup", "rtp/session.go:Close", "rtp/session.go:CloseAfterError"]}
{"id": "C83", "title": "A telephone call goes through", "statement": "Start the telephone program with a SIP URI it can parse, a public address and a network without faults. The INVITE it makes is one the peer can read whatever the user's name and the RTP port are. If the callee, whose requests go to the address of the INVITE, reports progress, answers with 200 and confirms the BYE, and the user interrupts the program, there is an execution in which the program is told of exactly that progress, sends its sound to the media address the callee announced last, reads the keyboard once, acknowledges the answer, hangs up with a BYE, and ends with status 0. Datagrams longer than the 2048 bytes that receivers read are excluded; C100 is about them.", "quantifier": "all request URIs, user names, addresses and ports, all progress and answers of the callee", "why_tests_cant": "It composes the program with parser, serialiser, dialog and transport; a test makes one call.", "anchors": ["fone/main.go:main", "dialog/dialog.go:NewDialog", "sip/msg_parse.rl:ParseMsg", "sip/msg.go:Append", "sdp/sdp.go:Append", "util/util.go:GenerateOriginID"]}
{"id": "C84", "title": "What sdp.Parse accepts and what it returns", "statement": "sdp.Parse accepts exactly the texts that start with v=0, have a well-formed first c= line, at least one o= line and only well-formed ones, and a usable m=audio or m=video line whose every payload type has a readable first rtpmap or is one of RFC 3551's; it returns exactly what the lines say: the address of the first c= line, the last o= line, the last audio and the last video line with their codecs in the order given, session name, time, packet time, direction, and all other attributes and lines in their order. Every other text is refused with an error.", "quantifier": "all texts", "why_tests_cant": "The set of texts is infinite; a test shows one accepted or refused text at a time.", "anchors": ["sdp/sdp.go:Parse", "sdp/sdp.go:parseMediaInfo", "sdp/sdp.go:populateCodecs", "sdp/sdp.go:parseOriginLine", "sdp/sdp.go:parseConnLine", "sdp/codecs.go:StandardCodecs"]}
{"id": "C85", "title": "The port of an RTP session", "statement": "rtp.Listen, and so rtp.NewSession, tries even ports from 16384 to 32768 of the host it is given, every one of which may be drawn, until one can be bound, an error other than a taken port occurs or ten ports were taken; it returns the outcome of the last attempt, so it opens at most one socket and none when it fails. The host may be a name, an IPv4 or an IPv6 address; an address with a port is used as it is.", "quantifier": "all hosts, all random draws, all behaviours of the operating system", "why_tests_cant": "Which ports are drawn and which are taken is outside a test's control.", "anchors": ["rtp/session.go:Listen", "rtp/session.go:NewSession"]}
{"id": "C86", "title": "The peer's requests are answered, and the peer recognises the answers", "statement": "Over a network without faults a dialog with a socket answers every request (other than ACK) that reaches it with one response, sent over its socket: 481 to a strange Call-ID, 500 to a CSeq number lower than the highest seen, 200 to BYE, OPTIONS and INVITE, 405 to the rest. The requester, reading that response whenever and from wherever it comes, finds that it matches its request, with the same Call-ID, CSeq, From and To. BYE ends the dialog with Hangup reported; an INVITE's media address is reported before the answer; the others leave the dialog running. The request is any that can be written, has one Via with a branch and a port other than 5060, and no Route; a session description has audio and an address. Datagrams longer than the 2048 bytes that receivers read are excluded; C100 is about them.", "quantifier": "all states of a dialog, all requests, all sources and times of arrival, all random draws", "why_tests_cant": "The answer must be recognised for every request and in every state; a test has one of each.", "anchors": ["dialog/dialog.go:handleMessage", "dialog/dialog.go:handleRequest", "dialog/dialog.go:sendResponse", "dialog/messages.go:NewResponse", "dialog/messages.go:ResponseMatch", "dialog/receiver.go:ReceiveMessages", "sip/msg.go:Append", "sip/msg_parse.rl:ParseMsg"]}
{"id": "C87", "title": "How a call that is not hung up by its caller ends", "statement": "Over a network without faults, whatever provisional answers come first: (1) when the callee refuses with an answer that has a Contact and is not 301, 302 or 503, the dialog sends an ACK the callee can read, reports that answer as its error and ends; (2) when the caller hangs up before the answer, the dialog sends a CANCEL the callee can read and match with the INVITE, takes no notice of the answer to the CANCEL, and ends as in (1) when the INVITE is refused; (3) when the callee hangs up after the answer, its BYE is delivered, is answered with a 200 it recognises, Hangup is reported and the dialog ends. Nothing else is sent or reported. Datagrams longer than the 2048 bytes that receivers read are excluded; C100 is about them.", "quantifier": "all INVITEs, all sequences of provisional answers, all refusals, all BYEs, all random draws", "why_tests_cant": "Each end depends on the whole exchange over the wire; a test plays one exchange.", "anchors": ["dialog/dialog.go:run", "dialog/dialog.go:handleResponse", "dialog/dialog.go:handleRequest", "dialog/dialog.go:sendHangup", "dialog/messages.go:NewAck", "dialog/messages.go:NewCancel", "dialog/messages.go:NewResponse"]}
{"id": "C88", "title": "How the telephone ends when the callee refuses, its user gives up or the callee hangs up", "statement": "The telephone of fone/main.go, on a network without faults, can always run so that: refused, it ends with status 1 having reported the refusal; interrupted before the answer, it cancels the call and ends with status 1 when the INVITE is refused; when the callee hangs up after the answer it ends with status 0 and the callee recognises the answer to its BYE. The exchange is the one of the property before. Datagrams longer than the 2048 bytes that receivers read are excluded; C100 is about them.", "quantifier": "all destinations, public hosts, ports, users, sequences of provisional answers, refusals and BYEs", "why_tests_cant": "The whole program, its dialog and the wire take part; a test would need a scripted callee for every case.", "anchors": ["fone/main.go:main", "dialog/dialog.go:run"]}
{"id": "C89", "title": "The noise generator always returns a sample, and the sample is a number", "statement": "For every int64 seed, every volume and every number of earlier calls, a call of Get on a noise generator made by NewAWGN, NewAWGN_DBM0 or NewAWGN_DBOV returns: the rejection loop runs its body at most 259200 times. For every seed of absolute value at most 2^63-1-54773 and every volume between -1000 and 1000 dBm0 the pair the loop accepts has 0 < r < 1, the value computed from it is a finite float64 (never NaN or infinite), and the sample is that value truncated towards zero and clipped to the int16 range.", "quantifier": "all seeds, all volumes, all numbers of calls, all implementations of log and pow that keep within generous bounds", "why_tests_cant": "The rejection loop has no bound in the code and log(0)/0 would be NaN; whether they occur depends on a state space of more than 10^15 points and on every rounding.", "anchors": ["dsp/awgn.go:NewAWGN", "dsp/awgn.go:Get", "dsp/awgn.go:ran1"]}
{"id": "C90", "title": "The callee reads the INVITE the application asked for", "statement": "Over a network without faults the first thing a dialog sends is one datagram, and a callee that reads it with the same library finds the application's message: method, request URI, To, From, Call-ID, CSeq, extension headers and session description are the application's where it gave them; where it gave none, To is the address called, From is the Contact, and From has a tag. Contact and Via name the host given (or the local one) with the port on which the dialog listens; the Via has a branch; Max-Forwards is one less than given (69 by default); a session description without addresses gets the local one. For the telephone of fone/main.go: From is the user at the public host, To and the request URI are the destination given, and the session description announces the public host, the RTP port, PCMU and telephone-event.", "quantifier": "all INVITEs that can be written, all configurations and random draws, all continuations of the call", "why_tests_cant": "The fields pass through four functions that fill them in, the serialiser and the parser; a test checks one message.", "anchors": ["dialog/dialog.go:NewDialog", "dialog/dialog.go:populate", "dialog/route.go:PopulateMessage", "sip/msg.go:Append", "sip/msg_parse.rl:ParseMsg", "fone/main.go:main"]}
{"id": "C91", "title": "A call survives lost datagrams", "statement": "Let the timer of the dialog fire before any reply to the INVITE arrives, as often as the configured maximum of retransmissions allows, and likewise for the BYE: each time the request goes out again with the same Call-ID, CSeq, branch, addresses and payload and one hop less, and whichever copy the callee answers, its replies are recognised. When the answer comes again because its ACK was lost, the ACK is sent again, the media address is told again, and the application is not told a second time that the call was answered. An answer that comes after the application has hung up is passed over. If the BYE goes to the address to which the INVITE went, the call still ends as hung up, and the application hears Answered and Hangup exactly once. Datagrams longer than the 2048 bytes that receivers read are excluded; C100 is about them.", "quantifier": "all numbers of losses up to the configured maximum (and Max-Forwards), all INVITEs, all choices of the copy answered, all provisional replies, all numbers of repeated answers", "why_tests_cant": "The number of losses and the copies answered combine without bound, over the timer, the parser, the matching of replies and the state of the call.", "anchors": ["dialog/dialog.go:resendRequest", "dialog/dialog.go:handleResponse", "dialog/dialog.go:send", "dialog/dialog.go:sendHangup", "dialog/messages.go:ResponseMatch", "dialog/transport.go:Send"]}
{"id": "C92", "title": "A call reaches its callee over dead servers and redirects", "statement": "The INVITE is sent to the first address of its next hop. A server which says nothing is given up after the configured number of retransmissions, and the INVITE goes to the next address, in the order of the lookup; a server which answers 301 or 302 with a Contact, perhaps after provisional replies, gets an ACK it can read, and the INVITE goes to the URI of the Contact, without Route, at the first address of that host; and so on through any number of such servers, as long as addresses and hops remain. Every INVITE belongs to the same call (Call-ID, CSeq, From with its tag, To) and carries the same payload and headers. The callee who answers gets an ACK and, when the application hangs up, a BYE with the next CSeq and the same tags; the application hears the progress each server reported, then Answered and Hangup once each, and no error. Datagrams longer than the 2048 bytes that receivers read are excluded; C100 is about them.", "quantifier": "all sequences of silent servers and redirects, all INVITEs, all provisional replies, all DNS contents in which names resolve, all maxima of retransmissions", "why_tests_cant": "The sequences are unbounded, and each combines the lookup, the timers, the sockets, the parser, the matching of replies and the in-place changes of the request.", "anchors": ["dialog/dialog.go:popRoute", "dialog/dialog.go:sendRequest", "dialog/dialog.go:resendRequest", "dialog/dialog.go:handleResponse", "dialog/dialog.go:connect", "dialog/route.go:RouteAddress", "dialog/route.go:PopulateMessage"]}
{"id": "C93", "title": "A call can be made over two transports with the message constructors", "statement": "Let the caller hold a transport made at a port other than 5060 and the callee a transport made at another address; both may have been used for other messages. The INVITE made by NewRequest, with a payload set by the caller, is sent by Send to the host and port of the To URI, and the callee's ReceiveMessages delivers it with that Call-ID, CSeq number, request URI and payload. Every answer the callee makes with NewResponse, adds to and sends goes to the address the INVITE came from, is delivered to the caller and satisfies ResponseMatch with the INVITE. If the answer has a Contact and no Record-Route, NewAck and NewBye give an ACK and a BYE that Send sends to the host and port of that Contact; the callee gets them with the Contact's URI as request URI, the Call-ID, From and To (with the tags) of the dialog; the ACK satisfies AckMatch with the INVITE the callee got, the BYE has the next CSeq number, and the answer to the BYE comes back and satisfies ResponseMatch with it. None of these calls panics. Datagrams longer than the 2048 bytes that receivers read are excluded; C100 is about them.", "quantifier": "all addresses, payloads, random bytes, times, sources and local addresses, all answers that can be written, all uses of both transports before and between, on a network that resolves names and delivers the datagrams", "why_tests_cant": "the chain passes through writing, parsing, Via annotation and routing at both ends for arbitrary header contents; a test runs one call", "anchors": ["dialog/messages.go:NewRequest", "dialog/messages.go:NewAck", "dialog/messages.go:NewBye", "dialog/messages.go:AckMatch", "dialog/messages.go:ResponseMatch", "dialog/transport.go:Send", "dialog/receiver.go:ReceiveMessages"]}
{"id": "C94", "title": "The example caller succeeds exactly when it should", "statement": "The program of example/echo2, started with a transport as in C93, invites the callee with its session description. If the callee answers 200 with a Contact, perhaps after provisional answers, the program acknowledges the answer, takes the callee's audio address, sends a BYE when its time is over, and ends with success when the 200 to the BYE arrives; the callee gets the ACK and the BYE in the dialog. Whatever happens, if it ends in good order then a 200 to a BYE or a CANCEL has arrived, and it counts the call as answered exactly if a 200 to an INVITE arrived before. While nothing is heard it sends its request (the INVITE, then the BYE of an answered or the CANCEL of an unanswered call) again, the same but for the hops left, twice, and then gives up. It does not crash, whatever the callee sends: in particular it survives a callee who hangs up or declines. Once the call is answered the INVITE is not sent again and the call is not given up. Datagrams longer than the 2048 bytes that receivers read are excluded; C100 is about them.", "quantifier": "all callees, addresses, session descriptions, random bytes; all interleavings of messages, audio and timers", "why_tests_cant": "the loop takes messages and timers in any order without bound, and the objects of the INVITE are shared with later messages and with the transport", "anchors": ["example/echo2/echo2_test.go:TestCallToEchoApp", "dialog/messages.go:NewAck", "dialog/messages.go:NewBye", "dialog/messages.go:NewCancel", "dialog/messages.go:NewResponse", "dialog/transport.go:Send"]}
{"id": "C95", "title": "The two pings get their answer", "statement": "The programs of example/options and example/rawsip send an OPTIONS request to a server. A server made with the library, at another address, receives it with the fields the program wrote: method, Request-URI, Call-ID, CSeq, tags and addresses; the protocol named in its Via is SIP, and the Request-URI is the server. If the server answers 200 with NewResponse and Transport.Send, the answer goes to where the request came from and the program ends with success. It ends with success only if it has got a 200 to its own request, and it does not crash whatever it gets. Datagrams longer than the 2048 bytes that receivers read are excluded; C100 is about them.", "quantifier": "all addresses, random bytes, servers, answers and datagrams", "why_tests_cant": "the answer goes through the parser, the dialog library and the printer, with whatever the server adds to it", "anchors": ["example/options/options_test.go:TestOptions", "example/rawsip/rawsip_test.go:TestRawSIPOptions", "sip/msg.go:Append", "dialog/messages.go:NewResponse", "dialog/transport.go:Send"]}
{"id": "C96", "title": "The caller that keeps its own dialog is understood and understands", "statement": "The program of example/echo invites a server made with the library. The server gets the INVITE with the session description; if it answers 100 and then 200 with a session description, the program sends an ACK that matches the INVITE and, once it has heard its own audio, a BYE with the next CSeq; both reach the server with the Call-ID, From and To of the call. With a 200 to the BYE it ends with success. A peer that returns every packet it gets to the sender satisfies it. It ends with success only after these answers to its own requests and its own audio, and does not crash whatever it gets. Datagrams longer than the 2048 bytes that receivers read are excluded; C100 is about them.", "quantifier": "all addresses, random bytes, servers, answers, audio packets and datagrams", "why_tests_cant": "five datagrams in two directions go through the parser and the printer, and the ACK and the BYE are built from what the server put into its answer", "anchors": ["example/echo/echo_test.go:TestCallToEchoApp", "rtp/rtp.go:Write", "rtp/rtp.go:Read", "sip/msg.go:Append", "dialog/messages.go:NewResponse", "dialog/messages.go:AckMatch"]}
{"id": "C97", "title": "The test call of the example that uses dialog and RTP session", "statement": "The test of example/echo3 calls sip:echo@127.0.0.1:5060 from the local address with the port of its RTP session. It passes if and only if the call was answered and then hung up with no error reported and the sound made no trouble; by then it has heard everything the dialog reported. It hangs up only when its timer fires or the RTP socket fails, ends as soon as it has heard the end of the dialog, and neither crashes nor blocks for ever, whatever its sockets do. With a server at that address that answers and confirms the BYE it can pass. Datagrams longer than the 2048 bytes that receivers read are excluded; C100 is about them.", "quantifier": "all schedules of the test, the dialog and the receive goroutine, all replies, socket failures and local addresses", "why_tests_cant": "the verdict depends on which ready case the select takes and on three goroutines waiting for each other", "anchors": ["example/echo3/echo3_test.go:TestCallToEchoApp", "dialog/dialog.go:NewDialog", "rtp/session.go:Close", "rtp/session.go:CloseAfterError", "rtp/session.go:Send"]}
{"id": "C98", "title": "A dialog goes over to another address", "statement": "When a request of the dialog has to go to another address than the one it is connected to (the next candidate after a silent server, the target of a redirect, a BYE to a Contact or proxy elsewhere), the dialog sends it there and goes on; the goroutine that read the old socket ends. As long as all requests go to one address, nothing the goroutines do keeps it from anything it would do otherwise; and whatever they do, it sends and reports nothing else, in no other order.", "quantifier": "all INVITEs, networks, event sequences and schedules of the dialog and the goroutines that read its sockets", "why_tests_cant": "whether the dialog gets past the closing of a socket depends on what the reading goroutine has in hand at that moment", "anchors": ["dialog/dialog.go:connect", "dialog/dialog.go:cleanupSock", "dialog/dialog.go:popRoute", "dialog/dialog.go:run", "dialog/receiver.go:ReceiveMessages"]}
{"id": "C99", "title": "The clock of a dialog", "statement": "A dialog repeats a request, or its answer to a re-INVITE, resendInterval milliseconds after it began to send it the time before and no sooner, so within any time no more often than intervals fit into it, whatever arrives in between. If the next hop has one address and nothing is heard from it, the INVITE is sent maxResends + 1 times in all, at intervals, and then the dialog reports that the destination cannot be contacted and ends, maxResends + 1 intervals after it began; likewise for the BYE after the application has hung up. If the peer falls silent after a provisional reply, the dialog ends too, at the latest some time after the application has hung up. If the peer sends another INVITE within the call and does not acknowledge the answer, the answer is sent maxResends + 1 times in all, at intervals, and then the call is ended with a BYE.", "quantifier": "all schedules, all times at which messages arrive and turns are taken, all settings of resendInterval and maxResends, all INVITEs and replies", "why_tests_cant": "a test sees one setting and one schedule; the rates hold for all interleavings, and waiting for ever cannot be observed in finite time", "anchors": ["dialog/dialog.go:resendRequest", "dialog/dialog.go:resendResponse", "dialog/dialog.go:popRoute", "dialog/dialog.go:sendHangup", "dialog/dialog.go:run", "dialog/util.go:duration"]}
{"id": "C100", "title": "A message that does not fit is not misread", "statement": "Whatever a datagram holds, if the receiver reads only its beginning because it is longer than the buffer of 2048 bytes, it delivers what the whole datagram says or nothing; it delivers nothing if the message has a body. A message with a body is likewise refused if anything is added at its end. And the library does not send datagrams that get lost this way: none is longer than the documented limit of 1450 bytes (MTU), and Send does not report success for a message that its receivers drop.", "quantifier": "all datagrams, buffer sizes, messages and networks", "why_tests_cant": "every message and every place where it may be cut", "anchors": ["dialog/receiver.go:ReceiveMessages", "sip/msg_parse.rl:ParseMsg", "dialog/transport.go:Send", "dialog/prefs.go:MTU"]}
{"id": "C101", "title": "The session description New makes says what was asked", "statement": "The text of a session description made with New for an address and a list of codecs consists of the lines of RFC 4566 in order: version, origin with the address and one number twice, a session name, connection with the address (IP6 if it has a colon, IP4 if not), time 0 0, one m=audio line with the port and the payload types in the order given, for each codec its a=rtpmap line and, if it has a format, its a=fmtp line, and a=sendrecv. Parsing the text gives the same address, port and codecs, if there is at least one codec, the codecs can be written and no payload type stands for two. The codecs that the package names are those of RFC 3551 (PCMU), RFC 4733 (telephone-event, 0-16) and RFC 7587 (opus).", "quantifier": "all addresses, ports, codec lists and random numbers", "why_tests_cant": "every address, port and list of codecs", "anchors": ["sdp/sdp.go:New", "sdp/sdp.go:Append", "sdp/media.go:Append", "sdp/codec.go:Append", "sdp/origin.go:Append", "sdp/codecs.go:ULAWCodec", "sdp/codecs.go:DTMFCodec", "sdp/codecs.go:Opus"]}
{"id": "C102", "title": "The telephone calls whom it was told, from an address", "statement": "The telephone dials exactly if it is given one argument that is a URI, its two sound streams open, it has an address and an RTP session is made; the INVITE is to that URI, offers that session, and is one that C83 and C90 speak of. Without such an argument it exits with status 1 and does nothing else. It asks the web server for its address exactly if it is not told one. Whatever the web server answers, the INVITE it sends can be read by the callee and contains no line that the program did not write.", "quantifier": "all arguments, flags, devices, answers of the web server, users and random numbers", "why_tests_cant": "every command line and every answer", "anchors": ["fone/main.go:main", "fone/main.go:getPublicIP", "sip/uri.go:Append", "sip/via.go:Append"]}
{"id": "C103", "title": "A trace shows the datagrams as they were", "statement": "The entry that -trace logs for a datagram gives its direction, its address and exactly its bytes to a reader that counts, whatever the bytes are: a datagram cannot pass for two, or for another one, so two different sequences of datagrams have different traces.", "quantifier": "all sequences of datagrams of any bytes and length, addresses and times", "why_tests_cant": "every datagram, also one that contains entries of a trace", "anchors": ["dialog/trace.go:trace", "dialog/receiver.go:ReceiveMessages", "dialog/dialog.go:send", "dialog/transport.go:Send"]}
{"id": "C104", "title": "What the telephone says and plays", "statement": "The telephone sends, as one RTP stream to the peer the dialog named last, exactly the frames its microphone gives (noise when it is muted, whatever the microphone hears) and the keys that are pressed, in order, from the moment a peer is known until the RTP socket fails; it plays, in order, exactly the frames of sound that arrive from that peer; and when two telephones talk, what one plays are frames the other's microphone gave, in order, each sample close to the original, whatever the network loses.", "quantifier": "all runs of the loop: every order of ticks, keys, datagrams of any bytes, changes of peer and failures, every answer of the operating system", "why_tests_cant": "every interleaving and every arriving datagram", "anchors": ["fone/main.go:main", "rtp/session.go:Send", "rtp/session.go:SendDTMF", "rtp/session.go:receiver"]}
{"id": "C105", "title": "A message passed on keeps its meaning", "statement": "For every packet that ParseMsg accepts, the text that Append writes for the message is accepted by ParseMsg again, and the message read from it is the same: start line, addresses, Vias, Call-ID, CSeq, the numbers, the text headers, the extension headers and the payload.", "quantifier": "All packets ParseMsg accepts: any start line, any headers in any order and spelling, folded and quoted text, any payload.", "why_tests_cant": "What a gateway passes on is chosen by whoever sent the packet. Tests pass on the packets their author wrote.", "anchors": ["sip/msg.go: Append", "sip/msg_parse.rl: ParseMsg", "sip/addr.go: Append", "sip/via.go: Append", "sip/quote.go: appendQuoted"]}
{"id": "C106", "title": "A frame belongs to the application until it gives it back", "statement": "The frames an application receives from an RTP session contain the sound of the G.711 packets that arrived, in order, each exactly once. What is in a frame it received stays there, whatever arrives in the meantime, until it gives the frame back or writes to it itself; it may keep a frame and give back another one, of its own or received before. The session never writes to a frame the application has, and the two never have the same frame. It hands out one frame at a time: until the application gives one back it reads nothing from the socket; then it goes on. It does not crash, if what is given back is a frame and not nil.", "quantifier": "all sequences of datagrams, all interleavings of the session's goroutine with an application that receives, makes, keeps, writes to and gives back frames", "why_tests_cant": "The sharing of memory between two goroutines depends on the schedule and on the whole history of which frames were kept.", "anchors": ["rtp/session.go:Session.C", "rtp/session.go:Session.R", "rtp/session.go:receiver", "example/echo2/echo2_test.go", "fone/main.go"]}
{"id": "C107", "title": "A request can be answered any number of times", "statement": "An application that keeps a request it received can make any number of answers from it and send them through its transport. Each is sent once, to the address the request came from, is received by the transport that sent the request and belongs to that request, with the status, the Contact, the Record-Route and the payload the application gave it. A tag the application adds to To in the first answer is in all of them. Sending answers leaves the request as it was received, and no answer contains what was added to another.", "quantifier": "all requests and sites as in C79, all sequences of answers of any length, all times of sending", "why_tests_cant": "The answers share objects with the request, so what one of them is depends on all that were sent before it.", "anchors": ["dialog/messages.go:NewResponse", "dialog/transport.go:Transport.Send", "dialog/receiver.go:addTimestamp", "sip/addr.go:Tag"]}
{"id": "C108", "title": "A transport does not wear out", "statement": "However many messages were sent through a transport, and whatever came of them, sending a message that was not sent before does what it would do through a transport just made for the same Contact and address: the same datagrams to the same addresses, the same message left with the caller and the same result, except that requests without Via all get the branch that was drawn for the first of them. With time stamps switched on that holds as well, except for the stamp of the message itself.", "quantifier": "all Contacts and addresses, all sequences of messages and worlds (random draws, name resolution, write errors), all further messages and worlds", "why_tests_cant": "a test that sends a few messages does not see what grows with every message, and nothing in the API shows the state a transport keeps between two calls of Send", "anchors": ["dialog/transport.go: NewTransport, Transport.Send", "dialog/receiver.go: addTimestamp", "dialog/route.go: PopulateMessage"]}
{"id": "C109", "title": "Several goroutines can send through one transport", "statement": "When several goroutines send messages through one transport at the same time, in whatever order the scheduler lets them go on, each call of Send ends, without waiting for another, and does what it would do alone: the same datagram to the same address, with one branch in its Via, which the message keeps for when it is sent again.", "quantifier": "all numbers of goroutines, all messages and worlds, all interleavings of the accesses to what they share", "why_tests_cant": "a test sees a few of the interleavings, and the order in which goroutines reach the transport is not under its control", "anchors": ["dialog/transport.go: Transport, Transport.Send", "dialog/route.go: PopulateMessage", "dialog/receiver.go: addTimestamp"]}
{"id": "C110", "title": "A transport delivers what arrives, once and in order, and says when it ends", "statement": "The application receives from the channel C of a transport the messages in the datagrams that reach its socket, each once and in the order of their arrival, and nothing else; datagrams that are not messages are passed over and no datagram ends the program. When the socket fails or the application closes it, the application receives one error from E, no message after it, and then both channels are closed and the goroutine of the transport ends, whichever of the channels the application reads.", "quantifier": "all sequences of datagrams with any contents, and all orders in which the network, the goroutine and the application act, with the socket failing or being closed at any point", "why_tests_cant": "a test fixes the datagrams and cannot choose the moment at which the socket fails between reading, offering a message and reporting an error", "anchors": ["dialog/receiver.go: ReceiveMessages", "dialog/transport.go: NewTransport, Transport"]}
{"id": "C111", "title": "A response says what its status means", "statement": "A response whose phrase the application left empty is written with the reason phrase that the RFCs give to its status, after the version and the status; a status they do not define is written as unknown, and a phrase the application put in is written as it is.", "quantifier": "all responses with any positive status, any version and any other fields", "why_tests_cant": "there are many statuses and the other fields of the message must not matter; a test that repeats the phrases of the code repeats their errors", "anchors": ["sip/status.go: Phrase", "sip/msg.go: Msg.Append"]}
{"id": "C112", "title": "Several goroutines can send through one RTP session", "statement": "When several goroutines call Send of one RTP session at the same time, every call returns without waiting for another, and each frame leaves once, whole, in a datagram with the type and source of the session and with a sequence number and a time of its own; a digit sent in the meantime leaves as one event.", "quantifier": "any number of goroutines, all frames, all interleavings of the accesses to the header and the buffer of the session", "why_tests_cant": "the interleavings are as many as the scheduler can make; a test sees a few of them and the one it would need may never occur", "anchors": ["rtp/session.go: Session.Send, Session.SendDTMF", "rtp/rtp.go: Header.Write"]}
