#!/usr/bin/env python3
"""Source of /verif/properties.jsonl (one entry per property)."""
import json
P = []
def p(title, statement, quantifier, why, anchors):
    P.append(dict(id="C%02d" % (len(P)+1), title=title, statement=statement,
                  quantifier=quantifier, why_tests_cant=why, anchors=anchors))

# ---------------------------------------------------------------- SIP text
p("Percent escaping is lossless and stays inside the character class",
  "For every byte string used as the user or password of a URI, or as a URI parameter or header name/value, the text written when the URI is serialised consists only of characters legal at that position and %hh triples, and percent-decoding that text gives back exactly the original bytes; hence two different strings never serialise to the same text.",
  "all byte strings of any length, all character classes used by the URI serialiser",
  "Strings are unbounded; a test picks a handful of bytes and cannot exclude a collision or an unescaped delimiter.",
  ["sip/escape.go:appendEscaped", "sip/charsets.go", "sip/uri.go:URI.Append", "sip/uriparam.go", "sip/uriheader.go", "sip/uri_parse.rl:hexHi,hexLo"])
p("Quoting is injection safe",
  "Whatever bytes a display name or a parameter value contains, the text produced for it is either a run of token characters and spaces or a double-quoted string in which every quote and backslash is escaped and every line break is part of a folded continuation (CR LF followed by space or tab); it can never close the quoted string early nor start a new header line.",
  "all byte strings used as Addr.Display, Addr/Via parameter value",
  "An injection needs one adversarial string out of infinitely many.",
  ["sip/quote.go:appendQuoted,appendSanitized,appendQuoteQuoted", "sip/charsets.go:tokenc,qdtextc,qdtextesc"])
p("Quoted strings read back unchanged",
  "A quoted display name or parameter value made of printable text is parsed back to exactly the same bytes when the serialised message is parsed.",
  "all byte strings accepted by the quoting alphabet",
  "The claim ranges over all strings and over every way of interleaving escapes.",
  ["sip/quote.go:appendQuoted", "sip/sip.rl:quoted_string", "sip/msg_parse.go:ParseMsg"])
p("Sanitised names contain token characters only",
  "Parameter and header names written to the wire consist only of token characters; characters that are not token characters are dropped, the others keep their order, and names that are already tokens are written unchanged.",
  "all byte strings used as parameter or extension header names",
  "Unbounded strings.",
  ["sip/quote.go:appendSanitized", "sip/param.go:Param.Append", "sip/xheader.go:XHeader.Append"])
p("A URI survives serialise-then-parse",
  "For every well-formed URI value (scheme, host, optional user/password of arbitrary bytes, optional port, parameters and headers with arbitrary bytes), parsing the text produced by String gives back an equal URI.",
  "all well-formed URI values; all parameter/header lists of any length",
  "Infinitely many URIs; escapes, optional parts and list order interact.",
  ["sip/uri.go:URI.Append,URI.String", "sip/uri_parse.rl", "sip/uri_parse.go:ParseURI"])
p("ParseURI implements the URI grammar exactly",
  "ParseURI accepts exactly the texts of the form scheme ':' [user [':' password] '@'] host [':' digits] {';' name ['=' value]} ['?' name ['=' value] {'&' name ['=' value]}] with the documented character classes and %hh escapes, and the result is the decoded components (scheme and host in lower case, the port modulo 2^16: see C09); every other text is an error.",
  "all byte strings",
  "The equivalence is about the 59 state generated automaton on all inputs.",
  ["sip/uri_parse.go:ParseURI", "sip/uri_parse.rl", "sip/sip.rl"])
p("ParseURI never panics and always terminates",
  "For every byte string ParseURI returns a URI or an error after a number of automaton steps bounded by the input length; it never indexes outside a buffer.",
  "all byte strings of any length",
  "Fuzzing samples inputs; absence of an out-of-range index needs an invariant over all of them.",
  ["sip/uri_parse.go:ParseURI"])
p("Re-serialising an accepted URI is stable",
  "If ParseURI accepts a text, then String of the result is accepted again and denotes an equal URI.",
  "all byte strings accepted by ParseURI",
  "Quantifies over the whole accepted language.",
  ["sip/uri_parse.go:ParseURI", "sip/uri.go:URI.Append", "sip/uriheader.go:URIHeader.Append"])
p("Ports out of range are not silently changed",
  "A port number in a URI or Via that does not fit 16 bits is rejected rather than replaced with another port.",
  "all digit strings in port position",
  "Needs all digit strings, in particular overlong ones.",
  ["sip/uri_parse.rl:port", "sip/sip.rl:ViaPort"])
p("Host/port comparison ignores only the default port",
  "Two URIs (or Vias) compare equal exactly when both are present, their hosts are equal and their ports are equal after replacing an absent port with 5060 (5061 for sips); the comparison is reflexive on present values, symmetric and transitive.",
  "all pairs/triples of URIs or Vias including nil",
  "Algebraic laws over all values.",
  ["sip/uri.go:CompareHostPort,GetPort", "sip/via.go:CompareHostPort"])
p("Parameter lookup is case-insensitive and returns the newest match",
  "Get(name) on a parameter list returns the most recently added parameter whose name equals the argument ignoring ASCII case, and nil if there is none; it never panics on an empty list.",
  "all parameter lists and names",
  "Unbounded lists and all case variants.",
  ["sip/param.go:Param.Get", "sip/uriparam.go:URIParam.Get"])
p("Parameters keep their order on the wire",
  "Parameters and headers of a URI, address or Via are written in the order in which they were added (the order in which they appeared in a parsed text).",
  "all parameter lists of any length",
  "Unbounded lists; needs induction.",
  ["sip/param.go:Param.Append", "sip/uriparam.go:URIParam.Append", "sip/uriheader.go:URIHeader.Append"])
# ---------------------------------------------------------------- messages
p("ParseMsg never panics",
  "For every packet ParseMsg returns a message or an error: no index out of range, no nil dereference, no negative slice.",
  "all byte strings of any length",
  "A crashable parser is a remote denial of service; only an invariant over the 782 state automaton excludes it for all packets.",
  ["sip/msg_parse.go:ParseMsg", "sip/sip.rl", "sip/msg_parse.rl"])
p("ParseMsg terminates",
  "For every packet the parser stops, within a number of automaton steps bounded by a function of the packet length, although it backtracks when it re-reads an unquoted display name or an extension header name.",
  "all byte strings of any length",
  "Backtracking (fexec mark, fhold) means termination is not obvious and no finite test set shows it.",
  ["sip/msg_parse.go:ParseMsg", "sip/sip.rl:mark,backtrack,hold"])
p("Accepted messages are structurally complete",
  "Every message returned without error is either a request with a non-empty method and a request URI or a response with a three digit status; every address in it has a URI and every Via a protocol, version, transport and host.",
  "all byte strings accepted by ParseMsg",
  "Callers dereference these pointers unconditionally; must hold for all accepted packets.",
  ["sip/msg_parse.go:ParseMsg", "sip/sip.rl"])
p("A message survives serialise-then-parse",
  "For every well-formed message value, parsing the bytes produced by Append yields a message with the same method/status, request URI, Via list, From/To/Contact/Route/Record-Route lists, Call-ID, CSeq, Max-Forwards, string headers and payload.",
  "all well-formed messages; address, Via, parameter and extension header lists of any length",
  "Product of unbounded lists and strings.",
  ["sip/msg.go:Msg.Append", "sip/msg_parse.go:ParseMsg"])
p("Content-Length decides the payload exactly",
  "If a packet carries a positive Content-Length, ParseMsg accepts it only if exactly that many bytes follow the header block, and the payload is exactly those bytes (or their SDP parse).",
  "all packets",
  "All lengths and all bodies.",
  ["sip/msg_parse.rl:ParseMsg", "sip/msg_parse.go:ParseMsg"])
p("Serialised Content-Length is truthful",
  "Whatever the message contains, the bytes written by Append end with a blank line followed by exactly the payload bytes, and the Content-Length header written equals the payload's length in bytes.",
  "all messages and payloads",
  "All payload sizes and contents.",
  ["sip/msg.go:Msg.Append", "sip/payload.go"])
p("Compact header names set only their own header",
  "A packet that uses the one-letter compact form of a header gives the same message as the packet using the long form.",
  "all packets using compact header forms",
  "Header value ranges over all legal values; the effect on the other fields matters.",
  ["sip/msg_parse.rl:clen", "sip/msg_parse.go:ParseMsg"])
p("Unknown extension headers are preserved",
  "A header whose name is any token that is not a header known to the parser is kept, name and value unchanged, in the message's extension header list.",
  "all token names not in the table, all header values",
  "All names, including those sharing a prefix with a known name.",
  ["sip/sip.rl:xheader", "sip/msg_parse.go:ParseMsg"])
p("Header names are case-insensitive",
  "Changing the letter case of a known header name in a packet changes neither whether ParseMsg accepts it nor the message it gives.",
  "all case variants of all known header names, all values",
  "Exponentially many case variants.",
  ["sip/sip.rl:header", "sip/msg_parse.go:ParseMsg"])
p("Parsed header values cannot inject headers",
  "No string field of an accepted message contains a line break that is not followed by whitespace, so writing it back into a header cannot start a new header. When an accepted message is serialised again, the text consists of the start line, the lines From, To, one Via line for each Via, at most one line for each other header the message has a field for, one line for each extension header that was read, and the headers of the payload, and of no other line.",
  "all accepted packets",
  "All packets.",
  ["sip/sip.rl:value", "sip/msg_parse.go:ParseMsg"])
p("Copy gives an equal and independent message",
  "Msg.Copy, Addr.Copy, Via.Copy and URI.Copy return a value equal to the original, and later changes made through the copy's URIs and list nodes do not show in the original.",
  "all messages",
  "Equality over all field combinations, and aliasing over all later mutations.",
  ["sip/msg.go:Msg.Copy", "sip/addr.go:Addr.Copy", "sip/via.go:Via.Copy", "sip/uri.go:URI.Copy"])
# ---------------------------------------------------------------- SDP
p("sdp.Parse never panics",
  "For every text sdp.Parse returns a description or an error.",
  "all byte strings",
  "Parser of untrusted input; needs all inputs.",
  ["sdp/sdp.go:Parse,parseMediaInfo,populateCodecs,parseOriginLine"])
p("An SDP survives serialise-then-parse",
  "For every well-formed session description, parsing the text produced by String gives back an equal description.",
  "all well-formed SDP values, any number of codecs and attributes",
  "Unbounded codec/attribute lists.",
  ["sdp/sdp.go:SDP.Append,Parse", "sdp/media.go", "sdp/codec.go", "sdp/origin.go"])
p("Accepted descriptions are usable",
  "Every description accepted by sdp.Parse has an origin, a connection address and at least one audio or video stream with at least one codec; every codec has a name and a rate either from its rtpmap or from the standard table, and a dynamic payload type without rtpmap is an error.",
  "all byte strings accepted by sdp.Parse",
  "All accepted inputs.",
  ["sdp/sdp.go:Parse,populateCodecs", "sdp/codecs.go:StandardCodecs"])
# ---------------------------------------------------------------- RTP
p("RTP header encode/decode round trip",
  "Writing a header and reading it back yields the same payload type, mark bit, sequence number, timestamp and SSRC for all field values in range; the 12 bytes written have the RFC 3550 layout.",
  "all header field values (7, 1, 16, 32 and 32 bits)",
  "2^88 headers.",
  ["rtp/rtp.go:Header.Write,Header.Read"])
p("RTP header decode is total and strict",
  "Reading a header from any packet never panics: it fails for packets shorter than 12 bytes, for versions other than 2 and when the extension bit is set, and succeeds otherwise.",
  "all byte strings",
  "All packets.",
  ["rtp/rtp.go:Header.Read"])
p("RTP stream numbering",
  "Over any sequence of successful or failing sends of audio frames, raw payloads and DTMF digits, packet sequence numbers on the wire increase by exactly one modulo 2^16, and timestamps advance by 160 per audio frame modulo 2^32; SSRC and version never change.",
  "all sequences of Send, SendRaw, SendDTMF calls with any socket outcomes",
  "Unbounded histories including wraparound.",
  ["rtp/session.go:Send,SendRaw,SendDTMF", "rtp/rtp.go"])
p("DTMF digits are transmitted as one RFC 4733 event",
  "Sending a valid digit writes packets of which only the first has the mark bit, durations never decrease and the last three carry the end bit with the total duration, all for the event code of the digit; an invalid digit writes nothing.",
  "all digits/bytes, all prior session states, all socket outcomes",
  "All session states.",
  ["rtp/session.go:SendDTMF", "rtp/session.go:dtmfCodes"])
p("Digits are distinguishable events",
  "Two consecutive digits sent by SendDTMF form two different RFC 4733 events (their packets carry different timestamps), so pressing a key twice is not received as one press.",
  "all pairs of digits, all session states",
  "All session states.",
  ["rtp/session.go:SendDTMF"])
p("DTMF character table is a bijection",
  "CharToDtmf and DtmfToChar are inverse to each other up to letter case on the seventeen telephone events (0-9 * # A-D and hook flash), reject everything else, and agree with the codes SendDTMF puts on the wire.",
  "all characters and all event codes, jointly for three tables", "Relational claim between three independently written tables.",
  ["rtp/dtmf.go:DtmfToChar,CharToDtmf", "rtp/session.go:dtmfCodes"])
p("RTP receive filtering",
  "From any stream of packets exactly those that are well-formed 20 ms mu-law packets are delivered, in arrival order, each decoded sample by sample; all other packets are dropped without ending the session.",
  "all packet sequences",
  "Unbounded streams of arbitrary packets.",
  ["rtp/session.go:receiver", "rtp/rtp.go:Header.Read"])
p("Closing an RTP session terminates",
  "Closing an RTP session returns and stops its receive goroutine under every interleaving.",
  "all schedules of application, Close and the receive goroutine",
  "Schedules cannot be enumerated by tests.",
  ["rtp/session.go:Close,CloseAfterError,receiver"])
# ---------------------------------------------------------------- DSP
p("mu-law decode/encode identity",
  "Decoding any mu-law byte and encoding the result gives the same byte back, except that the two codes for zero share one encoding.",
  "all bytes and the whole int16 range",
  "Relational property between assembly routine and table over the whole range.",
  ["dsp/dsp_amd64.s:LinearToUlaw", "dsp/dsp_amd64.s:UlawToLinear"])
p("mu-law encoding error is bounded and monotone",
  "For every 16 bit sample the encoded-and-decoded value has the same sign, differs from the sample by at most half of the segment's step (clipping excepted), and larger samples never decode to smaller values.",
  "all pairs of int16 samples",
  "Pairs of samples; error bound for all.",
  ["dsp/dsp_amd64.s:LinearToUlaw", "dsp/dsp_amd64.s:UlawToLinear"])
p("Mixing adds with saturation",
  "Mixing two 160 sample frames stores in each destination sample the saturated sum of the two samples at the same index and changes nothing else.",
  "all pairs of 160 sample frames",
  "2^5120 inputs.",
  ["dsp/dsp_amd64.s:L16MixSat160"])
p("Noise generator stays inside its tables",
  "The Gaussian noise generator's shuffle table index is always within the table and its linear congruential states stay inside their modulus, for every number of samples drawn.",
  "all seeds and all numbers of draws",
  "Unbounded histories.",
  ["dsp/awgn.go:AWGN"])
# ---------------------------------------------------------------- dialog pieces
p("A response is matched to the request it answers",
  "A message is treated as the answer to a request only if it is a response and Call-ID, CSeq number, CSeq method, topmost Via host and port and Via branch all agree with the request; conversely a response created for a received request with NewResponse always matches it.",
  "all pairs of messages", "All pairs of messages.",
  ["dialog/messages.go:ResponseMatch,NewResponse", "sip/via.go:CompareBranch,CompareHostPort"])
p("Acknowledgements belong to their INVITE",
  "The ACK generated for a final response has the response's Call-ID, From, To and CSeq number with method ACK, is addressed to the remote Contact, and carries the reversed Record-Route as its Route; it is accepted by the matching rule for the response it acknowledges.",
  "all INVITE/response pairs", "All messages.",
  ["dialog/messages.go:NewAck,AckMatch"])
p("CANCEL repeats the INVITE's transaction",
  "A CANCEL generated for an INVITE has the same request URI, Call-ID, From, To, CSeq number, Route and topmost Via including branch; its method, in the start line and in CSeq, is CANCEL, and it carries no payload.",
  "all INVITEs", "All messages.",
  ["dialog/messages.go:NewCancel"])
p("BYE is a new in-dialog request",
  "A BYE generated after an INVITE was answered has the dialog's Call-ID and From/To including tags, a CSeq strictly greater than the INVITE's and than that of every BYE before it, the remote Contact as request URI and the reversed Record-Route as its Route.",
  "all INVITE/response pairs and all histories of sequence numbers", "Histories.",
  ["dialog/messages.go:NewBye", "dialog/dialog.go"])
p("Routing follows RFC 3261 16.12",
  "A request without Route goes to the request URI's host and port; with a loose-routing topmost Route it goes to that route's host and port and keeps Route and request URI; with a strict-routing topmost Route the request URI becomes that route, it is removed from Route and the old request URI is appended at the end.",
  "all requests and Route lists", "Unbounded Route lists.",
  ["dialog/route.go:RouteMessage"])
p("Strict-router rewriting is undone on reception",
  "A request whose URI was moved to the end of the Route list by a strict router is restored on reception to the URI and Route list the sender had.",
  "all requests and Route lists", "Unbounded Route lists.",
  ["dialog/receiver.go:fixMessagesFromStrictRouters", "dialog/route.go"])
p("Responses go back to where the request came from",
  "A response to a request received from address A and port P is sent to A and P (RFC 3261 18.2 and RFC 3581), whatever the request's Via claims.",
  "all received requests, all source addresses", "All Via parameter lists, including forged ones.",
  ["dialog/receiver.go:addReceived", "dialog/route.go:RouteMessage", "dialog/messages.go:NewResponse"])
p("Populating a message completes it",
  "After a message is populated for sending it has Via with branch, Contact, From with tag, Call-ID, CSeq with matching method, Max-Forwards and User-Agent; fields that were present are left alone; populating twice changes nothing more.",
  "all messages", "All combinations of missing and present fields.",
  ["dialog/route.go:PopulateMessage", "dialog/dialog.go:populate"])
p("SRV/DNS candidates are tried in priority order",
  "The list of addresses tried for a host contains exactly the resolved addresses, in the order of the SRV answer; an IP literal or explicit port yields exactly one candidate.",
  "all hosts and resolver answers", "All resolver answers.",
  ["dialog/route.go:RouteAddress"])
p("In-dialog requests are processed in order",
  "A request with a CSeq lower than one already processed in the dialog is refused and has no effect; the remembered remote CSeq never decreases.",
  "all sequences of incoming messages", "Histories.",
  ["dialog/dialog.go:handleRequest"])
p("Messages of other calls are refused",
  "A message whose Call-ID differs from the dialog's is never acted upon: it changes no dialog state.",
  "all messages in all dialog states", "All states and messages.",
  ["dialog/dialog.go:handleMessage"])
p("Retransmission is bounded",
  "A request is transmitted at most maxResends+1 times to one address, and over the life of the dialog the INVITE is transmitted a bounded number of times, whatever arrives in between.",
  "all event sequences", "Unbounded histories.",
  ["dialog/dialog.go:resendRequest,sendRequest,send"])
p("A dialog ends exactly once",
  "In every execution the dialog emits at most one error and at most one Hangup, never both, and nothing is sent or reported after either of them.",
  "all event sequences and socket outcomes", "Unbounded histories.",
  ["dialog/dialog.go:run"])
p("Answering is not undone by late provisional responses",
  "Once Answered has been reported, the dialog does not go back to Ringing or Proceeding.",
  "all event sequences, including reordered datagrams", "Orderings of UDP datagrams.",
  ["dialog/dialog.go:handleResponse,transition"])
p("Every final INVITE response is acknowledged",
  "Each final response to the INVITE that matches the outstanding request (including retransmissions of it) is answered with an ACK.",
  "all event sequences", "Histories with retransmissions.",
  ["dialog/dialog.go:handleResponse"])
p("Failover to the next server",
  "When a server answers 503, refuses the datagram or does not answer, the next candidate address is tried, until none is left and an error is reported.",
  "all candidate lists and event sequences", "All failure orders.",
  ["dialog/dialog.go:handleResponse,popRoute,run"])
p("A remote peer cannot crash the dialog",
  "No message sequence from the network makes the dialog goroutine panic.",
  "all sequences of parseable messages", "Adversarial sequences.",
  ["dialog/dialog.go", "dialog/receiver.go:addReceived", "dialog/messages.go"])
p("A dialog releases its sockets and channels",
  "After the dialog has ended, its sockets are closed, its receive goroutines stop and its notification channels are closed, under every interleaving.",
  "all schedules of dialog and receiver goroutines", "Schedules.",
  ["dialog/dialog.go:cleanupSock,cleanupCSock,cleanup", "dialog/receiver.go:ReceiveMessages"])
p("Delivered messages are immutable",
  "A message delivered by the receive loop is not changed by datagrams that arrive later.",
  "all datagram sequences", "Aliasing shows only for particular later packets.",
  ["dialog/receiver.go:ReceiveMessages", "sip/msg_parse.go:ParseMsg"])
# ---------------------------------------------------------------- util
p("Generated identifiers have the promised format",
  "Whatever random bytes are drawn, generated branches start with the z9hG4bK cookie, tags are twelve lower-case hex digits, and Call-IDs are RFC 4122 version 4 UUIDs in 8-4-4-4-12 form; different random draws give different identifiers, and all of them are legal tokens that survive serialisation unquoted.",
  "all outcomes of the random source", "All random outcomes.",
  ["util/util.go"])
p("Each transaction gets a fresh branch",
  "Two different requests sent through one transport carry different Via branch values (up to collisions of the random source).",
  "all sequences of sends", "Histories with shared mutable state.",
  ["dialog/transport.go:Send", "dialog/route.go:PopulateMessage"])
p("Hop limit is enforced",
  "Each transmission of a message with positive Max-Forwards decrements it by one, and a message whose Max-Forwards reaches zero is not transmitted.",
  "all messages and numbers of transmissions", "Histories.",
  ["dialog/transport.go:Send", "dialog/dialog.go:send"])
# ---------------------------------------------------------------- added as the model grew
p("ParseMsg accepts exactly the message grammar",
  "ParseMsg accepts exactly the packets of the form start line, header lines, empty line, body in which every header value has the documented form for that header, and the message returned is the one the lines denote, read in order; every other packet is an error. The cut into lines is unique.",
  "all byte strings", "Infinitely many inputs; soundness and completeness of the parser.",
  ["sip/msg_parse.rl", "sip/msg_parse.go:ParseMsg"])
p("Requests without a port go to 5060",
  "A request routed to a host without an explicit port is transmitted to port 5060 of that host.",
  "all requests and all resolver answers without SRV records", "Two independent send paths; all routing cases.",
  ["dialog/route.go:RouteAddress", "dialog/transport.go:Send"])
p("Hanging up ends the call and says so",
  "When the application hangs up before the call is answered, a CANCEL of the INVITE is sent; after it is answered, a BYE; and when the peer confirms, the dialog reports Hangup and no error.",
  "all dialog states and all responses", "All histories.",
  ["dialog/dialog.go:sendHangup,handleResponse,run"])
p("In-dialog requests are answered",
  "Each request of the call that arrives in order is answered: BYE with 200, after which the dialog reports Hangup and ends; OPTIONS with 200; INVITE with 200 and our session description, repeated until the ACK arrives, at most maxResends times, after which the call is ended with a BYE; an ACK is never answered; any other method with 405.",
  "all dialog states and all requests", "All states and messages.",
  ["dialog/dialog.go:handleRequest,sendResponse,resendResponse", "dialog/messages.go:NewResponse"])
p("The dialog places the call it was given",
  "Every INVITE a dialog transmits, first or repeated, redirected or sent to another server, is the application's: method, Call-ID, CSeq, To, From, subject and all other headers, extension headers and body are those the application set; what it left out is filled in once and stays the same. Only Via, Contact, Max-Forwards, Route and the request URI are the dialog's business. All requests of the dialog carry that one Call-ID.",
  "all dialogs, event sequences, network outcomes and random draws", "Unbounded histories with retransmission, failover and redirects.",
  ["dialog/dialog.go:sendRequest,popRoute,populate,resendRequest,handleResponse,sendHangup", "dialog/route.go:PopulateMessage,RouteMessage"])
p("A transport advertises the address it listens at",
  "The Contact of a new transport is the first address the application gave, with the port the socket really got and transport=udp; its Via names the socket's own address. Whatever was sent through the transport before, a request that brings no Via or no Contact is transmitted with exactly these.",
  "all contacts, all socket addresses, all histories of messages sent, all requests", "All histories of use: messages without a Via share the transport's own Via object.",
  ["dialog/transport.go:NewTransport,Send", "dialog/route.go:PopulateMessage"])
p("Reception changes only routing information",
  "A delivered message is the message in the datagram except: its first Via entry gains received, rport and (if switched on) a time stamp, never losing or changing a parameter that has a value; the first Route entry is removed if and only if it names the receiver; and if a strict router has put the receiver's loose-routing URI in place of the request URI, the last Route entry becomes the request URI again. No other header, and not the body, is touched.",
  "all datagrams that fit the buffer, all source and local addresses", "All messages: a frame property over every header.",
  ["dialog/receiver.go:ReceiveMessages,addReceived,addTimestamp,fixMessagesFromStrictRouters"])
p("The application is told the state of the call, and nothing else",
  "OnState reports Proceeding, Ringing or Answered at once when a 100, a 180 or 183, or the first 200 to the outstanding INVITE arrives, and Hangup when the peer's BYE or the peer's confirmation of our hanging up arrives; the state the dialog acts on is the one it reported last; no state is ever reported for another reason.",
  "all event sequences, all messages, all dialog states", "All event sequences: 'never for another reason' is about every message in every state.",
  ["dialog/dialog.go:handleResponse,handleRequest,transition,sendHangup"])
p("The application learns where to send audio",
  "The connection address and audio port of a session description that comes in a provisional response, in an answer (with a Contact) to the INVITE, or in an INVITE of the peer that is in order are reported by OnPeer before the state is reported, unless the socket fails first; OnPeer never reports anything else.",
  "all event sequences, all session descriptions with audio, all dialog states", "All event sequences and descriptions.",
  ["dialog/dialog.go:checkSDP,handleResponse,handleRequest"])
p("Refusals are reported, redirects are followed",
  "When the INVITE or the BYE is refused, the application gets the response itself as the error, after the ACK has been sent for an INVITE, and the dialog ends; the text of that error is the status and the phrase of the response. When the INVITE is redirected with 301 or 302, the same INVITE is sent to the address in the Contact, without Route, after the ACK. The application gets a response as an error for no other reason.",
  "all states, all responses", "All responses and states.",
  ["dialog/dialog.go:handleResponse,sendRequest", "sip/errors.go:ResponseError"])
p("The requests of a dialog name the socket they leave from",
  "Every datagram of a dialog is the text of its message and goes to the address the dialog's socket is connected to. A request it puts together has, on top, a Via with the local port of that socket and a branch drawn for this address, and a Contact with the port at which the dialog takes requests: that of its contact socket if it has one, else of the same socket. This holds again after failing over to another address, for which the request is given the new port and a new branch. Host names the application gave are kept.",
  "all event sequences, all answers of resolver, sockets and random source, all requests", "All executions: failing over at any point must renew what names the socket.",
  ["dialog/dialog.go:populate,connect,popRoute,sendRequest,send"])
p("A parse error names the place where the input is wrong",
  "The offset in a MsgParseError is a position in the packet, and the cause lies there: every packet with the same bytes up to that position (and the two bytes after it, which the parser looks at to recognise folded lines) is rejected at the same position, so no position inside the beginning of an acceptable packet is ever blamed. The position in an error of ParseURI has the same property among the URIs with, or without, a user part.",
  "all byte strings, all continuations", "All packets and all continuations of their beginnings.",
  ["sip/msg_parse.go:ParseMsg", "sip/msgerror.go:MsgParseError", "sip/uri_parse.go:ParseURI"])
p("The text of a parse error shows the place",
  "The text of a MsgParseError names the line (from 1) and the place in the line (from 0) of the error, and shows the whole packet, line by line, with a mark under the offending byte. The text of a MsgIncompleteError says so, shows the whole packet, and is never that of a parse error.",
  "all rejected packets", "All packets, lines of any length, errors at any byte.",
  ["sip/msgerror.go:MsgParseError.Error"])
p("Asking to hang up never blocks and is never lost",
  "An application may send on Dialog.Hangup at any time, also after the end of the dialog: the send returns, the dialog deals with every request made while it lives, and with none that was not made.",
  "all schedules of application, peer and event loop", "The order in which the application, the peer and the timers act is not under the control of a test.",
  ["dialog/dialog.go:NewDialog", "dialog/dialog.go:dialogState.run"])
p("Hanging up again is harmless",
  "A second request to hang up does not change how the dialog ends: before the answer the same CANCEL is sent again, after the answer the confirmation of the BYE is recognised and Hangup is reported.",
  "all dialog states and histories", "All states in which the second request can arrive.",
  ["dialog/dialog.go:dialogState.sendHangup", "dialog/messages.go:NewBye", "dialog/messages.go:ResponseMatch"])
p("The application hears everything the dialog reports, in order",
  "However late the application takes from OnErr, OnState and OnPeer, it gets the notifications of the event loop in the order in which they were made, none lost, repeated or invented, and its slowness does not change what the dialog does with the events it gets.",
  "all schedules of application and event loop", "All interleavings.",
  ["dialog/dialog.go:dialogState.run", "dialog/dialog.go:NewDialog"])
p("A call goes through",
  "In a network without faults, and with a peer that answers in time and names in its Contact (or whose last proxy recorded) the address to which the INVITE went, a call placed with NewDialog goes through: the peer can read the INVITE; each provisional answer it writes is received, recognised and reported, with the address for its audio; its 200 is received and reported as Answered, after an ACK the peer can read; when the application hangs up, a BYE goes to the peer's Contact with the Call-ID, the From with its tag, the peer's To and the next CSeq; and when the peer confirms it, Hangup is reported and nothing more is sent or reported.",
  "all INVITEs an application may give, all local IPv4 addresses (port not 5060), names, SRV records and random draws, all lists of provisional answers and all contents of the answers", "It needs every layer at once, serialiser, parser, routing, receiver, event loop, for all messages and worlds.",
  ["dialog/dialog.go:NewDialog", "dialog/dialog.go:dialogState.run", "dialog/receiver.go:ReceiveMessages", "sip/msg.go:Msg.Append", "sip/msg_parse.rl:ParseMsg", "dialog/messages.go:ResponseMatch"])
p("Writing a message leaves it as it is",
  "Serialising a message changes nothing in it, except that a response without a reason phrase gets the phrase of its status, the one written; serialising it again writes the same bytes and changes nothing more.",
  "all messages, all random draws", "An accidental write to any of forty fields, in any combination, is to be excluded; tests compare texts of a few messages.",
  ["sip/msg.go:Msg.Append", "sdp/origin.go:Origin.Append", "sip/status.go:Phrase"])
p("Two transports talk",
  "Let two transports be made at different addresses, and used in any way before. If the network resolves names, accepts datagrams and does not lose or alter them, then a request without Via and Route that an application sends through the first, in which every field it gave can be written, is sent once, to the address of its request URI, with everything the application gave; a receiver at the destination delivers it with the method, URI, Call-ID, CSeq, addresses, extension headers, body and Max-Forwards sent (but 70 where that is 0, see the hop limit); a response made for it there, with any status, To tag, Contact, Record-Route and body, and sent through the second transport, goes once to the source address of the request; and a receiver there delivers it with that status, Contact, Record-Route and body, the request's Call-ID, CSeq and From, and it is recognised as the response to the request sent. Covered are first transports at ports other than 5060 and draws of a CSeq number other than 0.",
  "all transports and their histories, all requests and responses within the grammar, all source addresses, random draws and receive buffers", "The transports, serialiser, parser, receiver, routing and matching work together over two machines, for every message; a test tries a few.",
  ["dialog/transport.go:Transport.Send", "dialog/transport.go:NewTransport", "dialog/receiver.go:ReceiveMessages", "dialog/messages.go:NewResponse", "dialog/messages.go:ResponseMatch", "dialog/route.go:RouteMessage", "sip/msg.go:Msg.Append", "sip/msg_parse.rl:ParseMsg"])
p("The sound of one session is the sound of the other",
  "Let an application use a session with a peer in any way: frames of 160 samples with Send, digits with SendDTMF, raw payloads with SendRaw, any of them failing at the socket. A second session reading what left the socket, in order, gives its application exactly one frame for each Send, and for each SendRaw of one G.711 frame, that returned nil, in the order of the calls, and nothing for digits and other payloads; every sample of a frame is at most half a G.711 quantisation step from the sample sent and on the same side of zero, or the loudest value of its sign if it was beyond the G.711 range. If the network loses datagrams, the frames of the remaining calls arrive in order; if it also reorders or repeats them or mixes in datagrams that are not G.711 frames, every frame given is still that of a call that returned nil. A frame received and sent on is unchanged.",
  "all histories of calls, all samples, all socket outcomes, all losses, orders and additions on the way, all earlier contents of the receive buffer", "Companding, packetising, numbering and the receive loop must agree for every history and every loss pattern; a test plays a few frames.",
  ["rtp/session.go:Send", "rtp/session.go:SendRaw", "rtp/session.go:SendDTMF", "rtp/session.go:receiver", "rtp/rtp.go:Header.Write", "rtp/rtp.go:Header.Read", "dsp/dsp_amd64.s:LinearToUlaw", "dsp/dsp_amd64.s:UlawToLinear"])
p("How the telephone ends",
  "The telephone program runs until its dialog reports that the call is over: it ends with status 0, the terminal restored, if and only if the call was answered and then hung up, with status 1 if the call was hung up before it was answered or the dialog reported an error. By then it has heard everything the dialog reported. When the dialog has ended, the program ends after hearing what is left to be heard, and never crashes.",
  "all executions: all interleavings of the main loop with the dialog, the RTP receive loop and the user's interrupts, all responses, all socket outcomes", "The main loop selects among eight channels; which one is ready depends on the schedule.",
  ["fone/main.go:main", "dialog/dialog.go:NewDialog", "rtp/session.go:Close", "rtp/session.go:CloseAfterError"])
p("The telephone does not hang",
  "The main loop of the telephone program always comes back: a frame taken from the RTP session can be given back, closing the RTP session returns, and the request to hang up, at each interrupt, does not block.",
  "all executions of the telephone program", "A deadlock needs a particular interleaving of the program, the dialog and the RTP receive loop.",
  ["fone/main.go:main", "dialog/dialog.go:Dialog.Hangup", "rtp/session.go:Close", "rtp/session.go:CloseAfterError"])
p("A telephone call goes through",
  "Start the telephone program with a SIP URI it can parse, a public address and a network without faults. The INVITE it makes is one the peer can read whatever the user's name and the RTP port are. If the callee, whose requests go to the address of the INVITE, reports progress, answers with 200 and confirms the BYE, and the user interrupts the program, there is an execution in which the program is told of exactly that progress, sends its sound to the media address the callee announced last, reads the keyboard once, acknowledges the answer, hangs up with a BYE, and ends with status 0.",
  "all request URIs, user names, addresses and ports, all progress and answers of the callee", "It composes the program with parser, serialiser, dialog and transport; a test makes one call.",
  ["fone/main.go:main", "dialog/dialog.go:NewDialog", "sip/msg_parse.rl:ParseMsg", "sip/msg.go:Append", "sdp/sdp.go:Append", "util/util.go:GenerateOriginID"])
p("What sdp.Parse accepts and what it returns",
  "sdp.Parse accepts exactly the texts that start with v=0, have a well-formed first c= line, at least one o= line and only well-formed ones, and a usable m=audio or m=video line whose every payload type has a readable first rtpmap or is one of RFC 3551's; it returns exactly what the lines say: the address of the first c= line, the last o= line, the last audio and the last video line with their codecs in the order given, session name, time, packet time, direction, and all other attributes and lines in their order. Every other text is refused with an error.",
  "all texts", "The set of texts is infinite; a test shows one accepted or refused text at a time.",
  ["sdp/sdp.go:Parse", "sdp/sdp.go:parseMediaInfo", "sdp/sdp.go:populateCodecs", "sdp/sdp.go:parseOriginLine", "sdp/sdp.go:parseConnLine", "sdp/codecs.go:StandardCodecs"])
p("The port of an RTP session",
  "rtp.Listen, and so rtp.NewSession, tries even ports from 16384 to 32768 of the host it is given, every one of which may be drawn, until one can be bound, an error other than a taken port occurs or ten ports were taken; it returns the outcome of the last attempt, so it opens at most one socket and none when it fails. The host may be a name, an IPv4 or an IPv6 address; an address with a port is used as it is.",
  "all hosts, all random draws, all behaviours of the operating system", "Which ports are drawn and which are taken is outside a test's control.",
  ["rtp/session.go:Listen", "rtp/session.go:NewSession"])
p("The peer's requests are answered, and the peer recognises the answers",
  "Over a network without faults a dialog with a socket answers every request (other than ACK) that reaches it with one response, sent over its socket: 481 to a strange Call-ID, 500 to a CSeq number lower than the highest seen, 200 to BYE, OPTIONS and INVITE, 405 to the rest. The requester, reading that response whenever and from wherever it comes, finds that it matches its request, with the same Call-ID, CSeq, From and To. BYE ends the dialog with Hangup reported; an INVITE's media address is reported before the answer; the others leave the dialog running. The request is any that can be written, has one Via with a branch and a port other than 5060, and no Route; a session description has audio and an address.",
  "all states of a dialog, all requests, all sources and times of arrival, all random draws", "The answer must be recognised for every request and in every state; a test has one of each.",
  ["dialog/dialog.go:handleMessage", "dialog/dialog.go:handleRequest", "dialog/dialog.go:sendResponse", "dialog/messages.go:NewResponse", "dialog/messages.go:ResponseMatch", "dialog/receiver.go:ReceiveMessages", "sip/msg.go:Append", "sip/msg_parse.rl:ParseMsg"])
p("How a call that is not hung up by its caller ends",
  "Over a network without faults, whatever provisional answers come first: (1) when the callee refuses with an answer that has a Contact and is not 301, 302 or 503, the dialog sends an ACK the callee can read, reports that answer as its error and ends; (2) when the caller hangs up before the answer, the dialog sends a CANCEL the callee can read and match with the INVITE, takes no notice of the answer to the CANCEL, and ends as in (1) when the INVITE is refused; (3) when the callee hangs up after the answer, its BYE is delivered, is answered with a 200 it recognises, Hangup is reported and the dialog ends. Nothing else is sent or reported.",
  "all INVITEs, all sequences of provisional answers, all refusals, all BYEs, all random draws", "Each end depends on the whole exchange over the wire; a test plays one exchange.",
  ["dialog/dialog.go:run", "dialog/dialog.go:handleResponse", "dialog/dialog.go:handleRequest", "dialog/dialog.go:sendHangup", "dialog/messages.go:NewAck", "dialog/messages.go:NewCancel", "dialog/messages.go:NewResponse"])
p("How the telephone ends when the callee refuses, its user gives up or the callee hangs up",
  "The telephone of fone/main.go, on a network without faults, can always run so that: refused, it ends with status 1 having reported the refusal; interrupted before the answer, it cancels the call and ends with status 1 when the INVITE is refused; when the callee hangs up after the answer it ends with status 0 and the callee recognises the answer to its BYE. The exchange is the one of the property before.",
  "all destinations, public hosts, ports, users, sequences of provisional answers, refusals and BYEs", "The whole program, its dialog and the wire take part; a test would need a scripted callee for every case.",
  ["fone/main.go:main", "dialog/dialog.go:run"])
p("The noise generator always returns a sample, and the sample is a number",
  "For every int64 seed, every volume and every number of earlier calls, a call of Get on a noise generator made by NewAWGN, NewAWGN_DBM0 or NewAWGN_DBOV returns: the rejection loop runs its body at most 259200 times. For every seed of absolute value at most 2^63-1-54773 and every volume between -1000 and 1000 dBm0 the pair the loop accepts has 0 < r < 1, the value computed from it is a finite float64 (never NaN or infinite), and the sample is that value truncated towards zero and clipped to the int16 range.",
  "all seeds, all volumes, all numbers of calls, all implementations of log and pow that keep within generous bounds",
  "The rejection loop has no bound in the code and log(0)/0 would be NaN; whether they occur depends on a state space of more than 10^15 points and on every rounding.",
  ["dsp/awgn.go:NewAWGN", "dsp/awgn.go:Get", "dsp/awgn.go:ran1"])
p("The callee reads the INVITE the application asked for",
  "Over a network without faults the first thing a dialog sends is one datagram, and a callee that reads it with the same library finds the application's message: method, request URI, To, From, Call-ID, CSeq, extension headers and session description are the application's where it gave them; where it gave none, To is the address called, From is the Contact, and From has a tag. Contact and Via name the host given (or the local one) with the port on which the dialog listens; the Via has a branch; Max-Forwards is one less than given (69 by default); a session description without addresses gets the local one. For the telephone of fone/main.go: From is the user at the public host, To and the request URI are the destination given, and the session description announces the public host, the RTP port, PCMU and telephone-event.",
  "all INVITEs that can be written, all configurations and random draws, all continuations of the call", "The fields pass through four functions that fill them in, the serialiser and the parser; a test checks one message.",
  ["dialog/dialog.go:NewDialog", "dialog/dialog.go:populate", "dialog/route.go:PopulateMessage", "sip/msg.go:Append", "sip/msg_parse.rl:ParseMsg", "fone/main.go:main"])
p("A call survives lost datagrams",
  "Let the timer of the dialog fire before any reply to the INVITE arrives, as often as the configured maximum of retransmissions allows, and likewise for the BYE: each time the request goes out again with the same Call-ID, CSeq, branch, addresses and payload and one hop less, and whichever copy the callee answers, its replies are recognised. When the answer comes again because its ACK was lost, the ACK is sent again, the media address is told again, and the application is not told a second time that the call was answered. An answer that comes after the application has hung up is passed over. If the BYE goes to the address to which the INVITE went, the call still ends as hung up, and the application hears Answered and Hangup exactly once.",
  "all numbers of losses up to the configured maximum (and Max-Forwards), all INVITEs, all choices of the copy answered, all provisional replies, all numbers of repeated answers", "The number of losses and the copies answered combine without bound, over the timer, the parser, the matching of replies and the state of the call.",
  ["dialog/dialog.go:resendRequest", "dialog/dialog.go:handleResponse", "dialog/dialog.go:send", "dialog/dialog.go:sendHangup", "dialog/messages.go:ResponseMatch", "dialog/transport.go:Send"])
p("A call reaches its callee over dead servers and redirects",
  "The INVITE is sent to the first address of its next hop. A server which says nothing is given up after the configured number of retransmissions, and the INVITE goes to the next address, in the order of the lookup; a server which answers 301 or 302 with a Contact, perhaps after provisional replies, gets an ACK it can read, and the INVITE goes to the URI of the Contact, without Route, at the first address of that host; and so on through any number of such servers, as long as addresses and hops remain. Every INVITE belongs to the same call (Call-ID, CSeq, From with its tag, To) and carries the same payload and headers. The callee who answers gets an ACK and, when the application hangs up, a BYE with the next CSeq and the same tags; the application hears the progress each server reported, then Answered and Hangup once each, and no error.",
  "all sequences of silent servers and redirects, all INVITEs, all provisional replies, all DNS contents in which names resolve, all maxima of retransmissions", "The sequences are unbounded, and each combines the lookup, the timers, the sockets, the parser, the matching of replies and the in-place changes of the request.",
  ["dialog/dialog.go:popRoute", "dialog/dialog.go:sendRequest", "dialog/dialog.go:resendRequest", "dialog/dialog.go:handleResponse", "dialog/dialog.go:connect", "dialog/route.go:RouteAddress", "dialog/route.go:PopulateMessage"])
p("A call can be made over two transports with the message constructors",
  "Let the caller hold a transport made at a port other than 5060 and the callee a transport made at another address; both may have been used for other messages. The INVITE made by NewRequest, with a payload set by the caller, is sent by Send to the host and port of the To URI, and the callee's ReceiveMessages delivers it with that Call-ID, CSeq number, request URI and payload. Every answer the callee makes with NewResponse, adds to and sends goes to the address the INVITE came from, is delivered to the caller and satisfies ResponseMatch with the INVITE. If the answer has a Contact and no Record-Route, NewAck and NewBye give an ACK and a BYE that Send sends to the host and port of that Contact; the callee gets them with the Contact's URI as request URI, the Call-ID, From and To (with the tags) of the dialog; the ACK satisfies AckMatch with the INVITE the callee got, the BYE has the next CSeq number, and the answer to the BYE comes back and satisfies ResponseMatch with it. None of these calls panics.",
  "all addresses, payloads, random bytes, times, sources and local addresses, all answers that can be written, all uses of both transports before and between, on a network that resolves names and delivers the datagrams",
  "the chain passes through writing, parsing, Via annotation and routing at both ends for arbitrary header contents; a test runs one call",
  ["dialog/messages.go:NewRequest", "dialog/messages.go:NewAck", "dialog/messages.go:NewBye", "dialog/messages.go:AckMatch", "dialog/messages.go:ResponseMatch", "dialog/transport.go:Send", "dialog/receiver.go:ReceiveMessages"])
p("The example caller succeeds exactly when it should",
  "The program of example/echo2, started with a transport as in C93, invites the callee with its session description. If the callee answers 200 with a Contact, perhaps after provisional answers, the program acknowledges the answer, takes the callee's audio address, sends a BYE when its time is over, and ends with success when the 200 to the BYE arrives; the callee gets the ACK and the BYE in the dialog. Whatever happens, if it ends in good order then a 200 to a BYE or a CANCEL has arrived, and it counts the call as answered exactly if a 200 to an INVITE arrived before. While nothing is heard it sends its request (the INVITE, then the BYE of an answered or the CANCEL of an unanswered call) again, the same but for the hops left, twice, and then gives up. It does not crash, whatever the callee sends: in particular it survives a callee who hangs up or declines. Once the call is answered the INVITE is not sent again and the call is not given up.",
  "all callees, addresses, session descriptions, random bytes; all interleavings of messages, audio and timers", "the loop takes messages and timers in any order without bound, and the objects of the INVITE are shared with later messages and with the transport",
  ["example/echo2/echo2_test.go:TestCallToEchoApp", "dialog/messages.go:NewAck", "dialog/messages.go:NewBye", "dialog/messages.go:NewCancel", "dialog/messages.go:NewResponse", "dialog/transport.go:Send"])
p("The two pings get their answer",
  "The programs of example/options and example/rawsip send an OPTIONS request to a server. A server made with the library, at another address, receives it with the fields the program wrote: method, Request-URI, Call-ID, CSeq, tags and addresses; the protocol named in its Via is SIP, and the Request-URI is the server. If the server answers 200 with NewResponse and Transport.Send, the answer goes to where the request came from and the program ends with success. It ends with success only if it has got a 200 to its own request, and it does not crash whatever it gets.",
  "all addresses, random bytes, servers, answers and datagrams", "the answer goes through the parser, the dialog library and the printer, with whatever the server adds to it",
  ["example/options/options_test.go:TestOptions", "example/rawsip/rawsip_test.go:TestRawSIPOptions", "sip/msg.go:Append", "dialog/messages.go:NewResponse", "dialog/transport.go:Send"])
p("The caller that keeps its own dialog is understood and understands",
  "The program of example/echo invites a server made with the library. The server gets the INVITE with the session description; if it answers 100 and then 200 with a session description, the program sends an ACK that matches the INVITE and, once it has heard its own audio, a BYE with the next CSeq; both reach the server with the Call-ID, From and To of the call. With a 200 to the BYE it ends with success. A peer that returns every packet it gets to the sender satisfies it. It ends with success only after these answers to its own requests and its own audio, and does not crash whatever it gets.",
  "all addresses, random bytes, servers, answers, audio packets and datagrams", "five datagrams in two directions go through the parser and the printer, and the ACK and the BYE are built from what the server put into its answer",
  ["example/echo/echo_test.go:TestCallToEchoApp", "rtp/rtp.go:Write", "rtp/rtp.go:Read", "sip/msg.go:Append", "dialog/messages.go:NewResponse", "dialog/messages.go:AckMatch"])
p("The test call of the example that uses dialog and RTP session",
  "The test of example/echo3 calls sip:echo@127.0.0.1:5060 from the local address with the port of its RTP session. It passes if and only if the call was answered and then hung up with no error reported and the sound made no trouble; by then it has heard everything the dialog reported. It hangs up only when its timer fires or the RTP socket fails, ends as soon as it has heard the end of the dialog, and neither crashes nor blocks for ever, whatever its sockets do. With a server at that address that answers and confirms the BYE it can pass.",
  "all schedules of the test, the dialog and the receive goroutine, all replies, socket failures and local addresses", "the verdict depends on which ready case the select takes and on three goroutines waiting for each other",
  ["example/echo3/echo3_test.go:TestCallToEchoApp", "dialog/dialog.go:NewDialog", "rtp/session.go:Close", "rtp/session.go:CloseAfterError", "rtp/session.go:Send"])
p("A dialog goes over to another address",
  "When a request of the dialog has to go to another address than the one it is connected to (the next candidate after a silent server, the target of a redirect, a BYE to a Contact or proxy elsewhere), the dialog sends it there and goes on; the goroutine that read the old socket ends. As long as all requests go to one address, nothing the goroutines do keeps it from anything it would do otherwise; and whatever they do, it sends and reports nothing else, in no other order.",
  "all INVITEs, networks, event sequences and schedules of the dialog and the goroutines that read its sockets", "whether the dialog gets past the closing of a socket depends on what the reading goroutine has in hand at that moment",
  ["dialog/dialog.go:connect", "dialog/dialog.go:cleanupSock", "dialog/dialog.go:popRoute", "dialog/dialog.go:run", "dialog/receiver.go:ReceiveMessages"])
p("The clock of a dialog",
  "A dialog repeats a request, or its answer to a re-INVITE, resendInterval milliseconds after it began to send it the time before and no sooner, so within any time no more often than intervals fit into it, whatever arrives in between. If the next hop has one address and nothing is heard from it, the INVITE is sent maxResends + 1 times in all, at intervals, and then the dialog reports that the destination cannot be contacted and ends, maxResends + 1 intervals after it began; likewise for the BYE after the application has hung up. If the peer falls silent after a provisional reply, the dialog ends too, at the latest some time after the application has hung up. If the peer sends another INVITE within the call and does not acknowledge the answer, the answer is sent maxResends + 1 times in all, at intervals, and then the call is ended with a BYE.",
  "all schedules, all times at which messages arrive and turns are taken, all settings of resendInterval and maxResends, all INVITEs and replies", "a test sees one setting and one schedule; the rates hold for all interleavings, and waiting for ever cannot be observed in finite time",
  ["dialog/dialog.go:resendRequest", "dialog/dialog.go:resendResponse", "dialog/dialog.go:popRoute", "dialog/dialog.go:sendHangup", "dialog/dialog.go:run", "dialog/util.go:duration"])
p("A message that does not fit is not misread",
  "Whatever a datagram holds, if the receiver reads only its beginning because it is longer than the buffer of 2048 bytes, it delivers what the whole datagram says or nothing; it delivers nothing if the message has a body. A message with a body is likewise refused if anything is added at its end. And the library does not send datagrams that get lost this way: none is longer than the documented limit of 1450 bytes (MTU), and Send does not report success for a message that its receivers drop.",
  "all datagrams, buffer sizes, messages and networks", "every message and every place where it may be cut",
  ["dialog/receiver.go:ReceiveMessages", "sip/msg_parse.rl:ParseMsg", "dialog/transport.go:Send", "dialog/prefs.go:MTU"])
p("The session description New makes says what was asked",
  "The text of a session description made with New for an address and a list of codecs consists of the lines of RFC 4566 in order: version, origin with the address and one number twice, a session name, connection with the address (IP6 if it has a colon, IP4 if not), time 0 0, one m=audio line with the port and the payload types in the order given, for each codec its a=rtpmap line and, if it has a format, its a=fmtp line, and a=sendrecv. Parsing the text gives the same address, port and codecs, if there is at least one codec, the codecs can be written and no payload type stands for two. The codecs that the package names are those of RFC 3551 (PCMU), RFC 4733 (telephone-event, 0-16) and RFC 7587 (opus).",
  "all addresses, ports, codec lists and random numbers", "every address, port and list of codecs",
  ["sdp/sdp.go:New", "sdp/sdp.go:Append", "sdp/media.go:Append", "sdp/codec.go:Append", "sdp/origin.go:Append", "sdp/codecs.go:ULAWCodec", "sdp/codecs.go:DTMFCodec", "sdp/codecs.go:Opus"])
p("The telephone calls whom it was told, from an address",
  "The telephone dials exactly if it is given one argument that is a URI, its two sound streams open, it has an address and an RTP session is made; the INVITE is to that URI, offers that session, and is one that C83 and C90 speak of. Without such an argument it exits with status 1 and does nothing else. It asks the web server for its address exactly if it is not told one. Whatever the web server answers, the INVITE it sends can be read by the callee and contains no line that the program did not write.",
  "all arguments, flags, devices, answers of the web server, users and random numbers", "every command line and every answer",
  ["fone/main.go:main", "fone/main.go:getPublicIP", "sip/uri.go:Append", "sip/via.go:Append"])
p("A trace shows the datagrams as they were",
  "The entry that -trace logs for a datagram gives its direction, its address and exactly its bytes to a reader that counts, whatever the bytes are: a datagram cannot pass for two, or for another one, so two different sequences of datagrams have different traces.",
  "all sequences of datagrams of any bytes and length, addresses and times", "every datagram, also one that contains entries of a trace",
  ["dialog/trace.go:trace", "dialog/receiver.go:ReceiveMessages", "dialog/dialog.go:send", "dialog/transport.go:Send"])
p("What the telephone says and plays",
  "The telephone sends, as one RTP stream to the peer the dialog named last, exactly the frames its microphone gives (noise when it is muted, whatever the microphone hears) and the keys that are pressed, in order, from the moment a peer is known until the RTP socket fails; it plays, in order, exactly the frames of sound that arrive from that peer; and when two telephones talk, what one plays are frames the other's microphone gave, in order, each sample close to the original, whatever the network loses.",
  "all runs of the loop: every order of ticks, keys, datagrams of any bytes, changes of peer and failures, every answer of the operating system", "every interleaving and every arriving datagram",
  ["fone/main.go:main", "rtp/session.go:Send", "rtp/session.go:SendDTMF", "rtp/session.go:receiver"])
p("A message passed on keeps its meaning","For every packet that ParseMsg accepts, the text that Append writes for the message is accepted by ParseMsg again, and the message read from it is the same: start line, addresses, Vias, Call-ID, CSeq, the numbers, the text headers, the extension headers and the payload.","All packets ParseMsg accepts: any start line, any headers in any order and spelling, folded and quoted text, any payload.","What a gateway passes on is chosen by whoever sent the packet. Tests pass on the packets their author wrote.",["sip/msg.go: Append","sip/msg_parse.rl: ParseMsg","sip/addr.go: Append","sip/via.go: Append","sip/quote.go: appendQuoted"])
p("A frame belongs to the application until it gives it back","The frames an application receives from an RTP session contain the sound of the G.711 packets that arrived, in order, each exactly once. What is in a frame it received stays there, whatever arrives in the meantime, until it gives the frame back or writes to it itself; it may keep a frame and give back another one, of its own or received before. The session never writes to a frame the application has, and the two never have the same frame. It hands out one frame at a time: until the application gives one back it reads nothing from the socket; then it goes on. It does not crash, if what is given back is a frame and not nil.","all sequences of datagrams, all interleavings of the session's goroutine with an application that receives, makes, keeps, writes to and gives back frames","The sharing of memory between two goroutines depends on the schedule and on the whole history of which frames were kept.",["rtp/session.go:Session.C","rtp/session.go:Session.R","rtp/session.go:receiver","example/echo2/echo2_test.go","fone/main.go"])
p("A request can be answered any number of times","An application that keeps a request it received can make any number of answers from it and send them through its transport. Each is sent once, to the address the request came from, is received by the transport that sent the request and belongs to that request, with the status, the Contact, the Record-Route and the payload the application gave it. A tag the application adds to To in the first answer is in all of them. Sending answers leaves the request as it was received, and no answer contains what was added to another.","all requests and sites as in C79, all sequences of answers of any length, all times of sending","The answers share objects with the request, so what one of them is depends on all that were sent before it.",["dialog/messages.go:NewResponse","dialog/transport.go:Transport.Send","dialog/receiver.go:addTimestamp","sip/addr.go:Tag"])
p("A transport does not wear out","However many messages were sent through a transport, and whatever came of them, sending a message that was not sent before does what it would do through a transport just made for the same Contact and address: the same datagrams to the same addresses, the same message left with the caller and the same result, except that requests without Via all get the branch that was drawn for the first of them. With time stamps switched on that holds as well, except for the stamp of the message itself.","all Contacts and addresses, all sequences of messages and worlds (random draws, name resolution, write errors), all further messages and worlds","a test that sends a few messages does not see what grows with every message, and nothing in the API shows the state a transport keeps between two calls of Send",["dialog/transport.go: NewTransport, Transport.Send","dialog/receiver.go: addTimestamp","dialog/route.go: PopulateMessage"])
p("Several goroutines can send through one transport","When several goroutines send messages through one transport at the same time, in whatever order the scheduler lets them go on, each call of Send ends, without waiting for another, and does what it would do alone: the same datagram to the same address, with one branch in its Via, which the message keeps for when it is sent again.","all numbers of goroutines, all messages and worlds, all interleavings of the accesses to what they share","a test sees a few of the interleavings, and the order in which goroutines reach the transport is not under its control",["dialog/transport.go: Transport, Transport.Send","dialog/route.go: PopulateMessage","dialog/receiver.go: addTimestamp"])
p("A transport delivers what arrives, once and in order, and says when it ends","The application receives from the channel C of a transport the messages in the datagrams that reach its socket, each once and in the order of their arrival, and nothing else; datagrams that are not messages are passed over and no datagram ends the program. When the socket fails or the application closes it, the application receives one error from E, no message after it, and then both channels are closed and the goroutine of the transport ends, whichever of the channels the application reads.","all sequences of datagrams with any contents, and all orders in which the network, the goroutine and the application act, with the socket failing or being closed at any point","a test fixes the datagrams and cannot choose the moment at which the socket fails between reading, offering a message and reporting an error",["dialog/receiver.go: ReceiveMessages","dialog/transport.go: NewTransport, Transport"])
p("A response says what its status means","A response whose phrase the application left empty is written with the reason phrase that the RFCs give to its status, after the version and the status; a status they do not define is written as unknown, and a phrase the application put in is written as it is.","all responses with any positive status, any version and any other fields","there are many statuses and the other fields of the message must not matter; a test that repeats the phrases of the code repeats their errors",["sip/status.go: Phrase","sip/msg.go: Msg.Append"])
p("Several goroutines can send through one RTP session","When several goroutines call Send of one RTP session at the same time, every call returns without waiting for another, and each frame leaves once, whole, in a datagram with the type and source of the session and with a sequence number and a time of its own; a digit sent in the meantime leaves as one event.","any number of goroutines, all frames, all interleavings of the accesses to the header and the buffer of the session","the interleavings are as many as the scheduler can make; a test sees a few of them and the one it would need may never occur",["rtp/session.go: Session.Send, Session.SendDTMF","rtp/rtp.go: Header.Write"])
# What is said about messages that arrive holds for those that fit the buffer they are read into.
for e in P:
    if e["id"] in ("C77", "C79", "C83", "C86", "C87", "C88", "C91", "C92", "C93", "C94", "C95", "C96", "C97"):
        e["statement"] += " Datagrams longer than the 2048 bytes that receivers read are excluded; C100 is about them."
if __name__ == "__main__":
    with open("/verif/properties.jsonl", "w") as f:
        for e in P: f.write(json.dumps(e) + "\n")
    print(len(P))
