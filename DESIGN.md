# Formal model of jart/gosip in Rocq (Coq 8.16.1)

## 1. Shape of the development

All sources are in `rocq/theories`. Model files (`*Model.v`, `*Table.v`,
`Sip*.v`, `DialogMsg.v`, `CopyHeap.v`, `Auto.v`, `Asm.v`, `GoLib.v`) contain
definitions only; each definition cites the Go, assembly or Ragel lines it
models, and says where it simplifies. `*Spec.v`, `*Wf.v` and the beginnings of
the `P_*.v` files are the independent specifications. `P_*.v` hold the property
theorems named in MANIFEST.json and, beside them, concrete cases that meet their
hypotheses. Everything else is lemmas.

Conventions shared by all models:

* A Go `string` or `[]byte` is a `list byte` (`Coq.Init.Byte.byte`, 256
  constructors), so "every byte string" is literally the type.
* Go integers are `Z` with an explicit wrap (`u8`, `u16`, `u32`, `i64`, ...)
  wherever the code can wrap. `int` is 64 bits (amd64).
* `nil` is `None` (or `[]` for the singly linked lists `Param`, `Addr`, `Via`,
  `XHeader`, `URIParam`, `URIHeader`; the head of the Coq list is the node the
  Go pointer points to). Where sharing matters there is a heap (`CopyHeap.v`)
  or an explicit shared object (`TransportModel.v`).
* A Go panic is a distinct outcome (`Panic`, `Crash`), never a default value.
* Socket, DNS, clock and random results are inputs (oracles), universally
  quantified in the theorems.
* Goroutines and channels are small-step transition relations
  (`RtpCloseModel.v`, `CleanupModel.v`, `AppModel.v`, `LiveModel.v`).

Status words in MANIFEST.json: "proved" means that the English statement holds
in full of the model. "partial" means that the code violates part of the
statement: the theorem that is true carries the suffix `_partial` or states its
exact range, and a theorem with the suffix `_refuted` proves the violation. No
property is partial merely because a proof is missing.

## 2. What is modelled, file by file

| /repo | model | remarks |
|-------|-------|---------|
| sip/charsets.go, escape.go, quote.go, util.go | SipText.v | masks as predicates on bytes |
| sip/addr.go, via.go, uri.go, param.go, uriparam.go, uriheader.go, xheader.go, payload.go, msg.go, status.go | SipTypes.v, SipAppend.v | every Append/String, Get, Compare, Last, Reverse, Copy |
| Copy methods again | CopyHeap.v | on a heap of cells, for aliasing |
| sip/uri_parse.go (generated from uri_parse.rl) | UriTable.v, UriModel.v | 59 states, transcribed by tools/ragel2coq.py; actions by hand |
| sip/msg_parse.go (generated from msg_parse.rl, sip.rl) | MsgTable.v, MsgModel.v | 782 states, transcribed by tools/ragel2coq.py; actions by hand |
| sip/msgerror.go, errors.go | MsgErrorModel.v | texts of errors |
| sdp/*.go | SdpModel.v | Parse, Append, codecs; error texts are an enumeration, logging left out |
| rtp/rtp.go, dtmf.go, session.go | RtpModel.v (data path), RtpCloseModel.v (goroutines), FrameModel.v (frames shared by the two goroutines), ListenModel.v (opening the socket), RtpSendersModel.v (several goroutines in Send) | |
| dsp/dsp_amd64.s | Asm.v, DspModel.v | instruction by instruction on a small amd64 machine |
| dsp/awgn.go | AwgnModel.v (integers), AwgnFloat.v (all of it) | math.Log and math.Pow are parameters |
| dialog/messages.go, route.go, util.go, receiver.go (message part) | DialogMsg.v | |
| dialog/transport.go, receiver.go (loop) | TransportModel.v, AnswerModel.v, SendersModel.v (several goroutines in Send), ReaderModel.v (the receiving goroutine and its channels) | shared Via object, shared receive buffer; objects shared by a request and its answers; accesses to the shared Via are atomic and in one order |
| dialog/dialog.go | DialogModel.v (what one turn of the loop does), CleanupModel.v (goroutines, sockets), LiveModel.v (the loop together with the goroutines that read), TimedModel.v (the loop with the clock), AppModel.v (channels to the application) | |
| fone/main.go:61-241, getPublicIP | FoneOpenModel.v (up to the INVITE), FoneModel.v (the INVITE and the select loop, with the dialog and the RTP session as goroutines), FoneSoundModel.v (what the loop does with sound and keys) | devices, flags and the HTTP answer are inputs |
| example/echo2/echo2_test.go | EchoModel.v | the INVITE and the select loop; audio only as the peer's address |
| example/echo3/echo3_test.go | Echo3Model.v | the INVITE and the select loop, with the dialog and the RTP session as goroutines; the noise only as sent or not sent |
| example/options, example/rawsip, example/echo | ExamplesModel.v | from the first message to the verdict; the sockets are arguments; the goroutine of echo only as the bytes it sends |
| dialog/trace.go | TraceModel.v | the text given to the logger |
| util/util.go | UtilModel.v | random source is an argument |
| strconv, strings, net.JoinHostPort/SplitHostPort, hex | GoLib.v | re-specified as total functions |

Not modelled: the inside of the sound devices and the terminal of `fone/main.go`,
all other logging (printing only), `dialog/prefs.go` and
`sip/method.go` (constants; those that matter are inlined or parameters),
time (timers are armed or not; a timer that is armed may fire at any moment;
only TimedModel.v says when),
memory exhaustion, data races, and Go's standard library and runtime except for
the pieces listed. The contents of `log` lines and of most `error` values are
not modelled; errors are an enumeration (DialogModel.derr, SdpModel errors)
except those of C73. The Go compiler and the amd64 hardware are assumed to
implement the source; in particular the compiler fuses no floating-point
multiplication with an addition (it does not on amd64).

## 3. Method per property

| id | where | how it is proved |
|----|-------|------------------|
| C01, C02, C04, C58 | P_Text | induction on the string; class facts by a finite check over the 256 bytes; the specification is a separate decoder, resp. an acceptor of quoted strings |
| C03, C16 | MsgWf, MsgRound, P_MsgRound, P_Written | written text of a well-formed message is a message text of MsgSpec (induction on lists), then C61; refuted corners by computation |
| C05-C09 | UriGrammar, UriSpec, UriMeaning, P_Uri, P_UriAmp | the automaton is compared with a regular expression with actions by a verified checker (AutoRe.v, derivative-style, run by vm_compute once); the expressions are related to a relational specification of URI texts by induction; round trip and stability are corollaries; the URIs that survive are delimited by counting & in what is written and in what is read (P_UriAmp) |
| C10-C12, C18 | P_Lists | case analysis, list induction |
| C13-C15, C22 | MsgSafe, P_Msg, P_Forward | an abstract invariant per automaton state, checked row by row by a verified checker; lexicographic measure for termination; the text written again is cut into named lines piece by piece |
| C61, C17, C19-C21 | MsgGrammar, MsgReach, MsgBlocks, MsgVia, MsgAddr, MsgNames, MsgMeaning, MsgLines, P_MsgText, P_MsgLength | as for URIs: automaton = expressions (checker), expressions = relational specification MsgSpec.v (structural induction), both directions; the rest are corollaries about lines |
| C72, C73 | MsgErrorAt, P_MsgError | simulation between the runs on two packets with a common beginning; induction on the lines of the text |
| C23 | P_Copy, P_CopyValue | equality by induction, independence by reachability on an explicit heap |
| C24-C26 | SdpProofs, P_Sdp | total function with Panic outcome; induction on lines; round trip line by line |
| C27-C33 | RtpSpec, RtpProofs, P_Rtp | RFC 3550/4733 fields as arithmetic; induction on operation histories with arbitrary socket outcomes |
| C34 | P_RtpClose | transition system; decreasing measure, stuck states characterised |
| C35-C37 | DspProofs, P_Dsp | symbolic execution of the instruction lists, then arithmetic; mixing by induction on blocks |
| C38 | P_Awgn | invariant over draws |
| C39-C47, C62 | P_DialogMsg, P_Response, P_DialogWire, P_Exact, P_Transport | case analysis and list induction; over the network by composing with C16 |
| C57, C59, C60, C66, C67 | P_Transport, P_TransportAt, P_Received | induction over histories of sends and receptions, shared objects explicit |
| C48, C49, C52, C53, C60 | P_Dialog | one turn of the loop as a function; predicates closed under sequencing of actions |
| C50 | P_DialogCount | potential function over runs |
| C51 | P_DialogEnd | induction on runs |
| C54, C63, C64, C68-C71, C75 | P_DialogFail, P_DialogPeer, P_DialogTell, P_DialogWhere, P_App | equations for one turn, lifted to runs by induction |
| C55 | P_DialogSafe | invariant; refutations as complete executions in P_DialogRuns, in which the peer's messages are texts that pass through ParseMsg and the receive loop |
| C56 | P_Cleanup, P_CleanupSafe | transition system of dialog and receivers; exact characterisation of the blocked states; invariant of all reachable states: nothing stays open |
| C65 | P_DialogCall | invariant over runs |
| C74, C76 | P_App | transition system; counting invariant over schedules |
| C77 | P_Call | composition: round trip of what populate makes, reception and matching of the answer, turns of the loop; induction over the provisional answers |
| C78 | P_Append | the message after Append against the one before; injectivity of the text in the drawn id |
| C79 | P_Talk | composition of Send, round trip, receiver, NewResponse, routing of responses and ResponseMatch; invariant of a transport's Via under use |
| C80 | P_Audio | composition of the sending half over whole histories with the receive loop; error bound of G.711 per sample; sublists for loss |
| C81, C82 | P_Fone | the main loop of fone/main.go as a transition system over the dialog (AppModel) and the RTP closing model (RtpCloseModel); invariants, simulation of every dialog run by a run of the phone |
| C83 | P_FoneCall | the INVITE of the phone meets the hypotheses of C77; composition with phone_follows |
| C84 | P_SdpExact | declarative relation sdp_reads between a text and a description, over the list of its lines; one equivalence per parsing function, then induction over the lines |
| C85 | P_Listen | ListenModel: the loop of rtp.Listen over an oracle for net.ListenPacket and a sequence of draws; induction on the attempts left |
| C86 | P_CallEnds | relation reaction (which answer, reports, verdict); the answer of the dialog is written and read back with the lemmas of C79 and matched with the request |
| C87 | P_CallEnds | compositions of turns as for C77: refusal, CANCEL and its answer, BYE of the peer |
| C88 | P_FoneEnds | phone_follows and exit_status of C82 applied to the runs of C87 |
| C89 | P_Noise | binary64 arithmetic of Flocq; the three congruential sequences have full period (Orbit.v), so the table contains enough central values after one period and an accepted pair must come; distinctness along the orbit excludes r = 0; rounding errors in FloatLemmas.v |
| C90 | P_Invite | carries (P_Call): what populate does to each field; then the round trip of C20 and that outputs are only appended |
| C91 | P_Loss | resend_run by induction over the firings of the timer (copies keep branch, host and port, hence ResponseMatch); again_run over the repeated answers; then the steps of C77 |
| C92 | P_Detour | one lemma for each kind of leg (silent_turns: resend_run of C91, then the next address; moved_turns: the ACK and the changed request); legs_go by induction over the legs; an INVITE once sent can be sent again unchanged (again_given, again_same); then the steps of C77 |
| C93 | P_PeerCall | C79's lemmas for one request and its answer, generalised to a Via that was annotated on its way (send_request_via, request_arrives_via); NewRequest, NewAck and NewBye give requests that fit them (new_invite, ack_fits, bye_fits) |
| C94 | P_Echo, P_EchoResend | the call by C93 inside the loop (quiet_run, calm_run by induction over what happens meanwhile); the end by induction over the run, with the invariant that the Via of the INVITE is one entry, not shared, at the transport's address (home); a request in which nothing is left to fill in stays one when it is sent (whole) |
| C95 | P_Examples | the request arrives by C91's lemmas (options) or by the message grammar, line by line (rawsip); the answer by send_answer and the round trip |
| C96 | P_EchoRaw | as C95 for the INVITE and its answers; the ACK and the BYE are requests made of what was read (follows_on_way); the audio by the exact condition echo_heard_exact |
| C97 | P_Echo3, P_Echo3Call | invariants of the test with its RTP session (t_inv, t_broken, t_tells); the INVITE meets the hypotheses of C77 and C90; composition with echo3_follows |
| C98 (and C77, C83, C91, C92, C97 with goroutines) | P_Live, P_LiveCall, P_LiveApps | the event loop in a world without sockets shows where connect closes the old one (handle_splits: both worlds agree up to there); refinement by induction over the steps (live_is_dialog), simulation of executions with one address (steady_is_live), invariant of the waiting dialog (moving_hangs_refuted) and of the dialog that hears nothing (at_first); composition with the calls of C77, C91, C92 |
| C99 | P_Timed, P_TimedCall, P_TimedAnswer | a turn depends on the timers only through the one it takes (timers_unseen, by induction over the actions of the loop), so setting a timer is observable; invariant "armed implies due an interval after the last time it was taken" (retransmissions_spaced); executions in which only the timer fires are determined (given_up), with bounds on the times by induction; the state after a provisional reply has no timer (ringing_for_ever_refuted); the same for the answer to another INVITE, whose timer leads to the report of a failure (unacknowledged_call_dropped_refuted) |
| C100 | P_Cut, P_CutSend | a packet is cut into lines in one way, so a text and its continuation have the same lines and the same declared length; composition with Send and the receive loop |
| C101 | P_SdpNew | rewriting the writer's output to the lines of the specification; C25 for reading it back |
| C102 | FoneOpenModel, P_FoneOpen | case analysis over what the program finds; the witnesses by computation with the dialog's first step |
| C103 | TraceModel, P_Trace | a reader defined apart from the model; one entry by rewriting, sequences by induction |
| C104 | FoneSoundModel, P_FoneSound | the sound cases of fone's loop over the RTP session of RtpModel; induction over the events; the end-to-end part from P_Audio |
| C105 | P_PassOn, P_PassNeeds | an invariant of the header lines of the grammar says what was read; with the listed conditions it gives C16's well-formed messages, and C16's round trip applies |
| C106 | FrameModel, P_Frame | the receive goroutine and the application over a shared memory of frames; invariant of all interleavings: who has which frame, and what was heard so far |
| C107 | AnswerModel, P_Answers | a request answered repeatedly, with the objects the answers share with it; induction on the answers, on top of C79 |
| C108 | P_Worn | Send of the transport model after any history; invariant: the Via is the one it was made with, plus at most one branch; with time stamps, induction on the requests sent |
| C109 | SendersModel, P_Senders | Send cut into its accesses to the Via shared by all goroutines, any number of goroutines and any schedule; invariants of the shared parameters and of each goroutine |
| C110 | ReaderModel, P_Reader | the receiving goroutine with its two unbuffered channels, the socket's queue and the application, as a transition system; invariant relating what arrived, was read and was taken; a measure for its end |
| C111 | SipTypes, SipAppend, P_Phrase | a table of the phrases of the RFCs as specification, compared with what Append writes, status by status; every other status by cases on its binary digits |
| C112 | RtpSendersModel, P_RtpSenders | Send of the RTP session cut into its accesses to the shared header and buffer, any number of goroutines and any schedule; invariant of the buffer and of what each goroutine has put there |

## 4. Trusted base

* Coq's kernel, including the virtual machine behind `vm_compute`. coqchk
  accepts the compiled development.
* Axioms: none of ours. `Print Assumptions` says "Closed under the global
  context" for every theorem named in MANIFEST.json except the four of C89
  (`python3 tools/assumptions.py` after a build prints the list). Those four use
  Flocq over Coq's real numbers, and with them four axioms of the standard
  library: `ClassicalDedekindReals.sig_forall_dec`,
  `ClassicalDedekindReals.sig_not_dec`, `Classical_Prop.classic` and
  `FunctionalExtensionality.functional_extensionality_dep`. coqchk also lists the parameters of the functor body
  `Coq.ssr.ssrunder.Under_rel` of the standard library, which is
  loaded indirectly; no theorem uses them.
* The reading of the Go code: every definition cites the lines it models. The
  two automata are transcribed mechanically from the generated Go code by
  `tools/ragel2coq.py`; the script is not verified, its output is plain data
  with line citations that can be compared to the Go file, and the theorems on
  the grammar (C06, C61) would fail for most errors of transcription.
* A check of that reading: `RepoTests.v`, written by `tools/gotests.py` from the
  Go files, runs the repository's own unit tests on the model (every row of the
  tables in sip/uri_test.go, msg_test.go, addr_test.go, quote_test.go,
  escape_test.go, sdp/sdp_test.go, and the tests of rtp and dsp, the noise
  samples included) and compares the model's tables with the text of status.go,
  codecs.go, charsets.go, dtmf.go, session.go and the header lines of msg.go. The
  model gives what every test expects. These are examples; no claim rests on
  them (the one on noise uses the same four axioms as C89).
* The specifications: the beginnings of the `P_*.v` files, `UriSpec.v`,
  `MsgSpec.v`, `MsgWf.v`, `RtpSpec.v`.

Simplifications worth knowing: messages are values in the event loop (the one
place where sharing changes what is sent, the Via shared by the INVITE and its
CANCEL, is modelled); the world answers each question of the loop by a function
of a counter; UDP writes succeed or fail; a dialog's timers may fire whenever
armed; the receive buffer is 2048 bytes and longer datagrams are cut.

## 5. Seeded faults

`seeded/LOG.jsonl` records edits of model definitions in a scratch copy, the
claim each one breaks, and the theorems that no longer prove. Where an edit
survived, the theorem was tightened (field `tightened`).

## 6. What the proofs found in the code

Each item is a theorem with the suffix `_refuted` (see the notes in
MANIFEST.json), or is visible in the model.

* Parsing: ports, status codes and Content-Length wrap instead of being
  rejected; a header name that is a proper prefix of a known one makes the packet
  unparsable; `l:` also overwrites Expires, Max-Forwards and Min-Expires; text
  outside ASCII in quoted strings is cut; 000 is accepted as status; the reason
  phrase can carry a line break; the text of a parse error at the end of a line
  has neither line nor mark.
* Writing: a lone LF in quoted text and extension header values are written raw;
  `&` in URI headers is not escaped; `RetryAfter:` is written without hyphen;
  Max-Forwards 0 and Via port 5060 do not survive; a session description
  without an origin id is written with another id each time.
* Copy: display names are lost and parameter nodes are shared.
* RTP: consecutive DTMF digits share their timestamp; the CSRC list is taken for
  payload; Close blocks for ever if the application holds a frame.
* Dialog: a response without Contact crashes NewAck and NewBye; a request
  without Via, a re-INVITE without audio, a refused datagram crash the loop; a
  late 180 undoes Answered; the 200 to a CANCEL is never recognised and the 487
  is reported as an error; a redirect of a BYE sends the INVITE again; a 503
  does not lead to the next server; a second hang-up sends a second BYE and the
  confirmation of the first is ignored; a request without Max-Forwards ends the
  dialog; cleaning up waits for ever for a receiver that is waiting for a
  datagram; after the end the fifth request to hang up blocks.
* Transport: port 0 instead of 5060; one branch for all requests without Via;
  Max-Forwards 1 is sent, and read as 70; a Via or rport of the peer decides where the
  response goes; the body of a non-SDP payload is overwritten by the next
  datagram; with time stamps the Via of a transport grows with every request
  until receivers drop them; answers share Via and To with their request; two
  goroutines may add two branches to the Via of the transport.
* Telephone: after an error of the RTP socket the closed channel `rs.C` yields a
  nil frame and `&frame[0]` panics; five interrupts while the dialog waits to
  report block both for ever; `os.Exit` and `log.Fatalf` skip the deferred
  `endwin`, so the terminal is not restored when the status is 1; a second
  report of Answered starts a second reader of the keyboard.
* RTP port: `rtp.Listen` takes any host with a colon for a host and port, so
  `NewSession("::1")` asks the system for the address "::1" without a port.
* Status phrases: 484 is written as `Address StatusIncomplete`, and 500 and 504
  carry the phrases of HTTP.
* RTP session: goroutines that call Send at the same time share `obuf` and the
  header, so frames are mixed, lost or numbered alike; a frame sent during
  SendDTMF gives the rest of the digit the payload type of sound.
