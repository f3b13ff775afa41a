#!/usr/bin/env python3
"""Writes /verif/MANIFEST.json. One row per property: id, status, theorems, note."""
import json, os
C = []
def claim(pid, status, theorems, note):
    C.append({"property": pid, "status": status, "theorems": theorems.split(), "note": note})

claim("C27", "proved", "rtp_header_layout rtp_header_roundtrip rtp_event_roundtrip",
      "All headers whose fields fit their wire width.")
claim("C28", "proved", "rtp_header_read_total", "Every byte string.")
claim("C29", "partial", "rtp_sequence_consecutive rtp_sequence_with_losses rtp_timestamps rtp_marker_only_on_events rtp_marker_leaks_refuted",
      "All histories of Send/SendRaw/SendDTMF and all socket outcomes. A lost first event packet leaves the marker bit set (refuted).")
claim("C30", "proved", "rtp_dtmf_event rtp_dtmf_event_losses rtp_dtmf_invalid", "All digits, sessions and socket outcomes.")
claim("C31", "partial", "rtp_dtmf_digits_distinct_refuted",
      "The property is false of the code: consecutive digits always share their timestamp. The refutation is universal.")
claim("C32", "proved", "dtmf_code_char_inverse dtmf_char_code dtmf_send_table", "All codes and bytes.")
claim("C33", "partial", "rtp_receive_exact rtp_receive_frames rtp_csrc_misread_refuted rtp_end_to_end",
      "All datagram sequences. The CSRC list is not skipped (refuted part).")
claim("C35", "proved", "ulaw_encode_returns ulaw_decode_returns ulaw_decode_is_g711 ulaw_encode_decode", "All bytes.")
claim("C36", "proved", "ulaw_error_bound ulaw_clipping ulaw_monotone", "All 16-bit samples.")
claim("C37", "partial", "mix_saturated_sum mix_misaligned_refuted",
      "All 160-sample buffers at 16-byte aligned addresses; unaligned buffers fault (refuted).")

claim("C01", "proved", "escape_legal escape_decodes escape_injective uri_string_shape", "All byte strings.")
claim("C02", "partial", "quoted_cannot_close_early quoted_folds_line_breaks quoted_no_new_line quoted_lone_lf_refuted",
      "All byte strings. Refuted part: a lone LF is written raw inside the quotes; quoted_no_new_line holds for text without lone LF.")
claim("C04", "partial", "sanitized_name param_text xheader_text xheader_value_injection_refuted",
      "Names: all byte strings. Extension header values are written raw, so the line as a whole can be broken (refuted part).")
claim("C10", "partial", "uri_compare_spec uri_compare_equivalence addr_compare_spec via_compare_spec via_compare_equivalence via_default_port_refuted",
      "All URIs, addresses and Vias. Refuted part: Via comparison does not replace an absent port with 5060.")
claim("C11", "partial", "param_lookup internal_names_lookup param_lookup_kelvin_refuted",
      "All lists and names. Refuted part: names spelled with U+212A or U+017F also match (strings.EqualFold).")
claim("C12", "proved", "param_order uriparam_order xheader_order uriheader_order addr_order addr_without_uri", "All lists.")
claim("C18", "proved", "content_length_truthful", "All messages and all payloads.")
claim("C24", "proved", "sdp_parse_total", "All texts.")
claim("C25", "proved", "sdp_roundtrip sdp_text_determines sdp_defaults_round_trip sparse_sdp_round_trip new_round_trip sdp_sendonly_recvonly_refuted sdp_line_injection_refuted sdp_other_key_lost_refuted",
      "All well-formed descriptions; the three refuted theorems show that the well-formedness conditions cannot be dropped.")
claim("C26", "partial", "sdp_accepted_usable sdp_dynamic_has_rtpmap sdp_blank_connection_refuted",
      "All texts. Refuted part: an accepted description may have a blank connection address.")
claim("C58", "proved", "tags_and_branches callid_is_uuid callid_injective cseq_and_origin identifiers_unquoted",
      "All random draws.")
claim("C23", "partial", "uri_copy_independent addr_copy_independent via_copy_independent msg_copy_independent msg_copy_isolated msg_copy_value msg_copy_fields addr_copy_equal_refuted addr_copy_params_shared_refuted",
      "All heaps. Refuted parts: Addr.Copy loses display names, and parameter nodes are shared between copy and original.")
claim("C34", "partial", "rtp_close_terminates rtp_close_holding_frame_refuted rtp_close_holding_frame_blocks rtp_close_after_error_terminates rtp_close_after_error_documented rtp_close_after_error_early_refuted rtp_receiver_no_panic",
      "All interleavings. Refuted parts: Close blocks for ever exactly when the application still holds a frame; CloseAfterError blocks when a frame is being delivered.")
claim("C38", "proved", "awgn_inside_tables awgn_every_draw_uses_table awgn_extreme_seed_refuted",
      "All int64 seeds, all numbers of draws. Seeds within 54773 of the int64 limits give negative states and skip the table (refuted for the stronger statement).")

claim("C05", "partial", "uri_round_trip_partial uri_round_trip_exact uri_round_trip_refuted",
      "All well-formed URIs whose header names and values contain no &, and no others (uri_round_trip_exact). Refuted part: & in a header is written raw and read back as a separator.")
claim("C06", "proved", "uri_parse_exact uri_parse_rejects uri_text_unambiguous", "All byte strings, both directions.")
claim("C07", "proved", "uri_parse_total", "All byte strings, and nil.")
claim("C08", "partial", "uri_parsed_is_wf uri_reparse_stable_partial uri_reparse_exact uri_reparse_refuted",
      "All accepted texts whose headers decode to strings without &, and no others (uri_reparse_exact). Refuted part: with an escaped & the serialisation is rejected or denotes another URI.")
claim("C09", "partial", "uri_port_kept_partial uri_port_wraps_refuted via_port_read via_port_kept_partial via_port_wraps_refuted",
      "Ports below 65536 are kept, in URIs and in Via headers; refuted for every larger number in both places (the number is taken modulo 65536).")
claim("C13", "proved", "msg_parse_no_panic msg_parse_total", "All byte strings.")
claim("C14", "proved", "msg_parse_stops msg_parse_steps", "All byte strings; the bound is quadratic in the length of the packet.")
claim("C15", "partial", "msg_complete_partial msg_status_zero_refuted status_zero_written_refuted",
      "All accepted packets. A status line with 000 is accepted and gives a message without request URI whose status is 0, so IsResponse is false (refuted); written again it is an INVITE (status_zero_written_refuted).")
claim("C22", "partial", "folded_spec msg_no_injection_partial msg_phrase_injection_refuted written_again any_phrase_refuted",
      "All accepted packets and every text field outside URIs except the reason phrase; written_again, with URIs, for all accepted packets whose phrase has folded breaks only. URI texts may hold decoded line breaks, but they are escaped when written. Refuted for the reason phrase: any text at all can be put after the status line (any_phrase_refuted).")

claim("C17", "partial", "content_length_exact_partial content_length_modulo content_length_absent content_length_wraps_refuted content_length_huge_refuted blank_body_rejected",
      "All packets whose last Content-Length (long or compact form) is positive and below 2^63. Refuted part: a larger length is taken modulo 2^64, so 2^64+2 is accepted with two bytes; content_length_modulo says what any number does, and content_length_huge_refuted that the property fails for every number from 2^63 on. Also proved: no Content-Length gives no payload, and a body starting with a space or tab is never accepted.")
claim("C19", "partial", "compact_form_same_partial compact_length_refuted compact_length_rest",
      "All packets and all compact forms except l: the two packets are accepted together and give the same message. Refuted for l (Content-Length), which also overwrites Expires, Max-Forwards and Min-Expires; compact_length_rest shows that nothing else differs.")
claim("C20", "partial", "unknown_header_kept_partial unknown_header_listed unknown_prefix_refuted",
      "All packets and all names which are not a proper prefix of a known header name. Refuted for those prefixes: every packet with such a header is rejected.")
claim("C21", "proved", "header_case_insensitive", "All packets, all known names and all case variants, both directions.")
claim("C61", "proved", "msg_parse_exact msg_parse_rejects msg_text_unambiguous msg_accepted_lines msg_lines_unique", "All byte strings, both directions.")

claim("C03", "partial", "quoted_written quoted_text_read_back_partial quoted_via_read_back_partial utf8_display_cut_refuted spaced_value_rejected_refuted",
      "All ASCII texts (with folds) which contain a character that makes the code quote them, as display names and as parameter values of addresses and Vias, inside any well-formed message. Refuted for text outside ASCII, which is cut at the first such byte, and for values made of words separated by spaces, which are not quoted and make the packet unreadable.")
claim("C16", "partial", "msg_round_trip_partial msg_round_trip_same defaults_round_trip_partial via_default_port_lost_refuted maxforwards_zero_refuted accept_contact_lost_refuted retry_after_lost_refuted empty_payload_lost_refuted ipv6_via_rejected_refuted",
      "All well-formed messages (specification in MsgWf.v), every field of the property: msg_round_trip_partial says exactly what comes back, msg_round_trip_same that it is the same message outside the refuted cases. Refuted: Via port 5060 comes back as 0, Max-Forwards 0 as 70, Accept-Contact is not written, Retry-After is written under another name, an empty payload is lost, IPv6 Via hosts make the packet unreadable.")

claim("C39", "partial", "response_match_spec new_response_matches_partial new_response_matches_exactly new_response_mismatch_refuted response_matches_over_wire_partial response_matches_over_wire_exactly response_default_port_refuted",
      "All pairs of messages: what the matching rule accepts. It does not compare Call-IDs (the dialog does, see C49) and compares the last Via of the response. NewResponse matches when the request has a single Via, also after both messages have crossed the network if the Via port is not 5060. Refuted for several Vias, and over the network for port 5060.")
claim("C40", "partial", "ack_belongs ack_without_contact_refuted", "All INVITEs and all responses with a Contact and a Via. Refuted for responses without Contact: NewAck panics.")
claim("C41", "proved", "cancel_repeats", "All INVITEs.")
claim("C42", "partial", "bye_in_dialog bye_cseq_increases bye_without_contact_refuted bye_to_ourselves_refuted", "All INVITEs, all responses with a Contact, all histories below 2^63. Refuted for responses without Contact: NewBye panics. Also refuted at the level of the dialog: after a re-INVITE from the peer the BYE is built from the response the dialog itself sent, and goes to the dialog's own Contact.")
claim("C43", "partial", "route_direct route_loose route_strict route_own route_register", "All requests. Deviations: a REGISTER with a Route is refused, and Route entries lose their display names in the strict case.")
claim("C44", "partial", "strict_undone_partial strict_undone_exactly strict_lost_refuted", "Exactly the requests that arrive with a Route list that does not begin with an entry at our own address (strict_undone_exactly). Refuted: when the moved URI is the whole Route list and is at our own address, it is dropped and the request keeps the URI the strict router gave it.")
claim("C45", "partial", "response_goes_back_partial response_goes_back_exact response_destination_exact response_misdirected_refuted response_panics_refuted",
      "All requests without received and with an absent or empty rport, whose Via is not our own address; response_goes_back_exact delimits the requests whose response goes back, and response_destination_exact says where the response goes for every request. Refuted: a received or rport parameter supplied by the peer decides where the response goes, and a Via that names our own address makes the send panic.")
claim("C46", "partial", "populate_result populate_completes_partial populate_completes_exactly populate_panics_exactly populate_zero_cseq_refuted populate_no_method_refuted",
      "All requests with a method, every draw but CSeq 0. Refuted: the number drawn for the CSeq can be 0, which counts as absent, and a request without a method keeps an empty CSeq method although it is sent as INVITE.")
claim("C47", "proved", "srv_candidates single_candidate request_placed call_placed", "All hosts, ports and resolver answers. request_placed and call_placed: the dialog tries the list from its beginning.")

claim("C57", "partial", "delivered_at_first delivered_rest_copied delivered_copied_partial payload_overwritten_refuted",
      "All datagram sequences: everything but the body of a non-SDP payload is copied. Refuted for that body: it aliases the receive buffer and the next datagram overwrites it.")
claim("C59", "partial", "new_request_branch send_fresh_branch_partial send_branch_reused_refuted",
      "Requests made by NewRequest carry a freshly drawn branch. Refuted for other requests: those sent without a Via share the transport's Via, whose branch is drawn once.")
claim("C60", "partial", "send_decrements_partial send_last_hop_refuted last_hop_restarts_refuted dialog_hop_decrements dialog_hop_stops dialog_resend_decrements", "Every send decrements, in the transport and in the dialog, and the dialog does not transmit a message that reaches 0. Refuted for the transport: with Max-Forwards 1 the request is still transmitted, and whoever receives it reads 70 (last_hop_restarts_refuted), so the limit never stops a request passed on by transports.")
claim("C62", "partial", "dialog_default_port transport_default_port_refuted", "Holds on the dialog's path. Refuted for Transport.Send, which uses port 0.")
claim("C48", "partial", "old_request_refused_partial old_request_ends_refuted remembered_cseq_partial old_request_run_refuted",
      "All states, all requests with Max-Forwards: an old one is answered with 500 and has no other effect. Refuted: a request without Max-Forwards (or with 0) ends the dialog whatever its CSeq is; the remembered CSeq goes back to 0 when another address is tried before the answer (old_request_run_refuted is a complete execution in which an older request is then accepted).")
claim("C49", "partial", "other_calls_refused_partial other_calls_version_refuted",
      "All states, all messages of SIP version 2.0: another Call-ID is answered with 481 and has no other effect. Refuted: a message of another version ends the dialog whatever its Call-ID is.")
claim("C50", "partial", "invite_life_bounded invite_per_address_partial invite_total_partial redirect_run_refuted",
      "All event sequences. Over its life a dialog transmits the INVITE at most Max-Forwards - 1 times (69 if the application gives none). To one address it is transmitted at most (maxResends+1) times for the first lookup and for each redirect. Refuted: a redirect to the same server makes the dialog transmit maxResends+1 more times to that address (complete execution).")
claim("C51", "proved", "dialog_ends_once dialog_end_reported", "All event sequences and socket outcomes.")
claim("C52", "partial", "going_back_partial late_provisional_refuted late_provisional_run_refuted", "All events in all states: only a provisional response makes the dialog report Proceeding or Ringing. Refuted: it does so also after Answered.")
claim("C53", "partial", "final_acknowledged_partial no_contact_refuted repeated_answer_refuted repeated_answer_run_refuted",
      "All states, all final responses with a Contact. Refuted: without Contact no ACK is sent and the dialog ends with an error; a repeated 200 that arrives while the current request is a BYE is not acknowledged.")
claim("C54", "partial", "timeout_tries_next timeout_none_left unavailable_refuted unavailable_run_refuted refusal_refuted refusal_run_refuted silent_one_address_refuted",
      "All states, all candidate lists: when the last retransmission is not answered, the candidates to which no socket can be opened are skipped and the INVITE goes to the first that remains; with none left the dialog ends with an error. Refuted for 503 (the ACK is sent, then the dialog ends with an error) and for a refused datagram (the dialog panics). These are equations of the event loop, in which connect returns; with the goroutine that reads the old socket (LiveModel) the dialog waits for a message of it and never writes to a second address if nothing is received (silent_one_address_refuted; see C98).")
claim("C55", "partial", "dialog_no_crash_partial dialog_no_crash_received_partial receiver_no_crash_partial request_without_via_refuted video_only_refuted video_only_run_refuted refusal_refuted refusal_run_refuted bare_redirect_refuted bare_redirect_run_refuted reinvite_without_contact_refuted reinvite_without_contact_run_refuted",
      "All event sequences of messages that have a Via, a Contact with a URI, and a session description with audio if they have one. Refuted for everything left out, each by a complete execution: a request without Via, a re-INVITE whose description has no audio, a refused datagram, a redirect of a BYE without Contact, a re-INVITE without Contact followed by hanging up.")
claim("C56", "partial", "cleanup_releases_partial cleanup_after_error cleanup_blocks_refuted cleanup_exact ended_releases no_socket_forgotten failover_releases",
      "All schedules of the dialog and its two receivers: if every open socket's receiver holds a message, or has already reported its error, cleaning up terminates with everything closed. Refuted: a receiver that is waiting for a datagram makes the clean-up wait for ever. cleanup_exact: with one socket, holding a message is necessary and sufficient. ended_releases, no_socket_forgotten: in every execution, whenever the dialog's goroutine has returned both sockets are closed and both receivers return; a socket the dialog no longer holds is closed.")
claim("C63", "partial", "hangup_cancels hangup_byes bye_confirmed cancel_confirmation_refuted cancel_run_refuted late_provisional_run_refuted",
      "All states. Refuted: the 200 to a CANCEL never matches the outstanding INVITE, the 487 that follows is reported as an error instead of Hangup; after a late 180 the dialog cancels a call that has been answered.")
claim("C64", "partial", "options_answered unknown_refused bye_answered reinvite_answered response_repeated ack_stops_repetition unacknowledged_refuted answer_without_description_refuted",
      "All states, all requests in order, with a Via and Max-Forwards. Refuted: the answer to an INVITE carries no session description; when the ACK never comes, the dialog does not send a BYE but moves on to the next route, or ends with the error of having no route left.")
claim("C65", "proved", "invite_is_the_applications one_call", "All event sequences, all answers of the network and of the random source.")
claim("C66","partial","transport_advertises transport_made sent_from_here contact_display_refuted","Violated in one detail: the display name of the address is dropped, because it is copied with Addr.Copy. Everything else is proved for every history of use. (The comment on NewTransport says that the caller's address gets the port; it is the copy that does.)")
claim("C67","proved","reception_exact datagram_received","All datagrams and all sources: exactly what the receive loop changes, and that nothing else changes.")
claim("C68","partial","provisional_told answer_told bye_answered bye_confirmed reported_for_a_reason reported_over_time told_by_the_peer cancel_confirmation_refuted video_only_run_refuted","All event sequences. What is reported has its reason: in full. What must be reported is: refuted for the confirmation of a CANCEL, which is not recognised, for a description without audio, which crashes the dialog, and for an answer without Contact (no_contact_refuted).")
claim("C69","proved","provisional_told answer_told reinvite_answered reported_for_a_reason told_by_the_peer","All event sequences.")
claim("C70","partial","refusal_told_partial refusal_text bye_refusal_told redirect_followed_partial reported_for_a_reason reported_over_time busy_run_refuted bye_redirect_run_refuted","All states and responses that have a Contact. Refuted: a refusal without Contact (a plain 486) is reported as a missing Contact, not as the response, and is not acknowledged; a redirect of the BYE makes the dialog send the INVITE again.")
claim("C71","proved","populate_says request_placed call_placed timeout_tries_next datagrams_right","All event sequences. The exact ports and the number of the draw: populate_says with request_placed (first address), timeout_tries_next (failing over); for whole executions: datagrams_right.")
claim("C72","proved","error_inside error_by_prefix error_not_in_good_prefix uri_error_inside uri_error_by_prefix","All byte strings. The look-ahead of two bytes is real (look_ahead), and so is the dependence of ParseURI on the presence of @ (uri_at).")
claim("C73","partial","error_text_marks error_text_at_line_end error_text_partial error_text_refuted incomplete_text","All rejected packets: proved when the offending byte is inside a line. Refuted when it is one of the two bytes of a line end, as for every line that ends too early: the text names line 0, place 0, and has no mark.")
claim("C74","partial","ask_accepted four_asks_never_block_partial asks_not_lost served_were_asked fifth_ask_blocks_refuted","All schedules: a request is accepted exactly when fewer than four are waiting; requests are neither lost nor invented while the dialog lives. Refuted after the end: nobody empties the channel, and with four requests in it the next one blocks for ever.")
claim("C75","partial","cancelled_again hung_up_twice_refuted","Proved before the answer. Refuted after it: the second BYE has a new CSeq and only its answer is waited for, so the confirmation of the first is ignored and the 481 for the second is reported as an error.")
claim("C76","proved","notifications_in_order","All schedules; the three channels are unbuffered and the loop waits in each send.")
claim("C77","proved","call_goes_through_live call_goes_through","call_goes_through_live is about the dialog with the goroutines that read its sockets (LiveModel), call_goes_through about its event loop (then the Contact may be anywhere; for what the dialog does in that case see C98). Composition of the models of serialiser, parser, receiver and event loop; the assumptions on the network, the INVITE and the answers are spelt out in faultless, invite_given and reply_ok, and call_example meets them. Fields the application leaves empty are covered: they arrive as the serialiser's defaults (written in P_Written). The local port 5060 and local IPv6 addresses are excluded: see C39 and C16 for what happens with them.")
claim("C78","partial","append_changes_only_phrase append_phrase_stored append_again_partial append_origin_id_refuted","Holds but for a session description without an origin id: each serialisation draws a new one (append_origin_id_refuted), so two serialisations of one message differ. A dialog stores an id first and is not affected.")
claim("C79","proved","made_transports_talk transports_talk","For all of them, with explicit conditions in the statement: request_ok says what can be written, net_ok that the network does its work, source_ok that the source is an address. delivers says that every receiver with a large enough buffer hands over that message. Fields left empty arrive as the serialiser's defaults (written in P_Written). The strings of Accept-Contact and Retry-After are not said to arrive (see C16). The port left out is the one where C39 shows a defect.")
claim("C80","proved","audio_arrives audio_survives_loss audio_only_what_was_said audio_relayed_unchanged","sounds and close are the specification of what is heard; voiced lists the calls that returned nil. The frames are what the receive loop hands over; its end is C34.")
claim("C81","partial","exit_status ends_with_dialog leaves phone_follows no_crash_partial crash_after_socket_error_refuted","Refuted part: after an error of the RTP socket the closed channel of frames is always ready and the nil frame is used, so the program can crash before the BYE is confirmed. no_crash_partial: it does not crash itself while the RTP socket works (crashes of the dialog goroutine are C55).")
claim("C82","partial","comes_back_partial five_interrupts_refuted","Refuted part: if the dialog is waiting to report something, the fifth interrupt blocks the program and the dialog for ever. comes_back_partial: fewer than four requests before.")
claim("C83","proved","fone_invite_given phone_call_goes_through phone_call_goes_through_live","phone_call_goes_through_live: the events which the phone's dialog handles are handled, with the same effect, by the dialog with the goroutines that read its sockets. For a callee elsewhere see C98. Existence of the execution: the schedule, the peer and the network are as described. public_host is a host name or IPv4 address in lower case; headers of the URI without & (see C05). Sound devices and terminal are not modelled.")
claim("C84","proved","sdp_parse_exact sdp_refused","Equivalence between Parse and the declarative relation sdp_reads, for all texts. A c= line after the first is not looked at, and a line shorter than three bytes or without an equals sign in second place is ignored.")
claim("C85","partial","listen_attempts every_port listen_given ipv6_host_refuted","Refuted part: an IPv6 address contains colons, is taken for an address with a port and given to the operating system without port and brackets. net.ListenPacket and math/rand are oracles; that the text of a taken port's error contains 'address already in use' is the code's own criterion.")
claim("C86","proved","peer_request_answered","For every state with a socket; the reaction relation says which answer, which reports and whether the dialog goes on. The re-INVITE's 200 has no session description (see C64): it is recognised, not sufficient.")
claim("C87","proved","call_refused call_cancelled peer_hangs_up","Compositions from the INVITE to the end over the written texts. That a cancelled call ends with an error and not with Hangup is refuted where it is claimed (C63). A refusal without Contact ends the dialog without an ACK (no_contact_refuted, C53).")
claim("C88","proved","phone_call_refused phone_call_cancelled phone_peer_hangs_up","There is an execution of the program which follows the exchange (phone_follows) and every such execution ends with the status given (exit_status).")
claim("C89","proved","noise_get_returns noise_pair_usable noise_sample_is_number new_awgn_sample","Go's float64 arithmetic is Flocq's IEEE 754 binary64, rounding to nearest even, without fused multiply-add (amd64). math.Log and math.Pow are parameters of which sane and sane_pow ask only generous bounds. These theorems use the axioms of Coq's real numbers; see DESIGN.md section 4.")
claim("C90","proved","invite_arrives phone_invite_arrives","reads_as lists every field. Accept-Contact and Retry-After, which do not survive (C20), are excepted; extension headers are stated for messages without Retry-After.")
claim("C91","proved","call_survives_loss_live call_survives_loss","call_survives_loss_live is about the dialog with the goroutines that read its sockets, call_survives_loss about its event loop. The outputs are given in full and in order. Max-Forwards falls with each copy (the message sent is the one kept), so it bounds the number of copies too.")
claim("C92","partial","call_reaches_callee call_reaches_callee_live_partial call_may_reach_callee_partial detour_hangs_refuted silent_one_address_refuted silent_hangs_refuted redirect_hangs_refuted","call_reaches_callee is about the event loop: it assumes that connect returns. In the dialog with its goroutines connect closes the old socket and waits for a message of the goroutine that read it: there the call goes through if every leg stays with one address (call_reaches_callee_live_partial), and otherwise only in schedules in which stray datagrams arrive in time (call_may_reach_callee_partial): whenever a leg leads elsewhere the dialog may stop for good before it sends anything there (detour_hangs_refuted); if nothing is received from the first server it never writes to another (silent_one_address_refuted). What is sent before it stops, exactly: silent_hangs_refuted, redirect_hangs_refuted. legs_run gives the events and outputs of the detours in full and in order. Assumes a network which opens sockets and resolves names (faultless) and a constant DNS. A 503 is not among the detours: see C54, the dialog clears its list of addresses before it tries the next.")
claim("C93","proved","call_over_transports","The restrictions are in the statement: a caller's port of 5060 is C39's defect, a request to a Contact without a port goes to port 0 (C62). Delivery of the datagrams and name resolution are assumed; each is otherwise arbitrary.")
claim("C94","partial","echo_call echo_ends echo_remote_bye_refuted echo_declined_refuted echo_answer_keeps_timer echo_gives_up_refuted echo_repeats_invite echo_repeats_bye echo_repeats_cancel","The first two sentences are echo_call (in it no retransmission timer fires) and echo_ends. The repetitions are echo_repeats_invite, echo_repeats_bye and echo_repeats_cancel (networks without faults; the BYE for an answer without Record-Route). The rest is false of the program: a BYE from the callee always crashes it, because it answers the INVITE instead of the BYE and the response has no Via left (echo_remote_bye_refuted); a final answer without Contact, such as 486 or the 200 to its own CANCEL, crashes NewAck (echo_declined_refuted); only a 100 stops the retransmission timer, so without one an answered call is given up after three intervals (echo_answer_keeps_timer, echo_gives_up_refuted, echo_example).")
claim("C95","partial","options_ping options_only options_no_to_refuted options_protocol_refuted raw_packet_reads raw_ping raw_only raw_answer_unread_refuted","Success with such a server is options_ping and raw_ping; what is read is in options_ping and raw_packet_reads. The rest fails in four ways: the OPTIONS example names UDP as the protocol of its Via (options_protocol_refuted) and crashes on an answer without To (options_no_to_refuted); the Request-URI of rawsip is its own address (raw_packet_reads), and rawsip looks at nothing but the first line of the answer (raw_only, raw_answer_unread_refuted).")
claim("C96","partial","echo_raw_call echo_raw_only echo_heard_exact echo_of_frame_refuted echo_raw_echoed_refuted echo_raw_no_audio_refuted echo_raw_foreign_refuted","The call is echo_raw_call, with audio in an RTP packet with a proper header. The rest fails: the program throws its RTP header away (Header.Write returns the longer slice), so its own packets do not pass its own test and an exact echo never satisfies it (echo_of_frame_refuted, echo_raw_echoed_refuted); it accepts answers that belong to no call of its own (echo_raw_foreign_refuted); a 200 whose session description has no audio crashes it (echo_raw_no_audio_refuted). The race of its goroutine on the variables amt and err is not modelled.")
claim("C97","partial","echo3_invite_given echo3_invite_arrives test_verdict test_hangs_up_for_a_reason test_ends_with_dialog test_steady_partial echo3_follows echo3_call_goes_through socket_error_hangs_refuted socket_error_crash_refuted socket_error_flood_refuted echo3_call_goes_through_live echo3_hangs_refuted","test_steady_partial needs that the RTP socket does not fail; ending with the dialog (test_ends_with_dialog) and passing (echo3_call_goes_through_live) are existence of the execution; with a Contact elsewhere the dialog may stop when it is told to hang up (echo3_hangs_refuted). The rest fails when the RTP socket fails: the closed channel of frames may be read before the error, and the test then waits for ever to return a nil frame (socket_error_hangs_refuted); after CloseAfterError it sends that nil frame on a closed channel (socket_error_crash_refuted); and the closed channel of errors makes it ask to hang up until it blocks (socket_error_flood_refuted).")
claim("C98","partial","live_is_dialog one_address_lives dialog_lives steady_is_live one_address_steady moving_goes_on moving_hangs_refuted second_address_hangs_refuted silent_one_address_refuted call_hangs_refuted phone_hangs_refuted","The second half holds: whatever the schedule, the dialog with its goroutines shows what an execution of the event loop shows, or the beginning of it (live_is_dialog), and executions with one address are possible in full (one_address_lives). Going over works if the goroutine holds a message (moving_goes_on; the message is lost); so every execution of the event loop, over however many addresses, is possible in the dialog with its goroutines if stray datagrams arrive in time (dialog_lives). Otherwise the dialog stops for good (moving_hangs_refuted): every execution of the event loop with two addresses has a schedule in which it does (second_address_hangs_refuted), and if nothing is received it never writes to a second address (silent_one_address_refuted). call_hangs_refuted, phone_hangs_refuted: an answered call cannot be hung up if the Contact is elsewhere.")
claim("C99","partial","retransmissions_spaced interval_ms timed_runs timers_unseen unanswered_call_ends unanswered_call_on_time unconfirmed_bye_ends ringing_for_ever_refuted unacknowledged_call_dropped_refuted runs_timed","The rate is retransmissions_spaced; the call which nobody answers is unanswered_call_ends (what is sent and reported, and when, to within the delays of the scheduler) and unanswered_call_on_time (the execution exists); the BYE is unconfirmed_bye_ends. The sentence on the silent peer is false: after a provisional reply no timer is running, the CANCEL is sent once for each request to hang up and never repeated, and the dialog waits for ever (ringing_for_ever_refuted; the constant GiveupTimeout is not used). So is the sentence on the unacknowledged answer: it is sent as often as said, at intervals, but then the dialog reports that the destination cannot be contacted and ends without a BYE (unacknowledged_call_dropped_refuted). runs_timed: times exclude no execution of the event loop. Only the timer fires in unanswered_call_ends and in the end of unconfirmed_bye_ends: that is what silence means. Times are those of the event loop, with any delays; the time the application takes to receive notifications is such a delay. If resendInterval is so large that its nanoseconds do not fit 64 bits, the interval is computed wrongly (huge_interval).")
claim("C100","partial","continued_same cut_short_rejected run_on_rejected cut_short_never_misread long_datagram_dropped long_datagram_not_misread long_message_lost_refuted","The first two sentences are proved for every text and every place of the cut. The last is false: the settings of dialog/prefs.go are used nowhere, Send transmits a message of any length and reports success, and a receiver of this library drops it if it is longer than 2048 bytes and has a body (long_message_lost_refuted; long_example has one of every length).")
claim("C101","proved","new_text new_reads_back known_codecs known_codecs_read_back","")
claim("C102","partial","opens_exactly refuses_exactly opened_call_given any_answer_used_refuted","All but the last sentence is proved; opened_call_given is for addresses that are host names or IPv4 addresses in lower case. The last sentence is false: the answer is used as it is, whatever its status (any_answer_used_refuted: a line break at its end, an HTML page or an IPv6 address make the INVITE unreadable, and a line in it becomes a line of the INVITE). The sound streams and the RTP session are results given to the program.")
claim("C103","proved","trace_read_back trace_determines","All datagrams. The entries only; other lines of the log between them are not considered.")
claim("C104","partial","telephone_says_and_plays said_to_peer muted_says_nothing said_is_heard anyone_is_heard_refuted","Everything but \"from that peer\": the telephone does not look where a datagram comes from, plays frames of a stranger, plays a frame that arrives twice twice, and plays before a peer is known (anyone_is_heard_refuted). What the devices give and take are inputs and outputs of the model.")
claim("C105","partial","passed_on_partial passed_on_example passed_on_rejected_refuted lacking_rejected_refuted passed_on_changed_refuted hops_reset_refuted via_port_zero_written_refuted","Every accepted packet that meets the conditions listed in the definition passable. The rest is refuted: accepted packets with an IPv6 Via, a quoted value with a space, an escaped ampersand in a URI header, a payload without a type, or a number from 2^63 on are written as text that is rejected; so is every one without From, To, Call-ID or CSeq, or with a payload without a type (lacking_rejected_refuted); display names lose what is not ASCII and the spaces at their ends; Max-Forwards 0 becomes 70 in every such request; a Via without a port is written with the port 0.")
claim("C106","proved","frames_are_heard frame_stays sound_stays frames_not_shared one_frame_at_a_time session_goes_on nil_frame_crashes given_frame_changes returning_is_fair keeping_all_gets_one keeping_example","fair says that the application writes to and gives back only frames it has (received or made, not given back), and no nil; nil_frame_crashes and given_frame_changes show that this is needed. returning_is_fair: so do the telephone and echo3; keeping_all_gets_one: echo2 gives no frame back and receives one at most. One store of 160 samples is one step. Closing is C34.")
claim("C107","partial","answers_all_arrive tag_added_once two_tags_refuted two_times_refuted answers_example","Proved for sequences of any length: every answer arrives and belongs to the request, and the exact Via and To of each answer and of the request afterwards. Refuted part: the answers have the request's Via and To objects, so the request changes, an answer with a tag of its own after another one arrives with both tags (two_tags_refuted), and with time stamps switched on every answer also has the times of those before it (two_times_refuted). The conditions are those of C79.")
claim("C108","partial","transport_as_new times_pile_up stamped_transport_unheard_refuted as_new_example worn_example","Proved without time stamps (the default), for every history of the transport. Refuted with time stamps: a request without Via gets the transport's own Via object and the stamp is added to that, so the i-th request has the times of all requests before it (times_pile_up) and is at least 4*i bytes longer; it is sent with success, but a receiver with a buffer of at most 4*i bytes drops a request that has a payload (stamped_transport_unheard_refuted). worn_example: with the receiver's 2048 bytes the first message is heard and the 513th is not.")
claim("C109","partial","senders_whole senders_never_wait senders_as_alone sender_alone senders_two_branches_refuted senders_branch_lost_refuted senders_example","Proved for every schedule: a goroutine ends after at most six accesses to the transport's Via; a message with its own Via is sent as if alone; a request without Via is sent as if alone but for the parameters of the Via, which include a branch and come from the requests being sent; once a request was sent through the transport and without time stamps, every request is sent exactly as if alone (senders_as_alone). Refuted part: two first requests of a transport may both leave with two branches (senders_two_branches_refuted), or the first may afterwards have the branch of the second (senders_branch_lost_refuted). The model takes reads and writes of the pointer Via.Param as atomic and in one order; in Go the two goroutines of the refuted part have a data race, about which Go promises less. sender_alone ties the model to the sequential one.")
claim("C110","partial","reader_in_order reader_end_once reader_ends reader_no_crash_partial reader_crash_refuted reader_c_never_closed_refuted reader_e_never_heard_refuted reader_example","Proved for every history: the messages taken from C are those in the datagrams that arrived, once and in order, with none left out (reader_in_order); at most one error, nothing after it, and channels are seen closed only after it (reader_end_once); after the socket is closed the goroutine ends if the application takes what it is offered, after at most five events (reader_ends); no crash if every message has a Via (reader_no_crash_partial). Refuted: a request without Via ends the program (reader_crash_refuted); an application that reads only C never sees it closed (reader_c_never_closed_refuted); one that closes the socket and reads only E waits for ever if a message is being offered (reader_e_never_heard_refuted).")
claim("C111","partial","phrase_of_status_partial phrase_unknown phrase_given phrase_of_status_refuted","Proved for every status of the RFCs but three, for all other positive statuses, and for phrases given by the application. Refuted for three: 484 is sent as 'Address StatusIncomplete'; 500 and 504 are sent with the phrases of HTTP (phrase_of_status_refuted).")
claim("C112","partial","rtp_senders_whole rtp_senders_never_wait rtp_senders_in_turn rtp_senders_mixed_refuted rtp_senders_lost_refuted rtp_senders_example digit_alone digit_interrupted_refuted","Proved for every interleaving: as many datagrams leave as calls return, with the type and source of the session, and each sample of each is one that some goroutine gave for that place (rtp_senders_whole); no call waits for another (rtp_senders_never_wait); calls that do not overlap send what one goroutine would (rtp_senders_in_turn). Refuted: a datagram may hold the first k samples of one frame and the rest of another, for every k (rtp_senders_mixed_refuted); one frame may leave twice and the other never, under one sequence number (rtp_senders_lost_refuted); when a frame is sent between the datagrams of a digit, the rest of the digit leaves with the payload type of sound, so its end is never told (digit_interrupted_refuted; digit_alone says that without the frame it is what SendDTMF sends).")
C.sort(key=lambda c: c["property"])
json.dump({"claims": C}, open(os.path.join(os.path.dirname(__file__), "..", "MANIFEST.json"), "w"), indent=1)
