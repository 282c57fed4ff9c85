{
 "C01": "CRC tables, loops, initial values against GF(2) polynomial remainder; no hypotheses on the string.",
 "C02": "All lengths and positions of the window.",
 "C03": "REFUTED as stated: with a declared header length of 1 the checksum does not cover the body and the damaged packet is accepted with different contents. Partial: holds for every packet whose header length field is the true one. C03_unnoticed_exactly: for every header length, a burst outside the control fields is accepted if and only if it changes no byte under a checksum and the frame still parses.",
 "C04": "REFUTED as stated, the same way (declared header length 1). Partial: holds for packets whose header length field is the true one. C04_header_byte_exactly: for every header length, another value in a header byte that is no control field is accepted if and only if the byte is under no checksum.",
 "C05": "REFUTED: the code is 137 for a body checksum failure, and 138 is never returned by Decode.",
 "C06": "Both directions: acceptance is characterised exactly.",
 "C07": "Fuel is never exhausted for any input; nesting is bounded by input length.",
 "C08": "REFUTED: 12 bytes with header length 0, and a packet whose declared lengths exceed 2^16. C08_panics_exactly characterises all panicking inputs; the partial theorem gives the safe ones.",
 "C09": "All record and subrecord decoders.",
 "C10": "REFUTED: dropping the last byte of a packet whose CRC16 high byte is 0 is accepted; partial: every other prefix is rejected. C10_truncation_detected_exactly: a proper prefix is accepted iff it lacks one zero byte.",
 "C11": "REFUTED: with a declared header length of 14 the byte after the packet decides. Partial: irrelevant whenever the header length field is at most two too large; C11_suffix_irrelevant_exactly: for an acceptable packet, irrelevant if and only if the areas its header length declares lie inside it.",
 "C12": "REFUTED for the route fields of a reused Package; the outcome (code and error) is independent of the receiver, and for fresh fields the structure too. C12_receiver_irrelevant_exactly: when two receivers end up equal, and what each keeps.",
 "C13": "REFUTED: a short record is padded with zeros; the theorems say exactly what is fabricated.",
 "C19": "Real-number error bounds with Flocq (stdlib axioms of Reals only).",
 "C20": "REFUTED (186415 -> 186414). Partial: for every wire value the result is v or v-1; n hops lose at most n.",
 "C21": "Whole seconds: proved for all 2^32 values. The floor of fractions is REFUTED at 999999999 ns; C21_floor_iff gives exactly the instants that are rounded up (all below 2^32-1 s).",
 "C23": "REFUTED: the first analogue sensor comes back as the eighth. C23_ad_sensors_roundtrip_iff gives the exact domain of the round trip.",
 "C24": "REFUTED: the second counter overwrites the first. C24_counters_roundtrip_iff gives the exact domain.",
 "C29": "C29_liquid_roundtrip_iff: exactly the values whose fields fit round-trip; the rejection of wide numbers is REFUTED: they corrupt the neighbouring flags.",
 "C31": "REFUTED: a subrecord that ends inside its last field is accepted, and the missing bytes are those of another field (HDOP completed with VDOP's). Exactly: a subrecord of a fixed-layout type is accepted iff every field that its flags announce has its first byte (C31_accepted_exactly; C31_begun in one number), so of a complete one exactly the cuts inside the last field are accepted (C31_cut_exactly); a login iff it has two terminated strings and then nothing or a third (C31_login_exactly). The partial theorem bounds what may be missing for any subrecord except EGTS-PLUS (C110).",
 "C33": "Under the hypothesis that the protobuf oracle marshals what it unmarshalled.",
 "C34": "REFUTED by the packet of the repository's own test; the partial theorem states the packets reproduced exactly.",
 "C36": "REFUTED: a body of 65546 bytes is declared as 10, one of 65536 is dropped; C36_declared_length_exactly: declared modulo 2^16, right iff the body is below 2^16.",
 "C37": "REFUTED for the dispatcher identity; C37_type_inferred_exactly: it alone (and nil) is refused, every other subrecord is encoded with its code.",
 "C43": "REFUTED: Save errors are only logged; partial: if all storages accept, then stored.",
 "C46": "REFUTED: all positions of a packet go to the object of the last record (C46_last_object, for every packet); partial: single-object packets.",
 "C47": "REFUTED: hemisphere flags are not used when storing (C47_hemisphere_never_used: for no packet).",
 "C48": "REFUTED; C48_packet_number_iff gives exactly when the number is right.",
 "C49": "REFUTED by one packet in every environment, and by twelve bytes; C49_crashes_exactly characterises all crashing inputs.",
 "C51": "REFUTED: the timer is only consulted after EOF; partial: behaviour after EOF, exactly. With the times of every byte and of the handler's work (Timed.v): C51_close_time gives the exact moment at which the connection is closed, or that it never is; C51_same_actions ties the timed model to the server model.",
 "C54": "REFUTED for every packet id: rejected with 129; partial: what the packet would be under packet type 1.",
 "C57": "REFUTED: -time is ignored, the exit status is never 0.",
 "C59": "REFUTED: Run never returns; partial: what Stop achieves.",
 "C62": "REFUTED by an interleaving of two connections; partial: the order agrees for each connection, the later storage being at most one record behind, and all storages end up with the same records.",
 "C63": "REFUTED: after a failing entry the active storages depend on map order; partial: without failing entries. Exact condition for the order to be irrelevant proved (C63_order_irrelevant_iff).",
 "C64": "REFUTED: an absent db is refused; C64_redis_accepted_iff gives exactly the accepted sections.",
 "C65": "REFUTED for redis (panic); partial: all other connectors: Save returns an error exactly when the library does, and the whole receiver goes on (C65_receiver_goes_on_partial: it dies only of what a client sends, and clients get the same answers as with backends that never fail).",
 "C69": "REFUTED: a positive response without records panics.",
 "C72": "REFUTED: Encode succeeds for every coordinate and another one arrives.",
 "C75": "REFUTED: from 256 degrees on Direction is 128 less; exactly the headings below 256 are right (C75_heading_exactly); below 384 the heading is recoverable from Direction and DirectionHighestBit.",
 "C76": "REFUTED with an altitude: the first source data byte becomes the altitude's top byte (exact result given); partial: without altitude.",
 "C81": "REFUTED: bytes that are not UTF-8 become U+FFFD, two terminals get the same document; C81_identifier_preserved_iff: preserved if and only if it is valid UTF-8.",
 "C82": "REFUTED: empty sensor lists are null; partial: positions always a non-empty array of the stated length, sensors null exactly without readings.",
 "C87": "REFUTED: a section that does not open hides the good ones after it; the process falls back to its log, acknowledges and makes no library call; partial: every section opens and the backends accept everything.",
 "C94": "REFUTED: one inverted bit in the frame length makes the receiver swallow the next 32 kilobytes without an answer; partial: when the swallowed bytes end with a packet, one 137 is sent and later packets are unaffected.",
 "C88": "12 bits is the exact limit after the header (C88_limit).",
 "C96": "REFUTED: a response with a record that confirms nothing is announced as success; partial: no confirmation in the reply is negative.",
 "C98": "REFUTED: identifiers that are not UTF-8 are replaced, and two packets with equal checksums get the same text; partial: proved when the texts are valid UTF-8 and the reader tells floats and EGTS-PLUS messages apart.",
 "C107": "Float texts are an oracle: any text the JSON reader accepts as a number.",
 "C108": "REFUTED: fields unknown to the schema and byte strings that are present but empty leave no trace; partial: those are the only losses (same text iff equal up to them), given that the reader tells floats apart.",
 "C109": "C97/C98 with the protobuf library and the message's JSON modelled. Identification assumes UTF-8 texts, messages without unknown fields or empty byte strings, and a reader that tells floats apart.",
 "C114": "REFUTED: a package without records is encoded as a bare header, which Decode refuses with 132. Exact condition proved (C114_accepted_exactly); partial: well-formed packages with a record.",
 "C115": "REFUTED: nested confirmations with declared record length 65535 make Decode hold 65535 bytes for every 13 bytes received, 330 MB for one 64 KB packet that the receiver hands to Decode; the body checksum is not checked before. Partial: that is the worst case, on every input.",
 "C116": "REFUTED: the strings are run together before parsing, so Compression \"1\" with Priority \"1\" arrives as Compression \"0\", Priority \"11\"; SrTermIdentity ignores the parse error (the error variable is overwritten, egts_sr_term_identity.go:130-131) and writes flags 0. Exact conditions proved for subrecords, records and packages; partial: what is refused.",
 "C117": "REFUTED: an IMEI of 16 digits shifts the following fields, an MSISDN of 11 digits comes back with NULs, and C18, C23, C24, C29. Exact set of values proved (C117_decoded_as_given_exactly).",
 "C118": "REFUTED: absent optional fields keep their old values (altitude, IMEI, sensors, counters, server sequence, records of a confirmation), and sets of records are appended to. Exact result proved for every type (C118_used_exactly, C118_pt_response_exactly); partial: types without optional fields. (Package: C93.)",
 "C119": "REFUTED: unknown keys are ignored without a word, and the file that is shipped (configs/receiver.yaml:3, also README.md:80) gives the time to live as con_live_sec, which the program does not know (it reads conn_ttl): the receiver runs with a time to live of 0. The partial theorems are the exact rule: which documents are accepted (C119_accepted_partial) and what each setting then is (C119_settings_partial).",
 "C121": "REFUTED: the connection string is built with Sprintf and no quoting, so an empty password makes the driver take \"sslmode=disable\" for the password (and leaves sslmode at its default), a password with a space is refused or overrides other parameters (\"x dbname=other\"). C121_settings_reach_driver_exactly is the exact condition (if and only if) under which the six settings arrive; _partial is the case of ordinary values.",
 "C122": "REFUTED: the options are decoded and then never looked at. C122_options_ignored: for every type, number and body, packets that differ only in header options are stored and answered alike; in particular a body marked as encrypted or compressed is read as plain records.",
 "C123": "REFUTED. C123_only_essence_matters says exactly what is looked at (Spec_Policy, record_essence): packet number, record number, object, service, and of the subrecords time, coordinates, speed, identifier, sensor readings, levels and the counters 110 and 111; validity, fix, black-box, direction, altitude, odometer and hemisphere flags are not.",
 "C124": "REFUTED for every packet: n copies on a connection do n times what one copy does (C124_stored_once_refuted).",
 "C125": "REFUTED for packets whose records name different services: all are confirmed by one record under the service of the last (C125_service_of_the_last, exact). C125_own_service_partial: true when all records name one service.",
 "C126": "REFUTED: every reply to a packet bears the number of that packet plus one (C126_reply_number, exact), so the two replies to credentials share a number. C126_own_numbers_partial: packets with different numbers are answered under different numbers.",
 "C127": "REFUTED: the settings are put into a URL unescaped, so a password with / % # ? or a space fails, is changed, or sends the client to another host as guest. Proved exactly: with an ordinary host name and port number the client connects with the settings iff user and password consist of letters, digits and - . _ : ~ ! $ & ' ( ) * + , ; = @ (no colon in the user). The partial theorem is the sufficient direction. streadway/amqp and net/url are modelled from their sources as remembered; IPv6 zones are not. C127_escaped_reach_client: percent-encoded in the section, every user and password reaches the client, and C127_escapable: every one can be so encoded. C127_ip6_hosts: with an IPv6 address as the host, in brackets or not, the client connects to that address.",
 "C128": "REFUTED: it cuts the last character of every line, so the last packet of a file without a final line feed is never sent (ValueError), and it waits for an answer after each packet, so a response packet, which the receiver does not answer, makes it wait for ever. Proved: a file whose lines all end with a line feed and hold packets the receiver answers is sent completely, whatever pieces of the answers each recv returns.",
 "C129": "21 is exact (C129_bound_reached): a 21-byte packet makes the receiver save a position that consists of the decoder's zeros.",
 "C130": "REFUTED: rabbitmq (channel refused), postgresql (ping fails) and redis (no queue) leave one handle open that nothing in use knows. Exactly these half-open failures do; nats, nsq and tarantool never do.",
 "C131": "REFUTED in part: a rabbitmq channel that does not close keeps the connection open untried; Init on an open connector loses the former connection for ever. Proved: after a successful Init, Close returns no error exactly when all is released; after a failed one it cleans up; nothing is lost if Init is not called while something is open.",
 "C132": "REFUTED in part: after Stop Run goes on for ever, logging an error each turn; a Stop before Run reports success and stops nothing. The connections served are proved to be exactly those offered before Stop.",
 "C133": "REFUTED by a record whose flags say there is no object number while its OID field is 5: it is encoded, accepted and comes back with 0 (C133_decoded_as_given_refuted). C133_package_exactly, C133_records_exactly and C133_subrecords_exactly give the exact condition.",
 "C134": "REFUTED: with log_level WARN or ERROR and no storage section the receiver reports every record as saved, acknowledges it, and writes it nowhere (C134_records_in_log_refuted). C134_exported_exactly: a record is exported exactly if log_level is neither WARN nor ERROR.",
 "C135": "REFUTED: an accepted packet that holds a position and a confirmation of a record is neither stored nor acknowledged and leaves nothing at WARN level; a peer that does not speak EGTS is dropped with nothing at ERROR level (C135_nothing_lost_silently_refuted). C135_noted_exactly gives the lines at WARN level for every stream, C135_error_level those at ERROR level, C135_levels the logger's filter; C135_services_exactly gives the service lines at INFO level; C135_same_actions ties the log model to the server model. C135_info_exactly gives the whole log at INFO level.",
 "C136": "C136_logins_not_written: equal diaries (log lines and actions in order). Log lines are modelled without the peer's address and error texts; accepted packets only, so no error text depends on the login.",
 "C137": "REFUTED: every packet leaves its timer running for another conn_ttl (C137_one_timer_refuted: no bound). C137_timers_exactly lists the timers made and reset; C137_timers_partial gives the number at any time, up to the one that is being waited on: the packets whose header arrived within the last conn_ttl.",
 "C138": "REFUTED: after a clean end the connection is kept until conn_ttl after the last packet was dealt with (C138_released_at_once_refuted). C138_released_exactly: it is released at once exactly when the stream breaks, or ends inside a packet, or the last packet is conn_ttl ago.",
 "C139": "C139_taken_up gives the times at which packets are taken up and the actions of each; C139_no_delay: while the handler keeps up, the time is that of the last byte.",
 "C140": "C140_received_times for the instants, C140_received_in_order for the order of the texts; the clock is the one of Timed.v (an assumption: it is not set back).",
 "C142": "REFUTED: Write has no deadline, so a peer that takes R bytes of replies and sends one packet n times has R/29 + 1 of them stored, and the goroutine stays for ever (C142_unread_stored_refuted, every R and n). C142_unread_exactly is exact; partial: all is stored when the replies fit.",
 "C143": "REFUTED: the nsq connector documents `servers` and reads `server`, so its documented configuration connects to the empty address; the rabbitmq connector documents `exchange_type` and never reads it. C143_other_keys_ignored and C143_effective_exactly say exactly which settings take effect; that settings differ is meant at the calls of the client libraries (C121, C127 say what the libraries read from a DSN or URL).",
 "C144": "REFUTED: without -timeout (documented default 5) the deadline is the present moment and Read fails at once, so packet-gen never reports success; likewise from 9223372037 seconds on. C144_success_exactly and C144_waits_as_asked say what holds. The behaviour of a deadline that is not in the future is taken from Go's internal/poll.",
 "C145": "REFUTED: there is one Read; a reply whose first part arrives alone is judged by that part. C145_split_reply_exactly says which cuts are harmless.",
 "C146": "REFUTED: a connection that never logs in has all its positions stored and acknowledged. C146_login_changes_nothing and C146_credentials_unchecked say how little a login does (for every stream).",
 "C147": "REFUTED: a terminal that identifies itself in one packet and sends its position in the next is stored without IMEI. C147_identity_exactly gives the IMEI of every record of a stream.",
 "C148": "REFUTED: numbers out of range are sent modulo the size of their field (-pid 65536 sends packet 0), and every position is sent as northern and eastern (C148_never_south_or_west). C148_same_packet_exactly says which parameters send the same packet; C148_packet_bytes gives the packet byte for byte.",
 "C149": "REFUTED: C149_isolated_refuted (two storages, the first does not answer: whatever the number of packets, the second gets nothing, no packet is confirmed and the connection is never closed). C149_hung_exactly says exactly which records each storage gets, which replies are sent, and that the goroutine stays; C149_nothing_more: for storages that behave in any way, a call that does not return is as a failing call with nothing after it. C149_as_server: with storages that answer every call, Hang.v gives the events of the executions of Server.v.",
 "C151": "REFUTED: C151_only_reasons_refuted (null is read as 0 and any 32-bit number as itself, named or not, while the quoted text of an unnamed value is refused). C151_accepted_exactly gives every accepted text with its value, C151_text_read_back_exactly which texts of String come back, C151_panics_exactly the one input on which the method panics (no bytes).",
 "C152": "REFUTED for IPv6 hosts without brackets; C152_listens_as_configured_exactly and C152_listens_exactly say when it holds and what is listened on otherwise, C152_address_read_exactly that the model of net.SplitHostPort takes exactly host:port and [host]:port",
 "C153": "REFUTED for capitals and hyphens; C153_table_as_named_exactly says when it holds, C153_capitals_lowered and C153_quoted_as_named what happens otherwise and what can be done"
}