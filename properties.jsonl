{"id": "C01", "title": "Checksums are the standard CRCs", "statement": "The header checksum of any byte string is the remainder of polynomial division over GF(2) by x^8+x^5+x^4+1 with initial value 0xFF, and the body checksum is the remainder by x^16+x^12+x^5+1 with initial value 0xFFFF (CRC-16/CCITT-FALSE), so peers using the standard algorithm always agree with this library.", "quantifier": "every byte string of every length", "why_tests_cant": "Unit tests compare one check value ('123456789'); agreement is needed for every message.", "anchors": ["libs/egts/crc.go: crc8, crc16"]}
{"id": "C02", "title": "Burst errors always change the checksum", "statement": "If two byte strings of equal length differ only inside a window of at most 16 consecutive bits, their body checksums differ; if they differ only inside a window of at most 8 consecutive bits, their header checksums differ.", "quantifier": "every pair of byte strings differing by one burst, at every bit position", "why_tests_cant": "The number of messages, burst positions and burst patterns is unbounded.", "anchors": ["libs/egts/crc.go: crc8, crc16"]}
{"id": "C03", "title": "A packet whose body was damaged by a burst is never accepted", "statement": "If Package.Decode accepts a packet, then changing its body (services frame data) by any burst of at most 16 bits makes Package.Decode return an error or a non-zero result code, never success.", "quantifier": "every accepted packet, every burst inside its body", "why_tests_cant": "Requires all packets and all corruptions; tests sample none.", "anchors": ["libs/egts/egts_pkg.go: Package.Decode", "libs/egts/crc.go: crc16"]}
{"id": "C04", "title": "A packet with one damaged header byte is never accepted", "statement": "If Package.Decode accepts a packet, then changing any single header byte other than the flags byte and the header-length byte makes Package.Decode not succeed.  (The flags byte is excluded because its RTE bit moves the checksum's own position, the HL byte because it moves the end of the checksummed area.)", "quantifier": "every accepted packet, every header byte position, every replacement value", "why_tests_cant": "All packets x positions x values.", "anchors": ["libs/egts/egts_pkg.go: Package.Decode", "libs/egts/crc.go: crc8"]}
{"id": "C05", "title": "A body checksum failure is reported with the body-checksum code", "statement": "When the only defect of a packet is a wrong body checksum, Decode returns EGTS_PC_DATACRC_ERROR (138), so the sender can tell header corruption (137) from body corruption.", "quantifier": "every packet whose header is intact and whose body checksum is wrong", "why_tests_cant": "Needs every such packet.", "anchors": ["libs/egts/egts_pkg.go: Package.Decode (line 134)", "libs/egts/errors.go"]}
{"id": "C06", "title": "Acceptance is sound", "statement": "Whenever Package.Decode reports success, the header checksum byte equals the CRC-8 of the first HL-1 bytes, the two bytes after the frame equal the CRC-16 of the FDL bytes starting at HL, the packet type is 0 or 1, and every header field of the result is the little-endian value found at its documented offset.", "quantifier": "every byte string", "why_tests_cant": "Quantifies over all inputs, including hostile ones.", "anchors": ["libs/egts/egts_pkg.go: Package.Decode"]}
{"id": "C07", "title": "Decoding terminates on every input", "statement": "Package.Decode, ServiceDataSet.Decode and RecordDataSet.Decode return for every byte string: the parser recursion (record -> subrecord -> confirmation subrecord -> records ...), although records are padded with zeros to their declared length, is bounded by the length of the input.", "quantifier": "every byte string", "why_tests_cant": "Non-termination or unbounded recursion can only be excluded by an argument over all inputs.", "anchors": ["libs/egts/record_data.go: RecordDataSet.Decode", "libs/egts/service_data_records.go: ServiceDataSet.Decode", "libs/egts/egts_sr_response.go: SrResponse.Decode"]}
{"id": "C08", "title": "Package.Decode never panics", "statement": "Package.Decode returns a result code for every byte string; it never panics.", "quantifier": "every byte string and every slice capacity", "why_tests_cant": "Tests only feed well-formed packets.", "anchors": ["libs/egts/egts_pkg.go: Package.Decode (lines 104, 133)"]}
{"id": "C09", "title": "Record-level decoders never panic", "statement": "ServiceDataSet.Decode, RecordDataSet.Decode, PtResponse.Decode and all subrecord decoders return (a value or an error) for every byte string, without panicking.", "quantifier": "every byte string", "why_tests_cant": "All inputs.", "anchors": ["libs/egts/record_data.go", "libs/egts/service_data_records.go", "libs/egts/egts_sr_*.go", "libs/egts/egts_pt_response.go"]}
{"id": "C10", "title": "Truncated packets are rejected", "statement": "If Package.Decode accepts a packet, it accepts no proper prefix of it.", "quantifier": "every accepted packet, every cut point", "why_tests_cant": "All packets and cut points.", "anchors": ["libs/egts/egts_pkg.go: Package.Decode (crc16 read, line 128)"]}
{"id": "C11", "title": "Bytes after the packet do not influence decoding", "statement": "Appending arbitrary bytes after a complete packet changes neither the decoded structure nor the result code of Package.Decode.", "quantifier": "every complete packet and every suffix", "why_tests_cant": "Unbounded suffixes.", "anchors": ["libs/egts/egts_pkg.go: Package.Decode"]}
{"id": "C12", "title": "The result of Decode depends on the input only", "statement": "Decoding the same bytes into a fresh Package and into a previously used Package yields the same structure.", "quantifier": "every byte string, every prior content of the receiver", "why_tests_cant": "Tests always start from an empty struct.", "anchors": ["libs/egts/egts_pkg.go: Package.Decode (optional route fields)"]}
{"id": "C13", "title": "A record longer than the data that follows is rejected", "statement": "If a service data record declares a length that exceeds the bytes actually present, ServiceDataSet.Decode returns an error and fabricates no subrecord.", "quantifier": "every record header and every shorter tail", "why_tests_cant": "All lengths and tails.", "anchors": ["libs/egts/service_data_records.go: ServiceDataSet.Decode (lines 97-107)"]}
{"id": "C14", "title": "Package round trip", "statement": "Encoding any well-formed package (flag strings of the right width, frame of 1..65517 bytes) and decoding the bytes yields success and the same package with HL, FDL, HCS, SFRCS and the record/subrecord lengths filled in with the true values.", "quantifier": "every well-formed package, with any number and mix of records and subrecords", "why_tests_cant": "Unbounded number of records, subrecords and values.", "anchors": ["libs/egts/egts_pkg.go: Encode, Decode"]}
{"id": "C15", "title": "ServiceDataSet round trip", "statement": "Encoding any list of well-formed service data records (any number, any mix of optional OID/EVID/TM fields) and decoding the bytes yields the same list with record lengths filled in.", "quantifier": "every list of well-formed records", "why_tests_cant": "Unbounded lists, all 8 combinations of optional fields, all values.", "anchors": ["libs/egts/service_data_records.go: Encode, Decode"]}
{"id": "C16", "title": "RecordDataSet round trip", "statement": "Encoding any list of well-formed subrecords, with type code and length given or left zero, and decoding the bytes yields the same list, with type codes and lengths filled in.", "quantifier": "every list of well-formed subrecords of every supported type", "why_tests_cant": "Unbounded lists of 14 variants.", "anchors": ["libs/egts/record_data.go: Encode, Decode"]}
{"id": "C17", "title": "Confirmation round trip", "statement": "PtResponse encodes and decodes back to itself for every packet id, result code and optional record list; SrResponse and SrResultCode likewise.", "quantifier": "every response value", "why_tests_cant": "All ids, codes and record lists.", "anchors": ["libs/egts/egts_pt_response.go", "libs/egts/egts_sr_response.go", "libs/egts/egts_sr_result_code.go"]}
{"id": "C18", "title": "Position subrecord round trip", "statement": "For every EGTS_SR_POS_DATA value with speed <= 1638, 24-bit odometer and altitude, one-bit DIRH/ALTS and consistent direction byte, decoding the encoding returns all fields; coordinates and time come back as their quantised values.", "quantifier": "every such position value", "why_tests_cant": "Product of all field ranges.", "anchors": ["libs/egts/egts_sr_pos_data.go: Encode, Decode"]}
{"id": "C19", "title": "Coordinates survive transmission to within one quantum", "statement": "For every latitude in [0,90] (longitude in [0,180]) as a float64, encoding and decoding yields a value within 2.2e-8 (4.3e-8) degrees of the original; and every decoded latitude lies in [0,90], every decoded longitude in [0,180].", "quantifier": "every float64 coordinate in range; every 32-bit wire value", "why_tests_cant": "2^62 floats / 2^32 wire values under IEEE rounding.", "anchors": ["libs/egts/egts_sr_pos_data.go: lines 60,67,148,153"]}
{"id": "C20", "title": "Re-encoding a decoded coordinate gives the same 32-bit value", "statement": "For every 32-bit latitude (longitude) wire value v, Encode applied to the decoded coordinate writes v again.", "quantifier": "every 32-bit wire value", "why_tests_cant": "4 billion values under IEEE rounding and truncation.", "anchors": ["libs/egts/egts_sr_pos_data.go"]}
{"id": "C21", "title": "Navigation time is exact to the second", "statement": "Every wire time value decodes to exactly that many seconds after 2010-01-01T00:00:00Z and re-encodes to the same value; a time with a fractional second is encoded as its whole-second floor.", "quantifier": "every 32-bit wire time; every instant in the representable range", "why_tests_cant": "All 2^32 values and all nanosecond instants.", "anchors": ["libs/egts/egts_sr_pos_data.go: lines 51-52, 143"]}
{"id": "C22", "title": "Extended position round trip", "statement": "EGTS_SR_EXT_POS_DATA values decode back to themselves after encoding, for all 32 combinations of optional fields.", "quantifier": "every value", "why_tests_cant": "All flag combinations and values.", "anchors": ["libs/egts/egts_sr_ext_pos_data.go"]}
{"id": "C23", "title": "Discrete and analogue sensors round trip", "statement": "EGTS_SR_AD_SENSORS_DATA values decode back to themselves after encoding, for every combination of the 8 discrete and 8 analogue presence flags.", "quantifier": "every value, all 65536 flag combinations", "why_tests_cant": "Tests use the all-ones (palindromic) analogue mask only.", "anchors": ["libs/egts/egts_sr_ad_sensors_data.go"]}
{"id": "C24", "title": "Counters round trip", "statement": "EGTS_SR_COUNTERS_DATA values decode back to themselves after encoding, for every combination of the 8 presence flags.", "quantifier": "every value, all 256 flag combinations", "why_tests_cant": "The unit test uses counters 7 and 8 only.", "anchors": ["libs/egts/egts_sr_counters_data.go"]}
{"id": "C25", "title": "Terminal identity round trip", "statement": "EGTS_SR_TERM_IDENTITY values with IMEI of 15, IMSI of 16, language code of 3, NID of 3 and MSISDN of 15 bytes decode back to themselves for all combinations of optional fields.", "quantifier": "every value, all 256 flag combinations", "why_tests_cant": "All combinations of optional fields.", "anchors": ["libs/egts/egts_sr_term_identity.go"]}
{"id": "C26", "title": "Authentication info round trip", "statement": "EGTS_SR_AUTH_INFO values whose strings contain no NUL byte decode back to themselves, with or without the server sequence.", "quantifier": "all NUL-free strings of any length", "why_tests_cant": "Unbounded strings.", "anchors": ["libs/egts/egts_sr_auth_info.go"]}
{"id": "C27", "title": "Dispatcher identity round trip", "statement": "EGTS_SR_DISPATCHER_IDENTITY values decode back to themselves for any description bytes.", "quantifier": "all values, descriptions of any length", "why_tests_cant": "Unbounded strings.", "anchors": ["libs/egts/egts_sr_dispatcher_identity.go"]}
{"id": "C28", "title": "State data round trip", "statement": "EGTS_SR_STATE_DATA values decode back to themselves, also under subrecord type 20 with length 5.", "quantifier": "every value", "why_tests_cant": "All values.", "anchors": ["libs/egts/egts_sr_state_data.go", "libs/egts/record_data.go: SrType20"]}
{"id": "C29", "title": "Liquid level sensor round trip", "statement": "EGTS_SR_LIQUID_LEVEL_SENSOR values decode back to themselves; a sensor number that does not fit its 3-bit field is rejected by Encode rather than corrupting neighbouring flags.", "quantifier": "every value, every 8-bit sensor number", "why_tests_cant": "All values incl. out-of-range sensor numbers.", "anchors": ["libs/egts/egts_sr_liquid_level_sensor.go"]}
{"id": "C30", "title": "Absolute counter and absolute analogue sensor round trip", "statement": "EGTS_SR_ABS_CNTR_DATA and EGTS_SR_ABS_AN_SENS_DATA decode back to themselves for every 24-bit value; larger values are reduced modulo 2^24.", "quantifier": "every number/value pair", "why_tests_cant": "All values.", "anchors": ["libs/egts/egts_sr_abs_cntr_data.go", "libs/egts/egts_sr_abs_an_sensors_data.go"]}
{"id": "C31", "title": "Truncated optional fields are rejected", "statement": "A subrecord cut inside an optional field is rejected; no field value is assembled from bytes belonging to another field.", "quantifier": "every subrecord and every cut point", "why_tests_cant": "All cut points of all subrecords.", "anchors": ["libs/egts/egts_sr_counters_data.go", "libs/egts/egts_sr_ext_pos_data.go", "libs/egts/egts_sr_ad_sensors_data.go"]}
{"id": "C32", "title": "Length() is the length of Encode()", "statement": "For every subrecord, record set, service data set and response, Length() equals the number of bytes Encode() produces (modulo 2^16), or 0 if Encode() fails.", "quantifier": "every value", "why_tests_cant": "All values.", "anchors": ["libs/egts/*.go: Length"]}
{"id": "C33", "title": "Anything decoded can be encoded", "statement": "If Package.Decode accepts a packet, Package.Encode on the result succeeds (no error, no panic).", "quantifier": "every accepted byte string", "why_tests_cant": "All inputs.", "anchors": ["libs/egts/egts_pkg.go"]}
{"id": "C34", "title": "Decode followed by Encode reproduces the packet", "statement": "Re-encoding an accepted packet yields the original bytes.", "quantifier": "every accepted byte string", "why_tests_cant": "All inputs.", "anchors": ["libs/egts/egts_pkg.go"]}
{"id": "C35", "title": "Encode is repeatable", "statement": "Calling Encode twice on the same package yields the same bytes, and the lengths it leaves in the package describe the bytes produced.", "quantifier": "every package", "why_tests_cant": "All packages.", "anchors": ["libs/egts/egts_pkg.go: Encode"]}
{"id": "C36", "title": "Encode never emits a packet whose length field is wrong", "statement": "If Encode succeeds, the FDL field of the packet equals the number of body bytes that follow the header.", "quantifier": "every package, including frames above 65535 bytes", "why_tests_cant": "Unbounded frames.", "anchors": ["libs/egts/egts_pkg.go: Encode (line 187)"]}
{"id": "C37", "title": "Subrecord type codes can always be inferred", "statement": "RecordDataSet.Encode accepts every supported subrecord with SubrecordType left zero and writes its EGTS type code.", "quantifier": "every subrecord variant and value", "why_tests_cant": "All variants.", "anchors": ["libs/egts/record_data.go: Encode"]}
{"id": "C38", "title": "Server framing does not depend on TCP segmentation", "statement": "The sequence of packets processed, records saved and replies written on a connection depends only on the concatenated byte stream, not on how the network splits it.", "quantifier": "every byte stream and every way of splitting it into reads", "why_tests_cant": "Exponentially many segmentations.", "anchors": ["cli/receiver/server/server.go: handleConn, io.ReadFull"]}
{"id": "C39", "title": "One acknowledgement per packet, in order", "statement": "For every stream of complete application-data packets without confirmation subrecords, the server writes exactly one EGTS_PT_RESPONSE per packet, in arrival order, carrying that packet's id and result 0 (followed by one EGTS_SR_RESULT_CODE packet when the packet contained credentials).", "quantifier": "every stream of valid packets of any length", "why_tests_cant": "Unbounded histories.", "anchors": ["cli/receiver/server/server.go: handleConn"]}
{"id": "C40", "title": "Replies are valid EGTS packets naming every record", "statement": "The reply to every accepted application-data packet decodes successfully and contains, in order, one confirmation with status 0 for each record number of the packet; it never overflows its length fields.", "quantifier": "every accepted packet with any number of records (up to the 9362 that fit)", "why_tests_cant": "All record counts and numbers.", "anchors": ["cli/receiver/server/server.go: createPtResponse"]}
{"id": "C41", "title": "Every position is saved, once, in order", "statement": "For every accepted application-data packet without confirmation subrecords, exactly one record is handed to the storage if the packet holds at least one EGTS_SR_POS_DATA and none otherwise; its list of locations is exactly the positions of the packet in order, and its count is their number.", "quantifier": "every accepted packet", "why_tests_cant": "Any number and arrangement of records and subrecords.", "anchors": ["cli/receiver/server/server.go: handleConn lines 151-297", "README.md"]}
{"id": "C42", "title": "Data is handed to storage before the acknowledgement", "statement": "In every execution, the positive acknowledgement of a packet with positions is written only after the storage has been called for that packet.", "quantifier": "every stream and storage behaviour", "why_tests_cant": "All histories.", "anchors": ["cli/receiver/server/server.go: handleConn lines 293-304"]}
{"id": "C43", "title": "A positive acknowledgement means the data was stored", "statement": "If the server acknowledges a packet with result 0, all configured storages accepted its positions.", "quantifier": "every packet and every storage behaviour", "why_tests_cant": "Needs failing storages in every position.", "anchors": ["cli/receiver/server/server.go: handleConn lines 293-304", "cli/receiver/storage/store.go: Save"]}
{"id": "C44", "title": "Damaged packets never reach storage and keep the stream in sync", "statement": "A packet that Decode rejects causes no save and exactly one reply carrying the error code and the packet id as far as decoded; processing continues with the first byte after that packet.", "quantifier": "every stream, every position of a rejected packet", "why_tests_cant": "All streams.", "anchors": ["cli/receiver/server/server.go: handleConn lines 123-136"]}
{"id": "C45", "title": "Non-EGTS peers are disconnected silently", "statement": "If the first byte of a header is not 1, the connection is closed with no further reply and no save.", "quantifier": "every stream and position", "why_tests_cant": "All streams.", "anchors": ["cli/receiver/server/server.go: handleConn line 90"]}
{"id": "C46", "title": "Positions are stored under their own object", "statement": "Every location saved is stored with the object identifier of the record it came from.", "quantifier": "every packet with any number of records and object ids", "why_tests_cant": "All combinations of records.", "anchors": ["cli/receiver/server/server.go: line 165"]}
{"id": "C47", "title": "Stored coordinates identify the hemisphere", "statement": "Two packets whose positions differ only in hemisphere (LAHS/LOHS) lead to different stored coordinates.", "quantifier": "every position", "why_tests_cant": "All positions.", "anchors": ["cli/receiver/server/server.go: lines 197-202", "libs/egts/egts_sr_pos_data.go"]}
{"id": "C48", "title": "Packet numbers from counters 110 and 111 are combined correctly", "statement": "When a record carries counter 110 (three low bytes) and 111 (high byte) of the packet number, the saved packet id is high*2^24 + low.", "quantifier": "every pair of counter values", "why_tests_cant": "2^32 values.", "anchors": ["cli/receiver/server/server.go: lines 251-268"]}
{"id": "C49", "title": "No input crashes the server", "statement": "No sequence of bytes sent by a client makes the receiver process terminate.", "quantifier": "every byte stream", "why_tests_cant": "Hostile inputs are not in the tests.", "anchors": ["cli/receiver/server/server.go: handleConn", "libs/egts/egts_pkg.go: Decode"]}
{"id": "C50", "title": "Connections do not interfere", "statement": "The replies a client receives and the records saved for it depend only on its own bytes, whatever other connections do and however the goroutines are scheduled (as long as the process does not crash).", "quantifier": "every number of connections, every schedule, every storage behaviour", "why_tests_cant": "Exponentially many interleavings.", "anchors": ["cli/receiver/server/server.go: Run, handleConn"]}
{"id": "C51", "title": "Idle connections are closed after conn_ttl", "statement": "If no data arrives on a connection for conn_ttl seconds, the server closes it.", "quantifier": "every idle history", "why_tests_cant": "Time-dependent; tests do not wait.", "anchors": ["cli/receiver/server/server.go: connTimer lines 79-113", "README.md"]}
{"id": "C52", "title": "Repository.Save reaches every storage", "statement": "If no storage fails, Save hands the record to each configured storage exactly once, in order; if one fails, its error is returned, earlier storages keep the record, and later ones are not called.", "quantifier": "every list of storages and every failure pattern", "why_tests_cant": "All failure patterns.", "anchors": ["cli/receiver/storage/store.go: Repository.Save"]}
{"id": "C53", "title": "LoadStorages registers exactly the configured storages", "statement": "LoadStorages returns success only if the configuration is non-empty and every entry is a known, successfully initialised storage, and then the repository holds exactly one connector per entry; on failure the error is reported.  This holds for every iteration order of the configuration map.", "quantifier": "every configuration map and iteration order", "why_tests_cant": "Go randomises map order.", "anchors": ["cli/receiver/storage/store.go: LoadStorages"]}
{"id": "C54", "title": "Credentials are answered with a decodable result code", "statement": "The packet sent after EGTS_SR_AUTH_INFO or EGTS_SR_TERM_IDENTITY decodes (with this library) to a result code 0.", "quantifier": "every packet id", "why_tests_cant": "All ids.", "anchors": ["cli/receiver/server/server.go: createSrResultCode"]}
{"id": "C55", "title": "Confirmation packets are not acknowledged", "statement": "A valid EGTS_PT_RESPONSE received by the server triggers no reply and no save, so two gates connected to each other exchange finitely many packets after any stimulus.", "quantifier": "every confirmation packet", "why_tests_cant": "All packets and exchanges.", "anchors": ["cli/receiver/server/server.go: lines 312-314"]}
{"id": "C56", "title": "packet-gen and receiver agree", "statement": "For every packet id, object id, liquid level and coordinates in range, the packet built by packet-gen is accepted by the receiver, saved once with that object id, and the reply passes all of packet-gen's checks.", "quantifier": "all parameter values", "why_tests_cant": "All parameter values.", "anchors": ["cli/packet-gen/main.go", "cli/receiver/server/server.go"]}
{"id": "C57", "title": "packet-gen honours its parameters", "statement": "The -time parameter determines the navigation time sent, and the exit status is 0 exactly when the packet was acknowledged.", "quantifier": "all parameter values", "why_tests_cant": "All parameter values.", "anchors": ["cli/packet-gen/main.go: lines 80, 116, 224"]}
{"id": "C58", "title": "Sensor readings are saved exactly", "statement": "The analogue sensors saved for a packet are exactly the present analogue values of its EGTS_SR_AD_SENSORS_DATA and EGTS_SR_ABS_AN_SENS_DATA subrecords in order, and the liquid sensors saved are exactly its EGTS_SR_LIQUID_LEVEL_SENSOR subrecords in order with the value placed in the field for its unit.", "quantifier": "every accepted packet", "why_tests_cant": "Any arrangement of subrecords.", "anchors": ["cli/receiver/server/server.go: lines 216-287"]}
{"id": "C59", "title": "Stop ends Run", "statement": "After Stop closes the listener, Run returns.", "quantifier": "every history of accepts", "why_tests_cant": "Temporal property.", "anchors": ["cli/receiver/server/server.go: Run, Stop"]}
{"id": "C60", "title": "Configuration accessors", "statement": "GetListenAddress is host:port, GetEmptyConnTTL is conn_ttl seconds for every conn_ttl that fits, and GetLogLevel maps the four documented names and defaults to INFO.", "quantifier": "every settings value", "why_tests_cant": "All strings and ints.", "anchors": ["cli/receiver/config/config.go"]}
{"id": "C61", "title": "Each connection's records reach each storage in order", "statement": "In every execution, the records a storage receives from one connection are, in order, those of that connection's packets, whatever other connections do.", "quantifier": "every schedule, every set of connections and storages", "why_tests_cant": "Schedules are unbounded.", "anchors": ["cli/receiver/server/server.go: handleConn", "cli/receiver/storage/store.go: Save"]}
{"id": "C62", "title": "All storages see the same history", "statement": "All configured storages receive the records of all connections in the same order.", "quantifier": "every schedule", "why_tests_cant": "Needs particular interleavings of unlocked code.", "anchors": ["cli/receiver/storage/store.go: Save"]}
{"id": "C63", "title": "The configuration determines the active storages", "statement": "Two iteration orders of the same configuration map lead to the same set of active storages.", "quantifier": "every configuration and iteration order", "why_tests_cant": "Go map iteration order is random.", "anchors": ["cli/receiver/storage/store.go: LoadStorages", "cli/receiver/main.go"]}
{"id": "C64", "title": "redis works without a db setting", "statement": "A redis section without the db key selects database 0; any decimal db is used as given.", "quantifier": "every configuration string", "why_tests_cant": "All strings.", "anchors": ["cli/receiver/storage/store/redis/connector.go: Init"]}
{"id": "C65", "title": "A failing backend does not stop the receiver", "statement": "If the backend library reports an error on publishing, Save returns an error and the receiver goes on.", "quantifier": "every connector, every message, every failure", "why_tests_cant": "Failures of external systems at arbitrary moments.", "anchors": ["cli/receiver/storage/store/*/connector.go: Save"]}
{"id": "C66", "title": "Every connector delivers the serialised record to its configured destination", "statement": "For every accepted section, Save makes exactly one library call, with the configured address, credentials and queue, carrying exactly the bytes of ToBytes.", "quantifier": "every configuration, every record", "why_tests_cant": "All configurations.", "anchors": ["cli/receiver/storage/store/*/connector.go: Init, Save"]}
{"id": "C67", "title": "An empty section is refused", "statement": "Every connector refuses a nil configuration section before doing anything else.", "quantifier": "every connector", "why_tests_cant": "All connectors.", "anchors": ["cli/receiver/storage/store/*/connector.go: Init"]}
{"id": "C68", "title": "What is encoded is what is stored", "statement": "Any well-formed application-data package without confirmations, encoded by the library and received by the server, leads to one stored record with its positions (as quantised on the wire), sensors, object and packet number, and to an acknowledgement of all its records.", "quantifier": "every package", "why_tests_cant": "End to end over all packages.", "anchors": ["libs/egts/egts_pkg.go: Encode, Decode", "cli/receiver/server/server.go: handleConn"]}
{"id": "C69", "title": "packet-gen survives every reply", "statement": "No reply of the server makes packet-gen crash.", "quantifier": "every byte string received", "why_tests_cant": "All replies.", "anchors": ["cli/packet-gen/main.go: lines 177-224"]}
{"id": "C70", "title": "Distinct wire coordinates stay distinct and ordered", "statement": "Decoding maps larger wire values to strictly larger degrees, so no two wire coordinates are confused; encoding never reverses the order of two coordinates in range.", "quantifier": "every pair of 32-bit values / float64 numbers", "why_tests_cant": "2^64 pairs.", "anchors": ["libs/egts/egts_sr_pos_data.go: Decode, Encode"]}
{"id": "C71", "title": "Only finite, in-range coordinates reach storage", "statement": "Whatever bytes the clients send and however the connections are interleaved, every record handed to a storage has at least one location, and all its locations have finite latitude in [0,90], longitude in [0,180] and speed at most 1638.", "quantifier": "every input of every client, every schedule", "why_tests_cant": "All byte streams.", "anchors": ["cli/receiver/server/server.go: handleConn", "libs/egts/egts_sr_pos_data.go: Decode"]}
{"id": "C72", "title": "Coordinates out of range are refused by Encode", "statement": "Encoding a position with a negative, too large, infinite or NaN coordinate returns an error.", "quantifier": "every float64", "why_tests_cant": "All floats.", "anchors": ["libs/egts/egts_sr_pos_data.go: Encode"]}
{"id": "C73", "title": "Packets built by other implementations are read as the standard says", "statement": "Every packet laid out as the EGTS standard prescribes (header fields at their offsets, true lengths, CRC-8 and CRC-16, records and subrecords with each field at its byte and bit position) is accepted by Decode, which returns exactly the values at those positions, whatever bytes follow the packet. Counter 2 (C24) and position source data (C76) are excluded.", "quantifier": "every conforming packet, of any number of records and subrecords, and every suffix", "why_tests_cant": "Unit tests fix a handful of packets and compare with values produced by the same library.", "anchors": ["libs/egts/egts_pkg.go: Decode", "libs/egts/service_data_records.go: Decode", "libs/egts/record_data.go: Decode", "libs/egts/egts_sr_*.go: Decode"]}
{"id": "C74", "title": "Encode writes packets of the standard", "statement": "For every well-formed package, Encode writes a packet with every field at the byte and bit position the EGTS standard prescribes, so any conforming peer reads the same values (positions quantised, lengths and checksums filled in).", "quantifier": "every well-formed package, record and subrecord", "why_tests_cant": "A round trip through the same library cannot see an encoder and decoder that agree on a wrong layout.", "anchors": ["libs/egts/egts_pkg.go: Encode", "libs/egts/service_data_records.go: Encode", "libs/egts/record_data.go: Encode", "libs/egts/egts_sr_*.go: Encode"]}
{"id": "C75", "title": "The decoded heading is the heading on the wire", "statement": "After decoding a position, Direction is the heading the device sent, in degrees.", "quantifier": "every position subrecord", "why_tests_cant": "The loss depends on the heading: it shows only from 256 degrees on.", "anchors": ["libs/egts/egts_sr_pos_data.go: Decode, Direction, DirectionHighestBit"]}
{"id": "C76", "title": "Source data after a position does not change it", "statement": "A position subrecord followed by the optional source data field decodes to the same values as without it.", "quantifier": "every position subrecord and every source data", "why_tests_cant": "Depends on the ALTE flag and on the source data bytes.", "anchors": ["libs/egts/egts_sr_pos_data.go: Decode"]}
{"id": "C77", "title": "No complete subrecord is refused", "statement": "A subrecord of a supported fixed-layout type that is at least as long as its own flags require decodes without error, whatever its field values.", "quantifier": "every byte string and every subrecord type with a fixed layout (1, 5, 9, 16-19, 21, 24, 25, 27)", "why_tests_cant": "All flag combinations and field values.", "anchors": ["libs/egts/record_data.go: Decode", "libs/egts/egts_sr_*.go: Decode"]}
{"id": "C78", "title": "Stored times are the instants sent", "statement": "The time text stored with a position is the RFC 3339 text (YYYY-MM-DDThh:mm:ssZ, Gregorian calendar with leap years) of exactly the instant given by the subrecord's first four bytes, seconds since 2010-01-01T00:00:00Z; and navigation_unix_time of every stored record is the Unix time of its last position.", "quantifier": "every position subrecord, and every record handed to any storage in every execution with arbitrary clients, storages and schedules", "why_tests_cant": "2^32 instants over 136 years with leap-year exceptions (2100), and every execution.", "anchors": ["libs/egts/egts_sr_pos_data.go: Decode", "cli/receiver/server/server.go: handleConn", "cli/receiver/storage/packet.go: LocState"]}
{"id": "C79", "title": "Stored time texts sort chronologically", "statement": "Comparing the stored time texts of two positions byte by byte orders them exactly as the instants sent; distinct instants never share a text.", "quantifier": "every pair of position subrecords", "why_tests_cant": "2^64 pairs.", "anchors": ["cli/receiver/server/server.go: handleConn (NavigationDt)", "libs/egts/egts_sr_pos_data.go: Decode"]}
{"id": "C80", "title": "Every stored record serialises to its document", "statement": "Every record handed to a storage serialises without error, and a JSON reader finds in the bytes exactly the record's fields: the documented keys in order, each with its value (invalid UTF-8 shown as U+FFFD, an empty sensor list as null).", "quantifier": "every execution with arbitrary clients, storages and schedules, every record handed over, every reception time", "why_tests_cant": "Depends on every coordinate and sensor value being finite and on every byte of every string being escaped correctly.", "anchors": ["cli/receiver/storage/packet.go: NavRecord.ToBytes", "cli/receiver/server/server.go: handleConn"]}
{"id": "C81", "title": "The terminal identifier reaches the storage unchanged", "statement": "The IMEI in the stored document is the IMEI the terminal sent.", "quantifier": "every execution and every record handed to a storage", "why_tests_cant": "All byte strings as identifiers.", "anchors": ["cli/receiver/storage/packet.go: NavRecord.ToBytes", "libs/egts/egts_sr_term_identity.go: Decode", "cli/receiver/server/server.go: handleConn"]}
{"id": "C82", "title": "The lists in a document are arrays", "statement": "loc_states, an_sensors and liquid_sensors are JSON arrays with one element per reading, and loc_states_count is the length of loc_states.", "quantifier": "every execution and every record handed to a storage", "why_tests_cant": "Every packet content.", "anchors": ["cli/receiver/storage/packet.go: NavRecord.ToBytes", "cli/receiver/server/server.go: handleConn"]}
{"id": "C83", "title": "The document identifies the record", "statement": "Two records handed to storages that have the same document are the same record, if their identifiers are valid UTF-8.", "quantifier": "every pair of records of any two executions", "why_tests_cant": "Injectivity over all pairs of records.", "anchors": ["cli/receiver/storage/packet.go: NavRecord.ToBytes"]}
{"id": "C84", "title": "A storage fails only when its backend does", "statement": "If Save of a connector does not succeed on a record the receiver hands it, then it made its library call with the record's document and the library refused it; the gate itself never makes a Save fail.", "quantifier": "every connector, every behaviour of the client library over time, every execution", "why_tests_cant": "Arbitrary library behaviour and executions.", "anchors": ["cli/receiver/storage/packet.go: NavRecord.ToBytes", "cli/receiver/storage/store/*/connector.go: Save", "cli/receiver/storage/default.go: Save"]}
{"id": "C85", "title": "Start-up follows the configuration", "statement": "Without a configuration path or with an unreadable configuration the receiver exits; otherwise it serves host:port with the configured time-to-live, using the storages of the sections that open up to the first that does not (in the iteration order of the map), plus the log storage exactly when some section does not open or there is none; it never serves without a storage.", "quantifier": "every configuration, iteration order and outcome of opening the backends", "why_tests_cant": "All configurations and iteration orders.", "anchors": ["cli/receiver/main.go", "cli/receiver/storage/store.go: LoadStorages", "cli/receiver/config/config.go"]}
{"id": "C86", "title": "End to end: each reported position reaches each configured destination once", "statement": "With sections that all open and backends that accept everything, what a configured section receives from a client is, in order, one call to its configured destination with a valid JSON document of the positions and readings for each packet that reports positions, and nothing for the other packets.", "quantifier": "every configuration, every set of clients sending well-framed packets on which Decode returns, every segmentation and interleaving", "why_tests_cant": "Quantifies over configurations, packet streams and schedules.", "anchors": ["cli/receiver/main.go", "cli/receiver/server/server.go", "cli/receiver/storage/store.go", "cli/receiver/storage/store/*/connector.go", "cli/receiver/storage/packet.go", "libs/egts"]}
{"id": "C87", "title": "An acknowledged position was handed to the configured backends", "statement": "When the receiver acknowledges a packet, the positions in it have been handed to every configured backend.", "quantifier": "every configuration, execution and moment", "why_tests_cant": "Every interleaving and configuration.", "anchors": ["cli/receiver/main.go", "cli/receiver/storage/store.go: LoadStorages", "cli/receiver/server/server.go"]}
{"id": "C88", "title": "A short burst of damage anywhere in a packet is detected", "statement": "If Package.Decode accepts a whole packet whose header-length byte is the true one, it returns an error on the same packet with any burst of at most 8 consecutive bits inverted anywhere (header, frame, either checksum, or across their boundaries) that spares the header-length byte and the RTE flag; after the header any burst of at most 12 bits is detected, and 13 can go unnoticed.", "quantifier": "every accepted packet, every burst position and pattern, every slice capacity and prior receiver content", "why_tests_cant": "All packets, positions and patterns; bursts across the boundary of data and checksum are not covered by the usual CRC argument because the sum is stored little-endian.", "anchors": ["libs/egts/egts_pkg.go: Package.Decode", "libs/egts/crc.go: crc8, crc16"]}
{"id": "C89", "title": "A damaged packet costs only itself", "statement": "If one packet of a stream is damaged by a short burst that leaves its first byte and its declared lengths intact, everything done with the packets before and after it is unchanged, and the damaged packet gets exactly one negative acknowledgement and saves nothing.", "quantifier": "every stream, every damaged packet in it, every burst, every continuation of the stream (also garbage)", "why_tests_cant": "All streams and damages.", "anchors": ["cli/receiver/server/server.go: handleConn"]}
{"id": "C90", "title": "The receiver's reaction to every byte stream", "statement": "On any byte stream at all the handler cuts units by the declared lengths (with 16-bit wrap-around), answers every unit on its own, and stops exactly when the stream ends, a unit does not begin with 1, or Decode panics.", "quantifier": "every byte string, segmentation and way of ending", "why_tests_cant": "Quantifies over all byte strings, not only packet sequences.", "anchors": ["cli/receiver/server/server.go: handleConn"]}
{"id": "C91", "title": "Which clients can stop the process", "statement": "With storages that do not panic, the process can be stopped iff some client sends a stream in which a unit on which Decode panics is reached; and then every schedule giving that client enough turns stops it.", "quantifier": "every set of clients, storages and schedules", "why_tests_cant": "All schedules and inputs.", "anchors": ["cli/receiver/server/server.go: Run, handleConn", "libs/egts/egts_pkg.go: Package.Decode"]}
{"id": "C92", "title": "Which truncations are accepted", "statement": "A proper prefix of an accepted packet is accepted exactly when only the last byte is missing and that byte is 0.", "quantifier": "every accepted packet with the true header length, every cut point, every receiver and capacity", "why_tests_cant": "All packets and cut points.", "anchors": ["libs/egts/egts_pkg.go: Package.Decode (crc16 read, line 128)"]}
{"id": "C93", "title": "What a used Package contributes to Decode", "statement": "Decoding into a Package that held another packet gives the same result as into a fresh one, except that when the packet has no routing the three routing fields keep their former values.", "quantifier": "every input accepted by a fresh Package, every prior content", "why_tests_cant": "All prior states.", "anchors": ["libs/egts/egts_pkg.go: Package.Decode (optional route fields)"]}
{"id": "C94", "title": "A damaged length field costs only the damaged packet", "statement": "If the frame-length field of a packet is damaged by a short burst, the receiver refuses that packet and handles the packets after it as if nothing had happened.", "quantifier": "every packet, every damage to its length field, every continuation", "why_tests_cant": "All streams and damages.", "anchors": ["cli/receiver/server/server.go: handleConn (the length is used before the header checksum is verified)"]}
{"id": "C95", "title": "packet-gen announces success exactly on a positive reply to its own packet", "statement": "packet-gen prints its success message iff all required flags are given and the reply is a packet Decode accepts, a response for the packet id it sent with result 0, with a record list in which every confirmation has status 0; a refusal by this server is reported as failure.", "quantifier": "every parameters, every reply (arbitrary bytes)", "why_tests_cant": "All replies.", "anchors": ["cli/packet-gen/main.go: main"]}
{"id": "C96", "title": "packet-gen's success means the record was confirmed", "statement": "When packet-gen announces success, the reply confirms the record it sent.", "quantifier": "every parameters, every reply", "why_tests_cant": "All replies.", "anchors": ["cli/packet-gen/main.go: main (ack loop)"]}
{"id": "C97", "title": "The JSON of a package describes it", "statement": "ToBytes on a package that Decode accepted succeeds, except when an EGTS-PLUS message in it cannot be written as JSON (a NaN fuel level, say); a JSON reader then finds in the text every header field, record and subrecord with its value under its tag, bytes as base64 and the navigation time as an RFC 3339 instant, and nothing else.", "quantifier": "every accepted byte sequence, receiver and slice capacity", "why_tests_cant": "All packages; all texts needing escapes.", "anchors": ["libs/egts/egts_pkg.go: ToBytes", "libs/egts/*.go: json tags"]}
{"id": "C98", "title": "The JSON of a package identifies it", "statement": "Two accepted packages with the same JSON text are equal field by field.", "quantifier": "every pair of accepted packages", "why_tests_cant": "All pairs.", "anchors": ["libs/egts/egts_pkg.go: ToBytes"]}
{"id": "C99", "title": "Replies cannot start a reply storm", "statement": "Every packet the receiver sends is well framed and kills no receiver; fed back to a receiver in any segmentation, the sent packets draw at most one answer each, all rejections without confirmations, and feeding those back draws no answer and stores nothing.", "quantifier": "every set of connections, byte streams, storages, schedules and segmentations", "why_tests_cant": "All streams and schedules; a loop needs two exchanges over arbitrary replies.", "anchors": ["cli/receiver/server/server.go: handleConn", "libs/egts/egts_pkg.go: Decode"]}
{"id": "C100", "title": "EGTS-PLUS records round-trip", "statement": "Encode of a StorageRecord whose required fields are set succeeds and Decode of the result returns the same record: every field, every list in order, and the unrecognised bytes.", "quantifier": "every StorageRecord a program can hold (all field combinations, list lengths, unrecognised fields)", "why_tests_cant": "Unbounded lists, nested messages and unknown fields.", "anchors": ["libs/egts/egts_sr_egtsplus_data.go: StorageRecord, Decode, Encode"]}
{"id": "C101", "title": "EGTS-PLUS Decode reads exactly the wire format", "statement": "StorageRecord.Decode accepts exactly the byte strings that are well-formed protobuf messages setting the required fields, and returns what they say: last occurrence of a singular field, all occurrences of repeated ones (packed or not), the rest kept as unrecognised. A byte string says one thing only.", "quantifier": "every byte sequence", "why_tests_cant": "All byte strings; non-canonical encodings, wrong wire types, groups.", "anchors": ["libs/egts/egts_sr_egtsplus_data.go: StorageRecord, Decode, Encode"]}
{"id": "C102", "title": "EGTS-PLUS required fields", "statement": "Encode fails exactly when the record number, time or presence flags are missing, and Decode never returns a record without them.", "quantifier": "every record, every byte sequence", "why_tests_cant": "All messages.", "anchors": ["libs/egts/egts_sr_egtsplus_data.go: StorageRecord, Decode, Encode"]}
{"id": "C103", "title": "EGTS-PLUS decoded records can be encoded", "statement": "Whatever Decode accepts, Encode encodes, to bytes that decode to the same record; different records have different encodings.", "quantifier": "every byte sequence, every pair of records", "why_tests_cant": "All inputs.", "anchors": ["libs/egts/egts_sr_egtsplus_data.go: StorageRecord, Decode, Encode"]}
{"id": "C104", "title": "EGTS-PLUS unknown fields survive", "statement": "Fields outside the schema, at the top or inside a sensor message, come back from Decode and Encode with the same number, wire type and value bytes, in the same order.", "quantifier": "every accepted byte sequence", "why_tests_cant": "All unknown fields, nested groups included.", "anchors": ["libs/egts/egts_sr_egtsplus_data.go: StorageRecord, Decode, Encode"]}
{"id": "C105", "title": "EGTS-PLUS field order does not matter", "statement": "Two messages with the same fields in another order (fields of one number in the same relative order, unknown ones too) decode to the same record.", "quantifier": "every pair of byte sequences", "why_tests_cant": "All permutations.", "anchors": ["libs/egts/egts_sr_egtsplus_data.go: StorageRecord, Decode, Encode"]}
{"id": "C106", "title": "With the real protobuf library every accepted packet encodes", "statement": "Whatever Package.Decode accepts, EGTS-PLUS subrecords included, Package.Encode encodes.", "quantifier": "every byte sequence, receiver and slice capacity", "why_tests_cant": "All packets.", "anchors": ["libs/egts/egts_sr_egtsplus_data.go: StorageRecord, Decode, Encode", "libs/egts/egts_pkg.go: Decode, Encode"]}
{"id": "C107", "title": "The JSON of an EGTS-PLUS message describes it", "statement": "json.Marshal of a decoded EGTS-PLUS message succeeds exactly when every fuel level in it is a finite number; a JSON reader then finds every field the message has, sensor by sensor, under its own name and with its own value, and no other field.", "quantifier": "every byte sequence that decodes", "why_tests_cant": "All messages, all 27 kinds of sensor data.", "anchors": ["libs/egts/egts_sr_egtsplus_data.go: StorageRecord and the Sens* structs (json tags)"]}
{"id": "C108", "title": "The JSON of an EGTS-PLUS message identifies it", "statement": "Two decoded messages with the same JSON text are equal.", "quantifier": "every pair of decoded messages", "why_tests_cant": "All pairs.", "anchors": ["libs/egts/egts_sr_egtsplus_data.go: StorageRecord and the Sens* structs (json tags)"]}
{"id": "C109", "title": "Package JSON with EGTS-PLUS messages", "statement": "ToBytes on a package that Decode accepted fails exactly when some EGTS-PLUS message in it has a fuel level that is not a finite number; otherwise the text describes the package, its EGTS-PLUS messages field by field included, and (up to what C98 and C108 except) identifies it.", "quantifier": "every accepted byte sequence, receiver and slice capacity", "why_tests_cant": "All packages.", "anchors": ["libs/egts/egts_pkg.go: ToBytes", "libs/egts/egts_sr_egtsplus_data.go: StorageRecord and the Sens* structs (json tags)"]}
{"id": "C110", "title": "EGTS-PLUS truncation", "statement": "A prefix of a decodable EGTS-PLUS message is decoded exactly when it ends between two fields and contains the required ones; a message cut inside a field is refused.", "quantifier": "every decodable byte sequence and every cut", "why_tests_cant": "All messages and cut points.", "anchors": ["libs/egts/egts_sr_egtsplus_data.go: StorageRecord, Decode"]}
{"id": "C111", "title": "EGTS-PLUS concatenation", "statement": "Two EGTS-PLUS messages one after the other decode as one message: single values from the second, reasons, sensors and unknown fields of the first followed by those of the second.", "quantifier": "every pair of decodable byte sequences", "why_tests_cant": "All pairs.", "anchors": ["libs/egts/egts_sr_egtsplus_data.go: StorageRecord, Decode"]}
{"id": "C112", "title": "The receiver is no amplifier", "statement": "Whatever a peer sends, the receiver writes at most three bytes back for every byte received from it, and performs at most one write or save for every six bytes.", "quantifier": "every set of connections, every byte stream, every schedule, every storage behaviour", "why_tests_cant": "All streams; hostile ones are the point.", "anchors": ["cli/receiver/server/server.go: handleConn"]}
{"id": "C113", "title": "The code Decode returns", "statement": "For every input, Package.Decode's result is the one of a fixed table: 131 if the header is incomplete, 137 if a checksum is wrong, 132 if nothing follows the header, 133 if the packet type is unknown, 129 if the frame is incomplete or malformed or nothing follows it, a panic if a checksummed area lies outside the slice, 0 otherwise; the first defect in the order header, type, frame, body checksum decides.", "quantifier": "every byte slice and capacity, every receiver", "why_tests_cant": "All inputs; the receiver sends the code to the peer.", "anchors": ["libs/egts/egts_pkg.go: Decode", "libs/egts/errors.go"]}
{"id": "C114", "title": "Decode accepts what Encode produces", "statement": "The bytes Package.Encode returns without error are accepted by Package.Decode.", "quantifier": "every package with documented header values", "why_tests_cant": "All packages, including those nobody builds on purpose.", "anchors": ["libs/egts/egts_pkg.go: Encode, Decode"]}
{"id": "C115", "title": "Decoding needs memory proportional to the packet", "statement": "While decoding a packet the library holds data buffers of a size proportional to the packet, with a small factor.", "quantifier": "every byte slice", "why_tests_cant": "The worst case is a nested, inconsistent packet; no test suite contains it.", "anchors": ["libs/egts/service_data_records.go: Decode", "libs/egts/record_data.go: Decode", "libs/egts/egts_sr_response.go: Decode", "libs/egts/egts_pkg.go: Decode"]}
{"id": "C116", "title": "Flag strings are encoded as given or refused", "statement": "The bit flags of packages, records and subrecords are strings; Encode either writes every one of them, digit for digit, into its bits of the flag byte, or returns an error.", "quantifier": "every package, record and subrecord, with any strings in the flag fields", "why_tests_cant": "Arbitrary strings: empty, too long, not binary, and every combination of them.", "anchors": ["libs/egts/egts_pkg.go: Encode", "libs/egts/service_data_records.go: Encode", "libs/egts/egts_sr_term_identity.go: Encode", "libs/egts/egts_sr_pos_data.go: Encode", "libs/egts/egts_sr_ad_sensors_data.go: Encode"]}
{"id": "C117", "title": "A subrecord that Encode accepts is decoded as given", "statement": "If a subrecord's Encode returns bytes without an error, decoding these bytes gives the subrecord back.", "quantifier": "every subrecord of every type with values its Go fields can hold", "why_tests_cant": "All values of all fields, including strings of any length.", "anchors": ["libs/egts/egts_sr_term_identity.go: Encode, Decode", "libs/egts/record_data.go: Decode", "libs/egts/egts_sr_counters_data.go", "libs/egts/egts_sr_auth_info.go"]}
{"id": "C118", "title": "A used structure decodes like a new one", "statement": "Decoding a subrecord, a confirmation or a set of records into a structure that has been decoded into before gives what decoding into a new structure gives.", "quantifier": "every subrecord type, every previous content of the structure, every byte slice", "why_tests_cant": "The previous content is an arbitrary second input.", "anchors": ["libs/egts/egts_sr_pos_data.go: Decode", "libs/egts/egts_sr_ext_pos_data.go: Decode", "libs/egts/egts_sr_term_identity.go: Decode", "libs/egts/egts_sr_counters_data.go: Decode", "libs/egts/egts_sr_ad_sensors_data.go: Decode", "libs/egts/egts_sr_auth_info.go: Decode", "libs/egts/egts_pt_response.go: Decode", "libs/egts/record_data.go: Decode"]}
{"id": "C119", "title": "What the configuration file says takes effect", "statement": "Every parameter written in the configuration file takes effect, or the receiver refuses to start; a file is accepted exactly if every documented parameter in it has a value of its kind, and then the listen address, the time to live, the log level and the storage sections are what the file says under the documented names.", "quantifier": "every configuration document (tree of mappings, sequences and scalars), including misspelt and repeated keys, wrong types and missing parameters", "why_tests_cant": "Arbitrary documents; config_test.go loads one file.", "anchors": ["cli/receiver/config/config.go: New, Settings", "cli/receiver/main.go: main", "configs/receiver.yaml", "README.md"]}
{"id": "C120", "title": "Every configuration can be written in a file", "statement": "For all values of host, port, time to live (64 bits), log level and storage sections there is a configuration file with which config.New returns exactly these; two files that agree under the documented names configure the same address, time to live and log level.", "quantifier": "every value of config.Settings; every pair of accepted documents", "why_tests_cant": "All values and all documents.", "anchors": ["cli/receiver/config/config.go: New, Settings"]}
{"id": "C121", "title": "The PostgreSQL settings reach the driver", "statement": "The database server is addressed with exactly the database, host, port, user, password and sslmode given in the postgresql section, whatever characters they contain.", "quantifier": "every postgresql section (all ASCII values of the six settings, empty ones included)", "why_tests_cant": "All strings; no test connects to a database with other than plain settings.", "anchors": ["cli/receiver/storage/store/postgresql/connector.go: Init"]}
{"id": "C122", "title": "Header options are respected", "statement": "A packet whose header marks the body as encrypted or compressed is not read as plain records, and a packet addressed to another node is not consumed.", "quantifier": "every header option (key, prefix, route, encryption, compression, priority, encoding, addresses, time to live), packet type, number and body", "why_tests_cant": "the claim ranges over all bodies and all combinations of the option fields", "anchors": ["libs/egts/egts_pkg.go:Package.Decode", "cli/receiver/server/server.go:handleConn"]}
{"id": "C123", "title": "Only valid positions are stored", "statement": "A position that the device marks as invalid (VLD = 0) is not stored as if it were valid: packets that differ in the validity flag are not stored alike.", "quantifier": "every accepted packet", "why_tests_cant": "ranges over all packets", "anchors": ["cli/receiver/server/server.go:handleConn", "libs/egts/egts_sr_pos_data.go:SrPosData"]}
{"id": "C124", "title": "A retransmitted packet is stored once", "statement": "When a device sends a packet again, its positions are stored once.", "quantifier": "every packet, number of copies and segmentation", "why_tests_cant": "ranges over histories of any length", "anchors": ["cli/receiver/server/server.go:handleConn"]}
{"id": "C125", "title": "Records are confirmed under their own service", "statement": "The acknowledgement confirms each record under the service the record names.", "quantifier": "every accepted packet", "why_tests_cant": "ranges over all packets and record counts", "anchors": ["cli/receiver/server/server.go:handleConn", "cli/receiver/server/server.go:createPtResponse"]}
{"id": "C126", "title": "Replies have packet numbers of their own", "statement": "The packets the receiver sends on a connection bear different packet numbers.", "quantifier": "every packet and every pair of replies", "why_tests_cant": "ranges over all packets", "anchors": ["cli/receiver/server/server.go:createPtResponse", "cli/receiver/server/server.go:createSrResultCode"]}
{"id": "C127", "title": "RabbitMQ settings reach the client", "statement": "With a rabbitmq section configured, the broker is contacted at the configured host and port with the configured user name and password, whatever characters they contain.", "quantifier": "every configuration section (user, password, host, port)", "why_tests_cant": "ranges over all strings", "anchors": ["cli/receiver/storage/store/rabbitmq/connector.go:Connector.Init"]}
{"id": "C128", "title": "The replay script sends its whole file", "statement": "tools/send_egts.py, given a file of packets in hexadecimal, one per line, and connected to the receiver, sends every packet of the file in order and ends.", "quantifier": "every file of packets that the receiver reads without crashing, every way in which the answers arrive", "why_tests_cant": "ranges over all files and all schedules of the replies", "anchors": ["tools/send_egts.py", "cli/receiver/server/server.go:handleConn"]}
{"id": "C129", "title": "What a peer can make the receiver store is bounded", "statement": "Whatever a peer sends, the records saved for it hold at most one position for every 21 bytes received from it, and at most one value of any kind (position, analogue reading, liquid level) for every two bytes.", "quantifier": "every set of connections, every byte stream, every schedule, every storage behaviour", "why_tests_cant": "ranges over all byte streams and schedules", "anchors": ["cli/receiver/server/server.go:handleConn", "libs/egts/record_data.go:RecordDataSet.Decode", "libs/egts/service_data_records.go:ServiceDataSet.Decode"]}
{"id": "C130", "title": "A storage that cannot be opened leaves nothing open", "statement": "After start-up every open backend connection belongs to a storage in use: a section whose opening fails leaves no connection, pool or client behind.", "quantifier": "every configuration, iteration order and behaviour of the backends", "why_tests_cant": "All configurations and failure points of the client libraries.", "anchors": ["cli/receiver/storage/store.go: LoadStorages", "cli/receiver/storage/store/*/connector.go: Init"]}
{"id": "C131", "title": "Close releases what Init acquired", "statement": "Close of a connector closes everything its Init opened, and tells whether it did; used with Init and Close in any order, a connector never loses a connection.", "quantifier": "every storage kind, section, library behaviour and history of calls on one connector", "why_tests_cant": "All failure points and call histories.", "anchors": ["cli/receiver/storage/store/*/connector.go: Init, Close"]}
{"id": "C132", "title": "Run serves every connection until Stop, and Stop ends it", "statement": "Once listening, exactly the connections offered before Stop are served, in order, whatever accepts fail in between; Stop makes Run return, also when called before Run.", "quantifier": "every interleaving of Run and Stop, every outcome of Listen, Accept and Close", "why_tests_cant": "All schedules.", "anchors": ["cli/receiver/server/server.go: Run, Stop"]}
{"id": "C133", "title": "What Encode writes is decoded as it was given", "statement": "If Encode returns bytes for a package whose length and type fields are either right or left zero, Decode of those bytes returns code 0 and a package equal field by field to the one that was encoded, except that lengths and checksums are filled in.", "quantifier": "all packages with documented header values, all record sets and subrecords in them, whatever memory follows the bytes", "why_tests_cant": "The package space is unbounded: any number of records and subrecords of any kind, each with its own flag strings and optional numbers.", "anchors": ["libs/egts/egts_pkg.go: Encode, Decode", "libs/egts/service_data_records.go: Encode, Decode", "libs/egts/record_data.go: Encode, Decode", "libs/egts/egts_pt_response.go: Encode, Decode"]}
{"id": "C134", "title": "Without a storage the records are in the log", "statement": "If no configured storage can be opened, or none is configured, the receiver still runs and every record it reports as saved is written to its log.", "quantifier": "all configurations, all records", "why_tests_cant": "It depends on the interplay of the log level, the storage sections and the default connector for every configuration.", "anchors": ["cli/receiver/storage/default.go: LogConnector.Save", "cli/receiver/config/config.go: GetLogLevel", "cli/receiver/main.go: main"]}
{"id": "C135", "title": "Nothing is lost silently", "statement": "Every packet whose positions are not stored, every failed save and every connection dropped by the receiver leaves a line in its log, at every log level that can be configured.", "quantifier": "all byte streams, segmentations, endings and outcomes of the storages", "why_tests_cant": "The log of a connection depends on the whole stream and on what the storages answer.", "anchors": ["cli/receiver/server/server.go: handleConn"]}
{"id": "C136", "title": "Logins are not written down", "statement": "User names and passwords that devices send in EGTS_SR_AUTH_INFO are neither logged at any level, nor stored, nor echoed: peers whose packets differ only in them cause the same log lines, saved records and replies.", "quantifier": "all pairs of packet sequences that differ only in the logins, all segmentations and outcomes of the storages", "why_tests_cant": "A statement about pairs of executions; tests look at single ones.", "anchors": ["cli/receiver/server/server.go: handleConn"]}
{"id": "C137", "title": "A connection costs at most one timer", "statement": "However many packets arrive on a connection, the server keeps at most one timer running for it, so timers cannot accumulate.", "quantifier": "every timed stream of packets, every processing time, every conn_ttl and every moment", "why_tests_cant": "Depends on the times of all earlier packets; a test does not count the runtime's timers.", "anchors": ["cli/receiver/server/server.go: handleConn lines 72-116 (connTimer)"]}
{"id": "C138", "title": "A connection whose peer has gone is released", "statement": "When the peer closes its side, the server closes the connection as soon as it has dealt with everything that was received.", "quantifier": "every timed stream, every processing time, every conn_ttl", "why_tests_cant": "Time-dependent, and ranges over all places at which a stream can end.", "anchors": ["cli/receiver/server/server.go: handleConn lines 81-116"]}
{"id": "C139", "title": "Packets of a connection are handled in order, each as soon as it is complete", "statement": "The server takes up each packet the moment its last byte has arrived and it is done with the packet before, without waiting for anything sent later, and does with it what it would do with that packet alone.", "quantifier": "every timed stream of packets, in any segmentation and with any pauses, every processing time", "why_tests_cant": "Ranges over all timings of all bytes.", "anchors": ["cli/receiver/server/server.go: handleConn lines 72-316"]}
{"id": "C140", "title": "received_dt is the time of receipt and never goes back along a connection", "statement": "The received_dt of a stored record is the RFC 3339 text (UTC, whole seconds) of the moment its packet was complete and the server free to take it up; the texts of one connection, compared byte by byte, never decrease in the order in which its records are stored.", "quantifier": "every timed stream of packets in any segmentation, every processing time, every moment from 2010 to 2146 on a clock that is not set back", "why_tests_cant": "Ranges over all timings and all instants of the calendar.", "anchors": ["cli/receiver/server/server.go: handleConn line 120 (ReceivedDt)", "cli/receiver/storage/packet.go: NavRecord"]}
{"id": "C141", "title": "A reply that cannot be sent costs no data", "statement": "However many of the receiver's replies cannot be delivered (the connection is reset for writing, the peer is gone), the records handed to storage, their order and the way the connection ends are the same as if every reply had arrived; the positions of every accepted packet of the stream are stored even if no reply gets through.", "quantifier": "every stream of packets, every choice of which writes fail (a function of what was delivered before and of the reply)", "why_tests_cant": "The failing writes can be any subset of the replies of an arbitrary stream.", "anchors": ["cli/receiver/server/server.go: handleConn (lines 133, 304, 309)"]}
{"id": "C142", "title": "The data of a peer that does not read its replies is stored", "statement": "A terminal that sends packets and never reads the acknowledgements has all its accepted packets stored. Exactly: with room for R bytes of replies, a packet is dealt with if and only if the replies to the packets before it fit in R bytes (16 bytes for a refused packet; 16, and 7 and 6 for each record for an accepted one, and 24 more with credentials); nothing is done about the later ones, and the connection then stays for ever, whatever conn_ttl is.", "quantifier": "every stream of packets and every capacity", "why_tests_cant": "It depends on the total size of the replies over an arbitrarily long stream.", "anchors": ["cli/receiver/server/server.go: handleConn (lines 133, 304, 309: no write deadline)"]}
{"id": "C143", "title": "The documented settings take effect", "statement": "For every storage, two sections that differ in the value of a setting documented at the head of its connector make the receiver open or deliver differently. Exactly: the keys a connector does not read never matter, and every key it reads does, for every section with which the storage opens, up to the number a numeric setting denotes and with the nats credentials read only together.", "quantifier": "every storage, section, key, pair of values, and every behaviour of the client libraries", "why_tests_cant": "A setting that is silently ignored shows only against another value of the same setting; the statement ranges over all sections and values.", "anchors": ["cli/receiver/storage/store/nsq/connector.go: Init (servers documented, server read)", "cli/receiver/storage/store/rabbitmq/connector.go: Init (exchange_type)", "cli/receiver/storage/store/nats/connector.go: Init", "cli/receiver/storage/store/redis/connector.go: Init", "cli/receiver/storage/store/tarantool_queue/connector.go: Init", "cli/receiver/storage/store/postgresql/connector.go: Init"]}
{"id": "C144", "title": "packet-gen waits for the acknowledgement as long as documented", "statement": "packet-gen waits for the reply 5 seconds, or as many seconds as -timeout says, and reports success when the positive reply comes within that time. Exactly: with d the number of nanoseconds asked for (none: 0) wrapped to 64 bits, success is reported if and only if d is positive, a reply has begun to arrive before d, and the first 1024 bytes of what is there are a positive reply.", "quantifier": "every -timeout value, every parameter, every time at which the reply arrives and every reply", "why_tests_cant": "It depends on real time and on the value of a flag over all of its range; a test sees one network.", "anchors": ["cli/packet-gen/main.go: main (lines 32, 53, 61, 179-184)"]}
{"id": "C145", "title": "A positive reply is recognised however the network delivers it", "statement": "packet-gen's verdict depends on the reply, not on how the network cuts it into pieces. Exactly: when only the first k bytes of a positive reply have arrived at its one Read, it is recognised if and only if just a last byte 0 is missing.", "quantifier": "every positive reply with consistent header and every place at which it is cut", "why_tests_cant": "The cut can be anywhere in a reply of any length.", "anchors": ["cli/packet-gen/main.go: main (lines 177-191)"]}
{"id": "C146", "title": "Only terminals that have logged in are served", "statement": "The receiver stores positions only from a connection that has identified itself with credentials it accepts. What holds: packets after a login cause exactly the records and replies they cause without it, and streams that differ only in user names and passwords cause the same records and replies.", "quantifier": "every stream of packets, every login packet, every user name and password, every segmentation", "why_tests_cant": "That no login ever has an effect is a statement about all logins and all later packets.", "anchors": ["cli/receiver/server/server.go: handleConn (lines 169-184, 291-309)", "libs/egts/egts_sr_auth_info.go"]}
{"id": "C147", "title": "The identity given at login is stored with the connection's positions", "statement": "The IMEI that a terminal gives when it identifies itself is in the records of the positions it sends on that connection afterwards. Exactly: a record has the last IMEI of its own packet, and none if its packet has none.", "quantifier": "every stream of packets of a connection", "why_tests_cant": "It ranges over all histories of a connection.", "anchors": ["cli/receiver/server/server.go: handleConn (lines 177-184)", "cli/receiver/storage/packet.go: NavRecord"]}
{"id": "C148", "title": "packet-gen sends the values it was given", "statement": "For all parameters, packet-gen sends the packet number, object, liquid level and coordinates it was given, or reports an error. Exactly: its packet is determined by the packet number modulo 2^16, the object and liquid level modulo 2^32, and the 32-bit quanta of the coordinates; no two parameters that differ in one of these send the same packet, nothing else has any influence, and no parameter is refused once the required ones are given.", "quantifier": "all integer and floating-point parameters", "why_tests_cant": "The statement compares all pairs of parameter values, including those out of range.", "anchors": ["cli/packet-gen/main.go: main (lines 46-62, 86-157)", "libs/egts/egts_sr_pos_data.go: Encode", "libs/egts/egts_sr_liquid_level_sensor.go: Encode"]}
{"id": "C149", "title": "A storage that does not answer holds up nothing but itself", "statement": "When several storages are configured and one of them stops answering (its Save does not return), the other storages still get every record, the terminals still get their confirmations, and connections still end.", "quantifier": "every connection carrying any well-formed packets, any number of storages, any storage that hangs and any record it hangs at", "why_tests_cant": "Which records are missing where, and which confirmations are not sent, depends on the position of the hanging storage, on the record it hangs at and on every packet before it; a test fixes one of each, and one that waits for a call that never returns cannot end.", "anchors": ["cli/receiver/storage/store.go: Repository.Save", "cli/receiver/server/server.go: handleConn, s.store.Save", "cli/receiver/storage/store/*/connector.go: Save"]}
{"id": "C150", "title": "A recording reason reads back from JSON", "statement": "The reason of an EGTS-PLUS record that was written to JSON as a number, or given by its name, is read back as the same reason, and different reasons have different texts.", "quantifier": "every 32-bit value, every reason of the .proto file and every way of writing its name as a JSON string", "why_tests_cant": "There are 2^32 values, and a name has infinitely many spellings with escapes and white space; a test shows a few.", "anchors": ["libs/egts/egts_sr_egtsplus_data.go: StorageRecordReason, String, UnmarshalJSON, StorageRecordReason_name, StorageRecordReason_value", "docs/egts_sr_egtsplus_data.proto: enum reason"]}
{"id": "C151", "title": "Only reasons are read as reasons", "statement": "UnmarshalJSON of a reason accepts the reasons of the .proto file and nothing else, and reads back what String writes.", "quantifier": "every byte sequence", "why_tests_cant": "The inputs are all byte sequences; a test cannot show that no other text is accepted.", "anchors": ["libs/egts/egts_sr_egtsplus_data.go: StorageRecordReason.UnmarshalJSON, StorageRecordReason.String"]}
{"id": "C152", "title": "The receiver listens at the host and port of its configuration", "statement": "A receiver started with a host and a port in its configuration file listens at that host and that port. As stated this does not hold: the address is the two joined by a colon, so an IPv6 host as the system writes it (::1) is refused and the receiver does not start. It holds exactly when neither setting has a colon or a bracket; with an ordinary port, the host may also be an IPv6 address in brackets, which are taken off; everything else is refused.", "quantifier": "every text of host and port, every rest of the configuration, every outcome of opening the storages", "why_tests_cant": "the joined text is read back by another grammar; a test tries 127.0.0.1 only", "anchors": ["/repo/cli/receiver/config/config.go: GetListenAddress", "/repo/cli/receiver/server/server.go: New, Run", "/repo/cli/receiver/main.go: main"]}
{"id": "C153", "title": "Records are inserted in the table named in the postgresql section", "statement": "The statement that the postgresql storage runs for each record inserts it in the table whose name the section gives. As stated this does not hold: the name is put into the statement without quotes, so capitals are lowered (Points becomes points) and a name with a hyphen makes no statement. It holds exactly for names of lower-case letters, digits, underscores, dollar signs and characters beyond ASCII that begin with none of the digits or dollar signs, have at most 63 bytes and are no word with a meaning; any other name can be given in double quotes within the setting.", "quantifier": "every text of the table setting, every set of words with a meaning, every rest of the section", "why_tests_cant": "the setting is read by the grammar of another program; tests use one lower-case name", "anchors": ["/repo/cli/receiver/storage/store/postgresql/connector.go: Save", "/repo/cli/receiver/storage/store/postgresql/connector.go: Init"]}
