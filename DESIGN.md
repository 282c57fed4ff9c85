# Formal model of ElectroUnion/egts-gate in Coq 8.16.1

## 1. What is modelled, and where

| file in rocq/theories | models |
|---|---|
| `GoBase.v` | the fragment of the Go runtime/library the code uses: bytes, little-endian codecs, `bytes.Reader`, `bytes.Buffer`, `strconv.ParseUint(s,2,8)`, `fmt %0nb`, slices with capacity, wrap-around of fixed-width integers, outcome type (`Ok`, `Err`, `Panic`, `Fuel`) |
| `Crc.v` | libs/egts/crc.go |
| `Float64.v` | IEEE binary64 as `Coq.Floats.SpecFloat`, the conversions used in egts_sr_pos_data.go, and the class `go_env` of oracles (below) |
| `SubRecords.v` | all egts_sr_*.go except egts_sr_response.go |
| `Records.v` | record_data.go, service_data_records.go, egts_sr_response.go, egts_pt_response.go |
| `Package.v` | egts_pkg.go, errors.go, const_types.go |
| `Storage.v` | cli/receiver/storage/store.go, packet.go (types), the RFC 3339 text of an instant |
| `Connectors.v` | the six cli/receiver/storage/store/*/connector.go and default.go |
| `Json.v` | NavRecord.ToBytes: json.Marshal of packet.go's structs |
| `PkgJson.v` | Package.ToBytes: json.Marshal of the package's structs with their tags, base64, RFC 3339 times |
| `Server.v` | cli/receiver/server/server.go: one packet, one connection, many interleaved connections (one step per storage call or write), the read timer, the accept loop |
| `Main.v` | cli/receiver/main.go: start-up, and the library calls of the running process |
| `PacketGen.v` | cli/packet-gen/main.go |
| `Config.v` | cli/receiver/config/config.go (accessors) |
| `Proto.v` | libs/egts/egts_sr_egtsplus_data.go: (un)marshalling of StorageRecord, by schema |
| `PlusJson.v` | the same file: json.Marshal of a StorageRecord by its struct tags (omitempty, base64, float32) |
| `Alloc.v` | the data buffers reachable during Decode (service_data_records.go, record_data.go, egts_sr_response.go, egts_pt_response.go, egts_pkg.go) |
| `Reuse.v` | the decoders on a structure used before (all egts_sr_*.go, egts_pt_response.go, record_data.go) |
| `Yaml.v` | config.New: what yaml.Unmarshal puts into config.Settings, from the parsed document (cli/receiver/config/config.go:15-21, 52-60) |
| `Dsn.v` | what the driver (lib/pq) reads from the connection string of postgresql.Connector.Init (cli/receiver/storage/store/postgresql/connector.go:22-45) |
| `Amqp.v` | what the client (streadway/amqp ParseURI over net/url Parse) reads from the URL of rabbitmq.Connector.Init (cli/receiver/storage/store/rabbitmq/connector.go:36) |
| `Lifecycle.v` | storage/store/*/connector.go: Init and Close as what they open and close; the loop of LoadStorages |
| `Logbook.v` | server.go: the log lines of handleConn with their levels, interleaved with its actions; logrus' level filter; default.go |
| `Reply.v` | server.go:133, 291-309 against a peer of which each Write is delivered, fails or blocks |
| `GenTimed.v` | cli/packet-gen/main.go:53, 61, 177-184: -timeout, the deadline and the one Read |
| `Hang.v` | storage/store.go:48-55 and server.go:290-309 with storages of which a call may never return |
| `Address.v` | cli/receiver/config/config.go:26-28 as net.Listen reads it (server.go:27): Go's net.SplitHostPort |
| `Insert.v` | cli/receiver/storage/store/postgresql/connector.go:59 as the PostgreSQL server reads it: the table name of the INSERT |
| `Reason.v` | libs/egts/egts_sr_egtsplus_data.go:48-190: the reasons' names, String and UnmarshalJSON (with proto.EnumName, proto.UnmarshalJSONEnum and encoding/json's reading of a string or an int32) |
| `Timed.v` | server.go:72-116 with time: arrival of every byte, work per packet, the timers made and reset |
| `Listen.v` | server.go: Run and Stop around the listener |
| `Replay.v` | tools/send_egts.py: reading the file, hexadecimal, the send/receive loop against the receiver |
| `Vectors.v` | packets taken from the repository's tests, used as non-vacuity witnesses |
| `Samples.v` | the recorded packets of test/egts_packages.csv, run through the model |

Specifications, which the theorem statements use and which do not refer to proofs:
`Spec_Crc` (CRC as a polynomial remainder, bursts), `Spec_Bits`, `Spec_Wf`, `Spec_Rec` (well-formed
values, what a round trip fills in), `Spec_Pkg` (packet layout by offsets), `Spec_Go`, `Spec_Server`
(what a connection carries, actions of a packet, turns), `Spec_Storage`, `Spec_Layout` (the standard's field positions), `Spec_Calendar` (the Gregorian calendar, RFC 3339), `Spec_Json` (a JSON reader, UTF-8, the document of a record), `Spec_Yaml` (what a configuration document says), `Spec_Dsn` (settings that need no quoting), `Spec_Amqp` (settings a URL takes for themselves), `Spec_Settings` (sections nothing can tell apart), `Spec_Cover` (the bytes under the checksums), `Spec_Given` (headers right or left to Encode, packages that come back), `Spec_Log` (what appears at a level, what a stream leaves in the log, packets alike but for the login), `Spec_Timed` (when handlers are free, running timers), `Spec_Accept` (which fields a subrecord has, which begin), `Spec_Reply` (bytes owed to a packet, packets dealt with when they are not read), `Spec_Hang` (the calls and replies among the events of an execution), `Spec_Reason`, `Spec_Address`, `Spec_Insert` (the reasons the .proto file declares, ways of writing a text as a JSON string), `Spec_Life` (half-open failures, what a connector knows, connections offered and served), `Spec_Replay` (hexadecimal text, packets that call for a reply), `Spec_Policy` (header options, what the receiver looks at in a record), `Spec_PkgJson` (base64, the document of a package), `Spec_Damage` (bursts of damage in a packet), `Spec_Stream` (units of a byte stream, what is done with them), `Spec_Exact` (records without hemispheres), `Spec_Proto`, `Spec_ProtoMsg` (the protobuf wire format and what fields say), `Spec_ProtoFile` (the sensor messages as docs/egts_sr_egtsplus_data.proto declares them), `Spec_PlusJson` (the document of a message), `Spec_Verdict` (Decode's result for every input), `Spec_Flags` (flag strings, the subrecords that survive), `Spec_Reuse` (what a used structure contributes), `Spec_Main` (what a section opens as, what a packet delivers), `Spec_Float` (the real number
denoted by a binary64).

Proofs: every `*Facts*.v`, `DecWf*.v`, `EncOk.v`, `Glue*.v`, `Witness*.v`.

Property theorems: `Prop_Crc` (C01, C02), `Prop_Decode` (C03-C12), `Prop_Codec` (C13, C15-C18, C22-C32, C37),
`Prop_Package` (C14, C33-C36), `Prop_Server` (C38-C46, C48-C50, C54, C55, C58, C61, C62), `Prop_Storage`
(C47, C52, C53, C63-C67), `Prop_Gen` (C56, C57, C68, C69, C95, C96), `Prop_Config` (C51, C59, C60), `Prop_PkgJson` (C97, C98), `Prop_Echo` (C99), `Prop_Exact` (more of C46, C47, C62), `Prop_Proto` (C100-C106, C110, C111), `Prop_PlusJson` (C107-C109), `Prop_Float`
(C19-C21, C70-C72), `Prop_Layout` (C73-C77), `Prop_Time` (C78, C79), `Prop_Json` (C80-C84), `Prop_Main` (C85-C87), `Prop_Damage` (C88, C89, C92-C94), `Prop_Stream` (C90, C91, C112), `Prop_Verdict` (C113, C114), `Prop_Alloc` (C115), `Prop_Flags` (C116, C117), `Prop_Reuse` (C118), `Prop_Yaml` (C119, C120), `Prop_Dsn` (C121), `Prop_Amqp` (C127), `Prop_Replay` (C128), `Prop_Cover` (more of C03, C04), `Prop_Ampl` (C129), `Prop_Life` (C130-C132), `Prop_Given` (C133), `Prop_Log` (C134-C136), `Prop_Timed` (C51, C137-C140), `Prop_Reply` (C141, C142), `Prop_Accept` (more of C31), `Prop_Settings` (C143), `Prop_GenTimed` (C144, C145), `Prop_Session` (C146, C147), `Prop_GenParams` (C148), `Prop_Hang` (C149), `Prop_Reason` (C150, C151), `Prop_Address` (C152), `Prop_Insert` (C153), `Prop_Policy` (C122-C126). Each holds the statement, a proof by `exact`, non-vacuity `Example`s and
`Print Assumptions` of every theorem.

### Modelling conventions
* A byte / uintN is an `N`; every decoder works on lists of `N`; hypotheses `bytes_ok` say each is < 256. A Go string is a list of bytes; flag strings are lists of 48/49.
* A Go `(T, error)` result is `res T` with `Ok | Err | Panic | Fuel`. Error texts are not modelled (only whether an error occurs); `Package.Decode` result codes are.
* A slice is its bytes plus the spare bytes between length and capacity, because `content[:n]` may reslice up to the capacity.
* Readers may return fewer bytes than asked for with a nil error and leave the tail of the caller's buffer untouched; this is modelled (several findings depend on it).
* Recursion SrResponse -> ServiceDataSet -> RecordDataSet -> SrResponse uses explicit fuel; `Fuel` is excluded by theorem C07 for every input.
* Times are nanoseconds since 2010-01-01T00:00:00Z as `Z`; floats are `spec_float` (binary64 rounding to nearest even), which needs no axioms. Accuracy theorems use Flocq over the reals and therefore list the stdlib axioms of `Reals`.
* A network connection is a list of chunks plus the way it ends; the server is an executable step function; many connections are an interleaving chosen by an arbitrary schedule.

## 2. Plan per property
(the status column is kept current in MANIFEST.json)

| id | modelled | how proved |
|---|---|---|
| C01 | crc.go tables and loops | table entries swept (256) against bitwise long division, then induction on the string; spec = GF(2) polynomial remainder |
| C02 | same | linearity of CRC; injectivity of the zero-step; finite sweep over all 16-bit (8-bit) window patterns |
| C03, C04, C06 | Package.Decode | soundness lemma + C02 |
| C05 | Package.Decode | `_refuted` (code is 137) plus the theorem of what the code returns |
| C07 | all decoders | measure: length without trailing zeros; `Fuel` unreachable |
| C08 | Package.Decode | `_refuted` with witness; exact characterisation of the panicking inputs |
| C09 | record decoders | case analysis, induction on fuel |
| C10 | Package.Decode | `_refuted` (last byte of a packet whose CRC16 high byte is 0); partial: no other prefix is accepted |
| C11, C12 | Package.Decode | simulation; C12 refuted for stale route fields, partial for the rest |
| C13 | ServiceDataSet.Decode | `_refuted`, partial |
| C14-C18, C22-C30 | codecs | round trip theorems by induction; refuted ones with witness and the exact partial domain |
| C19-C21 | float/time conversions | Flocq error bounds; exhaustive only by theorem |
| C31 | optional fields | `_refuted`; partial: which fields are safe; exactly: every field begins (one step lemma per read operation, so by induction over the field list) |
| C32-C37 | Encode/Length | induction; refutations with witnesses |
| C38-C46, C49, C50, C54, C55 | server loop | step function; induction on streams, schedules and histories |
| C47, C48, C58 | conversion to storage records | functional theorems, refutations |
| C51, C59 | timer / accept loop state machines | `_refuted` by infinite-trace arguments |
| C52, C53 | store.go | induction over connectors; permutation of map entries |
| C56, C57 | packet-gen composed with the server model | end-to-end theorem; refutation |
| C60 | config.go | direct |

| C61, C62 | many connections, one step per storage call | invariant over schedules; refutation by a schedule |
| C63-C67 | store.go loading, connectors | induction over the configuration; the client library is an arbitrary function |
| C68, C69 | encoder composed with the server; packet-gen against an arbitrary peer | composition of C14 and the server lemmas; witness |
| C70-C72 | coordinates | Flocq; invariant over all server histories |
| C73-C77 | wire layout | Spec_Layout gives every field by byte offset and bit number; the decoders and encoders are proved against it, field by field, then for sequences of subrecords, records and whole packets |
| C78, C79 | stored times | Spec_Calendar advances a date one day at a time; the day-number formula is proved to follow it for every day (period of 400 years: the kernel sweeps the 400 years and the 365 days, algebra joins them), the text is proved digit by digit, and lifted to every storage call of every execution |
| C80-C84 | the stored document | Json.v models json.Marshal of NavRecord (strings, numbers, structs, slices; float text an arbitrary function); Spec_Json is an independent reader; writing then reading is proved to give the record's document, for every record of every execution; UTF-8 by code points against Go's byte table |
| C85-C87 | the process | Main.v composes configuration, LoadStorages, connectors, json.Marshal and the server; the library calls are computed from the trace; proved by composing C80, C66, C52 and the completion theorem; C87 refuted by a witness |
| C88, C89, C92-C94 | damage, truncation, reuse | header and frame are separate codewords; bursts that straddle the frame and its little-endian checksum by linearity and a sweep of the 2047 straddling patterns; C88's limit and C94's refutation by witness; containment by the one-unit step of the stream |
| C95, C96 | packet-gen's verdict | case analysis of the reply, exact; C96 refuted by a reply |
| C97, C98 | Package.ToBytes | PkgJson.v writes, the independent reader of Spec_Json and the description in Spec_PkgJson (base64 reader, instants) read; proved for whatever Decode accepts; injectivity by comparing two descriptions of one value; C98 refuted by two packets with equal CRC found by search |
| C99 | replies fed back | every write is an acknowledgement or a result packet (from C90's description of streams); acknowledgements are silent, result packets draw one rejection; induction over the sent packets |
| C100-C106 | EGTS-PLUS (protobuf) | Proto.v is a schema-driven model of proto.Unmarshal/Marshal for StorageRecord; Spec_Proto.v gives the wire format and the meaning of fields as relations; reader = grammar by induction on the fields, stored message = what the fields say by induction with functional pieces, round trip by running the writer's fields through the reader; C106 instantiates the oracle of C33 |
| C107-C109 | JSON of EGTS-PLUS messages | PlusJson.v writes by a table of tags; Spec_PlusJson.v describes the document by the schema's names; writer read back by the reader of Spec_Json; injectivity up to `visible` by comparing descriptions; C109 instantiates C97, C98 |
| C110, C111 | EGTS-PLUS prefixes and concatenations | determinism of the wire grammar gives the fields of a prefix; storing fields commutes with merging |
| C112 | bounded output | induction over C90's description of a stream; a unit with k records has at least 12+7k bytes |
| C113, C114 | Decode's result code for every input; which of Encode's results it accepts | decision table on the bytes, proved complete and deterministic; the encoder's layout put through the acceptance condition |
| C115 | size of the record buffers held by Decode (`Alloc.v`, an instrumented reading of the decoders) | a buffer is at most n received bytes followed by zeros; induction on nesting with that invariant; a family of nested packets by induction |
| C116 | flag strings of packages, records, subrecords | characterise ParseUint on binary texts; digits of a byte cut at the widths |
| C117 | subrecord codecs on all typed values | decoded values are well formed (C33), so only well-formed ones can come back; C16 for the converse |
| C118 | decoders with a receiver argument (`Reuse.v`) | each optional read commutes with the choice between new and old field; by steps along the decoder |
| C119 | `Yaml.v`; documents as trees | REFUTED by the shipped file; the exact rule by induction over the entries, with the settings as a function of the prefix read |
| C120 | `Yaml.v` and a writer in `Spec_Yaml.v` | induction over the maps |
| C121 | `Dsn.v`; the string itself is `pg_dsn` of `Connectors.v` | REFUTED by three sections; the exact condition by induction over the values |
| C122 | header fields of `Package.v` decoding, `process` of `Server.v` | REFUTED for every choice of options; exact: `process` of a sealed packet is a function of type, number and body |
| C123 | `subs_loop`/`recs_loop` of `Server.v` | REFUTED by two packets that differ in VLD; exact: the loops factor through `record_essence`, by induction over records and subrecords |
| C124 | `conn_exec` of `Server.v` | REFUTED universally: n copies do n times what one does, by induction over n |
| C125 | `recs_loop`, `app_reply` | REFUTED by two records of two services; exact: the service of the last record |
| C126 | `create_pt_response`, `rescode_pkg` | REFUTED by credentials with a position; exact: number plus one |
| C127 | `Amqp.v`; the URL itself is `amqp_url` of `Connectors.v` | REFUTED by five passwords; the exact condition by the lengths of what each cut and unescaping step leaves; IPv6 hosts, in brackets and without, by the same reading of the authority |
| C128 | `Replay.v` | REFUTED by a file without a final line feed and by one with a response; otherwise induction on the lines, the answers by `carries_process` |
| C129 | all of the receiver (C90's reading of any stream) | weights of subrecords: a set padded with zeros holds at most one incomplete subrecord; then induction on the units of the stream |
| C130 | `Lifecycle.v` (handles of the client libraries) | REFUTED by three half-open failures; case analysis of Init, then induction on the sections |
| C131 | `Lifecycle.v` | REFUTED for a channel that does not close and for reopening; case analysis with fresh handles, induction on the history of calls |
| C132 | `Listen.v` | REFUTED: Run never returns; induction on the interleaving |
| C133 | `Records.v`, `Package.v` | REFUTED by a record with an unannounced object number; exact condition by induction over records and subrecords, on top of C114, C116, C117 |
| C134 | `Logbook.v`, `Main.v` | REFUTED at WARN and ERROR; case analysis of the levels |
| C135 | `Logbook.v` | REFUTED; exact lines at WARN level by induction over the stream |
| C136 | `Logbook.v` | two-run equality by induction over the packets |
| C137, C138 | `Timed.v` | REFUTED by a burst of packets and by a clean end; exact counts and times by induction over the packets |
| C139 | `Timed.v` | induction over the packets |
| C140 | `Timed.v`, the RFC 3339 text of C78 | times of taking up (C139) are monotone; order of texts from C79's calendar lemmas |
| C141 | `Reply.v` | induction over the actions: saves do not depend on what becomes of writes |
| C142 | `Reply.v`, lengths of replies from `is_ack` | REFUTED for every capacity; exact by induction over the packets, the actions of a packet being saves then writes |
| C143 | `Storage.v`/`Connectors.v`: what Init and Save call, for any answers of the library | REFUTED for nsq `servers` and rabbitmq `exchange_type`; exact per key by choosing a library that tells the two sections apart |
| C144, C145 | `GenTimed.v`: the -timeout flag with int64 wrap-around, one Read with a deadline | REFUTED; exact by C95 composed with the Read; cuts by C92's prefix theorem |
| C146, C147 | Server.v over streams; logins up to user name and password (`Spec_Log`) | REFUTED; every packet is processed alone (C122-C126's replay lemma), equal essences give equal actions |
| C148 | `PacketGen.v` | REFUTED; the packet computed byte for byte from four wire values, injective in them |
| C149 | `Hang.v`: a connection's actions with storages that answer, fail or hang | REFUTED; exact by induction over the actions, which storage has which records being an invariant; `Hang.v` agrees with `Server.v` when every call returns |
| C150, C151 | `Reason.v`: a JSON string and number reader against the table of the .proto file | by induction over the text; C151 REFUTED, exact |
| C152 | `Address.v`, `Main.v` | REFUTED for IPv6 hosts; the reader accepts exactly a two-case grammar, then case analysis of the joined text |
| C153 | `Insert.v`, `Connectors.v` | REFUTED for capitals and hyphens; the reader accounts for every byte of the statement, so an unchanged name is a simple one |
| C90, C91 | any byte stream | relation `received` in Spec_Stream; induction on the stream length; C91 by the schedule invariant of C50 |

A property that turned out false of the code is kept as stated in properties.jsonl; the theorem named
`_refuted` proves its negation (for every environment, with a concrete witness), and `_partial`, `_iff`
or `_exactly` theorems prove what is true instead, preferably as an exact characterisation.

## 3. Trusted base

* Coq 8.16.1's kernel (including `vm_compute`), and `coqc`'s front end.
* `Print Assumptions` of every property theorem, as printed by the build: `Closed under the global context`,
  except the theorems of `Prop_Float.v`, `Prop_Json.v`, `Prop_PkgJson.v`, `Prop_PlusJson.v` (C109) and `Prop_Main.v` (C86, C87_partial; finiteness of stored floats), which use the real numbers (Flocq) and list standard-library axioms
  only: `ClassicalDedekindReals.sig_not_dec`, `ClassicalDedekindReals.sig_forall_dec`,
  `FunctionalExtensionality.functional_extensionality_dep`, `Classical_Prop.classic`.
* That the model is the code. Each definition cites the lines it models; the repository's test vectors
  (`Vectors.v`) are decoded and encoded inside Coq as a sanity check of that correspondence, and the 126 recorded
  packets of test/egts_packages.csv (`Samples.v`) are all accepted, saved and answered by the model, with as many
  positions as an independent count finds.

Modelled: all of libs/egts, the generated EGTS-PLUS code by its schema and the documented wire behaviour of the protobuf library (`Proto.v`; C100-C106, C110, C111); server.go; store.go; packet.go;
the connectors; default.go; main.go of both programs; the accessors of config.go.

Abstracted by universally quantified oracles (class `go_env`, and parameters of `Connectors.v`, `PacketGen.v`):
the protobuf library (everywhere but in C100-C109); `uint32(f)` for a float outside the range of uint32 (implementation-defined in Go);
the bytes between length and capacity of a slice returned by `append`; whether each client-library call
succeeds; `time.Parse`; the text strconv gives for a finite float64 or float32 (`Json.v`, `PlusJson.v`, assumed to be a JSON number); the JSON text of an EGTS-PLUS message (in C97 and C98 only: any or none, assumed to be an object that describes the message when there is one; C109 discharges this); the peer's bytes, their segmentation and the scheduling of goroutines.

Not modelled of tools/send_egts.py: the command line, the pauses, carriage returns, a partial `send`, a peer that closes.

Assumed of the client libraries in `Lifecycle.v`: a call that reports an error opens nothing and gives nil; a close that reports an error leaves the handle open;
closing an amqp connection closes its channels; `redis.NewClient`, the `Close` of nats and the `Stop` of nsq always work. In `Listen.v`: calls of Listen, Accept and
Close are atomic (the race on the field `l` is not modelled), and Accept on a closed listener fails.

Not modelled: error texts (only that an error is returned) and the texts of log lines (`Logbook.v` has one constructor per line of handleConn, with its level and data, but without the fields for the peer's address and the error; the JSON that the default storage logs is taken without its indentation); `ReceivedDt`, which is the wall clock (a parameter of the document in `Json.v`; the clock of `Timed.v` in C140, assumed not to be set back);
reading the configuration file as text (the YAML grammar, anchors, merge keys, explicit tags; the decoding of the parsed tree into config.Settings, which is yaml.v2's, is modelled in `Yaml.v` from its documented behaviour; likewise net.SplitHostPort in `Address.v` and the PostgreSQL scanner for names in `Insert.v`, from their sources, and the PostgreSQL driver's reading of its connection string in `Dsn.v`, for ASCII texts, and the AMQP client's reading of its URL in `Amqp.v`, without IPv6 zones) and the command line; data races inside the client libraries (a storage call is atomic);
the int32 overflow of `LocStatesCount` (a packet has fewer than 2^16 subrecords); the `SourceData` field of the
position subrecord, which no code reads or writes; user-defined implementations of `BinaryData`; out-of-memory;
real time (the timer theorems use an abstract clock; `Timed.v` takes the arrival time of every byte and the time spent on each packet as given, and assumes that a packet's work ends; in `Reply.v` a Write is delivered whole, fails or blocks for ever; in `Hang.v` a Save succeeds, fails or never returns).

## 4. Wrong programs

`tools/mutate.py` edits one definition of a scratch copy of the model, rebuilds all statements (`-vos`) and
rechecks every proof of every file separately (`-vok`), so that all theorems that fail are found, not only the
first. The results are in `seeded/LOG.jsonl`; theorems that survived an edit which falsifies their English claim
were tightened, as noted there.
