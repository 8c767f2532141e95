{"id": "C01", "title": "Escaping is lossless", "statement": "For every byte string that ends in 0x0D, return_characters(escape_characters(data)) == data; escape_characters raises ValueError exactly on byte strings that do not end in 0x0D.", "quantifier": "all byte strings of every length and content", "why_tests_cant": "The three chained replace() calls and the single-pass unescape interact through every combination of 0x0D, 0x0E, 0x0F, 0x1B and 0x8D at every position; tests try two frames.", "anchors": ["elgas/utils.py:escape_characters", "elgas/utils.py:return_characters"]}
{"id": "C02", "title": "Escaped telegrams are self-delimiting", "statement": "The output of escape_characters contains 0x0D only as its last byte and never contains 0x8D, is at most 2n-1 bytes long for an n byte telegram, and therefore any concatenation of escaped telegrams is split back into exactly those telegrams by cutting at 0x0D.", "quantifier": "all byte strings and all finite sequences of telegrams", "why_tests_cant": "The claim is about absence of a byte anywhere in every output and about unique splitting of every stream.", "anchors": ["elgas/utils.py:escape_characters", "elgas/transport.py:recv_until", "elgas/connection.py:ElgasConnection.next_event"]}
{"id": "C03", "title": "Unescaping is total on received telegrams", "statement": "return_characters raises only IndexError, and only on an input whose one-pass reading ends inside an escape pair; on every input cut at its first 0x0D (what next_event passes to it) it succeeds and its output still ends in 0x0D.", "quantifier": "all byte strings, in particular every receive buffer content cut at its first 0x0D", "why_tests_cant": "A dangling escape at the cut point would surface as an uncaught IndexError in next_event; that it cannot happen is a universal claim over buffers.", "anchors": ["elgas/utils.py:return_characters", "elgas/connection.py:ElgasConnection.next_event"]}
{"id": "C04", "title": "Redundancy codes compute the documented functions", "statement": "calculate_lrc is the XOR of all bytes, calculate_checksum the sum modulo 256, calculate_drc the XOR of the bytes each rotated left by the number of bytes that follow it; all three are in 0..255 for every input.", "quantifier": "all byte strings", "why_tests_cant": "The loops carry an accumulator; only induction over the length relates them to the closed form.", "anchors": ["elgas/utils.py:calculate_lrc", "elgas/utils.py:calculate_checksum", "elgas/utils.py:calculate_drc"]}
{"id": "C05", "title": "CRC is CRC-16/MODBUS with the bytes swapped", "statement": "calculate_crc(data) equals the bitwise CRC-16 with reflected polynomial 0xA001 and initial value 0xFFFF, with its two bytes swapped, and is in 0..65535.", "quantifier": "all byte strings", "why_tests_cant": "Equivalence of a table-driven and a bitwise CRC must hold for every message length and every table index.", "anchors": ["elgas/utils.py:generate_crc16_table", "elgas/utils.py:calculate_crc"]}
{"id": "C06", "title": "CRC detects bursts", "statement": "Two different messages of equal length that differ only inside a window of at most 16 consecutive bits (in transmission order) never have the same CRC; in particular any one-byte or two-adjacent-byte change is detected.", "quantifier": "all messages and all error patterns confined to two adjacent bytes", "why_tests_cant": "The number of messages and error patterns is unbounded.", "anchors": ["elgas/utils.py:calculate_crc"]}
{"id": "C07", "title": "Every single-byte corruption of a telegram is rejected", "statement": "If a telegram produced by to_bytes is changed in exactly one byte (any position, any new value, STX and ETX included), the matching from_bytes raises ValueError.", "quantifier": "all telegrams, all positions, all replacement values", "why_tests_cant": "Unbounded payloads; the corrupted position may hit the length field, a redundancy code or a header byte, each rejected by a different check.", "anchors": ["elgas/frames.py:Request.from_bytes", "elgas/frames.py:Response.from_bytes"]}
{"id": "C08", "title": "Multi-byte corruption: what the redundancy codes catch", "statement": "Exchanging two adjacent bytes of the protected region (trailer unchanged) is rejected unless the bytes are equal or bitwise complements (exactly these exchanges are undetectable by the three codes); flipping one bit in each of two bytes is rejected unless it is the same bit position in both, the two bits differ or it is the top bit, and the byte distance is a multiple of 8.", "quantifier": "all telegrams, all positions", "why_tests_cant": "It is an exact characterisation over all frames, including of the error patterns that slip through.", "anchors": ["elgas/utils.py:calculate_lrc", "elgas/utils.py:calculate_checksum", "elgas/utils.py:calculate_drc", "elgas/frames.py:Response.from_bytes"]}
{"id": "C09", "title": "Response telegrams round-trip", "statement": "For every (Encrypted)Response whose addresses fit in 2/1/2/1 bytes and whose data is at most 65520 bytes, from_bytes(to_bytes()) returns an equal object.", "quantifier": "all services, addresses and payloads", "why_tests_cant": "Unbounded payloads, all header values.", "anchors": ["elgas/frames.py:Response.to_bytes", "elgas/frames.py:Response.from_bytes", "elgas/frames.py:EncryptedResponse"]}
{"id": "C10", "title": "Request telegrams round-trip", "statement": "For every (Encrypted)Request in range, from_bytes(to_bytes()) returns an equal object. (The code writes address_1 big-endian and reads it little-endian: the two addresses come back byte-swapped, so the claim holds only when both are byte-palindromes.)", "quantifier": "all services, addresses and payloads", "why_tests_cant": "Tests only use symmetric addresses; the violation needs an asymmetric one.", "anchors": ["elgas/frames.py:Request.to_bytes", "elgas/frames.py:Request.from_bytes"]}
{"id": "C11", "title": "Telegram layout and range errors", "statement": "to_bytes emits STX, 0xFE, type, service, the little-endian count of all bytes except STX, the addresses, the data, LRC, checksum, DRC and 0x0D, and fails exactly when an address or the payload size is out of range (OverflowError for the two-byte fields, ValueError for the one-byte fields).", "quantifier": "all field values and payloads", "why_tests_cant": "Layout and failure conditions quantify over all integers and payloads.", "anchors": ["elgas/frames.py:Request.to_bytes", "elgas/frames.py:Response.to_bytes"]}
{"id": "C12", "title": "Accepted telegrams are canonical", "statement": "If Response.from_bytes accepts a byte string, then to_bytes of the result is that byte string (so no two wire forms denote one telegram). True when the input has at least 16 bytes; shorter runts whose trailer overlaps the header are also accepted by the code, which refutes the unrestricted claim.", "quantifier": "all byte strings", "why_tests_cant": "Needs the converse direction of the round trip, over inputs nobody generated with to_bytes.", "anchors": ["elgas/frames.py:Response.from_bytes", "elgas/frames.py:Request.from_bytes"]}
{"id": "C13", "title": "Telegram parsers raise only ValueError", "statement": "Request.from_bytes, Response.from_bytes, their encrypted variants and ResponseFactory.from_bytes either return a frame or raise ValueError, for every input; ResponseFactory returns a plain Response only for type 0x86 and an EncryptedResponse only for type 0x87.", "quantifier": "all byte strings, including empty and truncated ones", "why_tests_cant": "next_event relies on except ValueError; an IndexError on some short input would escape it.", "anchors": ["elgas/frames.py:ResponseFactory.from_bytes", "elgas/frames.py:Response.from_bytes"]}
{"id": "C14", "title": "BCD conversion", "statement": "from_bcd(to_bdc(n)) == n for every n >= 0, to_bdc emits ceil(digits/2) bytes whose nibbles are the decimal digits, raises ValueError on negative numbers, and from_bcd raises ValueError exactly when some nibble exceeds 9 or the input is empty.", "quantifier": "all integers, all byte strings", "why_tests_cant": "Unbounded numbers.", "anchors": ["elgas/utils.py:to_bdc", "elgas/utils.py:from_bcd"]}
{"id": "C15", "title": "Device timestamps round-trip", "statement": "For every valid datetime (whole seconds) with year 2000..2099, bytes_to_datetime(datetime_to_bytes(t)) == (t, False, False) and the encoding has 6 bytes.", "quantifier": "all datetimes of the century", "why_tests_cant": "3.1 billion timestamps.", "anchors": ["elgas/utils.py:datetime_to_bytes", "elgas/utils.py:bytes_to_datetime"]}
{"id": "C16", "title": "Timestamps outside the century", "statement": "datetime_to_bytes raises ValueError for every year before 2000. For every year from 2100 on it emits 7 bytes instead of 6 (the claim 'always 6 bytes' is refuted), so requests carrying such a time are malformed.", "quantifier": "all datetimes", "why_tests_cant": "Requires reasoning over all years.", "anchors": ["elgas/utils.py:datetime_to_bytes", "elgas/application.py:WriteTimeRequest", "elgas/application.py:ReadArchiveByTimeRequest"]}
{"id": "C17", "title": "Timestamp decoding", "statement": "bytes_to_datetime accepts exactly the 6-byte strings whose (masked) nibbles are decimal and form a valid calendar time; the result is a valid datetime in 2000..2099 and the two top bits of the hour byte are reported as is_dst and supports_dst without influencing the hour; everything else raises ValueError.", "quantifier": "all byte strings", "why_tests_cant": "2^48 inputs.", "anchors": ["elgas/utils.py:bytes_to_datetime"]}
{"id": "C18", "title": "Password padding", "statement": "The padded password is the password followed by '!', 0x03 and two characters of the alphanumeric set, whatever the random choice; a password of 6 characters therefore gives the 10 byte field. For shorter passwords, which the connection accepts, the field is shorter than 10 bytes (refutes 'always 10 bytes') and every following field moves.", "quantifier": "all passwords, all random draws", "why_tests_cant": "The random draws are part of the quantification.", "anchors": ["elgas/utils.py:pad_password", "elgas/connection.py:ElgasConnection.password"]}
{"id": "C19", "title": "Request PDU layout", "statement": "Each request's to_bytes places the password field, archive, amount, record id, object count, buffer length and timestamp at the documented offsets and widths so that the fields can be read back uniquely, and raises (OverflowError, ValueError, UnicodeEncodeError) exactly when a field is out of range.", "quantifier": "all field values and random draws", "why_tests_cant": "All integers, all strings.", "anchors": ["elgas/application.py:ReadArchiveRequest.to_bytes", "elgas/application.py:ReadArchiveByTimeRequest.to_bytes", "elgas/application.py:ReadDeviceParametersRequest.to_bytes", "elgas/application.py:WriteTimeRequest.to_bytes", "elgas/application.py:ReadInstantaneousValuesRequest.to_bytes"]}
{"id": "C20", "title": "The cryout argument", "statement": "WriteTimeRequest(cryout=True) must be distinguishable on the wire from cryout=False (changelog 24.1.0). The code sends identical bytes for both (refuted).", "quantifier": "all passwords, times and random draws", "why_tests_cant": "An equality over all inputs.", "anchors": ["elgas/application.py:WriteTimeRequest.to_bytes", "HISTORY.md"]}
{"id": "C21", "title": "Archive responses report the record id", "statement": "Parsing an archive response returns the archive, the 32-bit oldest record id and exactly the record data that follow. The code reads only the low 24 bits of the id (refuted for every id >= 2^24); archive and data are right for all inputs, and the id for all ids below 2^24. An unknown archive or an empty response raises; a response that ends inside the id should raise but yields a PDU (refuted).", "quantifier": "all archives, ids and payloads", "why_tests_cant": "Ids beyond 2^24 do not occur in samples.", "anchors": ["elgas/application.py:ReadArchiveResponse.from_bytes", "elgas/application.py:ReadArchiveByTimeResponse.from_bytes"]}
{"id": "C22", "title": "Value and time responses are split without loss", "statement": "ReadInstantaneousValuesResponse.from_bytes of time(6)+data+access(1)+status(8)+summary(8)+crc(2) returns exactly those parts for every data; ReadTimeResponse and ReadDeviceParametersResponse return exactly their parts; too short inputs raise and never yield a PDU (refuted for time responses of 6 to 8 bytes, which are accepted without access result or CRC).", "quantifier": "all byte strings", "why_tests_cant": "Slicing from both ends with negative indices over all lengths, including short ones.", "anchors": ["elgas/application.py:ReadInstantaneousValuesResponse.from_bytes", "elgas/application.py:ReadTimeResponse.from_bytes", "elgas/application.py:ReadDeviceParametersResponse.from_bytes"]}
{"id": "C23", "title": "Call-to-dispatch registration decoding", "statement": "CallRequest.from_bytes reads every field at its documented offset; every input with at least 141 bytes, decimal ids and a known protocol is accepted, every shorter one raises; the times are 2000-01-01 plus the encoded seconds as valid calendar datetimes.", "quantifier": "all byte strings, all 32-bit second counts", "why_tests_cant": "All inputs; calendar arithmetic over 136 years.", "anchors": ["elgas/application.py:CallRequest.from_bytes"]}
{"id": "C24", "title": "SIM and modem ids keep their digits", "statement": "The reported sim_card_id and modem_id are exactly the BCD digits that were sent. The code drops leading zeros (refuted), equal otherwise.", "quantifier": "all digit strings of the field width", "why_tests_cant": "Tests use one id (and silently accept the lost digit).", "anchors": ["elgas/application.py:CallRequest.from_bytes", "elgas/utils.py:from_bcd"]}
{"id": "C25", "title": "Encryption round-trips", "statement": "For every 16 byte key, key id 0..255, data of at most 65535 bytes and every random padding, decrypt(encrypt(data)) == data. Keys of any other size make both raise ValueError.", "quantifier": "all keys, data, random paddings", "why_tests_cant": "Unbounded data and random padding.", "anchors": ["elgas/security.py:CipherContext.encrypt", "elgas/security.py:CipherContext.decrypt", "elgas/security.py:data_padding"]}
{"id": "C26", "title": "Encrypted payload format", "statement": "encrypt returns the 2-byte little-endian original length, the key id and a ciphertext whose length is the smallest multiple of 16 that holds data and CRC.", "quantifier": "all data lengths", "why_tests_cant": "Modular arithmetic over all lengths.", "anchors": ["elgas/security.py:CipherContext.encrypt", "elgas/security.py:data_padding"]}
{"id": "C27", "title": "Tampered encrypted payloads are rejected", "statement": "decrypt never returns data unless the CRC over header and plaintext matches; a changed key id raises AssertionError, any change of the two length bytes raises ValueError, a ciphertext whose size is not a multiple of 16 raises ValueError.", "quantifier": "all payloads and header changes", "why_tests_cant": "All payloads.", "anchors": ["elgas/security.py:CipherContext.decrypt"]}
{"id": "C28", "title": "Encryption is used exactly when configured", "statement": "A connection with both key and key id sends only encrypted telegrams (type 0x85) and one without sends only plain ones (0x84). A user who sets a key expects no plain telegram: with a key but no key id the code silently sends plaintext, password included (refuted).", "quantifier": "all configurations, events and histories", "why_tests_cant": "All configurations and histories.", "anchors": ["elgas/connection.py:create_cipher_context", "elgas/connection.py:ElgasConnection.send", "elgas/utils.py:to_secret_byte"]}
{"id": "C29", "title": "One outstanding request", "statement": "Over every sequence of send / receive_data / next_event calls, a request is accepted only when none is outstanding, a response PDU is delivered only when the request of the same service is outstanding, and requests and responses strictly alternate; a refused send changes nothing.", "quantifier": "all histories of calls with arbitrary arguments and received bytes", "why_tests_cant": "Histories are unbounded.", "anchors": ["elgas/state.py:ElgasState.process_event", "elgas/connection.py:ElgasConnection.send", "elgas/connection.py:ElgasConnection.next_event"]}
{"id": "C30", "title": "Delivery does not depend on how bytes arrive", "statement": "If the escaped bytes of a valid response to the outstanding request are received in any chunks, with next_event called after each chunk, next_event asks for more data until the last chunk and then returns the response.", "quantifier": "all responses, all partitions into chunks", "why_tests_cant": "Exponentially many chunkings.", "anchors": ["elgas/connection.py:ElgasConnection.receive_data", "elgas/connection.py:ElgasConnection.next_event"]}
{"id": "C31", "title": "Sent bytes decode to the request", "statement": "The bytes returned by send, unescaped and parsed by a device (and decrypted if encrypted), yield the event's service, the configured addresses and exactly the event's application data.", "quantifier": "all events, configurations, random draws", "why_tests_cant": "End-to-end composition for all inputs.", "anchors": ["elgas/connection.py:ElgasConnection.send"]}
{"id": "C32", "title": "Device errors become the documented exception", "statement": "A one-byte response with exactly one bit set raises the documented exception for that bit from next_event, for every service and state, plain or encrypted; every other one-byte value raises none of them.", "quantifier": "all services, states, byte values, encryption settings", "why_tests_cant": "Combination of layers over all values.", "anchors": ["elgas/connection.py:raise_error", "elgas/connection.py:ElgasConnection.next_event", "elgas/exceptions.py"]}
{"id": "C33", "title": "Recovery after a device error", "statement": "After next_event has raised a device error the connection must be able to issue the next request. The code neither clears the buffer nor returns to idle: every further send is refused and every further next_event raises the same error (refuted).", "quantifier": "all histories after the error", "why_tests_cant": "The failure shows only in the continuation of the history.", "anchors": ["elgas/connection.py:ElgasConnection.next_event"]}
{"id": "C34", "title": "Corrupt telegrams are never delivered; recovery from line noise", "statement": "What next_event delivers is always the content of the first telegram of the buffer, and that telegram is complete and valid (an incomplete telegram without addresses and data is accepted for one service: refuted). A user also expects the connection to resynchronise on a later valid telegram: the code keeps the bad telegram at the buffer head and answers NEED_DATA forever (refuted).", "quantifier": "all buffers, all later input", "why_tests_cant": "A liveness failure over all continuations.", "anchors": ["elgas/connection.py:ElgasConnection.next_event"]}
{"id": "C35", "title": "Bytes after a delivered telegram", "statement": "Bytes received after the telegram being delivered belong to the next one and must be kept. The code clears the whole buffer (refuted); it is proved that what is delivered depends only on the first telegram.", "quantifier": "all buffers", "why_tests_cant": "All trailing contents.", "anchors": ["elgas/connection.py:ElgasConnection.next_event"]}
{"id": "C36", "title": "Stray end characters", "statement": "A lone 0x0D received with an empty buffer is ignored; every other non-empty chunk is appended unchanged; an empty chunk changes nothing.", "quantifier": "all buffers and chunks", "why_tests_cant": "All chunks.", "anchors": ["elgas/connection.py:ElgasConnection.receive_data"]}
{"id": "C37", "title": "A send that raises leaves no trace", "statement": "If send raises, no request is outstanding afterwards. The code advances the protocol state before serialising, so an unserialisable event (e.g. year 2100+ is fine, year 1999, amount 70000, a non latin-1 password) leaves the connection waiting for a response to a request never sent (refuted); refusals by the state check itself do leave no trace.", "quantifier": "all events and states", "why_tests_cant": "Every way of failing.", "anchors": ["elgas/connection.py:ElgasConnection.send"]}
{"id": "C38", "title": "Connection construction validates its ranges", "statement": "Constructing a connection succeeds exactly when the addresses are in 0..65535 / 0..255, the password has at most 6 characters and the password id is in 801..849; then send never fails because of an address.", "quantifier": "all integers and strings", "why_tests_cant": "All values.", "anchors": ["elgas/connection.py:ElgasConnection"]}
{"id": "C39", "title": "next_event exceptions", "statement": "next_event only raises from a known set of exceptions and leaves buffer and protocol state unchanged when it raises or asks for more data.", "quantifier": "all connection states and buffers", "why_tests_cant": "All buffers.", "anchors": ["elgas/connection.py:ElgasConnection.next_event"]}
{"id": "C40", "title": "Client operations against a conforming device", "statement": "Each client operation, against a device that answers its request with a valid telegram arriving in any chunks, sends exactly one telegram, returns the decoded response and leaves the connection idle with an empty buffer, so that any sequence of operations works.", "quantifier": "all operations, responses, chunkings, sequences", "why_tests_cant": "Sequences and chunkings.", "anchors": ["elgas/client.py:ElgasClient"]}
{"id": "C41", "title": "Parameter paging", "statement": "read_parameters requests object counts that are read_from plus the running sum of the object amounts received, stops at the first response flagged as last, and returns the parse of the concatenation of all data parts in order.", "quantifier": "all sequences of pages", "why_tests_cant": "Unbounded number of pages.", "anchors": ["elgas/client.py:ElgasClient.read_parameters"]}
{"id": "C42", "title": "Parameter paging terminates", "statement": "read_parameters terminates against every device. Refuted: a device that answers forever with zero objects and no end flag is asked the same forever; proved: if every page carries at least one object, it returns or raises after at most 65536 requests.", "quantifier": "all device behaviours", "why_tests_cant": "Non-termination cannot be observed by a test.", "anchors": ["elgas/client.py:ElgasClient.read_parameters"]}
{"id": "C43", "title": "Parameter block parsing", "statement": "Parsing the concatenation of length-prefixed objects gives the list of their individual parses, in order, for every number of objects; parsing terminates on every input; empty input raises ValueError.", "quantifier": "all object lists, all byte strings", "why_tests_cant": "Unbounded lists.", "anchors": ["elgas/parser.py:ScadaParameterParser.parse"]}
{"id": "C44", "title": "Malformed parameter blocks are rejected", "statement": "A block whose object length is below 3, whose type is unknown, or whose length field exceeds the remaining bytes raises. The first two are proved; the third is refuted (a slice is silently truncated).", "quantifier": "all blocks", "why_tests_cant": "All lengths and contents; negative slice bounds.", "anchors": ["elgas/parser.py:ScadaParameterParser.parse"]}
{"id": "C45", "title": "Parameter fields are read at their offsets", "statement": "For each parameter object type, from_bytes returns exactly the fields found at the documented offsets with the documented width, little-endian, as text, float, hex or IP address.", "quantifier": "all byte strings of sufficient length, per type", "why_tests_cant": "About 60 fields in one type; every content.", "anchors": ["elgas/parameters"]}
{"id": "C46", "title": "Parameter object lengths", "statement": "For each parameter object type the set of accepted lengths is exactly the documented one (fixed length, optional decimals byte, optional action and texts, rows); every shorter input raises.", "quantifier": "all byte strings, per type", "why_tests_cant": "All lengths.", "anchors": ["elgas/parameters"]}
{"id": "C47", "title": "Every listed parameter type can be parsed", "statement": "For every ParameterObjectType some byte string is parsed into an object of that type. Refuted for DEVICE_ERROR, SUM_OF_ALARMS (missing constructor arguments), DIFFERENCE_BASE_COUNTER (no from_bytes) and CORRECTION_COUNTER (not registered): every input raises; proved for all others, and the object has the class registered for the type.", "quantifier": "all object types, all byte strings", "why_tests_cant": "That no input works is a universal claim.", "anchors": ["elgas/parameters/factory.py:ParameterFactory", "elgas/parameters/device_error.py", "elgas/parameters/sum_of_alarms.py", "elgas/parameters/difference_counter.py"]}
{"id": "C48", "title": "Control bits", "statement": "Every boolean field of a parameter object is true exactly when its documented bit of the control byte is set, independently of all other bits.", "quantifier": "all control bytes, per type", "why_tests_cant": "All bit combinations in all types.", "anchors": ["elgas/parameters"]}
{"id": "C49", "title": "Text fields", "statement": "pretty_text returns the bytes before the last NUL with NULs turned to spaces and ASCII white space trimmed, decoded as latin-1: it never fails, contains no NUL, has no white space at either end and is not longer than the input; a text without NUL or outer white space that is NUL-terminated is returned unchanged.", "quantifier": "all byte strings", "why_tests_cant": "All contents.", "anchors": ["elgas/utils.py:pretty_text"]}
{"id": "C50", "title": "IP addresses", "statement": "parse_ip_address renders 4 bytes as dotted decimal, injectively, and raises ValueError for any other length.", "quantifier": "all byte strings", "why_tests_cant": "2^32 addresses.", "anchors": ["elgas/utils.py:parse_ip_address"]}
{"id": "C51", "title": "Schema round-trip", "statement": "For every parameter type with a schema and every object whose attributes are what the annotations of its class say (in particular every object the parser returns), Schema().load(Schema().dump(obj)) gives an equal object, provided str/float of floats round-trip. Exceptions, each proved: NaN and infinities are dumped and then refused (all types but ANALOG_MEASURAND); nothing that can be loaded equals a FLOW_RATE without decimals, a DEVICE_ERROR with text logs or any DIFFERENCE_BASE_COUNTER; SET_POINT, ERROR_STANDARD_COUNTER and MODEM schemas give back a dict of the attributes and never an object.", "quantifier": "all parameter types, all instances, all parsed byte strings, all loadable data", "why_tests_cant": "All field values.", "anchors": ["elgas/parameters/factory.py:ParameterSchemaFactory", "elgas/parameters"]}
{"id": "C52", "title": "Schema registration agrees with the parser", "statement": "For every parameter type except DIFFERENCE_BASE_COUNTER the registered schema and the registered class exist together (neither for CORRECTION_COUNTER), the schema names exactly the attributes of the class, once each, all of them required, null is allowed exactly for Optional attributes (FLOW_RATE decimals excepted), and loading builds that class (or, for three types, nothing). The only nested object is the gas composition: its schema names the 23 components, each required, not null and a float. The class registered for DIFFERENCE_BASE_COUNTER has no attributes although its schema has 18 fields.", "quantifier": "all parameter types and attributes", "why_tests_cant": "Exhaustive over types and fields.", "anchors": ["elgas/parameters/factory.py"]}
{"id": "C53", "title": "Receiving reads one telegram", "statement": "With a connected transport, recv_until(expected, size) on a byte stream that contains expected (or size bytes) returns, for every way the socket splits the data and every clock, a non-empty beginning of the shortest such frame and consumes exactly what it returns; it returns the whole frame when no timeout is set or less than the timeout passes. recv is the case of 0x0D: k calls return the k telegrams of the stream.", "quantifier": "all byte streams, socket splittings, clock readings", "why_tests_cant": "All schedules.", "anchors": ["elgas/transport.py:BlockingTcpTransport.recv_until", "elgas/transport.py:BlockingTcpTransport._recv_bytes"]}
{"id": "C54", "title": "Receiving terminates when the peer is gone", "statement": "recv returns or raises after the peer closed the connection (TCP) or stays silent past the timeout (serial). Refuted: after any number of empty reads recv has not returned, and without a first byte it never looks at the timer. Proved: an error of the socket, its timeout included, ends recv with CommunicationError.", "quantifier": "all streams that end before 0x0D", "why_tests_cant": "Non-termination.", "anchors": ["elgas/transport.py:BlockingTcpTransport._recv_bytes", "elgas/transport.py:SerialTransport._recv_bytes"]}
{"id": "C55", "title": "Transport lifecycle", "statement": "Over every sequence of connect/disconnect/send/recv with any socket failures: connect while connected raises RuntimeError and keeps the connection; after disconnect, failed or not, the transport is disconnected; sending while disconnected raises RuntimeError and reaches no socket; socket errors surface only as CommunicationError.", "quantifier": "all call sequences and failure schedules", "why_tests_cant": "All histories.", "anchors": ["elgas/transport.py:BlockingTcpTransport", "elgas/transport.py:SerialTransport"]}
{"id": "C56", "title": "Timeout arithmetic", "statement": "A Timeout with duration d >= 0 reports a remaining time in 0..d for every sequence of clock readings; with a clock that does not go back it has expired exactly when the clock shows at least start + d; it never expires when d is None and is always expired when d is 0; when the clock is found before the start, the full time starts anew.", "quantifier": "all durations, all clock readings", "why_tests_cant": "All clock values, including clocks that jump.", "anchors": ["elgas/transport.py:Timeout"]}
{"id": "C57", "title": "Secrets are censored in representations", "statement": "repr() of an object tree whose passwords (SecretStr) and keys (SecretByte) all sit inside instances of attrs classes is the same text for every value of those passwords and keys, at any nesting depth and from any call stack; in particular repr of an ElgasClient (in any state) and of every request it sends does not depend on its password and key. Two limits are proved as refutations of the stronger claim: a secret held only by built-in containers (list, tuple, dict) is shown in clear, and an ElgasConnection the user builds himself from a plain str password and plain bytes key shows both.", "quantifier": "all nestings", "why_tests_cant": "All nesting depths and call stacks.", "anchors": ["elgas/utils.py:SecretStr", "elgas/utils.py:SecretByte", "elgas/client.py:ElgasClient"]}
{"id": "C58", "title": "Float fields are decoded exactly", "statement": "A 4 or 8 byte float field is decoded to the exact value of its IEEE-754 bit pattern, for every bit pattern; rounding to 7 decimals yields the double nearest to the nearest multiple of 1e-7.", "quantifier": "all bit patterns", "why_tests_cant": "2^64 patterns.", "anchors": ["elgas/parameters/analog_quantity.py", "elgas/parameters/counter.py"]}
{"id": "C59", "title": "Decrypted data has the announced length", "statement": "decrypt returns exactly as many bytes as the header announces and never bytes of the CRC. True when the announced length fits in front of the CRC; refuted otherwise: a correctly sealed payload that announces more is accepted and its CRC is returned as trailing data.", "quantifier": "all sealed payloads", "why_tests_cant": "Needs payloads no conforming encrypt produces; the announced length ranges over 65536 values and the ciphertext over all block counts.", "anchors": ["elgas/security.py:CipherContext.decrypt"]}
{"id": "C60", "title": "Ciphertexts do not reveal equal data", "statement": "Two encryptions do not show that their data agree. Refuted: key and initialisation vector are the same constant, so data that share leading 16 byte blocks give ciphertexts that share them, for every key and every random draw, and data that needs no padding always gives the same payload.", "quantifier": "all keys, data with common prefix, random draws", "why_tests_cant": "A relation between two runs over all keys and draws.", "anchors": ["elgas/security.py:CipherContext.encrypt", "elgas/security.py:encrypt"]}
{"id": "C61", "title": "Encryption is enforced on responses", "statement": "A connection configured for encryption accepts only encrypted responses. Refuted: any plain telegram of the awaited service is delivered, so anyone on the line can answer without the key.", "quantifier": "every connection state with an outstanding request and every plain response telegram of that service", "why_tests_cant": "the set of telegrams is unbounded and an absence of checks has to be shown for all of them", "anchors": ["elgas/connection.py:ElgasConnection.next_event", "elgas/frames.py:ResponseFactory"]}
{"id": "C62", "title": "Combined error flags raise", "statement": "A one-byte response that reports several errors at once must not be taken for a successful response. Refuted: for a time setting every such byte is delivered as success, for an archive request it is read as the archive number.", "quantifier": "every byte that is not a single flag, every telegram carrying it", "why_tests_cant": "ranges over all telegrams with that content, plain and encrypted", "anchors": ["elgas/connection.py:raise_error", "elgas/connection.py:ElgasConnection.next_event", "elgas/application.py:WriteTimeResponse"]}
{"id": "C63", "title": "Recovery after an exception", "statement": "After an exception raised by a client operation (device error, transport error, unencodable argument) the caller can reconnect and go on. Refuted: the exchange stays open, every later operation raises LocalElgasProtocolError and sends nothing; only a completely received parameter block that does not parse leaves the client usable.", "quantifier": "all operations, exceptions, client states and all later sequences of calls", "why_tests_cant": "the failure and every continuation are unbounded histories", "anchors": ["elgas/client.py:ElgasClient", "elgas/connection.py:ElgasConnection.send", "elgas/state.py:ElgasState.process_event"]}
{"id": "C64", "title": "An invalid answer is reported", "statement": "A client operation whose answer telegram is corrupted raises or retries. Refuted: whatever arrives afterwards (including correct repetitions) the call never returns, unless the transport itself raises.", "quantifier": "all conversations before, all corrupted telegrams, all later receive results", "why_tests_cant": "the receive history after the corruption is unbounded", "anchors": ["elgas/client.py:ElgasClient.next_event", "elgas/connection.py:ElgasConnection.next_event"]}
{"id": "C65", "title": "Everything a client sends", "statement": "Every telegram a client hands to the transport, in any sequence of calls with any transport behaviour, is one request with the client password; all of them are encrypted if the client has a non-empty key and a key id, and none otherwise, and then the password is readable in every request that carries one.", "quantifier": "all clients, call sequences, transport behaviours, random draws", "why_tests_cant": "all histories and all random draws", "anchors": ["elgas/client.py:ElgasClient", "elgas/utils.py:to_secret_byte", "elgas/connection.py:create_cipher_context"]}
{"id": "C66", "title": "Answers are matched to requests", "statement": "A call returns the answer to its own request. Refuted: any telegram of the same service is taken, so a repeated telegram answers the next request and the records of another archive are returned.", "quantifier": "all repeated telegrams, all archives", "why_tests_cant": "all contents and arrival patterns", "anchors": ["elgas/client.py:ElgasClient.next_event", "elgas/client.py:ElgasClient.read_archive"]}
{"id": "C67", "title": "Restarting a timeout", "statement": "After restart(d') a timeout expires when d' has passed since the restart. Proved for timeouts made with a positive duration. Refuted for timeouts made with None (expired raises TypeError) and with 0 (always expired, whatever d').", "quantifier": "all durations, clocks and numbers of polls", "why_tests_cant": "All clock readings and histories.", "anchors": ["elgas/transport.py:Timeout.restart"]}
{"id": "C68", "title": "Disconnecting closes the socket", "statement": "disconnect closes the socket or port that connect opened. Proved for the serial port and when shutdown succeeds; refuted when shutdown fails (the peer has reset the connection): the socket is dropped without close.", "quantifier": "all connected transports, all failure schedules", "why_tests_cant": "All failure points.", "anchors": ["elgas/transport.py:BlockingTcpTransport.disconnect", "elgas/transport.py:SerialTransport.disconnect"]}
{"id": "C69", "title": "Client over a socket", "statement": "A client over a connected transport, with a device that answers every operation by line telegrams (plain or encrypted, one per exchange or page), gives the results of C40 for every way the socket splits the byte stream and for every clock, also when the timer of recv expires inside a telegram; exactly one request telegram per request is written to the socket and nothing else; the bytes after the last telegram stay unread. The same holds from connect() to disconnect().", "quantifier": "all operation sequences, all telegrams, all splittings, all clocks", "why_tests_cant": "All schedules.", "anchors": ["elgas/transport.py:BlockingTcpTransport.recv", "elgas/client.py:ElgasClient.next_event", "elgas/connection.py"]}
{"id": "C70", "title": "Dumped parameters are strict JSON", "statement": "Whatever the dump of a parameter object gives (types other than ANALOG_MEASURAND, TARIFF_COUNTER and DOUBLE_TARIFF_COUNTER) contains only null, booleans, integers, texts, lists and dicts: floats are texts. An ANALOG_MEASURAND that the parser returns can be dumped to data with NaN, which is not JSON.", "quantifier": "all parameter types, all objects, all implementations of float formatting", "why_tests_cant": "All objects, including ones with attributes of wrong types.", "anchors": ["elgas/parameters", "elgas/parameters/factory.py:ParameterSchemaFactory"]}
{"id": "C71", "title": "Loading data of any shape gives the registered object or ValidationError", "statement": "For any data, loading with the schema of any type but DIFFERENCE_BASE_COUNTER returns an object or raises ValidationError and nothing else. If it returns, the data was a dict without unknown keys, with all required keys, null only where allowed and no booleans for numbers, and the object is of the registered class with exactly its attributes. Valid data for DIFFERENCE_BASE_COUNTER raises TypeError.", "quantifier": "all data, all parameter types", "why_tests_cant": "Arbitrary untrusted data.", "anchors": ["elgas/parameters", "elgas/parameters/factory.py:ParameterSchemaFactory"]}
{"id": "C72", "title": "A saved configuration is restored", "statement": "Dumping any list of parameter objects, wrapping them with type and series name in a configuration and dumping that, then loading it and each object with the schema of its type, gives the same types and series names in the same order with equal objects (for the objects C51 covers).", "quantifier": "all lists of parameter objects and series names", "why_tests_cant": "Lists of any length and mix of types.", "anchors": ["elgas/integration.py", "elgas/parameters/factory.py:ParameterSchemaFactory"]}
{"id": "C73", "title": "A byte changed on the line never yields another telegram", "statement": "If one byte of an escaped telegram (escape characters and end character included) arrives as any other byte, with any bytes following, what the receiver cuts out at the first 0x0D and unescapes is either the original telegram or is refused with ValueError by every telegram parser.", "quantifier": "all frames of all telegram classes, all positions and values of the changed byte, all bytes that follow", "why_tests_cant": "All telegrams, positions, values and continuations.", "anchors": ["elgas/utils.py:return_characters", "elgas/utils.py:escape_characters", "elgas/frames.py", "elgas/connection.py:ElgasConnection.next_event"]}
{"id": "C74", "title": "A byte lost on the line never yields another telegram", "statement": "If one byte of an escaped telegram (escape characters and end character included) is lost, with any bytes following (so that the telegram may run into them), what the receiver cuts out at the first 0x0D and unescapes is either the original telegram or is refused with ValueError by every telegram parser.", "quantifier": "all frames of all telegram classes, all positions of the lost byte, all bytes that follow", "why_tests_cant": "All telegrams, positions and continuations.", "anchors": ["elgas/utils.py:return_characters", "elgas/utils.py:escape_characters", "elgas/frames.py", "elgas/connection.py:ElgasConnection.next_event"]}
{"id": "C75", "title": "A byte added on the line never yields another telegram", "statement": "If one byte is inserted anywhere into an escaped telegram, with any bytes following, what the receiver cuts out and unescapes is either the original telegram or is refused with ValueError by every telegram parser. On a changed, lost or added byte ElgasConnection.next_event reports that it needs data and leaves the connection unchanged, unless what arrived reads as the original telegram.", "quantifier": "all frames of all telegram classes, all positions and values of the added byte, all bytes that follow, all connection states", "why_tests_cant": "All telegrams, positions, values and continuations.", "anchors": ["elgas/utils.py:return_characters", "elgas/utils.py:escape_characters", "elgas/frames.py", "elgas/connection.py:ElgasConnection.next_event"]}
{"id": "C76", "title": "What client calls raise", "statement": "Every exception of a client call has one of a few reasons: the transport raised it, the protocol state refuses the call (LocalElgasProtocolError), an argument does not fit its field, the key cannot be used (ValueError), or what the device sent, for which the exceptions are listed. An error flag raises the documented ElgasError. That only ElgasErrors are raised for what a device sends is refuted: a response of a service without response class raises KeyError, an encrypted response without key AttributeError; the complete list to catch is given.", "quantifier": "all sessions of calls, all devices, all transports, all keys and arguments", "why_tests_cant": "all byte sequences a device may send, after any conversation, cut anywhere", "anchors": ["elgas/client.py:ElgasClient", "elgas/connection.py:ElgasConnection.next_event", "elgas/exceptions.py:ElgasError", "elgas/parser.py:ScadaParameterParser"]}
{"id": "C77", "title": "Client and transport together", "statement": "Whatever the socket or port does, whatever the clock shows and whatever the user calls: a client over a transport behaves as a client that gets the results of a history of transport calls (so C40-C42, C63-C66, C76 hold of it); a call that does not return is in a recv that does not return; everything written to the socket is a request telegram with the client's own password, encrypted when there is a key.", "quantifier": "all call sequences, socket failures, byte streams, splittings, clocks", "why_tests_cant": "all schedules and failure points of client, transport and socket together", "anchors": ["elgas/client.py:ElgasClient", "elgas/transport.py:BlockingTcpTransport", "elgas/transport.py:SerialTransport"]}
{"id": "C78", "title": "Exceptions and recovery over a socket", "statement": "With a socket that fails only by OSErrors, a client call raises RuntimeError exactly for a missing or a second connect(), CommunicationError only while connected or in connect(), and otherwise only for the reasons of C76. That a client can be used after connect() or reconnecting is refuted: a call before connect(), a lost connection or any other failure of a call makes every later call raise LocalElgasProtocolError and write nothing, whatever is called in between.", "quantifier": "all call sequences, all socket failures, byte streams, clocks", "why_tests_cant": "failure at every point of every history", "anchors": ["elgas/client.py:ElgasClient", "elgas/transport.py:BlockingTcpTransport", "elgas/state.py:ElgasState", "elgas/connection.py:ElgasConnection.send"]}
{"id": "C79", "title": "The password in the log", "statement": "Two clients that differ only in password (Latin-1, at most six characters), password id and random draws, with the same device, behave alike in every sequence of calls, and their logs are the same line by line except for the data shown of request frames and of request telegrams; with a key configured that data is ciphertext. The entries of level INFO do not depend on the password at all. That the password stays out of the log without a key is refuted: every call that sends it logs, at level DEBUG, bytes that start with it, connected or not.", "quantifier": "all pairs of passwords, keys, call sequences, socket behaviours, clocks and random draws", "why_tests_cant": "a statement about pairs of runs, over all histories", "anchors": ["elgas/connection.py:ElgasConnection.send", "elgas/connection.py:ElgasConnection.next_event", "elgas/client.py:ElgasClient", "elgas/transport.py:BlockingTcpTransport.send", "elgas/utils.py:SecretStr", "elgas/state.py:ElgasState.process_event"]}
{"id": "C80", "title": "The key in the log", "statement": "For two connections that differ only in key and password, what send logs differs in ciphertexts only, and what next_event logs depends on the key only through what the payload of the telegram in the buffer decrypts to; the key is never logged. That answers stay secret is refuted: the decrypted data of every encrypted answer is logged at level DEBUG.", "quantifier": "all pairs of keys, connection states, requests, buffers", "why_tests_cant": "a statement about pairs of runs, for all keys and data", "anchors": ["elgas/connection.py:ElgasConnection.send", "elgas/connection.py:ElgasConnection.next_event", "elgas/security.py:CipherContext", "elgas/utils.py:SecretByte"]}
{"id": "C81", "title": "A client on a connection of its user", "statement": "A user may make an ElgasConnection (with its addresses, key, key id, elgas_state or cipher_context) and pass it to ElgasClient as elgas_connection. Every telegram of the client then goes from and to the addresses of that connection, is encrypted exactly when that connection has a cipher context, and carries the password of the client; conversations with a conforming device succeed as with a default client. REFUTED parts: the encryption key and key id given to the client are not used (a connection without key sends the password in clear), and the password of the client is not checked.", "quantifier": "all addresses, passwords, keys, key ids and contexts of connection and client, all earlier uses of the connection, all sequences of client calls, all behaviours of transport and device", "why_tests_cant": "A test fixes one configuration; the claim is about every configuration and every sequence of calls.", "anchors": ["elgas/client.py:ElgasClient.__init__", "elgas/client.py:ElgasClient.send", "elgas/connection.py:ElgasConnection.__init__", "elgas/connection.py:ElgasConnection.send", "elgas/connection.py:create_cipher_context"]}
{"id": "C82", "title": "Parameter objects say their type and value length", "statement": "For every parameter type and every block content, the object read from it has that type as its object_type, and so has every object a schema makes; the objects parsed from a block of parameters say the types of the headers of the block, in order. A program that looks up the schema of each object by obj.object_type, dumps it and stores {parameter_type, data} therefore gets equal objects back, for every list of objects read from a device in any pages, whose floats are finite and whose schemas carry them. For the types with a value_length, record[address : address + value_length] is that many bytes of the archive record at the address transmitted in bytes 6-7 of the object. Refuted for: what the schemas of SET_POINT, ERROR_STANDARD_COUNTER and MODEM load (a dict, without object_type), and the twelve types that have an address in the archive record but no value_length (tariff counters call it data_length).", "quantifier": "all parameter types, block contents, parameter blocks, splits of a device memory into pages, schema data and archive records", "why_tests_cant": "the 35 types, their optional fields and the contents of blocks and records form an unbounded input space; tests show one block of 26 objects", "anchors": ["elgas/parameters/*.py:object_type", "elgas/parameters/*.py:value_length", "elgas/parameters/*.py:data_length", "elgas/parameters/factory.py:ParameterSchemaFactory.by_parameter_id", "tests/test_schema.py:681-696", "tests/test_parser.py:28-66"]}
{"id": "C83", "title": "Several clients", "statement": "Clients may share a transport or a connection object. For every schedule of calls of any number of clients, whatever they share, in which the devices answer the calls in the order in which they are made: every call returns the answer to its own request, and every transport carries the requests of its callers in order, each with the addresses and the encryption of the caller's connection. Clients that share neither transport nor connection do not influence each other at all, whatever the calls, devices and transports do: the calls of one group return what they return when the others make no calls. Refuted: after an exception in a call of one client every client of the same connection is refused forever; an answer that arrives after a timeout of one client is returned to the next client on the same transport, and the addresses in an answer are never compared with those of the device asked.", "quantifier": "all schedules of calls, numbers of clients, ways of sharing, operations, answers, cuts of the answers, and (isolation) all behaviours of transports and devices", "why_tests_cant": "schedules, ways of sharing and arrival patterns are unbounded", "anchors": ["elgas/client.py:ElgasClient.transport", "elgas/client.py:ElgasClient.elgas_connection", "elgas/connection.py:ElgasConnection.next_event"]}
{"id": "C84", "title": "Overlapping calls (threads)", "statement": "The library has no locks. For every interleaving of the accesses that the calls of any number of threads make to their clients' connections and transports: a call that is not interrupted is the call of the sequential client; threads whose clients share nothing do not influence each other; what a call returns is decided by the exchanges of its own thread. For threads that share one connection and one transport, if no method of the connection is interrupted: at most one exchange is open at a time, a request of another thread is refused with LocalElgasProtocolError meanwhile and puts nothing on the line, the exchanges give what the same exchanges give one after the other, every thread gets the answer to its own request, and the refused threads cannot keep an accepted exchange from its end. Refuted: two threads interrupted inside connection.send are both accepted; an interruption inside next_event can lose the answer of another thread for good; connections that share a transport can get each other's answers; a read of parameters raises when another thread gets in between two pages, though the device answers everything.", "quantifier": "all interleavings of accesses, numbers of threads, calls, answers and cuts of the answers", "why_tests_cant": "schedules of threads are unbounded and not under the control of a test", "anchors": ["elgas/client.py:ElgasClient.send", "elgas/client.py:ElgasClient.next_event", "elgas/client.py:ElgasClient.read_parameters", "elgas/connection.py:ElgasConnection.send", "elgas/connection.py:ElgasConnection.receive_data", "elgas/connection.py:ElgasConnection.next_event", "elgas/state.py:ElgasState.process_event"]}
{"id": "C85", "title": "Numbers survive as text", "statement": "The schemas write floats as text (fields.Float(as_string=True)). For every double the text Python writes is read back as that double (infinities, NaN, denormals and the sign of zero included), and every int text as that int; so objects and whole configurations with finite floats survive dump and load with no assumption about Python's number texts. Any text given for a number is read as a number or refused with ValueError, so loading any data gives an object or ValidationError.", "quantifier": "all doubles, all ints, all texts, all instances of the registered classes", "why_tests_cant": "the doubles and texts cannot be enumerated", "anchors": ["elgas/parameters/conversion_coefficient.py:ConversionCoefficientSchema", "elgas/integration.py:UtilitarianConfigurationSchema", "elgas/parameters/analog_quantity.py:AnalogQuantitySchema"]}
{"id": "C86", "title": "A configuration survives as JSON text", "statement": "Saving parameter objects as one JSON text (schema dumps, configuration dumps, json.dumps) gives printable ASCII text, and reading that text back gives equal objects with the same types and series names. This holds for all objects of C72 whose texts have no high surrogate directly before a low one, and for every object parsed from device data. Any text at all given to a schema's loads is accepted, or raises ValidationError or ValueError (JSONDecodeError), nothing else. A pair of surrogates in a name comes back as one character.", "quantifier": "all lists of parameter objects with all attribute values and texts; all texts given to loads; all byte strings parsed", "why_tests_cant": "texts with escapes, every float, arbitrary nesting and arbitrary bad texts are infinitely many", "anchors": ["elgas/integration.py:UtilitarianConfigurationSchema", "elgas/parameters/factory.py:ParameterSchemaFactory", "tests/test_schema.py:681-698"]}
{"id": "C87", "title": "Accepted input has a normal form", "statement": "Whatever JSON text a user or another program hands to a schema, if it is accepted the resulting object can always be saved again, the saved text is accepted, and it gives the same object (same kinds of values, same texts, same numbers) as before. So editing a configuration by hand never leads to objects that cannot be stored, and load/save cycles do not drift. The same for whole configurations.", "quantifier": "all texts of Unicode characters, all registered schemas, all data with Python floats", "why_tests_cant": "accepted inputs include every notation of a number, escapes, repeated keys, whitespace and keys in any order", "anchors": ["elgas/integration.py:UtilitarianConfigurationSchema", "elgas/integration.py:UtilitarianConfigurationObjectSchema", "elgas/parameters/factory.py:ParameterSchemaFactory", "elgas/parameters/*.py:schemas"]}
{"id": "C88", "title": "Which changed bits the CRC finds", "statement": "calculate_crc differs for two messages of equal length whenever the number of bits in which they differ is odd, and whenever one, two or three bits differ and the messages have at most 4095 bytes. Both bounds are exact: there are messages of 4096 bytes that differ in two bits, and messages of three bytes that differ in four bits, with the same CRC.", "quantifier": "all pairs of messages, all positions of the changed bits", "why_tests_cant": "pairs of positions in messages of thousands of bytes cannot be enumerated by tests", "anchors": ["elgas/utils.py:calculate_crc", "elgas/security.py:CipherContext"]}
{"id": "C89", "title": "How long receiving takes", "statement": "With a timeout T, recv stops exactly at the first of: a byte 0x0D, an exception of the socket or port, a byte that arrives when T has passed since recv began; it never gives up earlier. When every single read keeps to T, recv takes less than 2T (and can take 2T minus one unit, so T itself is not a bound). In a call of the client, an exception of the socket or port (such as its own timeout) ends the call at once with that exception, CommunicationError for operating system errors, and nothing more is read. But a whole call has no time limit: a device that keeps sending bytes without 0x0D, for example one per second, keeps every call waiting for as long as it likes, whatever the timeout.", "quantifier": "all sequences of reads with any durations, all timeouts, all operations, all clocks", "why_tests_cant": "the durations of the reads and the moment of the failure are chosen by the line, tests use a mock that answers at once", "anchors": ["elgas/transport.py:Timeout", "elgas/transport.py:BlockingTcpTransport.recv", "elgas/transport.py:SerialTransport.recv", "elgas/client.py:ElgasClient.next_event"]}
{"id": "C90", "title": "Results depend only on the bytes that arrive", "statement": "Two clients made with the same arguments, each over its own socket or port of the same kind, whose open, write and close calls have the same outcomes and from which the same sequence of bytes and exceptions arrives: whatever the two clocks show, whatever the timeouts are and however the bytes are cut into reads, every sequence of calls gives the same results (values, exceptions, waiting), makes the same calls of the socket with the same data, and leaves the same bytes unread. When in addition the random numbers differ, the results are still the same, and only the data of the (encrypted) requests may differ. Single recv calls of the transport do depend on the timing; the calls of the client do not.", "quantifier": "all transports, clocks, timeouts, cuttings into reads, random numbers, passwords, keys, sequences of operations", "why_tests_cant": "it compares all pairs of schedules of the same line; a test runs one schedule", "anchors": ["elgas/transport.py:BlockingTcpTransport.recv", "elgas/transport.py:SerialTransport.recv", "elgas/client.py:ElgasClient.next_event", "elgas/connection.py:ElgasConnection.receive_data", "elgas/security.py:CipherContext.encrypt"]}
{"id": "C91", "title": "Every session on every line", "statement": "A client over an open socket or port whose writes succeed, with no key or with a usable key: whatever bytes and exceptions arrive, every sequence of calls (other than connect and disconnect) has exactly one outcome, which a short description of the protocol foretells. Stray ends of line are skipped. A line that is a telegram carrying the answer of the expected service gives the value; a device error flag, data that cannot be read, an unknown service, the answer of another service, an encrypted telegram without a key, without a header or with another key id each raise their own exception; a line that is no telegram, or that is sealed with another key, is never skipped: the call hears nothing any more and ends only with an exception of the socket. An exception of the socket ends the call as CommunicationError (if it is an OSError) wherever it comes. A parameter read asks page after page until the last one and then parses. After an exception of an exchange all further calls are refused without writing anything; after an exception of parsing they are not. Exactly the foretold requests are written, each once, and exactly the foretold bytes are left.", "quantifier": "all sequences of bytes and exceptions, all cuttings into reads, clocks and timeouts, all sequences of calls, all passwords, keys, random numbers", "why_tests_cant": "the outcome is determined for every byte stream, not for recorded ones", "anchors": ["elgas/client.py:ElgasClient.next_event", "elgas/client.py:ElgasClient.read_parameters", "elgas/connection.py:ElgasConnection.next_event", "elgas/connection.py:ElgasConnection.receive_data", "elgas/transport.py:BlockingTcpTransport.recv", "elgas/frames.py:Response.from_bytes", "elgas/security.py:CipherContext.decrypt", "elgas/connection.py:ResponsePduFactory.from_response"]}
{"id": "C92", "title": "The whole life of a client", "statement": "For every client over a socket or serial port, with any or no key, any outcome of every open, write, shutdown and close, and any bytes and exceptions that arrive: a short description foretells exactly one result of every call of every sequence of calls, the exact calls made of the socket or port, and what is left. connect on a connected client raises RuntimeError; a failed connect leaves it unconnected. disconnect shuts down and closes (only closes a serial port), does nothing when not connected, and drops the socket when that fails with an OSError. A request that cannot be encoded raises its own exception, one with an unusable key ValueError, one without a connection RuntimeError, one whose write fails that exception (CommunicationError for an OSError); all these, and every exception while the answer is awaited, leave the client refusing every later request with LocalElgasProtocolError, without writing anything, also after disconnect and connect. Otherwise the answer is that of C91.", "quantifier": "all sequences of calls, all environments (outcomes of all calls, all arriving bytes and exceptions, cuttings, clocks, timeouts), all passwords, keys, key ids, random numbers, both transports", "why_tests_cant": "it determines the result for every environment and every history, not for mocked ones", "anchors": ["elgas/client.py:ElgasClient", "elgas/transport.py:BlockingTcpTransport", "elgas/transport.py:SerialTransport", "elgas/connection.py:ElgasConnection.send", "elgas/connection.py:ElgasConnection.next_event", "elgas/state.py:ElgasState"]}
{"id": "C93", "title": "The data of every response means exactly one thing", "statement": "For every service and every byte string as the data of a response, the response factory either returns one response object or raises one exception, and which one is fixed by the layout of the data alone: for a value response six BCD bytes of time that are a calendar date with the two flags in the hour byte, then the data, the access byte, eight status bytes, eight summary bytes and two redundancy bytes; for a time response the time, a result byte, any further data and two bytes that are cut off (or what is left if there are at most two bytes after the time); for a parameter response the number of the first object, the amount, the end flag (any byte but zero) and the data; for an archive response a number from 0 to 10, a record id of three bytes, one byte that is ignored, and the data (a response that ends inside the id is accepted with the bytes there are); a write-time response has no content. KeyError is raised exactly for services without a response class, ValueError exactly when the time is no calendar time in BCD or the archive has another number, IndexError exactly when the data is too short.", "quantifier": "all services, all byte strings", "why_tests_cant": "The claim is an equivalence over all byte strings: that nothing else is accepted and no other exception is raised is a statement about an infinite set of inputs.", "anchors": ["elgas/connection.py:ResponsePduFactory.from_response", "elgas/application.py:ReadInstantaneousValuesResponse.from_bytes", "elgas/application.py:ReadTimeResponse.from_bytes", "elgas/application.py:ReadDeviceParametersResponse.from_bytes", "elgas/application.py:ReadArchiveResponse.from_bytes", "elgas/application.py:ReadArchiveByTimeResponse.from_bytes", "elgas/application.py:WriteTimeResponse.from_bytes", "elgas/utils.py:bytes_to_datetime"]}
{"id": "C94", "title": "Every byte string given to the parameter parser", "statement": "Every byte string is cut into parameter objects in exactly one way: three bytes of header (total length, low byte first, and type code), then the announced number of content bytes or as many as are left. ScadaParameterParser.parse either returns, in order, one object per header, each with every attribute read at its documented place of its content, or raises the exception of the first failure: IndexError for a header of one or two bytes, ValueError for a code no type has, and the documented exception for a content of a length the type does not have. No other result and no other exception is possible. An announced length below three is counted from the end of the data (this is what the code does; see the refuted expectation).", "quantifier": "all byte strings; all lists of objects in them", "why_tests_cant": "It is a statement about all byte strings a device may send, including any number of objects and any damage.", "anchors": ["elgas/parser.py:ScadaParameterParser.parse", "elgas/parameters/factory.py:ParameterFactory.from_bytes", "elgas/utils.py:pop_many"]}
{"id": "C95", "title": "Which data a schema accepts", "statement": "Schema().load(data) gives a value exactly when the data is a dict with every required declared field, no undeclared key, null only where the declaration allows it, and every other value acceptable for its declared kind: for an integer field a whole number, a float (its fraction is dropped) or a text int() reads, but no bool; for a float field a number or a text float() reads, finite unless the field is declared as Number; for a text field a text or decodable bytes; for a boolean field True, False, 1, 0 (also as floats) or one of the words t, true, on, y, yes, 1, f, false, off, n, no, 0 in small letters, in capitals or with a first capital; for a list every item and none null; for a nested schema the same recursively. The result is the object of the registered class with exactly the converted values as attributes (a dict for the three types whose schema makes no object). All other data raises ValidationError.", "quantifier": "all schemas, all data of any shape, all ways Python reads numbers from text", "why_tests_cant": "The data comes from outside (files, other programs); which of infinitely many values are accepted cannot be listed in tests.", "anchors": ["elgas/parameters/*.py:*Schema", "elgas/integration.py:UtilitarianConfigurationSchema", "elgas/parameters/factory.py:SchemaFactory"]}
{"id": "C96", "title": "What is dumped", "statement": "Schema().dump(obj) for an object of the registered class whose attributes are of their annotated types gives exactly one dict: one entry per declared field, in the order of the declarations, holding the attribute of that name: whole numbers as such (True and False as 1 and 0), floats as their Python text where the field is declared as_string and else as they are, texts and booleans unchanged, None as null, lists item by item, the gas composition as a dict of the same form. Nothing is added, left out, renamed or exchanged. The exceptions are the objects the schema cannot carry (C51).", "quantifier": "all registered types, all objects, all float texts", "why_tests_cant": "It ranges over all values of all attributes of all 35 types.", "anchors": ["elgas/parameters/*.py:*Schema", "elgas/parameters/factory.py:SchemaFactory"]}
{"id": "C97", "title": "Encryption is AES-CBC as standardised", "statement": "encrypt(data, key, iv) and decrypt(cipher_text, key, iv) of the security module compute AES-128, AES-192 or AES-256 (FIPS-197) in the mode CBC (SP 800-38A), for exactly the sizes the standards allow, and raise ValueError for all others; every encrypted payload of a telegram is such a ciphertext with the key as iv.", "quantifier": "all keys, initialisation vectors and data", "why_tests_cant": "test vectors cover a handful of blocks; an implementation with a wrong round constant or a wrong table entry passes most of them", "anchors": ["elgas/security.py:encrypt", "elgas/security.py:decrypt", "elgas/security.py:CipherContext.encrypt"]}
{"id": "C98", "title": "Which texts are numbers, and which numbers they are", "statement": "Where a value to be loaded is a text, int(text) accepts exactly blanks, an optional sign, decimal digits with single underscores between them, and blanks, and returns that integer; float(text) accepts exactly the words inf, infinity and nan in any case, and digits with at most one point, at least one digit and an optional signed exponent, and returns the double nearest to the decimal number, of two equally near ones the one with an even last bit, and an infinity from 2^1024 - 2^970 on. Every other text raises ValueError. float(n) of an int is rounded the same way, and raises OverflowError from the same bound on.", "quantifier": "every text, every treatment of non-ASCII digits and spaces, every integer", "why_tests_cant": "There are infinitely many numerals and the halfway cases are rare; rounding errors of one unit in the last place are invisible to most examples.", "anchors": ["elgas/parameters/conversion_coefficient.py:ConversionCoefficientSchema", "elgas/integration.py:UtilitarianConfigurationSchema", "elgas/parameters/analog_quantity.py:AnalogQuantitySchema"]}
{"id": "C99", "title": "The log tells what happened", "statement": "The log of a client is a faithful account. For every sequence of calls: the entries 'Sent data' and 'Received data' show exactly the data of the successful sends and receives of the transport, in order, and every non-empty receive is followed by the entry that it was added to the buffer (with the data and the buffer including it), or, for a lone line end, that it was ignored; the entries about state transitions form a path from the protocol state before to the one after in which requests and responses alternate; and for every call the entries name the request that is sent, the response PDU that came, and the result: 'Got device time' with the time that is returned, 'Received instantaneous values' and 'Finished writing time to device' only if the call returns, for read_parameters every page with the number requested, the amount received and the next number, and finally the total data whose parse is the result. 'Connected to' and 'Connection to ... is closed' are written exactly when connect succeeds and when disconnect closes an open connection. The frame in 'Sending ELGAS request' is the one whose telegram is sent; the frames in 'Received ELGAS response' and 'Decrypted ELGAS response' are those of the telegram in the buffer and its decrypted payload.", "quantifier": "all clients over a TCP or serial transport, all sequences of calls, all outcomes of the socket or port, all random draws; all connections and telegrams for the frame entries", "why_tests_cant": "ranges over all call sequences, failures and deliveries; the tests do not look at the log", "anchors": ["elgas/connection.py:ElgasConnection.send", "elgas/connection.py:ElgasConnection.receive_data", "elgas/connection.py:ElgasConnection.next_event", "elgas/state.py:ElgasState.process_event", "elgas/client.py:ElgasClient.read_parameters", "elgas/client.py:ElgasClient.read_time", "elgas/client.py:ElgasClient.write_time", "elgas/client.py:ElgasClient.read_instantaneous_values", "elgas/transport.py:BlockingTcpTransport", "elgas/transport.py:SerialTransport"]}
{"id": "C100", "title": "Which texts are JSON", "statement": "Schema().loads and json.loads accept exactly the texts of the grammar of RFC 8259 (white space, numbers without leading zeros, strings with the eight short escapes and \\uXXXX, arrays, objects) plus NaN, Infinity and -Infinity, and the data is the one the grammar gives: an int without fraction and exponent, otherwise the nearest float; an escaped high and low surrogate together are one character, alone they stand for themselves; of a key that is given twice the last value counts, at the place of the first. Every other text raises ValueError (JSONDecodeError). A text stands for one value only, what json.dumps writes is a text of the grammar, and a schema loads the data the text stands for.", "quantifier": "all texts, all nesting depths, all schemas", "why_tests_cant": "there are infinitely many texts, and a test cannot show that nothing else is accepted", "anchors": ["elgas/integration.py:UtilitarianConfigurationSchema", "elgas/parameters/factory.py:ParameterSchemaFactory", "tests/test_schema.py:681-698"]}
{"id": "C101", "title": "How a float is written", "statement": "The text of a finite float other than zero, in String fields and in JSON, is the shortest decimal that is read back as the same float: at most 17 digits, no decimal with fewer digits is read back as it, none with as many digits that is read back is nearer to it, and of two equally near ones it is the one with the even last digit. From 0.0001 up to 10^16 it is written with a point and at least one digit on both sides, otherwise with one digit before the point and an exponent with a sign and at least two digits, without needless zeros. There is exactly one such text for every float.", "quantifier": "all doubles, both signs", "why_tests_cant": "there are 2^64 doubles; that no shorter or nearer decimal is read back quantifies over all decimals", "anchors": ["elgas/integration.py:UtilitarianConfigurationSchema", "elgas/parameters/factory.py:ParameterSchemaFactory", "tests/test_schema.py:681-698"]}
{"id": "C102", "title": "From the memory of a device to a text and back", "statement": "A device holds any non-empty list of parameter objects and sends it in pages cut at any byte, in plain telegrams or, with a key, sealed ones; the bytes arrive over a socket or serial port in any pieces, at any times. connect(), read_parameters(0) and disconnect() return exactly these objects, in order, every attribute as the documented field of its bytes, having written one request per page and closed the connection. If the floats are finite and the types are ones whose schema is lossless, the configuration written as JSON text (the program of tests/test_schema.py) is printable ASCII, and reading the text gives objects of the same types, in the same order, with the same attribute values.", "quantifier": "all memories, pagings, keys, random draws, pieces, clocks, timeouts and both transports", "why_tests_cant": "It is about every memory and every way it can be cut, sealed and delivered; tests use one capture.", "anchors": ["elgas/client.py:ElgasClient.read_parameters", "elgas/parser.py:ScadaParameterParser.parse", "elgas/transport.py:BlockingTcpTransport.recv", "elgas/parameters/factory.py:ParameterSchemaFactory", "elgas/integration.py:UtilitarianConfigurationSchema"]}
{"id": "C103", "title": "A device with a state", "statement": "Take a device with a clock that runs, measured values, a memory of parameter objects and archives, which knows the password and, if there is one, the key. Whatever operations the client performs, every line it sends is heard by the device as exactly one query, the one the operation means: the time to set, the number of the first object, the archive, the number of records, the first record or the oldest time, in the fields of the protocol. If the device answers each query from its state, in lines cut anywhere, the operations return that state: a time that was set is read back, later by exactly the time that passed; read_parameters(n) returns the objects from number n on, into whatever pages the device divides them.", "quantifier": "all states of the device, sequences of operations, passing times, pagings, keys, random draws and pieces", "why_tests_cant": "It ranges over all device states and histories; a test has a fixed recording, not a device that depends on what it was sent.", "anchors": ["elgas/client.py:ElgasClient", "elgas/connection.py:ElgasConnection", "elgas/application.py:WriteTimeRequest", "elgas/application.py:ReadDeviceParametersRequest"]}
{"id": "C104", "title": "Echoes and recorded answers", "statement": "Claims: (a) a request telegram that the client hears on the line of the answers, its own echoed by a converter or one of another client on a bus, is skipped; (b) an answer is new: an answer recorded earlier is not taken for the answer to a later request. Both are false of the code, and it is proved how. (a) Every telegram the client sends is such a request; after any conversation, an operation that hears a request telegram first (any addresses, password, key or none, cut anywhere) never returns the answer that follows: it waits, or raises what recv raises. (b) One recorded answer, plain or encrypted, repeated, is the result of every operation of its service, in any session that has the key, whatever the password and the arguments.", "quantifier": "all conversations before it, request telegrams, pieces, keys, passwords, operations, answers and numbers of repetitions", "why_tests_cant": "It ranges over all sessions and recorded telegrams; the tests have neither a bus nor an attacker.", "anchors": ["elgas/client.py:ElgasClient", "elgas/connection.py:ElgasConnection.next_event", "elgas/frames.py:ResponseFactory"]}
{"id": "C105", "title": "The closed loop", "statement": "When all that arrives at a client are the reactions of a device to the lines that the client sent, the device answering what it hears and nothing else, keeping a clock that runs and a memory of parameter objects, and choosing its pages, addresses, escapes, pieces and paddings freely, then every call returns, no answer is left, every sent line is heard as one query, and the session is one that the device serves (C103), and only then: the time that is set is the time that is read, later by the time that passed; the parameters that are read are the memory from the number on.", "quantifier": "all passwords, keys, devices, operations with arguments a telegram can carry, reactions of the device to the sent lines, ticks of its clock before any line, in any order and number", "why_tests_cant": "What the device answers depends on what was sent, and what is sent next on what was answered; a test fixes both in advance.", "anchors": ["elgas/client.py:ElgasClient", "elgas/client.py:ElgasClient.read_parameters", "elgas/connection.py:ElgasConnection.send", "elgas/connection.py:ElgasConnection.next_event"]}
