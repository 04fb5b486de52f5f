{"id": "C01", "title": "Fragment wire codec is exact", "statement": "Packing a PSRP fragment and unpacking the resulting bytes, followed by any further bytes, gives back the same object id, fragment id, start flag, end flag and payload, and exactly the further bytes as the remainder. Packing an id that does not fit in 64 bits, or a payload whose length does not fit in 32 bits, raises an error instead of emitting a truncated header.", "quantifier": "every object id, fragment id, flag combination, payload and trailing byte string", "why_tests_cant": "the space of ids, payload lengths and following bytes is unbounded; tests use a handful of literals", "anchors": ["src/pypsrp/powershell.py:Fragment.pack", "src/pypsrp/powershell.py:Fragment.unpack"]}
{"id": "C02", "title": "A fragmented message is reassembled to the identical message", "statement": "For every message and every negotiated maximum size that leaves room for at least one payload byte, feeding the fragments produced for that message, in order, into a receiver yields that message exactly once, when its last fragment arrives and not before, and leaves nothing buffered for it. Fragment ids count 0,1,2,... and only the first fragment carries the start flag and only the last the end flag.", "quantifier": "every message length, every maximum size, every way the fragment stream is cut into receive calls on fragment boundaries", "why_tests_cant": "boundary arithmetic between message length and maximum size is only sampled by tests", "anchors": ["src/pypsrp/powershell.py:Fragmenter.fragment", "src/pypsrp/powershell.py:Fragmenter.fragment_multiple", "src/pypsrp/powershell.py:Fragmenter._byte_iterator", "src/pypsrp/powershell.py:Fragmenter.defragment"]}
{"id": "C03", "title": "Interleaved fragment streams are demultiplexed correctly", "statement": "When the fragments of any number of messages with distinct object ids arrive interleaved in any order that keeps each message's own fragments in order, split over any number of receive calls, every message is delivered exactly once with its exact bytes, in the order in which the final fragments arrive, and nothing stays buffered afterwards.", "quantifier": "every set of messages, every fragmentation of each, every order-preserving interleaving, every partition into receive calls", "why_tests_cant": "the number of interleavings is combinatorial; the test-suite contains none", "anchors": ["src/pypsrp/powershell.py:Fragmenter.defragment"]}
{"id": "C04", "title": "Every block put on the wire respects the negotiated size", "statement": "Every byte block produced by fragmenting one message or several messages is at most the connection's max_payload_size long, so that it fits in the envelope; this holds for the whole life of the pool, including after the server's session capability changes the payload size.", "quantifier": "every list of messages of every length, every payload size, before and after session negotiation", "why_tests_cant": "needs a boundary argument over all lengths; an off-by-header-size error only shows for messages of particular lengths", "anchors": ["src/pypsrp/powershell.py:Fragmenter.__init__", "src/pypsrp/powershell.py:Fragmenter.fragment", "src/pypsrp/powershell.py:Fragmenter.fragment_multiple", "src/pypsrp/powershell.py:RunspacePool._process_session_capability"]}
{"id": "C05", "title": "Sending several messages together loses and reorders nothing", "statement": "Fragmenting a list of messages together produces blocks whose concatenation, read back by a receiver, is exactly the list of messages in the same order, each under its own object id, no message lost, duplicated or merged with a neighbour, even though blocks may contain the tail of one message and the head of the next.", "quantifier": "every list of messages, every size limit", "why_tests_cant": "packing of tails and heads into shared blocks depends on all the lengths together", "anchors": ["src/pypsrp/powershell.py:Fragmenter.fragment_multiple", "src/pypsrp/powershell.py:Fragmenter.fragment"]}
{"id": "C06", "title": "Lost, duplicated or reordered fragments never yield a corrupted message", "statement": "If the fragments of a message are dropped, duplicated or reordered in any way on their way to the receiver, then every message the receiver delivers for it is the original message; any fragment out of sequence raises FragmentError instead of being merged.", "quantifier": "every sequence, with repetition and omission, of the fragments of a message, in any number of receive calls, including calls made after an earlier one raised", "why_tests_cant": "faults can hit any position of any stream", "anchors": ["src/pypsrp/powershell.py:Fragmenter.defragment", "src/pypsrp/exceptions.py:FragmentError"]}
{"id": "C07", "title": "PSRP message header codec is exact", "statement": "Packing a PSRP message and reading the header back recovers the destination, the message type, the runspace pool GUID, the pipeline GUID and the message text; a leading UTF-8 byte order mark in front of the text is ignored and nothing else is stripped; a missing pipeline id is the all-zero GUID.", "quantifier": "every destination and type that fits 32 bits, every pair of GUIDs, every text", "why_tests_cant": "GUID byte order mixes little and big endian groups; tests look at a few GUIDs", "anchors": ["src/pypsrp/messages.py:Message.pack", "src/pypsrp/messages.py:Message.unpack"]}
{"id": "C08", "title": "Object ids on the wire are never reused", "statement": "Over the whole life of a runspace pool every message it sends carries an object id strictly larger than every earlier one, so two messages in flight can never be confused by the peer.", "quantifier": "every sequence of send operations on one pool", "why_tests_cant": "ranges over operation histories of any length", "anchors": ["src/pypsrp/powershell.py:Fragmenter.fragment", "src/pypsrp/powershell.py:Fragmenter.fragment_multiple"]}
{"id": "C09", "title": "Strings survive the CLIXML escape round trip", "statement": "Deserializing the escaped form of any string of Unicode scalar values returns the same string: control characters, characters outside the BMP and text that itself looks like an escape (_x0041_, _X0041_, _x005F_) all come back unchanged.", "quantifier": "every string of Unicode scalar values", "why_tests_cant": "the escape is applied by two regular expressions, one of them over UTF-16 bytes; interaction of adjacent characters is unbounded", "anchors": ["src/pypsrp/serializer.py:Serializer._serialize_string", "src/pypsrp/serializer.py:Serializer._deserialize_string"]}
{"id": "C10", "title": "Escaped strings contain only characters XML can carry", "statement": "The escaped form of any string of Unicode scalar values contains no C0 or C1 control character, no DEL and no character outside the BMP, and every underscore that precedes x or X in the output belongs to an escape sequence of the form _xHHHH_; strings that need no escaping are sent unchanged; and a peer that reads _xHHHH_ as the UTF-16 code unit of that number and every other character as itself gets back the string that was given.", "quantifier": "every string of Unicode scalar values", "why_tests_cant": "a single missed character makes the whole message unparsable for the server", "anchors": ["src/pypsrp/serializer.py:Serializer._serialize_string"]}
{"id": "C11", "title": "Binary data survives its base64 encoding", "statement": "Byte arrays sent as BA values, fragments sent in Send/Command/creationXml bodies and file chunks are recovered exactly by the decoder on the other side, the encoded text uses only the 64 base64 characters plus padding, and its length is 4*ceil(n/3).", "quantifier": "every byte string", "why_tests_cant": "all lengths modulo 3 and all byte values", "anchors": ["src/pypsrp/serializer.py:Serializer.serialize", "src/pypsrp/serializer.py:Serializer.deserialize", "src/pypsrp/shell.py:WinRS.send", "src/pypsrp/shell.py:WinRS.receive", "src/pypsrp/client.py:Client.copy"]}
{"id": "C12", "title": "Secure strings round trip under the session key and never leave in clear", "statement": "With a session key in place, deserializing a serialized secure string returns the same text for every string of Unicode scalar values; without a session key serializing a secure string raises SerializationError and produces no output, and deserializing one returns the raw element untouched instead of failing.", "quantifier": "every string, every block cipher that inverts itself on whole blocks", "why_tests_cant": "padding depends on length modulo the block size; the cipher must be quantified over", "anchors": ["src/pypsrp/serializer.py:Serializer._serialize_secure_string", "src/pypsrp/serializer.py:Serializer._deserialize_secure_string", "src/pypsrp/complex_objects.py:PSCredential"]}
{"id": "C13", "title": "Serialized values deserialize to the same value", "statement": "Serializing any value built from null, booleans, integers, strings, byte arrays, lists and dictionaries with unique keys, nested to any depth, and deserializing the result yields an equal value.", "quantifier": "every such value of any size and depth", "why_tests_cant": "values are unboundedly nested and the serializer keeps mutable state (ids, type table, metadata objects) across siblings", "anchors": ["src/pypsrp/serializer.py:Serializer.serialize", "src/pypsrp/serializer.py:Serializer.deserialize", "src/pypsrp/serializer.py:Serializer._serialize_lst", "src/pypsrp/serializer.py:Serializer._serialize_dct", "src/pypsrp/serializer.py:Serializer._deserialize_lst", "src/pypsrp/serializer.py:Serializer._deserialize_dct"]}
{"id": "C14", "title": "Reference ids are unique and type references resolve to the type that was sent", "statement": "Within one serialized message every Obj carries a RefId used by no other Obj, every Ref and TNRef refers to an id introduced earlier in document order, and following a TNRef gives exactly the list of type names of the object that carries it.", "quantifier": "every value graph serialized in one message", "why_tests_cant": "depends on the history of all objects serialized before within the message", "anchors": ["src/pypsrp/serializer.py:Serializer._get_obj_id", "src/pypsrp/serializer.py:Serializer._create_tn", "src/pypsrp/serializer.py:Serializer._create_obj", "src/pypsrp/serializer.py:Serializer._get_types_from_obj"]}
{"id": "C15", "title": "With message encryption required no request body leaves in clear", "statement": "When the connection settings require message encryption (always, or auto over plain HTTP) every request carrying a SOAP message is sent wrapped by a security context established by a completed authentication exchange on the same session, on every attempt, including attempts made after a timeout; the only unwrapped request is the empty authentication probe. A settings combination that would require encryption with an authentication method that cannot encrypt is rejected before anything is sent.", "quantifier": "every combination of ssl, encryption and auth settings, every history of requests, timeouts and failures", "why_tests_cant": "the dangerous case is a particular history: a timeout that invalidates the context followed by a retry", "anchors": ["src/pypsrp/wsman.py:_TransportHTTP.__init__", "src/pypsrp/wsman.py:_TransportHTTP.send"]}
{"id": "C16", "title": "Encrypted envelopes round trip", "statement": "Unwrapping a wrapped message with the matching security context returns the original bytes, for every message length, including CredSSP messages above 16 KiB which are split into 16 KiB parts, each declared with its own length.", "quantifier": "every message, protocol and security context whose unwrap inverts its wrap and whose ciphertext does not contain the MIME delimiters", "why_tests_cant": "length boundaries at multiples of 16384 and arbitrary ciphertext", "anchors": ["src/pypsrp/encryption.py:WinRMEncryption.wrap_message", "src/pypsrp/encryption.py:WinRMEncryption.unwrap_message", "src/pypsrp/encryption.py:WinRMEncryption._wrap_message"]}
{"id": "C17", "title": "An encrypted response is accepted only if every part has its declared length", "statement": "unwrap_message returns data only when each part's decrypted length equals the Length declared in its header, and then returns exactly the concatenation of the decrypted parts; otherwise it raises.", "quantifier": "every response body, boundary and security context", "why_tests_cant": "an attacker controls the whole byte string", "anchors": ["src/pypsrp/encryption.py:WinRMEncryption.unwrap_message"]}
{"id": "C18", "title": "Retries happen only for timeouts, only where allowed, and are bounded", "statement": "A request made with r retries is attempted at most r+1 times; it is attempted again only after a connect or read timeout; any other failure is raised at once; the first successful attempt's response is returned; with no retries (every operation except receive) a request body is handed to the network at most once. Successive delays double.", "quantifier": "every sequence of network outcomes, every retry limit", "why_tests_cant": "ranges over all failure schedules", "anchors": ["src/pypsrp/wsman.py:_TransportHTTP.send", "src/pypsrp/wsman.py:WSMan.receive", "src/pypsrp/wsman.py:WSMan.invoke"]}
{"id": "C19", "title": "A response is accepted only for the request it answers", "statement": "invoke returns a response only if its RelatesTo header equals the message id sent in that very request; a response to any other request, or without the header, raises WinRMError. An HTTP error carrying a SOAP fault is raised as WSManFaultError with the fault's code, and one without XML is raised as the original transport error.", "quantifier": "every server behaviour", "why_tests_cant": "the server's reply is arbitrary", "anchors": ["src/pypsrp/wsman.py:WSMan.invoke", "src/pypsrp/wsman.py:WSMan._parse_wsman_fault"]}
{"id": "C20", "title": "Runspace pool operations respect the pool's lifecycle", "statement": "open acts only on a pool never opened before and is a no-op on an opened one; connect acts only on a disconnected pool; disconnect only on an opened one; every other use raises InvalidRunspacePoolStateError and sends nothing; open returns only once the server has reported a state for the pool.", "quantifier": "every history of operations and server messages", "why_tests_cant": "ranges over all operation sequences and server replies", "anchors": ["src/pypsrp/powershell.py:RunspacePool.open", "src/pypsrp/powershell.py:RunspacePool.close", "src/pypsrp/powershell.py:RunspacePool.connect", "src/pypsrp/powershell.py:RunspacePool.disconnect"]}
{"id": "C21", "title": "Closing is idempotent and releases the remote shell exactly once", "statement": "However many times open and close are called in whatever order on a shell or a pool, a delete request is sent only for a shell that was created and not yet deleted; a second close sends nothing; after a failed create no delete is sent.", "quantifier": "every sequence of open/close calls and failures", "why_tests_cant": "ranges over histories", "anchors": ["src/pypsrp/shell.py:WinRS.open", "src/pypsrp/shell.py:WinRS.close", "src/pypsrp/powershell.py:RunspacePool.close"]}
{"id": "C22", "title": "Pipelines follow their lifecycle", "statement": "A pipeline can be started only when not running and with at least one command, stopped only while running (a no-op when stopping or stopped), closed only in a terminal state (a no-op when never started), re-connected only when disconnected; every other use raises InvalidPipelineStateError, sends nothing and changes nothing. A nested pipeline can only be created from a running one that was not reached by reconnecting.", "quantifier": "every history of operations and server messages", "why_tests_cant": "ranges over all operation sequences", "anchors": ["src/pypsrp/powershell.py:PowerShell.begin_invoke", "src/pypsrp/powershell.py:PowerShell.stop", "src/pypsrp/powershell.py:PowerShell.close", "src/pypsrp/powershell.py:PowerShell.connect_async", "src/pypsrp/powershell.py:PowerShell.create_nested_power_shell"]}
{"id": "C23", "title": "Output and stream records arrive complete and in order", "statement": "After a pipeline finishes, its output list is exactly the sequence of output objects the server sent for it, in order, and each of the error, warning, verbose, debug, progress and information streams is exactly the sequence of records of that kind in order, however the server splits messages over fragments and receive responses and however many operation timeouts occur in between.", "quantifier": "every sequence of server messages, every split over responses, any number of interspersed operation timeouts", "why_tests_cant": "all splits and all sequences", "anchors": ["src/pypsrp/powershell.py:PowerShell.poll_invoke", "src/pypsrp/powershell.py:PowerShell.end_invoke", "src/pypsrp/powershell.py:RunspacePool._parse_responses"]}
{"id": "C24", "title": "Runspace limits change only when the server confirms that very request", "statement": "Setting min_runspaces or max_runspaces on an opened pool sends one request under a fresh call id and changes the local value exactly when the server answers that call id with true; a false answer raises InvalidPSRPOperation and leaves the value unchanged; setting the present value or setting it before opening sends nothing. Call ids are never reused.", "quantifier": "every history of limit changes and every order of server answers", "why_tests_cant": "answers can arrive in any order, interleaved with other messages", "anchors": ["src/pypsrp/powershell.py:RunspacePool.min_runspaces", "src/pypsrp/powershell.py:RunspacePool.max_runspaces", "src/pypsrp/powershell.py:RunspacePool._process_runspacepool_availability", "src/pypsrp/powershell.py:RunspacePool.get_available_runspaces", "src/pypsrp/powershell.py:RunspacePool.reset_runspace_state"]}
{"id": "C25", "title": "Host calls are answered once, with the caller's ids", "statement": "For each host call received, the host method is run exactly once; if it returns a value exactly one response carrying the same call id and method id is sent for the same pool and pipeline; if it returns nothing, or no host is configured, no response is sent.", "quantifier": "every sequence of host calls and host implementations", "why_tests_cant": "ranges over all call sequences and host behaviours", "anchors": ["src/pypsrp/powershell.py:RunspacePool._process_host_call", "src/pypsrp/powershell.py:PowerShell._process_pipeline_host_call"]}
{"id": "C26", "title": "Host method identifiers dispatch to the right object and method", "statement": "Method identifiers 1-10 are run on the host, 11-26 on its UI, 27-51 on its raw UI, each by the method of the name assigned to that identifier by MS-PSRP; identifiers above 51 run nothing and give no response.", "quantifier": "every method identifier", "why_tests_cant": "tests call a few identifiers", "anchors": ["src/pypsrp/host.py:PSHost.run_method", "src/pypsrp/complex_objects.py:HostMethodIdentifier"]}
{"id": "C27", "title": "Version comparison is numeric and total", "statement": "version_equal_or_newer(v, r) holds exactly when v's dotted components, read as numbers and padded with zeros, are lexicographically greater than or equal to r's; hence it is reflexive, transitive and total, 2.10 is newer than 2.9 and 2.2 equals 2.2.0.", "quantifier": "every pair of dotted numeric versions of any length", "why_tests_cant": "ordering laws range over triples of versions", "anchors": ["src/pypsrp/_utils.py:version_equal_or_newer"]}
{"id": "C28", "title": "Script loading drops only comments and blank lines", "statement": "For every script whose block comments start on a line of their own and end at a line end different from the starting line, the loaded script is exactly the sequence of non-blank, non-comment lines, each stripped, in order.", "quantifier": "every script text", "why_tests_cant": "scripts are arbitrary text", "anchors": ["src/pypsrp/_utils.py:get_pwsh_script"]}
{"id": "C29", "title": "copy() delivers the exact file or fails without touching the destination", "statement": "When copy() succeeds, the remote destination holds exactly the bytes read from the local file; if any chunk was altered, lost or reordered, or the file changed size while being read, then the remote script finds a checksum mismatch, raises, and leaves the previous destination file unchanged.", "quantifier": "every file content (including empty), every payload size, every alteration of the chunk stream for which the checksum differs", "why_tests_cant": "file sizes around the chunk boundary and all alterations", "anchors": ["src/pypsrp/client.py:Client.copy", "src/pypsrp/pwsh_scripts/copy.ps1"]}
{"id": "C30", "title": "fetch() writes the destination only with verified content", "statement": "fetch() creates or replaces the local destination only with bytes whose checksum equals the one computed remotely over the whole file; on any error or mismatch the destination is untouched; the temporary file is removed in every case.", "quantifier": "every sequence of output objects returned by the remote script", "why_tests_cant": "ranges over all remote outputs", "anchors": ["src/pypsrp/client.py:Client.fetch", "src/pypsrp/pwsh_scripts/fetch.ps1"]}
{"id": "C31", "title": "Process output is collected completely and in order", "statement": "After a process finishes, stdout and stderr are exactly the concatenation, in order, of the chunks the server sent on each stream, the exit code is the one reported with the final state, and operation timeouts in between neither lose nor repeat data; execute_cmd returns -1 only if the server never reported an exit code, and what it returns as text is the text whose bytes, in the encoding asked for, the server sent on that stream, however the chunks cut its characters.", "quantifier": "every sequence of receive responses and timeouts", "why_tests_cant": "all splits of both streams over responses", "anchors": ["src/pypsrp/shell.py:WinRS.receive", "src/pypsrp/shell.py:Process.poll_invoke", "src/pypsrp/shell.py:Process.end_invoke", "src/pypsrp/client.py:Client.execute_cmd"]}
{"id": "C32", "title": "Authentication scheme selection", "statement": "On a 401 the client uses Negotiate if offered, else Kerberos, else NTLM, matched case-insensitively in the www-authenticate header, raises AuthenticationError when none is offered, and never authenticates with a scheme other than the one configured unless the configured scheme or the offered one is Negotiate.", "quantifier": "every www-authenticate header value and configured provider", "why_tests_cant": "header text is arbitrary", "anchors": ["src/pypsrp/negotiate.py:HTTPNegotiateAuth._check_auth_supported", "src/pypsrp/negotiate.py:HTTPNegotiateAuth.handle_401"]}
{"id": "C33", "title": "Authentication token exchange terminates and threads tokens in order", "statement": "Each token the server returns is fed to the security context exactly once in order, each token the context produces is sent exactly once, and the exchange stops as soon as the server sends no token or the context is complete with nothing to send; the context it ran on is the one kept for that host, and those kept for other hosts are untouched.", "quantifier": "every security context behaviour and every sequence of server replies", "why_tests_cant": "ranges over interactive histories", "anchors": ["src/pypsrp/negotiate.py:HTTPNegotiateAuth.handle_401", "src/pypsrp/negotiate.py:HTTPNegotiateAuth._get_auth_token", "src/pypsrp/negotiate.py:HTTPNegotiateAuth._set_auth_token"]}
{"id": "C34", "title": "Disabling new connections is scoped exactly to its block", "statement": "Inside a DisableNewConnectionsContext block any attempt to connect raises NewConnectionDisabled without touching the network, after leaving the block (normally or by exception, at any nesting depth) the behaviour is exactly what it was before entering.", "quantifier": "every properly nested sequence of enter, exit and connect", "why_tests_cant": "nesting depth and exception exits", "anchors": ["src/pypsrp/_pool_manager.py:DisableNewConnectionsContext", "src/pypsrp/_pool_manager.py:_raise_if_connections_disabled", "src/pypsrp/_pool_manager.py:create_request_adapter"]}
{"id": "C35", "title": "Endpoint URL and port selection", "statement": "The endpoint is scheme://host:port/path with https iff ssl, the given port or 5986/5985 by default, and brackets around an IPv6 literal and only then.", "quantifier": "every combination of settings", "why_tests_cant": "combinations of settings and host strings", "anchors": ["src/pypsrp/wsman.py:_TransportHTTP.__init__", "src/pypsrp/wsman.py:_TransportHTTP._create_endpoint"]}
{"id": "C36", "title": "A maximal payload fits the envelope", "statement": "For every envelope size limit, a message whose envelope apart from the payload is no larger than the estimate plus the 256 byte allowance, carrying the base64 of at most max_payload_size bytes, is not larger than the limit.", "quantifier": "every envelope size and every payload length", "why_tests_cant": "base64 padding rounds up while the calculation rounds down", "anchors": ["src/pypsrp/wsman.py:WSMan._calc_envelope_size", "src/pypsrp/wsman.py:WSMan.update_max_payload_size"]}
{"id": "C37", "title": "Multi-dimensional arrays survive flattening", "statement": "Flattening a rectangular array of any rank with positive dimensions into the element list and dimension list used on the wire and rebuilding it gives the same array.", "quantifier": "every rank and every positive dimensions", "why_tests_cant": "rank is unbounded; the rebuild is recursive", "anchors": ["src/pypsrp/complex_objects.py:Array._build_array", "src/pypsrp/complex_objects.py:Array._get_list_entries", "src/pypsrp/complex_objects.py:Array._get_list_count"]}
{"id": "C38", "title": "Statements are split and rejoined without loss", "statement": "The commands of a pipeline are split into statements after each command marked as the end of a statement (the last command always is); concatenating the statements gives the commands in order, no statement is empty, ExtraCmds is present iff there is more than one statement and then lists all of them, Cmds is always the first; reading the message back yields the same command sequence with the same statement boundaries.", "quantifier": "every non-empty list of commands and flags", "why_tests_cant": "all placements of statement boundaries", "anchors": ["src/pypsrp/complex_objects.py:Pipeline._get_statements", "src/pypsrp/complex_objects.py:Pipeline._cmds", "src/pypsrp/complex_objects.py:Pipeline._extra_cmds", "src/pypsrp/powershell.py:PowerShell.add_statement"]}
{"id": "C39", "title": "Session key exchange runs at most once and yields a usable key", "statement": "exchange_keys sends the public key at most once however often it is called before completion, the blob it sends decodes to exactly the generated modulus and exponent, and after the server's reply has been processed secure strings can be serialized; a server request for the key starts the exchange.", "quantifier": "every history of exchange_keys calls and server messages, every 2048-bit modulus", "why_tests_cant": "histories and 2048-bit numbers", "anchors": ["src/pypsrp/powershell.py:RunspacePool.exchange_keys", "src/pypsrp/powershell.py:RunspacePool._process_encrypted_session_key", "src/pypsrp/powershell.py:RunspacePool._parse_responses"]}
{"id": "C40", "title": "Pipeline input is delivered completely and terminated once", "statement": "When input is supplied, exactly the supplied objects are sent in order followed by exactly one end-of-input message, whatever mixture of single objects and lists the generator yields; when no input is supplied nothing is sent and the pipeline is created with NoInput set; NoInput is set only if no input follows.", "quantifier": "every generator of inputs, finite of any length", "why_tests_cant": "generators are arbitrary", "anchors": ["src/pypsrp/powershell.py:PowerShell.begin_invoke"]}
{"id": "C41", "title": "Creating a pipeline transmits the whole creation message", "statement": "The first block of the creation message travels in the Command request and all remaining blocks follow in order in Send requests for the same command, so that the server reassembles exactly the creation message; likewise opening a pool transmits the whole negotiation and initialisation messages.", "quantifier": "every creation message and application arguments of every size", "why_tests_cant": "only large scripts or arguments exercise more than one block", "anchors": ["src/pypsrp/powershell.py:PowerShell._invoke", "src/pypsrp/powershell.py:RunspacePool.open", "src/pypsrp/powershell.py:RunspacePool._connect_new_client"]}
{"id": "C42", "title": "Merging streams is validated against the negotiated protocol", "statement": "merge_* accepts only none, output and (except for errors) null, and raises InvalidPSRPOperation for anything else or when the server's protocol version is below the one the stream needs, leaving the command unchanged; otherwise it sets exactly the stream asked for; merge_reset restores the default on every stream the protocol version supports.", "quantifier": "every target string, protocol version and prior merge state", "why_tests_cant": "strings and versions are unbounded", "anchors": ["src/pypsrp/powershell.py:PowerShell._set_merge_to", "src/pypsrp/powershell.py:PowerShell.merge_error", "src/pypsrp/powershell.py:PowerShell.merge_all", "src/pypsrp/powershell.py:PowerShell.merge_reset"]}
{"id": "C43", "title": "Host information flags are consistent", "statement": "The flags sent to the server are consistent with the host supplied: a null host implies null UI, a null UI implies null raw UI, UseRunspaceHost iff no host, and host data is present iff there is a raw UI, with the ten entries 0-9 carrying the raw UI's values.", "quantifier": "every host configuration", "why_tests_cant": "small but combined with serialization of arbitrary values", "anchors": ["src/pypsrp/complex_objects.py:HostInfo", "src/pypsrp/complex_objects.py:_HostDefaultData"]}
{"id": "C44", "title": "Flag enumerations print exactly the set flags", "statement": "The text sent for a flag value lists exactly the names of the flags contained in it, in ascending order, and 'All'/'AddInvocationInfo' exactly for the full mask; distinct combinations of defined flags give distinct texts.", "quantifier": "every integer flag value", "why_tests_cant": "all integers, including undefined bits", "anchors": ["src/pypsrp/complex_objects.py:RemoteStreamOptions", "src/pypsrp/complex_objects.py:CommandType"]}
{"id": "C45", "title": "Fault and state errors describe what happened", "statement": "The text of a WSManFaultError names every detail the server supplied and no other, in a fixed order, and says so when none was supplied; the fault code is numeric whenever the server's code is a decimal number, with the WSManFault code taking precedence over the SOAP subcode and that over the SOAP code.", "quantifier": "every fault document", "why_tests_cant": "every combination of present and absent details", "anchors": ["src/pypsrp/exceptions.py:WSManFaultError.message", "src/pypsrp/wsman.py:WSMan._parse_wsman_fault"]}
{"id": "C46", "title": "is_alive never opens a connection and latches the closed state", "statement": "is_alive returns True only if the server confirmed the shell is not disconnected over an existing connection; timeouts, connection errors, operation-timeout and unexpected-selectors faults give False and mark the pool closed so that close() sends nothing; any other fault is raised and leaves the state unchanged; new connections are allowed again afterwards.", "quantifier": "every server reply or network failure", "why_tests_cant": "failure modes are many and the connection guard must be restored on each of them", "anchors": ["src/pypsrp/powershell.py:RunspacePool.is_alive", "src/pypsrp/_pool_manager.py:DisableNewConnectionsContext"]}
{"id": "C47", "title": "Disconnect and reconnect keep pipelines reachable", "statement": "After disconnect every pipeline still registered with the pool is listed by create_disconnected_power_shells and can be reconnected after connect; pipelines that were closed or stopped are not listed; connecting leaves the registry unchanged.", "quantifier": "every history of starts, closes, stops, disconnects and connects", "why_tests_cant": "ranges over histories", "anchors": ["src/pypsrp/powershell.py:RunspacePool.disconnect", "src/pypsrp/powershell.py:RunspacePool.connect", "src/pypsrp/powershell.py:RunspacePool.create_disconnected_power_shells", "src/pypsrp/powershell.py:PowerShell.connect_async"]}
{"id": "C48", "title": "Selector and option sets are transmitted entry by entry", "statement": "Packing an option or selector set yields one child per added entry, in order, with its name, text and attributes, and must-understand set exactly for option sets; the selectors returned when a shell is created are used unchanged on every later request for it.", "quantifier": "every list of entries", "why_tests_cant": "lists of any length", "anchors": ["src/pypsrp/wsman.py:_WSManSet.pack", "src/pypsrp/shell.py:WinRS._parse_shell_create"]}
{"id": "C49", "title": "Integers and characters survive their textual form", "statement": "Every integer serialized under an integer tag and every character serialized under C is read back as the same integer or character, and integers keep their sign and all digits whatever their size.", "quantifier": "every integer and every character", "why_tests_cant": "unbounded integers", "anchors": ["src/pypsrp/serializer.py:Serializer.serialize", "src/pypsrp/serializer.py:Serializer.deserialize"]}
{"id": "C50", "title": "Mandatory properties are enforced, optional ones default to none", "statement": "Deserializing an object of a known class succeeds only if each mandatory property is present (or explicitly nil), gives None for absent optional ones, and raises SerializationError otherwise; pipeline output that fails this is still delivered as a generic object with all its properties.", "quantifier": "every element tree and class description", "why_tests_cant": "element trees are arbitrary", "anchors": ["src/pypsrp/serializer.py:Serializer._deserialize_obj", "src/pypsrp/messages.py:Message.unpack"]}
{"id": "C51", "title": "The default host keeps what the server writes, in order", "statement": "Through the default PSHost with its UI classes, every sequence of Write, WriteLine, error, debug, verbose and warning calls leaves in stdout and stderr exactly the written text in call order, with the documented prefixes and line ends; a value set on the raw UI is the value the next matching get returns. Each call that asks for a setting is answered with that setting; no call changes a setting, an output or the exit code it is not for; SetShouldExit keeps the code; what needs a user raises NotImplementedError and changes nothing; notifications and changes of the screen have no effect.", "quantifier": "every sequence of host calls, every text and every state of the host", "why_tests_cant": "call sequences and texts are unbounded", "anchors": ["src/pypsrp/host.py:PSHostUserInterface", "src/pypsrp/host.py:PSHostRawUserInterface"]}
{"id": "C52", "title": "The HTTP wait outlasts the operation timeout asked of the server", "statement": "For every request the HTTP client waits longer for data than the operation timeout stated in the request, so that the server's own timeout answer can arrive instead of a client-side read timeout.", "quantifier": "every request, every timeout argument and every configuration", "why_tests_cant": "ranges over all timeouts and configurations, and the two limits are set in different layers", "anchors": ["src/pypsrp/wsman.py:WSMan.invoke", "src/pypsrp/wsman.py:_TransportHTTP._send_request"]}
{"id": "C53", "title": "Each WSMan method asks for exactly what it is named after", "statement": "Every method of WSMan hands the transport one request whose Action is the standard URI of that operation and of no other, whose ResourceURI is the one given, and whose body holds exactly the given element; it returns the Body of the related answer and nothing else.", "quantifier": "every method, resource, set and answer", "why_tests_cant": "ranges over all requests and answers", "anchors": ["src/pypsrp/wsman.py:WSMan.create", "src/pypsrp/wsman.py:WSMan.get", "src/pypsrp/wsman.py:WSMan.invoke"]}
{"id": "C54", "title": "What the server negotiates governs the pool, and nothing else does", "statement": "A pool's protocol, PowerShell and serialization versions are always those of the last session capability received. The envelope size is raised from the default 153600 to 512000, with the payload size computed for it, exactly if a protocol version of at least 2.2 was stated; a size chosen by the caller is never changed. On an opened pool reset_runspace_state raises and sends nothing when the negotiated protocol is older than 2.3, and otherwise returns only if the server answers that very call with true.", "quantifier": "every history of operations and every server", "why_tests_cant": "server behaviour and histories are unbounded", "anchors": ["src/pypsrp/powershell.py:RunspacePool._process_session_capability", "src/pypsrp/powershell.py:RunspacePool.reset_runspace_state"]}
{"id": "C55", "title": "The HTTP session is built as configured", "statement": "Certificate verification is off only if the caller, or without a word from the caller the environment, said so, and a bundle named by the caller is used unchanged; a proxy given by the caller is the only one and no_proxy rules out those of the environment; a request whose answer was being read is never resent by the HTTP library; the authenticator is the one asked for, with the credentials and exactly the keyword arguments given; certificate authentication uses no password, the other methods no client certificate, and Basic credentials go out without TLS only with encryption=never.", "quantifier": "every configuration and every environment", "why_tests_cant": "the combinations of a dozen settings and the environment are too many to enumerate, and that a secret is not used is a statement about all its values", "anchors": ["src/pypsrp/wsman.py:_TransportHTTP._build_session", "src/pypsrp/wsman.py:_TransportHTTP._build_auth_certificate", "src/pypsrp/wsman.py:_TransportHTTP._get_auth_kwargs"]}
{"id": "C56", "title": "The security context is bound to the channel and the service asked for", "statement": "The context of a Negotiate, Kerberos or NTLM connection is created with the caller's credentials, delegation, service (by default WSMAN) and host name override, sealing exactly if message encryption is required, and, over TLS unless the caller declined it, with the tls-server-end-point binding of RFC 5929 computed from the certificate the server presented; without TLS there is no binding.", "quantifier": "every configuration, certificate and signature algorithm", "why_tests_cant": "certificates and hash algorithms range over unbounded sets, and the absence of a wrong binding cannot be tested", "anchors": ["src/pypsrp/negotiate.py:HTTPNegotiateAuth.handle_401", "src/pypsrp/negotiate.py:HTTPNegotiateAuth._get_cbt_data", "src/pypsrp/negotiate.py:HTTPNegotiateAuth._get_certificate_hash"]}
{"id": "C57", "title": "execute_ps runs exactly the given script and cleans up", "statement": "Every pipeline execute_ps creates, whatever the server answers, consists of one statement per environment variable that sets it and one that runs the script, in which the names, values and script occur only as parameter values; if it returns it created exactly one, the text is that pipeline's output joined by newlines, had_errors is what the server reported and the streams hold what the server sent; once the pool is open, the last request is the deletion of the shell however the script ends; a shell created on the server is always deleted.", "quantifier": "every script, environment and server behaviour", "why_tests_cant": "scripts, server answers and failures range over unbounded sets", "anchors": ["src/pypsrp/client.py:Client.execute_ps", "src/pypsrp/powershell.py:RunspacePool.__enter__", "src/pypsrp/powershell.py:RunspacePool.__exit__"]}
{"id": "C58", "title": "sanitise_clixml gives the error text the host wrote", "statement": "Text that does not start as CLIXML is returned unchanged; of a CLIXML document the result is the concatenation of the strings of the error stream, in document order, each decoded from its _xHHHH_ form to the text the host wrote, with nothing from other streams or other elements.", "quantifier": "every text and every CLIXML document", "why_tests_cant": "texts and documents are unbounded, and the escapes interact with their neighbours", "anchors": ["src/pypsrp/client.py:Client.sanitise_clixml"]}
{"id": "C59", "title": "A graph of instances comes back from its serialized form as a copy of itself", "statement": "For every value that fits the metadata it is serialized under (primitives in range of their tag, lists, dictionaries, tagged values, and instances of the library's classes nested to any depth), serializing it and deserializing the text under the same metadata gives equal primitives, lists and dictionaries of the same length and keys, and new instances of the same classes, none of which existed before, whose attributes and text are copies of the original's.", "quantifier": "every value graph, every class description, every state of the reader's heap", "why_tests_cant": "instances nest without bound, and what a type reference or a property lookup finds depends on everything written before it in the message", "anchors": ["src/pypsrp/serializer.py:Serializer.serialize", "src/pypsrp/serializer.py:Serializer.deserialize", "src/pypsrp/serializer.py:Serializer._serialize_obj", "src/pypsrp/serializer.py:Serializer._deserialize_obj", "src/pypsrp/complex_objects.py:ComplexObject"]}
{"id": "C60", "title": "Text given by the user cannot become markup, and arrives unchanged", "statement": "For every tree of elements the library builds, whatever characters XML knows its texts and attribute values consist of, the bytes the library sends are well-formed UTF-8 XML, and a reader of them gets the same elements with the same names, namespaces, attributes and texts (an empty text being no text). Two different trees never have the same bytes.", "quantifier": "every element tree over the characters of XML, every registry of prefixes", "why_tests_cant": "texts range over all strings, and an escape that is missing shows only with the character and the place it was needed for", "anchors": ["src/pypsrp/wsman.py:WSMan.invoke", "src/pypsrp/serializer.py:Serializer.serialize", "src/pypsrp/messages.py:Message.pack"]}
{"id": "C61", "title": "What is serialized to a text is read back from it, and never as something else", "statement": "For every value the serializer accepts whose strings consist of Unicode scalar values other than U+FFFE and U+FFFF and whose unescaped parts (property names, type names, tagged texts) of characters XML knows, the text the serializer returns is parsed to exactly the tree of elements the serializer made, so that no string, name or type becomes markup; and what fits the metadata it was serialized under comes back from the text as a copy, its strings with their line ends, controls and markup unchanged.", "quantifier": "every value graph, every class description, every registry of prefixes", "why_tests_cant": "strings and graphs are unbounded, and the two layers of escaping act on the same text", "anchors": ["src/pypsrp/serializer.py:Serializer.serialize", "src/pypsrp/serializer.py:Serializer.deserialize", "src/pypsrp/serializer.py:Serializer._serialize_string"]}
{"id": "C62", "title": "A message arrives as a copy of itself", "statement": "For every message object that fits its class (C59) and every object sent to or put out by a pipeline, with strings as in C61: packing the message, cutting it into fragments of any size, receiving them in any grouping and unpacking gives one message of the same type, destination and ids whose object is a copy of the one sent; the class used for reading is the one whose instances carry the message's type number.", "quantifier": "every message object, every fragment size and counter, every grouping of the fragments received", "why_tests_cant": "objects, strings, fragment sizes and groupings are unbounded, and the layers only meet in the bytes", "anchors": ["src/pypsrp/messages.py:Message.pack", "src/pypsrp/messages.py:Message.unpack", "src/pypsrp/powershell.py:Fragmenter.fragment", "src/pypsrp/powershell.py:Fragmenter.defragment", "src/pypsrp/serializer.py:Serializer.serialize", "src/pypsrp/serializer.py:Serializer.deserialize"]}
{"id": "C63", "title": "A pipeline is started with what was asked for", "statement": "For every call of begin_invoke on a PowerShell object with commands, on a pool whose host has no raw user interface: the CREATE_PIPELINE message that is made, packed and cut into fragments of any size is read at the other end as a request with the same input, history, nesting and redirection flags, the same stream options and their names, the apartment state asked for or else the pool's, the same host flags, and the same statements: commands in order, cut after each command that ends a statement, each with its text, scope, the streams its protocol version has and where they go, and its parameters in order with their names and copies of their values. The same holds for the limits, options, host and application arguments of the INIT_RUNSPACEPOOL message that open makes.", "quantifier": "every pool, every list of commands and parameters, every combination of options, every fragment size and grouping", "why_tests_cant": "command lists, scripts and parameter values are unbounded, and no single layer sees both the call and what the other end reads", "anchors": ["src/pypsrp/powershell.py:PowerShell.begin_invoke", "src/pypsrp/powershell.py:RunspacePool.open", "src/pypsrp/complex_objects.py:Pipeline", "src/pypsrp/complex_objects.py:Command", "src/pypsrp/complex_objects.py:CommandParameter", "src/pypsrp/complex_objects.py:HostInfo", "src/pypsrp/messages.py:CreatePipeline", "src/pypsrp/messages.py:InitRunspacePool"]}
{"id": "C64", "title": "What a shell is asked to do reaches the server as it was given", "statement": "Every WSMan request, read back from the bytes that are posted, is an envelope whose header names the action, resource, endpoint, session, message id, envelope size and timeout of the caller once each, carries the options and selectors in the order they were added with their names, texts and attributes, and whose body is the resource given. In particular the server reads exactly the executable and the arguments in their order, the input bytes with their end flag and command id, the signal, and the settings a WinRS shell was made with (streams, environment variables, idle time, lifetime, name, working directory, profile and codepage), whatever markup or quotes these texts contain, after any uses of the shell; the command given to Client.execute_cmd is the one run, in a shell with its environment.", "quantifier": "all settings, commands, arguments, environments, input bytes, options, selectors and servers; all sequences of uses of a shell", "why_tests_cant": "texts are unbounded and hostile ones (markup, quotes, line ends, control characters) are the interesting ones; the tests compare a few recorded requests", "anchors": ["src/pypsrp/wsman.py:WSMan.invoke", "src/pypsrp/wsman.py:WSMan._create_header", "src/pypsrp/wsman.py:_WSManSet.pack", "src/pypsrp/shell.py:WinRS.open", "src/pypsrp/shell.py:WinRS.command", "src/pypsrp/shell.py:WinRS.send", "src/pypsrp/shell.py:WinRS.receive", "src/pypsrp/shell.py:WinRS.signal", "src/pypsrp/shell.py:Process", "src/pypsrp/client.py:Client.execute_cmd"]}
{"id": "C65", "title": "What a pool asks its server reaches it as it was asked", "statement": "Every request that any sequence of operations on a RunspacePool and its pipelines makes (open, close, connect, disconnect, changing limits, key exchange, creating, starting, polling, stopping and reconnecting pipelines, answers to host calls) can be written, and read back from the bytes posted it is that request: its action, the pool's resource, its options, selectors and timeout, and its body. Opening a pool asks for a shell with the pool's settings and the protocol version, and gives it the first block of the two messages; starting a pipeline asks for a command with the pipeline's id, in the shell the server created, followed by input for the command the server named, and the blocks the server reads there reassemble to exactly the creation message, the inputs and the end.", "quantifier": "all pools, settings and ids, all sequences of operations, all servers, all block sizes", "why_tests_cant": "histories and blocks are unbounded and the server's answers decide ids, selectors and settings of later requests; tests compare a few recorded requests", "anchors": ["src/pypsrp/powershell.py:RunspacePool", "src/pypsrp/powershell.py:PowerShell", "src/pypsrp/powershell.py:RunspacePool.open", "src/pypsrp/powershell.py:PowerShell.begin_invoke", "src/pypsrp/shell.py:WinRS", "src/pypsrp/wsman.py:WSMan.invoke"]}
{"id": "C66", "title": "What a pool and its pipelines say is what the server understands", "statement": "Every message the client makes (capabilities, opening, connecting, runspace limits, available runspaces, reset, public key, answers to host calls, creating a pipeline, command metadata, input, end of input) is packed, and whoever reads its bytes with the same metadata gets a message of that type for that pool and pipeline which says exactly what the call said. In particular begin_invoke(input, ...) on a pipeline makes the server reassemble from the requests it reads: the creation of a pipeline with the commands, parameters, statements and settings given, then copies of the inputs in their order, then the end of input; and open(application_arguments) makes it read the client's capabilities and the pool's limits, thread options, apartment state, host and arguments.", "quantifier": "all pools, pipelines, commands, inputs and argument graphs, all messages, all servers, all block sizes, all ciphers", "why_tests_cant": "graphs of objects, inputs and blocks are unbounded and the whole path from the call to the object read at the other end crosses serializer, XML, encoding, fragmenter, base64 and envelope; tests compare a few recorded exchanges", "anchors": ["src/pypsrp/powershell.py:RunspacePool.open", "src/pypsrp/powershell.py:PowerShell.begin_invoke", "src/pypsrp/powershell.py:RunspacePool._process_host_call", "src/pypsrp/messages.py:Message.pack", "src/pypsrp/serializer.py:Serializer.serialize", "src/pypsrp/shell.py:WinRS", "src/pypsrp/wsman.py:WSMan.invoke"]}
{"id": "C67", "title": "What a server writes is what the client holds that reads it", "statement": "Every document of objects a server may write - scalars, references to objects given before, generic objects with type names (in full or by reference), text, value sets, adapted and extended properties, lists, queues, stacks and dictionaries, instances of the library's classes - of any size and depth is read: each object becomes a new instance that holds under the same names and in the same order what was written, optional properties that are absent are None, an object given again is the same object, and nothing that was there before is touched. What an object is taken for is its most derived known type name, with Deserialized. and [] understood, and the names of generic lists and dictionaries.", "quantifier": "all documents, all nestings and references, all texts, all ciphers, all heaps, all classes whose attributes are told apart", "why_tests_cant": "documents are unbounded trees with references through ids and type-name ids; tests deserialize a few recorded documents", "anchors": ["src/pypsrp/serializer.py:Serializer.deserialize", "src/pypsrp/serializer.py:Serializer._deserialize_obj", "src/pypsrp/serializer.py:Serializer._deserialize_dynamic_obj", "src/pypsrp/serializer.py:Serializer._deserialize_lst", "src/pypsrp/serializer.py:Serializer._deserialize_dct", "src/pypsrp/serializer.py:Serializer._get_types_from_obj"]}
{"id": "C68", "title": "What a server's XML says does not depend on how it is spelled", "statement": "A response, a fault or a document of objects means the same however its XML is written: either quotes, any white space in tags and around the root, any prefixes and default namespaces, character and entity references or CDATA sections in place of characters, comments and processing instructions anywhere, any line ends, an XML declaration and a byte order mark or none. A well-formed text has one meaning; the client reads it as that tree, returns the response that relates to its request, raises the fault it says and holds the objects it says. Nothing else is taken for an answer: a text that is not well-formed says nothing, is never returned as a response nor raised as a fault, and as a document of objects is given as the text it is.", "quantifier": "all texts the productions of XML 1.0 and its namespaces allow (ASCII names, no document type), of any size and depth, all trees, all requests", "why_tests_cant": "the spellings of one document are unboundedly many and servers choose them freely; tests replay recorded responses in the one spelling Windows uses", "anchors": ["src/pypsrp/wsman.py:WSMan.invoke", "src/pypsrp/wsman.py:WSMan._parse_wsman_fault", "src/pypsrp/serializer.py:Serializer.deserialize"]}
{"id": "C69", "title": "What a server's messages say is what the pipeline that waited for them has", "statement": "Once waiting for a pipeline comes back, its output is exactly what the output messages of the server said, each stream has grown by exactly what the records of its kind said, the error stream also by the error a state message said the pipeline failed with, and its state is the last one said with had_errors set if one said Failed: each message once and in the order in which they became complete, however their bytes are cut into fragments, mixed and spread over answers, and however their documents are spelled.", "quantifier": "all servers and answers, all interleavings of fragments, all messages that C67 can read in every spelling of XML, all pipelines and worlds", "why_tests_cant": "fragmentation, interleaving, polling, spelling and object graphs multiply; tests replay one recorded exchange and compare a few attributes", "anchors": ["src/pypsrp/powershell.py:PowerShell.end_invoke", "src/pypsrp/powershell.py:PowerShell.poll_invoke", "src/pypsrp/messages.py:Message.unpack", "src/pypsrp/serializer.py:Serializer.deserialize"]}
{"id": "C70", "title": "Messages are in the form of the protocol", "statement": "Every message the client sends has the form [MS-PSRP] gives it: the header says it is for the server and which type it is, and its object has the type names, the text and exactly the properties of that type of message, each under its own name, of its own type and telling the value of that attribute, nested objects and enumerations included. What a server sends in the form of the protocol is read, with the properties that may be left out left out and any of them null, and each attribute of the object the client holds is what the property of its name said and None when that was null or absent.", "quantifier": "all messages the client makes, all pools, pipelines, commands, hosts and object graphs, all ciphers; all objects a server sends in the form of the protocol, of any size and nesting", "why_tests_cant": "a name, type or position that is wrong on both sides of a library survives every round trip, and tests with recorded messages see a handful of objects; which properties are there depends on unbounded object graphs", "anchors": ["src/pypsrp/messages.py", "src/pypsrp/complex_objects.py", "src/pypsrp/messages.py:Message.pack", "src/pypsrp/serializer.py:Serializer.serialize", "src/pypsrp/serializer.py:Serializer._serialize_obj", "src/pypsrp/serializer.py:Serializer.deserialize", "src/pypsrp/powershell.py:RunspacePool", "src/pypsrp/powershell.py:PowerShell"]}
{"id": "C71", "title": "Arrays of any number of dimensions keep every element at its place", "statement": "An Array made of a rectangular nested list announces its lengths (mal) and its elements (mae) with the last index moving first, each element once; an Array received with as many elements as its lengths ask for gives a nested list with each element at its place, and building it comes to an end; an Array written to a text and read from it has copies of the elements at the same indices.", "quantifier": "all numbers of dimensions, all lengths, all elements, all graphs around them", "why_tests_cant": "dimensions and lengths are unbounded and the two loops are inverse only together; the tests have three arrays", "anchors": ["src/pypsrp/complex_objects.py:Array", "src/pypsrp/complex_objects.py:Array._build_array", "src/pypsrp/complex_objects.py:Array._get_list_entries", "src/pypsrp/complex_objects.py:Array._get_list_count", "src/pypsrp/serializer.py:Serializer.serialize", "src/pypsrp/serializer.py:Serializer.deserialize"]}
{"id": "C72", "title": "The server is told of the host the client has", "statement": "The message that opens a pool and the one that creates a pipeline say of the host which of host, user interface and raw user interface there are and whether the host of the runspace is to be used; of a host with a raw user interface the server reads the ten settings of the screen as they are: colours, cursor and window positions, cursor size, buffer, window and maximal sizes with width and height apart, and the title, each once under its number and with the name of its type.", "quantifier": "all hosts, all numbers and titles of Unicode scalar values, all pools, pipelines, arguments and commands around them", "why_tests_cant": "settings and titles are unbounded and reach the server through classes, generic objects with references, a dictionary, escaping and XML; the tests compare one recorded host and a swapped pair of equal numbers passes", "anchors": ["src/pypsrp/complex_objects.py:HostInfo", "src/pypsrp/complex_objects.py:_HostDefaultData", "src/pypsrp/messages.py:InitRunspacePool", "src/pypsrp/messages.py:CreatePipeline", "src/pypsrp/serializer.py:Serializer._serialize_dynamic_obj", "src/pypsrp/serializer.py:Serializer._serialize_dct"]}
{"id": "C73", "title": "Waiting for a pool's answer comes back with it, however slow the server", "statement": "open() returns once the server has said a state other than NegotiationSent, with the pool in the state said; setting min_runspaces or max_runspaces of an open pool returns once the server has confirmed the call, with the limit asked for; so do a reset and get_available_runspaces, the latter with the number said; exchange_keys returns with the key the server sent, if it came within session_key_timeout_ms, and can be tried again if not; each takes no more requests than the server needed answers, whatever events, data and empty answers come between, in whatever pieces. A server that only takes longer than the operation timeout fails none of them.", "quantifier": "all pools, limits, message sequences, splits and interleavings of fragments, any number of answers", "why_tests_cant": "that a loop ends is a claim on all executions; the answers are unbounded in number and the tests replay recordings in which the server answers at once", "anchors": ["src/pypsrp/powershell.py:RunspacePool.open", "src/pypsrp/powershell.py:RunspacePool.min_runspaces", "src/pypsrp/powershell.py:RunspacePool.max_runspaces", "src/pypsrp/powershell.py:RunspacePool._receive"]}
{"id": "C74", "title": "A new object has what it was given, and can be sent", "statement": "Making an object of one of the library's classes sets every attribute that is sent to what was given under the keyword of that name, None if nothing was given; an object made so, with a value that the enumeration has and attributes of the types that the metadata asks for, can be serialized, and whoever reads it has an object of the same class with copies of what was given.", "quantifier": "all classes of complex_objects.py but Command, Array, Pipeline and HostInfo, all keyword arguments, all object graphs in them", "why_tests_cant": "a name that is misspelt on one side is seen only by sending an object of that class with that attribute; there are twenty-six classes with some hundred and thirty attributes, and the tests mostly read objects, which sets attributes without the constructor", "anchors": ["src/pypsrp/complex_objects.py", "src/pypsrp/complex_objects.py:CultureInfo", "src/pypsrp/complex_objects.py:ErrorRecord", "src/pypsrp/complex_objects.py:InformationalRecord", "src/pypsrp/serializer.py:Serializer._serialize_obj", "src/pypsrp/host.py:PSHost.GetCurrentCulture"]}
{"id": "C75", "title": "An error's text tells what happened", "statement": "The text of a transport error tells the status code and the content; that of a fault has every detail the server supplied, and says so if there is none, and two faults with the same text supplied the same details; that of an operation refused for the state of a pool or a pipeline names the action, the state it is in and the states it could be done in, in none of which it would have been refused, and the numbers and names of the states are those of the protocol. Nothing has happened when it is raised.", "quantifier": "all codes, contents, faults, states, operations and worlds", "why_tests_cant": "texts, numbers and combinations of details are unbounded, and that no two causes share a text is a claim about pairs; tests compare a few messages", "anchors": ["src/pypsrp/exceptions.py:WinRMTransportError", "src/pypsrp/exceptions.py:WSManFaultError", "src/pypsrp/exceptions.py:_InvalidStateError", "src/pypsrp/complex_objects.py:RunspacePoolState", "src/pypsrp/complex_objects.py:PSInvocationState", "src/pypsrp/powershell.py:RunspacePool.open", "src/pypsrp/powershell.py:PowerShell.begin_invoke"]}
{"id": "C76", "title": "Queues and stacks come back as they were sent, and stay with the sender", "statement": "A queue.Queue given to the serializer can be sent, and whoever reads it has a queue of equal values in the same order; a list sent as a stack is read as a stack with the same top; the caller still has the values after sending.", "quantifier": "all queues and stacks of scalars and None, all ciphers and heaps", "why_tests_cant": "the values are unbounded, and the faults show only with values of different types, with a second sending, or with a comparison of both ends; tests send one queue of like values", "anchors": ["src/pypsrp/serializer.py:Serializer._serialize_que", "src/pypsrp/serializer.py:Serializer._serialize_stk", "src/pypsrp/serializer.py:Serializer._deserialize_que", "src/pypsrp/serializer.py:Serializer._deserialize_stk", "src/pypsrp/serializer.py:Serializer._deserialize_list_values"]}
{"id": "C77", "title": "The pools that are listed are those of the server", "statement": "get_runspace_pools gives one RunspacePool for every PowerShell shell that the server has, in its order and no other, disconnected and to be connected as a new client, under the shell's id and at the shell's own resource; each has one disconnected pipeline per command of that shell, found under its id. Only enumerations are asked for: of the shells, and of the commands of each shell by its id.", "quantifier": "all servers, numbers of shells and commands, ids, and further elements in their answers", "why_tests_cant": "the tests list the pools of one recorded server with one configuration", "anchors": ["src/pypsrp/powershell.py:RunspacePool.get_runspace_pools", "src/pypsrp/wsman.py:WSMan.enumerate", "src/pypsrp/powershell.py:RunspacePool.connect"]}
{"id": "C78", "title": "What is done with one pipeline leaves the others alone", "statement": "Whatever is called on a pool and on its other pipelines, and whatever the server answers, a pipeline keeps its state, output, records and commands; disconnecting the pool changes nothing but the state, and that only of pipelines that run on the server; what the server says of one pipeline is never taken for another's; and no request made by a call on a pipeline names another one, and none made by a call on the pool names any.", "quantifier": "all pools with any number of pipelines, all histories of calls, all servers and message sequences", "why_tests_cant": "that nothing else changes is a claim on all pairs of pipelines and all histories; the tests run one pipeline at a time", "anchors": ["src/pypsrp/powershell.py:RunspacePool._receive", "src/pypsrp/powershell.py:RunspacePool._parse_responses", "src/pypsrp/powershell.py:RunspacePool.disconnect", "src/pypsrp/powershell.py:PowerShell._invoke", "src/pypsrp/powershell.py:PowerShell.poll_invoke"]}
{"id": "C79", "title": "Options given to several shells stay what they were", "statement": "When several WinRS shells are opened with one OptionSet, each is created with the options given and those of its own settings (no_profile, codepage) and no others, whatever the server answers to the ones before, and the OptionSet is afterwards what the caller made it.", "quantifier": "all option sets, all numbers of shells with any settings, all servers", "why_tests_cant": "the tests open one shell with an option set of its own, so that what open leaves in the set is never seen", "anchors": ["src/pypsrp/shell.py:WinRS.open", "src/pypsrp/wsman.py:_WSManSet.add_option"]}
{"id": "C80", "title": "A pipeline that is run again has the results of its last run", "statement": "clear_streams empties the output and the six streams of a pipeline, clear_commands its commands, and neither changes anything else or asks the server for anything; starting a pipeline, also if that fails, leaves the results of every pipeline as they are; so that after clear_streams, begin_invoke and end_invoke the output, the streams and had_errors are what the server said of this run.", "quantifier": "all pipelines and worlds, all earlier runs and their results, all inputs, servers and message sequences", "why_tests_cant": "what is left of earlier runs depends on their whole history; the tests run every pipeline once", "anchors": ["src/pypsrp/powershell.py:PowerShell.clear_streams", "src/pypsrp/powershell.py:PowerShell.clear_commands", "src/pypsrp/powershell.py:PowerShell.begin_invoke", "src/pypsrp/powershell.py:PowerShell.end_invoke", "src/pypsrp/powershell.py:RunspacePool._parse_responses"]}
